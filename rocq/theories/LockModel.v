(** Model of streams shared by threads through a mutex.
    Source: include/fast_io_hosted/iomutex.h (basic_general_iomutex), include/fast_io_core_impl/utils.h 43-64
    (io_lock_guard), print_freestanding.h 755-760, scan_freestanding.h 455-460, transmit/transmit.h 94-108.
    A call is a tree of elementary actions; each action is one step of its thread, and the scheduler may switch
    threads between any two of them.  A load sees, and a store replaces, the state of one stream: the code between a
    load and the store that follows works on copies, so that unsynchronised calls interfere.
    The mutex is a default pthread mutex (threads/mutex/posix_pthread_mutex.h): locking a taken one waits, also for
    its owner; the failure of pthread_mutex_lock, which io_lock_guard's noexcept constructor would turn into
    std::terminate, is not modelled. *)
From Verif Require Import Base.

Section Lock.
Context {S R : Type}.   (* the state of a stream; the outcome of a call *)

(** Streams (with their mutexes) are numbered. *)
Inductive cmd :=
| CLock (m : nat) (k : cmd)
| CUnlock (m : nat) (k : cmd)
| CLoad (m : nat) (k : S -> cmd)
| CStore (m : nat) (s : S) (k : cmd)
| CEnd (r : R).

(** utils.h 43-64: [io_lock_guard lg{m}; body]: the destructor unlocks on every way out of the body. *)
Fixpoint and_unlock (m : nat) (c : cmd) : cmd :=
  match c with
  | CLock n k => CLock n (and_unlock m k)
  | CUnlock n k => CUnlock n (and_unlock m k)
  | CLoad n k => CLoad n (fun s => and_unlock m (k s))
  | CStore n s k => CStore n s (and_unlock m k)
  | CEnd r => CUnlock m (CEnd r)
  end.
Definition lock_guard (m : nat) (body : cmd) : cmd := CLock m (and_unlock m body).

(** What the threads have to do: thread [t] makes the calls [P t] one after the other. *)
Definition calls := nat -> list cmd.
Record thread := mk_thread { next : nat; running : option cmd }.
Record world := mk_world { mem : nat -> S; owner : nat -> option nat; thr : nat -> thread }.
Definition set {A} (f : nat -> A) (x : nat) (v : A) (y : nat) : A := if Nat.eqb y x then v else f y.
Definition start (mem : nat -> S) : world := mk_world mem (fun _ => None) (fun _ => mk_thread 0 None).

(** Call number [i] of thread [t] begins and ends. *)
Inductive event := Began (t i : nat) | Ended (t i : nat) (r : R).

Inductive step (P : calls) : world -> list event -> world -> Prop :=
| SBegin mem owner thr t c :
    running (thr t) = None -> nth_error (P t) (next (thr t)) = Some c ->
    step P (mk_world mem owner thr) [Began t (next (thr t))]
           (mk_world mem owner (set thr t (mk_thread (Datatypes.S (next (thr t))) (Some c))))
| SEnd mem owner thr t r :
    running (thr t) = Some (CEnd r) ->
    step P (mk_world mem owner thr) [Ended t (pred (next (thr t))) r]
           (mk_world mem owner (set thr t (mk_thread (next (thr t)) None)))
| SLock mem owner thr t m k :
    running (thr t) = Some (CLock m k) -> owner m = None ->
    step P (mk_world mem owner thr) []
           (mk_world mem (set owner m (Some t)) (set thr t (mk_thread (next (thr t)) (Some k))))
| SUnlock mem owner thr t m k :
    running (thr t) = Some (CUnlock m k) -> owner m = Some t ->
    step P (mk_world mem owner thr) []
           (mk_world mem (set owner m None) (set thr t (mk_thread (next (thr t)) (Some k))))
| SLoad mem owner thr t m k :
    running (thr t) = Some (CLoad m k) ->
    step P (mk_world mem owner thr) []
           (mk_world mem owner (set thr t (mk_thread (next (thr t)) (Some (k (mem m))))))
| SStore mem owner thr t m s k :
    running (thr t) = Some (CStore m s k) ->
    step P (mk_world mem owner thr) []
           (mk_world (set mem m s) owner (set thr t (mk_thread (next (thr t)) (Some k)))).

(** Every schedule: any sequence of steps. *)
Inductive steps (P : calls) : world -> list event -> world -> Prop :=
| steps_none w : steps P w [] w
| steps_more w tr w1 e w2 : steps P w tr w1 -> step P w1 e w2 -> steps P w (tr ++ e) w2.
End Lock.
Arguments cmd : clear implicits.
Arguments world : clear implicits.
Arguments thread : clear implicits.
Arguments calls : clear implicits.
