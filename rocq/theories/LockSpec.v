(** What users expect of streams shared through a mutex, stated without locks and schedules. *)
From Verif Require Import Base LockModel.

Section Spec.
Context {S R : Type}.
(** The effect and the outcome of a call that nobody disturbs. *)
Fixpoint alone (c : cmd S R) (mem : nat -> S) : (nat -> S) * R :=
  match c with
  | CLock _ k | CUnlock _ k => alone k mem
  | CLoad m k => alone (k (mem m)) mem
  | CStore m s k => alone k (set mem m s)
  | CEnd r => (mem, r)
  end.
(** Call [i] of thread [t]. *)
Definition call (P : calls S R) (o : nat * nat) : option (cmd S R) := nth_error (P (fst o)) (snd o).
(** The calls of [order], one after the other, nobody disturbed. *)
Fixpoint one_by_one (P : calls S R) (order : list (nat * nat)) (mem : nat -> S) : nat -> S :=
  match order with
  | [] => mem
  | o :: order =>
      one_by_one P order (match call P o with Some c => fst (alone c mem) | None => mem end)
  end.
Definition outcome_of (P : calls S R) (before : list (nat * nat)) (o : nat * nat) (mem : nat -> S) : option R :=
  match call P o with Some c => Some (snd (alone c (one_by_one P before mem))) | None => None end.

(** [x] occurs before [y] in the list. *)
Definition before {A} (x y : A) (l : list A) : Prop := exists l1 l2 l3, l = l1 ++ x :: l2 ++ y :: l3.
Definition began (o : nat * nat) (tr : list (event (R := R))) : Prop := In (Began (fst o) (snd o)) tr.
Definition ended (o : nat * nat) (r : R) (tr : list (event (R := R))) : Prop := In (Ended (fst o) (snd o) r) tr.
(** The call [o] was over before the call [o'] was made. *)
Definition precedes (o o' : nat * nat) (tr : list (event (R := R))) : Prop :=
  exists r, before (Ended (fst o) (snd o) r) (Began (fst o') (snd o')) tr.

(** The calls made in a run, in the order of [order], explain the run: exactly the calls that are over, and perhaps
    some that are about to be, take effect, each of them once, alone, and with the outcome it had, in an order that
    keeps every two calls one of which was over before the other was made and the order of each thread's calls; and a stream whose mutex is free is in
    the state these calls leave. *)
Definition explains (P : calls S R) (mem0 : nat -> S) (tr : list event) (w : world S R) (order : list (nat * nat)) : Prop :=
  NoDup order /\
  (forall o r, ended o r tr -> In o order) /\
  (forall o, In o order -> began o tr) /\
  (forall o o', In o' order -> precedes o o' tr -> before o o' order) /\
  (forall t i j, (i < j)%nat -> In (t, j) order -> before (t, i) (t, j) order) /\
  (forall o r pre post, ended o r tr -> order = pre ++ o :: post -> outcome_of P pre o mem0 = Some r) /\
  (forall m, owner w m = None -> mem w m = one_by_one P order mem0 m).

(** The discipline of a call: it takes locks, then works on the streams whose locks it has, then gives the locks
    back.  (After asking for a lock it already has it waits forever.) *)
Fixpoint gives_back (held : list nat) (c : cmd S R) : Prop :=
  match c with
  | CUnlock m k => In m held /\ gives_back (remove Nat.eq_dec m held) k
  | CEnd _ => held = []
  | _ => False
  end.
Fixpoint disciplined (held : list nat) (c : cmd S R) : Prop :=
  match c with
  | CLock m k => In m held \/ disciplined (m :: held) k
  | CUnlock m k => In m held /\ gives_back (remove Nat.eq_dec m held) k
  | CLoad m k => In m held /\ forall s, disciplined held (k s)
  | CStore m s k => In m held /\ disciplined held k
  | CEnd _ => held = []
  end.
(** The locks are taken in the order of [rank], all ranks below [top]. *)
Fixpoint in_order (rank : nat -> nat) (top : nat) (held : list nat) (c : cmd S R) : Prop :=
  match c with
  | CLock m k => (rank m < top)%nat /\ (forall n, In n held -> (rank n < rank m)%nat) /\ in_order rank top (m :: held) k
  | CUnlock m k => in_order rank top (remove Nat.eq_dec m held) k
  | CLoad m k => forall s, in_order rank top held (k s)
  | CStore m s k => in_order rank top held k
  | CEnd _ => True
  end.
(** The thread has something left to do. *)
Definition unfinished (P : calls S R) (w : world S R) (t : nat) : Prop :=
  running (thr w t) <> None \/ nth_error (P t) (next (thr w t)) <> None.
(** Everybody is done: nothing is running and nothing is left to do. *)
Definition all_done (P : calls S R) (w : world S R) : Prop :=
  forall t, running (thr w t) = None /\ nth_error (P t) (next (thr w t)) = None.
Definition can_go_on (P : calls S R) (w : world S R) : Prop := exists e w', step P w e w'.
End Spec.
