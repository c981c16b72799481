(** Generators: include/fast_io_freestanding_impl/generator.h. *)
From Verif Require Import Base.

(** The body of a coroutine, as far as its caller can tell: what it does (its effects) before it yields a value,
    returns, or throws. It may go on for ever. *)
CoInductive routine :=
  | yields (effects : list Z) (v : Z) (rest : routine)
  | returns (effects : list Z)
  | throws (effects : list Z) (e : Z).

(** The coroutine and its promise (generator.h 11-58): where it is suspended ([None]: at its final suspension point),
    the value yielded last (ptr, [None] before the first: a default value), the exception that ended it (ex_ptr). *)
Record coroutine := Co { at_ : option routine; ptr : option Z; ex_ptr : option Z }.

(** generator.h 25-27, 190-197: suspended before its body runs *)
Definition start (r : routine) : coroutine := Co (Some r) None None.

(** coroutine_handle::resume with yield_value (31-36), unhandled_exception (37-44), return_void (45-47), final_suspend (28):
    the effects, and the coroutine; [None]: it had ended already, which the standard leaves undefined. *)
Definition resume (c : coroutine) : option (list Z * coroutine) :=
  match at_ c with
  | None => None
  | Some (yields f v r) => Some (f, Co (Some r) (Some v) (ex_ptr c))
  | Some (returns f) => Some (f, Co None (ptr c) (ex_ptr c))
  | Some (throws f e) => Some (f, Co None (ptr c) (Some e))
  end.
Definition is_done (c : coroutine) : bool := match at_ c with None => true | Some _ => false end.

(** generator.h 51-57, 108-126, 144-182: begin and operator++: resume, and rethrow at the end. *)
Inductive moved := Moved (effects : list Z) (c : coroutine) | Rethrown (effects : list Z) (e : Z) (c : coroutine) | Undefined.
Definition advance (c : coroutine) : moved :=
  match resume c with
  | None => Undefined
  | Some (f, c1) => if is_done c1 then match ex_ptr c1 with Some e => Rethrown f e c1 | None => Moved f c1 end else Moved f c1
  end.
(** generator.h 78-81: operator* *)
Definition current (c : coroutine) : option Z := ptr c.

(** for (auto x : generator) body: begin, then while it is not the end (85-106: done) the body with *it, and ++. What
    happens: effects of the coroutine and runs of the body, in order; the body leaves the loop at its [n]th run. *)
Inductive event := Effect (z : Z) | Body (v : Z).
Inductive ending := Ended | Left_ | Raised_ (e : Z) | Undef.
Fixpoint iterate (n : nat) (m : moved) : list event * ending * option coroutine :=
  match m with
  | Undefined => ([], Undef, None)
  | Rethrown f e c => (map Effect f, Raised_ e, Some c)
  | Moved f c =>
      if is_done c then (map Effect f, Ended, Some c)
      else match n with
           | O => (map Effect f, Left_, Some c)
           | S n =>
               let x := match current c with Some v => v | None => 0 end in
               match n with
               | O => (map Effect f ++ [Body x], Left_, Some c)
               | _ => let '(t, d, c1) := iterate n (advance c) in (map Effect f ++ Body x :: t, d, c1)
               end
           end
  end.
Definition range_for (n : nat) (c : coroutine) : list event * ending * option coroutine := iterate n (advance c).
