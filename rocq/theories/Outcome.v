(** What a call can do besides returning: stop the process through
    [fast_terminate] / a trap, or execute an operation the C++ standard leaves
    undefined (signed overflow, a read or write outside an object, use of a
    freed block). *)
From Verif Require Import Base.

Inductive outcome (A : Type) : Type :=
| Done (a : A)      (* normal return *)
| Terminated        (* fast_terminate(): the process stops *)
| Undefined.        (* undefined behaviour: nothing is promised *)
Arguments Done {A} a.
Arguments Terminated {A}.
Arguments Undefined {A}.

Definition obind {A B} (o : outcome A) (k : A -> outcome B) : outcome B :=
  match o with Done a => k a | Terminated => Terminated | Undefined => Undefined end.
Notation "'let!' x ':=' o 'in' k" := (obind o (fun x => k))
  (at level 200, x pattern, right associativity).

(** Signed [w]-bit arithmetic result: undefined on overflow. *)
Definition signed_result (w x : Z) : outcome Z :=
  if (- 2 ^ (w - 1) <=? x) && (x <? 2 ^ (w - 1)) then Done x else Undefined.
