(** Independent specification of integer texts (no reference to the model). *)
From Verif Require Import Base NumSpec.

(** [c] denotes digit [d] in [base], in either case. *)
Definition denotes (base c d : Z) : Prop :=
  0 <= d < base /\ (c = digit_char false d \/ c = digit_char true d).
Definition is_digit_of (base c : Z) : Prop := exists d, denotes base c d.

(** [cs] is a digit string denoting the digits [ds]. *)
Definition digit_string (base : Z) (cs ds : list Z) : Prop := Forall2 (denotes base) cs ds.

(** White space of the C locale. *)
Definition c_space (c : Z) : Prop := In c [32; 9; 10; 11; 12; 13].

(** A text begins with no digit. *)
Definition no_digit_first (base : Z) (s : list Z) : Prop :=
  match s with [] => True | c :: _ => ~ is_digit_of base c end.
