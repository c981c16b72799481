From Verif Require Import Base CharSpec.
Open Scope Z_scope.

(** [k] is the position of the first character of [s] with the property [p], or the length of [s] if
    there is none. *)
Definition first_at (p : Z -> Prop) (s : list Z) (k : nat) : Prop :=
  (k <= length s)%nat /\
  (forall j, (j < k)%nat -> ~ p (nth j s 0)) /\
  ((k < length s)%nat -> p (nth k s 0)).

(** A text of a character type of [w] bits. *)
Definition text (w : Z) (s : list Z) : Prop := Forall (code_unit w) s.

(** HTML whitespace or the whitespace of the C locale. *)
Definition space_class (html : bool) (c : Z) : Prop := if html then HTML_whitespace c else C_space c.
