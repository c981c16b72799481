(** Specification of to<T>(args...). *)
From Verif Require Import Base NumSpec ScanSpec PrintModel.

(** What the arguments print, one after the other. *)
Definition all_text (args : list parg) : list Z := concat (map text_of args).
(** An argument ends after [n] characters of it, and the arguments after that one print something. *)
Definition arg_ends_at (args : list parg) (n : nat) : Prop :=
  exists a1 a2, args = a1 ++ a2 /\ all_text a2 <> [] /\ n = length (all_text a1).
(** [t] is the decimal numeral of [v]: white space, a minus only if [minus_ok], digits without leading zeros; [tail] follows
    it and does not start with a digit. *)
Definition number (minus_ok : bool) (v : Z) (t tail : list Z) : Prop :=
  exists ws (minus : bool) cs ds, t = ws ++ (if minus then [45] else []) ++ cs /\ Forall c_space ws /\ (minus = true -> minus_ok = true) /\
    digit_string 10 cs ds /\ ds <> [] /\ no_leading_zero ds /\ v = (if minus then - value_of 10 ds else value_of 10 ds) /\ no_digit_first 10 tail.
(** Code units of [w] bits. *)
Definition units (w : Z) (t : list Z) : Prop := Forall (fun c => 0 <= c < 2 ^ w) t.
