(** Independent specification of printing a range with a separator. *)
From Verif Require Import Base.

(** The texts with the separator between each two of them. *)
Fixpoint join (sep : list Z) (l : list (list Z)) : list Z :=
  match l with [] => [] | [t] => t | t :: r => t ++ sep ++ join sep r end.
