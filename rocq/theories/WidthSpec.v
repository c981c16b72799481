From Verif Require Import Base WidthModel.
Open Scope Z_scope.

(** [out] is [text] padded with [ch] to the width [w]; internal padding goes behind the first
    [k] characters (the sign). *)
Definition padded (pl : placement) (k : nat) (text : list Z) (w : nat) (ch : Z) (out : list Z) : Prop :=
  if Nat.leb w (length text) then out = text
  else let n := (w - length text)%nat in
    match pl with
    | pl_none => out = text
    | pl_left => out = text ++ repeat ch n
    | pl_right => out = repeat ch n ++ text
    | pl_middle => exists a b, (a + b = n)%nat /\ (b = a \/ b = S a) /\ out = repeat ch a ++ text ++ repeat ch b
    | pl_internal => exists sign rest, text = sign ++ rest /\ length sign = k /\ out = sign ++ repeat ch n ++ rest
    end.
