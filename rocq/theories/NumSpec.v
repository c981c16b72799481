(** Independent specification of numerals (no reference to the model). *)
From Coq Require Import String Ascii NArith.
From Verif Require Import Base.

(** ASCII text of a string literal. *)
Definition text (s : string) : list Z :=
  map (fun a => Z.of_N (N_of_ascii a)) (list_ascii_of_string s).

Definition lower_digits : list Z := text "0123456789abcdefghijklmnopqrstuvwxyz".
Definition upper_digits : list Z := text "0123456789ABCDEFGHIJKLMNOPQRSTUVWXYZ".

(** The character denoting digit [d]; -1 when there is none. *)
Definition digit_char (upper : bool) (d : Z) : Z :=
  nth (Z.to_nat d) (if upper then upper_digits else lower_digits) (-1).

(** The integer denoted by a digit sequence, most significant digit first. *)
Definition value_of (base : Z) (ds : list Z) : Z :=
  fold_left (fun acc d => acc * base + d) ds 0.

Definition digits_ok (base : Z) (ds : list Z) : Prop := Forall (fun d => 0 <= d < base) ds.

(** No leading zero, except for the numeral "0" itself. *)
Definition no_leading_zero (ds : list Z) : Prop :=
  match ds with [] => False | [_] => True | d :: _ => d <> 0 end.

(** [txt] is the canonical numeral of [u] in [base]. *)
Definition is_numeral (base : Z) (upper : bool) (u : Z) (txt : list Z) : Prop :=
  exists ds, digits_ok base ds /\ no_leading_zero ds /\ value_of base ds = u
             /\ txt = map (digit_char upper) ds.

(** [txt] is the numeral of [u] in [base] padded with zeros to [n] digits. *)
Definition is_padded_numeral (base : Z) (upper : bool) (n : Z) (u : Z) (txt : list Z) : Prop :=
  exists ds, digits_ok base ds /\ Z.of_nat (length ds) = n /\ value_of base ds = u
             /\ txt = map (digit_char upper) ds.

(** The prefix the documentation promises for showbase. *)
Definition base_prefix (base : Z) (up : bool) : list Z :=
  if base =? 2 then text (if up then "0B" else "0b")
  else if base =? 3 then text (if up then "0T" else "0t")
  else if base =? 8 then text "0"
  else if base =? 10 then []
  else if base =? 16 then text (if up then "0X" else "0x")
  else if base <? 10 then text "0[" ++ [digit_char false base] ++ text "]"
  else text "0[" ++ [digit_char false (base / 10); digit_char false (base mod 10)] ++ text "]".

Definition sign_text (showpos : bool) (t : Z) : list Z :=
  if t <? 0 then text "-" else if showpos then text "+" else [].
