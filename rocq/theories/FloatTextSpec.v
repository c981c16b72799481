(** What the text of a number means: digits, a decimal separator, an exponent.
    Nothing here refers to the library's code. *)
From Coq Require Import QArith.
From Verif Require Import Base NumSpec FloatSpec.
Local Open Scope Z_scope.

(** A number written as digits before the separator, digits after it, and an exponent. *)
Record number := mk_number { n_int : list Z; n_frac : list Z; n_exp : option Z }.

Definition exponent_of (t : number) : Z := match n_exp t with Some e => e | None => 0 end.
(** Its value when it is read in decimal: the exponent counts powers of ten. *)
Definition decimal_value (t : number) : Q :=
  dec (value_of 10 (n_int t ++ n_frac t)) (exponent_of t - zlen (n_frac t)).
(** Its value when the digits are hexadecimal: the exponent counts powers of two. *)
Definition hex_value (t : number) : Q :=
  bin (value_of 16 (n_int t ++ n_frac t)) (exponent_of t - 4 * zlen (n_frac t)).

(** The decimal digits of an exponent: at least [least] of them, no more leading zeros than that takes. *)
Definition exponent_digits (least : Z) (u : Z) (txt : list Z) : Prop :=
  exists ds, digits_ok 10 ds /\ value_of 10 ds = u /\ txt = map (digit_char false) ds /\
    least <= zlen ds /\ (zlen ds = least \/ no_leading_zero ds).

(** [txt] is a text of [t]: [point] separates, [mark] introduces the exponent. *)
Definition text_of (base : Z) (upper : bool) (point mark least : Z) (t : number) (txt : list Z) : Prop :=
  n_int t <> [] /\ digits_ok base (n_int t) /\ digits_ok base (n_frac t) /\
  exists etxt,
    match n_exp t with
    | None => etxt = []
    | Some e => exists dtxt, etxt = [mark; if e <? 0 then 45 else 43] ++ dtxt /\ exponent_digits least (Z.abs e) dtxt
    end /\
    txt = map (digit_char upper) (n_int t) ++
          match n_frac t with [] => [] | f => point :: map (digit_char upper) f end ++ etxt.

(** No needless zeros after the separator. *)
Definition no_trailing_zero (t : number) : Prop := n_frac t = [] \/ last (n_frac t) 0 <> 0.
(** Without exponent, without needless leading zeros. *)
Definition fixed_form (t : number) : Prop :=
  n_exp t = None /\ no_leading_zero (n_int t).
(** One digit other than zero before the separator, and an exponent. *)
Definition scientific_form (t : number) : Prop :=
  (exists e, n_exp t = Some e) /\ (exists d, n_int t = [d] /\ d <> 0).
