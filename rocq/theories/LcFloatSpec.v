(** What the text of a number in a locale means: as FloatTextSpec.v, with the grouped digits and the decimal point of the locale.
    Nothing here refers to the library's code. *)
From Verif Require Import Base NumSpec LcSpec FloatTextSpec.
Local Open Scope Z_scope.

(** [txt] is a text of [t]: [point] separates, the digits before it are grouped with [sep] unless there is an exponent, [mark]
    introduces the exponent, which has at least [least] digits. *)
Definition lc_text_of (base : Z) (upper : bool) (g sep point : list Z) (mark least : Z) (t : number) (txt : list Z) : Prop :=
  exists etxt,
    match n_exp t with
    | None => etxt = []
    | Some e => exists dtxt, etxt = [mark; if e <? 0 then 45 else 43] ++ dtxt /\ exponent_digits least (Z.abs e) dtxt
    end /\
    txt = match n_exp t with
          | None => grouped g sep (map (digit_char upper) (n_int t))
          | Some _ => map (digit_char upper) (n_int t)
          end ++
          match n_frac t with [] => [] | f => point ++ map (digit_char upper) f end ++ etxt.
