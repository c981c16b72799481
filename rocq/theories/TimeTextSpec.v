(** The textual forms of timestamps, ISO 8601, independent of the model. *)
From Coq Require Import String.
From Verif Require Import Base NumSpec ScanSpec TimeSpec.

(** A number below 100 as two decimal digits. *)
Definition pad2 (n : Z) : list Z := [48 + n / 10; 48 + n mod 10].

(** The year: at least four digits, with a minus sign if negative. *)
Definition year_text (y : Z) (txt : list Z) : Prop :=
  exists num, txt = (if y <? 0 then text "-" else []) ++ num /\
    if Z.abs y <? 10000 then is_padded_numeral 10 false 4 (Z.abs y) num
    else is_numeral 10 false (Z.abs y) num.

(** The fraction of a second: nothing when zero, otherwise a point and at most 19 digits, the last
    of which is not zero. *)
Definition fraction_text (sub : Z) (txt : list Z) : Prop :=
  if sub =? 0 then txt = []
  else exists ds d, digits_ok 10 (ds ++ [d]) /\ zlen (ds ++ [d]) <= 19 /\ d <> 0 /\
    value_of 10 (ds ++ [d]) * 10 ^ (19 - zlen (ds ++ [d])) = sub /\
    txt = text "." ++ map (digit_char false) (ds ++ [d]).

(** The offset from UTC: Z, or sign, hours and minutes, and seconds when they are not zero. *)
Definition zone_text (tz : Z) (txt : list Z) : Prop :=
  if tz =? 0 then txt = text "Z"
  else let a := Z.abs tz in
    exists hh, (if a / 3600 <? 100 then hh = pad2 (a / 3600) else is_numeral 10 false (a / 3600) hh) /\
    txt = (if tz <? 0 then text "-" else text "+") ++ hh ++ text ":" ++ pad2 (a / 60 mod 60)
          ++ (if a mod 60 =? 0 then [] else text ":" ++ pad2 (a mod 60)).

Definition iso_text (c : civil) (txt : list Z) : Prop :=
  exists ys fs zs, year_text (cv_year c) ys /\ fraction_text (cv_sub c) fs /\ zone_text (cv_tz c) zs /\
    txt = ys ++ text "-" ++ pad2 (cv_month c) ++ text "-" ++ pad2 (cv_day c)
          ++ text "T" ++ pad2 (cv_hours c) ++ text ":" ++ pad2 (cv_minutes c)
          ++ text ":" ++ pad2 (cv_seconds c) ++ fs ++ zs.

(** A unix timestamp: the seconds in decimal and the fraction. *)
Definition unix_text (t : stamp) (txt : list Z) : Prop :=
  exists num fs, is_numeral 10 false (Z.abs (ts_sec t)) num /\ fraction_text (ts_sub t) fs /\
    txt = (if ts_sec t <? 0 then text "-" else []) ++ num ++ fs.
