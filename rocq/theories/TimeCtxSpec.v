(** Which texts a scan of an ISO 8601 timestamp accepts and what they mean, independent of the model. *)
From Coq Require Import String.
From Verif Require Import Base NumSpec ScanSpec TimeSpec TimeTextSpec.

(** The year: a minus sign or nothing, then four digits, or more of which the first is not zero; within int64. *)
Definition year_reads (y : Z) (txt : list Z) : Prop :=
  exists (neg : bool) ds, digits_ok 10 ds /\ (zlen ds = 4 \/ 4 < zlen ds /\ hd 0 ds <> 0) /\
    txt = (if neg then text "-" else []) ++ map (digit_char false) ds /\
    y = (if neg then - value_of 10 ds else value_of 10 ds) /\ - 2 ^ 63 <= y < 2 ^ 63.

(** The fraction of a second: nothing, or a point and one to nineteen digits. *)
Definition fraction_reads (sub : Z) (txt : list Z) : Prop :=
  (txt = [] /\ sub = 0) \/
  exists ds, digits_ok 10 ds /\ 1 <= zlen ds <= 19 /\ txt = text "." ++ map (digit_char false) ds /\
    sub = value_of 10 ds * 10 ^ (19 - zlen ds).

(** The offset from UTC: Z, or a sign, hours and minutes. *)
Definition zone_reads (tz : Z) (txt : list Z) : Prop :=
  (txt = text "Z" /\ tz = 0) \/
  exists (neg : bool) h m, 0 <= h <= 23 /\ 0 <= m <= 59 /\
    txt = (if neg then text "-" else text "+") ++ pad2 h ++ text ":" ++ pad2 m /\
    tz = (if neg then - (h * 3600 + m * 60) else h * 3600 + m * 60).

(** The text [txt], whose year is the text [ys], is the timestamp [c]. *)
Definition iso_reads (c : civil) (ys txt : list Z) : Prop :=
  exists fs zs, year_reads (cv_year c) ys /\ fraction_reads (cv_sub c) fs /\ zone_reads (cv_tz c) zs /\
    1 <= cv_month c <= 12 /\ 1 <= cv_day c <= 31 /\ 0 <= cv_hours c <= 23 /\ 0 <= cv_minutes c <= 59 /\ 0 <= cv_seconds c <= 59 /\
    txt = ys ++ text "-" ++ pad2 (cv_month c) ++ text "-" ++ pad2 (cv_day c)
          ++ text "T" ++ pad2 (cv_hours c) ++ text ":" ++ pad2 (cv_minutes c)
          ++ text ":" ++ pad2 (cv_seconds c) ++ fs ++ zs.

(** No more than nineteen digits in a row anywhere. *)
Definition no_long_number (s : list Z) : Prop :=
  forall p d q, s = p ++ d ++ q -> Forall (fun c => 48 <= c <= 57) d -> zlen d <= 19.
