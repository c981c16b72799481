(** Which texts a scan of a timestamp from a stream accepts and what they mean, independent of the model. *)
From Coq Require Import String.
From Verif Require Import Base NumSpec ScanSpec TimeSpec.

(** Seconds since 1970 with a fraction: a minus sign or nothing, digits, a point and one to nineteen digits.  Of the digits before the point
    all may be zeros; after the leading zeros there are at most 19 with no sign and 18 with one. *)
Definition unix_reads (sec sub : Z) (txt : list Z) : Prop :=
  exists (neg : bool) zeros ds fs, digits_ok 10 ds /\ digits_ok 10 fs /\ 1 <= zlen fs <= 19 /\
    (zeros = O -> ds <> []) /\ hd 1 ds <> 0 /\ zlen ds <= (if neg then 18 else 19) /\
    txt = (if neg then text "-" else []) ++ repeat 48 zeros ++ map (digit_char false) ds ++ text "." ++ map (digit_char false) fs /\
    sec = (if neg then - value_of 10 ds else value_of 10 ds) /\ sec < 2 ^ 63 /\
    sub = value_of 10 fs * 10 ^ (19 - zlen fs).

(** The text does not begin with a digit. *)
Definition after_number (s : list Z) : Prop := match s with [] => True | c :: _ => ~ 48 <= c <= 57 end.

(** No more than nineteen digits after any point. *)
Definition no_long_fraction (s : list Z) : Prop :=
  forall p d q, s = p ++ text "." ++ d ++ q -> Forall (fun c => 48 <= c <= 57) d -> zlen d <= 19.
