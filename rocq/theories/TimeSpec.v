(** The proleptic Gregorian calendar and the exact meaning of a timestamp,
    written without reference to the library's algorithms. *)
From Verif Require Import Base.

Record date := mk_date { d_year : Z; d_month : Z; d_day : Z }.

(** Every year divisible by 4 is a leap year, except centuries not divisible by 400. *)
Definition leap (y : Z) : bool :=
  (y mod 4 =? 0) && (negb (y mod 100 =? 0) || (y mod 400 =? 0)).

(** "Thirty days hath September, April, June and November ..." *)
Definition month_days (y m : Z) : Z :=
  if m =? 2 then (if leap y then 29 else 28)
  else if (m =? 4) || (m =? 6) || (m =? 9) || (m =? 11) then 30 else 31.

Definition valid_date (d : date) : Prop :=
  1 <= d_month d <= 12 /\ 1 <= d_day d <= month_days (d_year d) (d_month d).

(** Turning the page of the calendar. *)
Definition next_day (d : date) : date :=
  if d_day d <? month_days (d_year d) (d_month d)
  then mk_date (d_year d) (d_month d) (d_day d + 1)
  else if d_month d <? 12 then mk_date (d_year d) (d_month d + 1) 1
  else mk_date (d_year d + 1) 1 1.

(** [day_of n d]: day number [n] counted from 1970-01-01 is the date [d]. *)
Inductive day_of : Z -> date -> Prop :=
| day_epoch : day_of 0 (mk_date 1970 1 1)
| day_after n d : day_of n d -> day_of (n + 1) (next_day d)
| day_before n d : valid_date d -> day_of n (next_day d) -> day_of (n - 1) d.

(** A broken-down date and time of day with an offset from UTC in seconds. *)
Record civil := mk_civil {
  cv_year : Z; cv_month : Z; cv_day : Z;
  cv_hours : Z; cv_minutes : Z; cv_seconds : Z;
  cv_sub : Z;           (* subseconds, in units of 10^-19 s *)
  cv_tz : Z             (* offset from UTC in seconds *)
}.
Definition civil_date (c : civil) : date := mk_date (cv_year c) (cv_month c) (cv_day c).

Definition valid_time (c : civil) : Prop :=
  0 <= cv_hours c < 24 /\ 0 <= cv_minutes c < 60 /\ 0 <= cv_seconds c < 60.

(** [instant_of c n]: the civil time [c] denotes the second [n] after 1970-01-01T00:00:00Z. *)
Definition instant_of (c : civil) (n : Z) : Prop :=
  exists dn, day_of dn (civil_date c) /\
    n = dn * 86400 + cv_hours c * 3600 + cv_minutes c * 60 + cv_seconds c - cv_tz c.

(** Day of the week of day number [n], Sunday = 0: 1970-01-01 was a Thursday. *)
Definition weekday_of (n : Z) : Z := (n + 4) mod 7.

(** Subseconds per second. *)
Definition per_second : Z := 10 ^ 19.

(** A timestamp is a signed number of seconds and a magnitude of subseconds; the
    sign of the seconds is the sign of the whole. *)
Record stamp := mk_stamp { ts_sec : Z; ts_sub : Z }.
Definition valid_stamp (t : stamp) : Prop :=
  - 2 ^ 63 <= ts_sec t < 2 ^ 63 /\ 0 <= ts_sub t < per_second.
(** Its exact value in units of 10^-19 s. *)
Definition stamp_value (t : stamp) : Z :=
  if ts_sec t <? 0 then ts_sec t * per_second - ts_sub t
  else ts_sec t * per_second + ts_sub t.
Definition representable (v : Z) : Prop := exists t, valid_stamp t /\ stamp_value t = v.

(** [rounds_to_even n d q]: [q] is the integer nearest to [n / d], ties to even. *)
Definition rounds_to_even (n d q : Z) : Prop :=
  2 * Z.abs (n - q * d) < d \/ (2 * Z.abs (n - q * d) = d /\ Z.even q = true).
