(** Model of timestamps: calendar conversion and arithmetic.
    Source: include/fast_io_core_impl/iso/iso8601.h, iso/isos.h.
    [stamp] (TimeSpec) is basic_timestamp (iso8601.h 6-26: two fields), [civil] is
    iso8601_timestamp (iso8601.h 269-279).  Signed arithmetic that can overflow goes through
    [signed_result]; the flt_type conversion operator (19-25) is not modelled. *)
From Verif Require Import Base Outcome TimeSpec.

Definition int64 (x : Z) : outcome Z := signed_result 64 x.

(** isos.h 27-35, 48: cal_uint_least64_d10_max: digits10 = 19 multiplications by 10 in uint64. *)
Definition subseconds_per_second : Z := wrap 64 (10 ^ 19).

(** iso8601.h 307-315: constants. *)
Definition y2k : Z := 946684800.
Definition leapoch : Z := y2k + 86400 * (31 + 29).
Definition days_per_400_year : Z := 365 * 400 + 97.
Definition days_per_100_year : Z := 365 * 100 + 24.
Definition days_per_4_year : Z := 365 * 4 + 1.

(** iso8601.h 317-352 sub_overflow: terminates when the difference does not fit. *)
Definition sub_overflow (a b : Z) : outcome Z :=
  if (- 2 ^ 63 <=? a - b) && (a - b <? 2 ^ 63) then Done (a - b) else Terminated.

(** iso8601.h 297: days_in_month, starting with March. *)
Definition days_in_month : list Z := [31; 30; 31; 30; 31; 31; 30; 31; 30; 31; 31; 29].

(** iso8601.h 392-393: for(; days_in_month[months] <= remdays; ++months) remdays -= ...
    Running off the table is undefined. *)
Fixpoint month_loop (tb : list Z) (months remdays : Z) : outcome (Z * Z) :=
  match tb with
  | [] => Undefined
  | d :: tb' => if d <=? remdays then month_loop tb' (months + 1) (remdays - d)
                else Done (months, remdays)
  end.

(** iso8601.h 359-406 unix_timestamp_to_iso8601_tsp_impl_internal.  C++ / and % on signed
    operands are [Z.quot] and [Z.rem].  The divisors days_per_* are uint32 promoted to int64. *)
Definition to_iso8601 (seconds subseconds timezone : Z) : outcome civil :=
  let! secs := sub_overflow seconds leapoch in
  let days := Z.quot secs 86400 in
  let remsecs := Z.rem secs 86400 in
  let '(days, remsecs) := if remsecs <? 0 then (days - 1, remsecs + 86400) else (days, remsecs) in
  let qc_cycles := Z.quot days days_per_400_year in
  let remdays := Z.rem days days_per_400_year in
  let '(qc_cycles, remdays) :=
    if remdays <? 0 then (qc_cycles - 1, remdays + days_per_400_year) else (qc_cycles, remdays) in
  let c_cycles := Z.quot remdays days_per_100_year in
  let c_cycles := if c_cycles =? 4 then c_cycles - 1 else c_cycles in
  let remdays := remdays - c_cycles * days_per_100_year in
  let q_cycles := Z.quot remdays days_per_4_year in
  let q_cycles := if q_cycles =? 25 then q_cycles - 1 else q_cycles in
  let remdays := remdays - q_cycles * days_per_4_year in
  let remyears := Z.quot remdays 365 in
  let remyears := if remyears =? 4 then remyears - 1 else remyears in
  let remdays := remdays - remyears * 365 in
  let years := remyears + 4 * q_cycles + 100 * c_cycles + 400 * qc_cycles in
  let! (months, remdays) := month_loop days_in_month 0 remdays in
  let '(years, months) := if 10 <=? months then (years + 1, wrap 8 (months - 12)) else (years, months) in
  let! year := int64 (years + 2000) in
  Done (mk_civil year (wrap 8 (months + 3)) (wrap 8 (remdays + 1))
          (wrap 8 (Z.quot remsecs 3600)) (wrap 8 (Z.rem (Z.quot remsecs 60) 60))
          (wrap 8 (Z.rem remsecs 60)) subseconds timezone).

(** iso8601.h 10-15: conversion between epochs, seconds + (off - new_off). *)
Definition convert_epoch (off new_off : Z) (t : stamp) : outcome stamp :=
  let! s := int64 (ts_sec t + (off - new_off)) in Done (mk_stamp s (ts_sub t)).

(** iso8601.h 457-469 utc, 411-414 unix_timestamp_to_iso8601_tsp_impl. *)
Definition utc (off : Z) (t : stamp) : outcome civil :=
  if off =? 0 then to_iso8601 (ts_sec t) (ts_sub t) 0
  else let! u := convert_epoch off 0 t in to_iso8601 (ts_sec u) (ts_sub u) 0.

(** iso8601.h 258-262: the named epochs. *)
Definition off_unix : Z := 0.
Definition off_win32 : Z := -11644473600.
Definition off_csharp : Z := -62135712000.
Definition off_year0 : Z := -62167219200.

(** iso8601.h 299-303 secs_through_month. *)
Definition secs_through_month : list Z :=
  map (fun d => d * 86400) [0; 31; 59; 90; 120; 151; 181; 212; 243; 273; 304; 334].

(** iso8601.h 419-440 year_month_to_seconds.  [year] int64, [month] uint8 (--month wraps). *)
Definition year_month_to_seconds (year month : Z) : outcome Z :=
  let year_min := Z.quot (- 2 ^ 63) (365 * 86400) in
  let year_max := Z.quot (2 ^ 63 - 1) (365 * 86400) in
  if (year <=? year_min) || (year_max <=? year) then Terminated
  else
    let leaps := Z.quot year 4 in
    let leaps_remainder := Z.rem year 4 in
    let cycles_quotient := Z.quot year 400 in
    let cycles_reminder := Z.rem year 400 in
    let cycles100_quotient := Z.quot year 100 in
    let cycles100_reminder := Z.rem year 100 in
    let year_is_leap_year :=
      (cycles_reminder =? 0) || ((leaps_remainder =? 0) && negb (cycles100_reminder =? 0)) in
    let leaps := leaps + (cycles_quotient - cycles100_quotient) in
    let month := wrap 8 (month - 1) in
    if 11 <? month then Terminated
    else
      let t := nth (Z.to_nat month) secs_through_month 0 in
      let t := if negb (month =? 0) || ((0 <=? year) && negb year_is_leap_year)
               then wrap 32 (t + 86400) else t in
      let! a := int64 (year * 365) in
      let! b := int64 (a + leaps) in
      let! c := int64 (b * 86400) in
      let! d := int64 (c - 62167219200) in
      int64 (d + t).

(** iso8601.h 445-453 iso8601_to_unix_timestamp_impl: the time of day is summed in uint32. *)
Definition to_timestamp (c : civil) : outcome stamp :=
  let u := wrap 32 (wrap 32 (wrap 32 (cv_day c - 1) * 86400 + cv_hours c * 3600)
                    + cv_minutes c * 60) in
  let u := wrap 32 (wrap 32 (u + cv_seconds c) - wrap 32 (cv_tz c)) in
  let! ym := year_month_to_seconds (cv_year c) (cv_month c) in
  let! s := int64 (u + ym) in
  Done (mk_stamp s (cv_sub c)).

(** iso8601.h 479 c_weekday_tb. *)
Definition c_weekday_tb : list Z := [0; 3; 2; 5; 0; 3; 5; 1; 4; 6; 2; 4].

(** The sum shared by c_weekday_impl (481-493) and weekday_impl (495-507), in uint64. *)
Definition weekday_sum (year month_minus1 day extra : Z) : Z :=
  wrap 64 (wrap 64 year + wrap 64 (Z.quot year 4) - wrap 64 (Z.quot year 100)
           + wrap 64 (Z.quot year 400) + nth (Z.to_nat month_minus1) c_weekday_tb 0 + day + extra).

(** iso8601.h 511-519, 526-534: the adjustment of year and month before the sum. *)
Definition weekday_args (year month : Z) : Z * Z :=
  let month := wrap 8 (month - 1) in
  if month <? 2 then (to_signed 64 (year - 1), month)
  else if 11 <? month then (year, month mod 12) else (year, month).

(** iso8601.h 511-519 c_weekday with 481-493 c_weekday_impl. *)
Definition c_weekday (year month day : Z) : Z :=
  let '(y, m) := weekday_args year month in wrap 8 (weekday_sum y m day 0 mod 7).

(** iso8601.h 526-534 weekday with 495-507 weekday_impl. *)
Definition weekday (year month day : Z) : Z :=
  let '(y, m) := weekday_args year month in wrap 8 (weekday_sum y m day 6 mod 7 + 1).

(** iso8601.h 28-32 operator==. *)
Definition stamp_eqb (a b : stamp) : bool :=
  (ts_sec a =? ts_sec b) && (ts_sub a =? ts_sub b).

(** iso8601.h 34-45 operator<=>. *)
Definition stamp_cmp (a b : stamp) : comparison :=
  match ts_sec a ?= ts_sec b with
  | Eq => if ts_sec a <? 0 then ts_sub b ?= ts_sub a else ts_sub a ?= ts_sub b
  | c => c
  end.

(** intrinsics::add_carry / sub_borrow on uint64 (intrinsics.h): sum and carry. *)
Definition add_carry64 (cf : bool) (a b : Z) : bool * Z :=
  let s := a + b + (if cf then 1 else 0) in (2 ^ 64 <=? s, wrap 64 s).
Definition sub_borrow64 (cf : bool) (a b : Z) : bool * Z :=
  let s := a - b - (if cf then 1 else 0) in (s <? 0, wrap 64 s).

(** iso8601.h 55-77 add_impl; max_digit = (2^64-1)/10^19 = 1, so the first branch is compiled. *)
Definition add_impl (a b : Z * Z) : Z * Z :=
  let '(cf, res) := add_carry64 false (snd a) (snd b) in
  let '(cf, res) := if subseconds_per_second <=? res
                    then (true, wrap 64 (res - subseconds_per_second)) else (cf, res) in
  let '(_, seconds) := add_carry64 cf (fst a) (fst b) in
  (seconds, res).

(** iso8601.h 79-88 sub_impl. *)
Definition sub_impl (a b : Z * Z) : Z * Z :=
  let '(borrow, res) := sub_borrow64 false (snd a) (snd b) in
  let '(_, seconds) := sub_borrow64 borrow (fst a) (fst b) in
  (seconds, if borrow then wrap 64 (res + subseconds_per_second) else res).

(** iso8601.h 136-142 unary operator-. *)
Definition stamp_neg (a : stamp) : stamp :=
  mk_stamp (to_signed 64 (0 - wrap 64 (ts_sec a))) (ts_sub a).

(** iso8601.h 144-202 operator+. *)
Definition stamp_add (a b : stamp) : stamp :=
  let pos r := mk_stamp (to_signed 64 (fst r)) (snd r) in
  let neg r := mk_stamp (to_signed 64 (0 - fst r)) (snd r) in
  let lt x y := (fst x <? fst y) || ((fst x =? fst y) && (snd x <? snd y)) in
  if ts_sec a <? 0 then
    let a_abs := (wrap 64 (0 - wrap 64 (ts_sec a)), ts_sub a) in
    if ts_sec b <? 0 then
      let b_abs := (wrap 64 (0 - wrap 64 (ts_sec b)), ts_sub b) in
      neg (add_impl a_abs b_abs)
    else
      let b_abs := (wrap 64 (ts_sec b), ts_sub b) in
      if lt a_abs b_abs then pos (sub_impl b_abs a_abs) else neg (sub_impl a_abs b_abs)
  else
    let a_abs := (wrap 64 (ts_sec a), ts_sub a) in
    if ts_sec b <? 0 then
      let b_abs := (wrap 64 (0 - wrap 64 (ts_sec b)), ts_sub b) in
      if lt a_abs b_abs then neg (sub_impl b_abs a_abs) else pos (sub_impl a_abs b_abs)
    else pos (add_impl a_abs (wrap 64 (ts_sec b), ts_sub b)).

(** iso8601.h 210-214 operator-: a + (-b). *)
Definition stamp_sub (a b : stamp) : stamp := stamp_add a (stamp_neg b).

(** iso8601.h 90-132 div_uint, __uint128_t branch; [d] is uint64.  The other branch (builds without
    __int128) is IntrinModel.stamp_div_no128; it does not compute the same (C25_divide_no_int128_refuted). *)
Definition stamp_div (a : stamp) (d : Z) : outcome stamp :=
  if d =? 0 then Terminated
  else
    let minus := ts_sec a <? 0 in
    let seconds := wrap 64 (ts_sec a) in
    let seconds := if minus then wrap 64 (0 - seconds) else seconds in
    let total := wrap 128 (wrap 128 (seconds * subseconds_per_second) + ts_sub a) in
    let mid := Z.shiftr d 1 in
    let r := wrap 64 (total mod d) in
    let q := total / d in
    let q := if mid <? r then wrap 128 (q + 1)
             else if mid =? r then (if Z.land q 1 =? 1 then wrap 128 (q + 1) else q) else q in
    let result_seconds := wrap 64 (q / subseconds_per_second) in
    let result_subseconds := wrap 64 (q mod subseconds_per_second) in
    let result_seconds := if minus then wrap 64 (0 - result_seconds) else result_seconds in
    Done (mk_stamp (to_signed 64 result_seconds) result_subseconds).

(** iso8601.h 645-651 to_win32_timestamp_ftu64: FILETIME ticks of 100 ns. *)
Definition ftu64_to_win32 (ftu64 : Z) : stamp :=
  let mul_factor := subseconds_per_second / 10000000 in
  mk_stamp (to_signed 64 (ftu64 / 10000000)) (wrap 64 (ftu64 mod 10000000 * mul_factor)).
