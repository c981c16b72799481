(** Model of the clocks, file times and local time.
    Sources: include/fast_io_hosted/timeutil/time.h, filesystem/posix_at.h, platforms/win32/utils.h,
    fast_io_unit/timespec.h, fast_io_core_impl/enums/utime_flags.h.
    The system calls themselves are parameters: what they return is an argument of the model, what they are given is its
    result.  [stamp], [civil] are TimeSpec's; time_t and long are 64 bits. *)
From Verif Require Import Base Outcome TimeSpec TimeModel ClockSpec.

(** The result of a call that can throw. *)
Inductive thrown (A : Type) := Value (a : A) | Error (code : Z).
Arguments Value {A} a.
Arguments Error {A} code.
Definition EINVAL : Z := 22.
(** ERROR_INVALID_PARAMETER, time.h 154, 297. *)
Definition win32_invalid_parameter : Z := 87.

(** ** POSIX *)

(** timespec.h 81-85 timespec_to_unix_timestamp; time.h 458-459 posix_clock_gettime, 228-229 posix_clock_getres: the same
    expression. *)
Definition timespec_to_stamp (x : timespec) : stamp :=
  let mul_factor := subseconds_per_second / 1000000000 in
  mk_stamp (tv_sec x) (wrap 64 (wrap 64 (tv_nsec x) * mul_factor)).

(** posix_at.h 251-255 unix_timestamp_to_struct_timespec64(unix_timestamp); time.h 837-839 posix_clock_settime. *)
Definition stamp_to_timespec (t : stamp) : timespec :=
  let mul_factor := subseconds_per_second / 1000000000 in
  mk_timespec (ts_sec t) (to_signed 64 (ts_sub t / mul_factor)).

(** utime_flags.h 6-18: none, now, omit and a timestamp. *)
Inductive utime_flags := UNone | UNow | UOmit.
Record time_option := mk_option { o_flags : utime_flags; o_stamp : stamp }.
Definition option_of (r : time_request) : time_option :=
  match r with
  | Keep => mk_option UOmit (mk_stamp 0 0)       (* unix_timestamp_option() / (utime_flags::omit), lines 13-17 *)
  | SetNow => mk_option UNow (mk_stamp 0 0)      (* line 17 *)
  | SetTo t => mk_option UNone t                 (* line 16 *)
  end.

(** UTIME_NOW and UTIME_OMIT of the Linux headers. *)
Definition utime_now : Z := 1073741823.
Definition utime_omit : Z := 1073741822.

(** posix_at.h 257-277 unix_timestamp_to_struct_timespec64(unix_timestamp_option). *)
Definition option_to_timespec (o : time_option) : timespec :=
  match o_flags o with
  | UNow => mk_timespec 0 utime_now
  | UOmit => mk_timespec 0 utime_omit
  | UNone => stamp_to_timespec (o_stamp o)
  end.

(** posix_at.h 281-304 posix_utimensat_impl: the two elements of the array handed to utimensat. *)
Definition utimensat (creation access modification : time_option) : thrown (timespec * timespec) :=
  match o_flags creation with
  | UOmit => Value (option_to_timespec access, option_to_timespec modification)
  | _ => Error EINVAL
  end.

(** ** Windows *)

(** time.h 290-303 win32_posix_clock_gettime_boottime_xp_impl with 145-156 win32_query_performance_frequency. *)
Definition performance_clock (freq counter : Z) : thrown stamp :=
  if freq <=? 0 then Error win32_invalid_parameter
  else if counter <? 0 then Error win32_invalid_parameter
  else
    let val := subseconds_per_second / wrap 64 freq in
    let dv := wrap 64 counter / wrap 64 freq in
    let md := wrap 64 counter mod wrap 64 freq in
    Value (mk_stamp (to_signed 64 dv) (wrap 64 (md * val))).

(** time.h 160-163 win32_query_performance_frequency_to_unix_timestamp: posix_clock_getres of the monotonic clocks. *)
Definition performance_resolution (freq : Z) : thrown stamp :=
  if freq <=? 0 then Error win32_invalid_parameter
  else Value (mk_stamp 0 (subseconds_per_second / wrap 64 freq)).

(** utils.h 33-36 filetime_to_uint_least64_t. *)
Definition filetime_ticks (high low : Z) : Z := Z.lor (wrap 64 (Z.shiftl high 32)) low.

(** time.h 260-288 win32_posix_clock_gettime_process_or_thread_time_impl, after GetProcessTimes / GetThreadTimes. *)
Definition cpu_time (kernel user : Z * Z) : stamp :=
  let ftm := wrap 64 (filetime_ticks (fst kernel) (snd kernel) + filetime_ticks (fst user) (snd user)) in
  let mul_factor := subseconds_per_second / 10000000 in
  mk_stamp (to_signed 64 (ftm / 10000000)) (wrap 64 (ftm mod 10000000 * mul_factor)).

(** utils.h 6-23 to_unix_timestamp. *)
Definition filetime_to_unix (high low : Z) : stamp :=
  let date_time := filetime_ticks high low in
  let gap := 116444736000000000 in
  let mul_factor := subseconds_per_second / 10000000 in
  let unix_time := if date_time <? gap then 0 else wrap 64 (date_time - gap) in
  mk_stamp (to_signed 64 (unix_time / 10000000)) (wrap 64 (unix_time mod 10000000 * mul_factor)).

(** time.h 236-247 win32_posix_clock_gettime_tai_impl: the system time, moved to the unix epoch. *)
Definition system_time (high low : Z) : outcome stamp :=
  convert_epoch off_win32 off_unix (ftu64_to_win32 (filetime_ticks high low)).

(** time.h 465-497 nt_family_clock_settime (realtime clocks): the tick count handed to NtSetSystemTime, and the old time
    it reports, in the caller's epoch. *)
Definition nt_settime (off : Z) (t : stamp) : outcome Z :=
  let mul_factor := subseconds_per_second / 10000000 in
  let! w := (if off =? off_win32 then Done t else convert_epoch off off_win32 t) in
  Done (wrap 64 (wrap 64 (wrap 64 (ts_sec w) * 10000000) + ts_sub w / mul_factor)).
Definition nt_settime_old (off : Z) (old_ticks : Z) : outcome stamp :=
  if off =? off_win32 then Done (ftu64_to_win32 old_ticks) else convert_epoch off_win32 off (ftu64_to_win32 old_ticks).

(** ** Local time *)

(** time.h 561-599 to_iso8601_local_impl, Linux: [timezone] and [daylight] are the C library's globals. *)
Definition to_local (timezone : Z) (daylight dstadj : bool) (seconds subseconds : Z) : outcome civil :=
  let bias := if dstadj then (if daylight then -3600 else 0) else 0 in
  let dst_timezone := wrap 32 (wrap 32 timezone + wrap 32 bias) in
  let! s := sub_overflow seconds (to_signed 32 dst_timezone) in
  to_iso8601 s subseconds (to_signed 32 (wrap 32 (0 - dst_timezone))).

(** time.h 725-741 posix_daylight, the last branch: tm_isdst of localtime_r for time_t 0.  [isdst] is what localtime_r says
    about a second. *)
Definition posix_daylight (isdst : Z -> bool) : bool := isdst 0.

(** time.h 762-784 local, called without a second argument. *)
Definition local (off : Z) (timezone : Z) (daylight : bool) (isdst : Z -> bool) (t : stamp) : outcome civil :=
  let dstadj := posix_daylight isdst in
  if off =? 0 then to_local timezone daylight dstadj (ts_sec t) (ts_sub t)
  else let! u := convert_epoch off 0 t in to_local timezone daylight dstadj (ts_sec u) (ts_sub u).

(** time.h 600-650 to_iso8601_local_impl, the other systems with tm_gmtoff (BSD, macOS): [x] is localtime_r's result. *)
Definition to_local_tm (x : tm) (subseconds : Z) : outcome civil :=
  let month := wrap 8 (tm_mon x) in
  let! year := signed_result 32 (tm_year x + 1900) in
  let! (year, month) := (if month =? 0 then let! y := signed_result 32 (year - 1) in Done (y, 12)
                         else Done (year, wrap 8 (month + 1))) in
  Done (mk_civil year month (wrap 8 (tm_mday x)) (wrap 8 (tm_hour x)) (wrap 8 (tm_min x)) (wrap 8 (tm_sec x)) subseconds
          (to_signed 32 (wrap 32 (tm_gmtoff x)))).

(** ** DOS *)

Definition same_date (a b : dos_date) : bool :=
  (dd_day a =? dd_day b) && (dd_month a =? dd_month b) && (dd_year a =? dd_year b) && (dd_dow a =? dd_dow b).

(** time.h 334-356 get_dos_iso8601_timestamp.  The [i]-th round reads the date, the time and the date again: [dates (2*i)],
    [times i], [dates (2*i+1)]. *)
Fixpoint dos_rounds (fuel i : nat) (dates : nat -> dos_date) (times : nat -> dos_time) : thrown civil :=
  match fuel with
  | O => Error EINVAL
  | S f =>
      if same_date (dates (2 * i)%nat) (dates (2 * i + 1)%nat) then
        let d := dates (2 * i)%nat in let t := times i in
        Value (mk_civil (dd_year d) (dd_month d) (dd_day d) (dt_hour t) (dt_minute t) (dt_second t)
                 (wrap 64 (dt_hsecond t * (subseconds_per_second / 100))) 0)
      else dos_rounds f (S i) dates times
  end.
Definition get_dos (dates : nat -> dos_date) (times : nat -> dos_time) : thrown civil := dos_rounds 100 0 dates times.

(** time.h 358-361 get_dos_unix_timestamp: posix_clock_gettime of all but the processor clocks. *)
Definition get_dos_unix (dates : nat -> dos_date) (times : nat -> dos_time) : outcome (thrown stamp) :=
  match get_dos dates times with
  | Error e => Done (Error e)
  | Value c => let! t := to_timestamp c in Done (Value t)
  end.

(** time.h 363-396 set_dos_unix_timestamp.  [setdate], [settime]: do the calls return non-zero; [reread]: the dates read
    back.  A failing call throws with errno, here [errno]. *)
Fixpoint dos_check (fuel i : nat) (want : dos_date) (setdate settime : nat -> bool) (reread : nat -> dos_date) (errno : Z)
    : thrown unit :=
  match fuel with
  | O => Error EINVAL
  | S f =>
      if same_date want (reread i) then Value tt
      else if negb (setdate (S i)) then Error errno
      else if negb (settime (S i)) then Error errno
      else dos_check f (S i) want setdate settime reread errno
  end.
Definition set_dos (t : stamp) (setdate settime : nat -> bool) (reread : nat -> dos_date) (errno : Z) : outcome (thrown unit) :=
  let! c := utc off_unix t in
  Done (if (65535 <? cv_year c) || (cv_year c <? 0) then Error EINVAL
        else
          let want := mk_dos_date (cv_day c) (cv_month c) (wrap 16 (cv_year c)) 0 in
          if negb (setdate O) then Error errno
          else if negb (settime O) then Error errno
          else dos_check 100 0 want setdate settime reread errno).

(** time.h 786-817 posix_clock_settime, __MSDOS__: after the block of the realtime clocks control reaches default. *)
Definition dos_clock_settime (realtime : bool) (t : stamp) (setdate settime : nat -> bool) (reread : nat -> dos_date)
    (errno : Z) : outcome (thrown unit) :=
  if realtime then
    let! r := set_dos t setdate settime reread errno in
    Done (match r with Error e => Error e | Value _ => Error EINVAL end)
  else Done (Error EINVAL).
