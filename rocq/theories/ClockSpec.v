(** What the clocks, file times and time zones outside the library mean, written without the library's code. *)
From Verif Require Import Base TimeSpec.

(** POSIX: a [struct timespec] is a number of seconds plus 0 to 999999999 nanoseconds; the nanoseconds always count
    forward, also before 1970. *)
Record timespec := mk_timespec { tv_sec : Z; tv_nsec : Z }.
Definition valid_timespec (x : timespec) : Prop := - 2 ^ 63 <= tv_sec x < 2 ^ 63 /\ 0 <= tv_nsec x < 10 ^ 9.
(** in units of 10^-19 s *)
Definition timespec_value (x : timespec) : Z := tv_sec x * per_second + tv_nsec x * 10 ^ 10.

(** What is asked of a file's access or modification time. *)
Inductive time_request := Keep | SetNow | SetTo (t : stamp).
(** POSIX utimensat: two reserved nanosecond values (Linux: (1<<30)-1 and (1<<30)-2) ask for the current time or for no
    change; any other pair is the time to set, and nanoseconds outside 0 ... 999999999 are an error. *)
Inductive kernel_request := KKeep | KNow | KTime (x : timespec) | KInvalid.
Definition kernel_reads (x : timespec) : kernel_request :=
  if tv_nsec x =? 2 ^ 30 - 1 then KNow
  else if tv_nsec x =? 2 ^ 30 - 2 then KKeep
  else if (0 <=? tv_nsec x) && (tv_nsec x <? 10 ^ 9) then KTime x else KInvalid.

(** A zone: the offset from UTC in seconds at every instant.  The POSIX globals describe only zones with one standard
    offset and one summer-time shift of an hour. *)
Record zone := mk_zone { z_standard : Z; z_summer : Z -> bool }.
Definition offset_at (z : zone) (s : Z) : Z := z_standard z + (if z_summer z s then 3600 else 0).
(** What tzset leaves in the C library's globals: seconds WEST of Greenwich in standard time, and whether the zone ever has
    summer time. *)
Definition libc_timezone (z : zone) : Z := - z_standard z.
Definition libc_daylight (z : zone) (b : bool) : Prop := b = true <-> exists s, z_summer z s = true.

(** The broken-down local time [localtime_r] returns for the second [s] in a zone that is [off] seconds east of Greenwich
    at that time: months count from 0 and years from 1900. *)
Record tm := mk_tm { tm_year : Z; tm_mon : Z; tm_mday : Z; tm_hour : Z; tm_min : Z; tm_sec : Z; tm_gmtoff : Z }.
Definition is_localtime (x : tm) (s off : Z) : Prop :=
  let c := mk_civil (tm_year x + 1900) (tm_mon x + 1) (tm_mday x) (tm_hour x) (tm_min x) (tm_sec x) 0 off in
  valid_date (civil_date c) /\ valid_time c /\ instant_of c s /\ tm_gmtoff x = off.

(** DOS: the date and the time of day (to a hundredth of a second) are read by separate calls.  [date_at h] and [time_at h]
    relate the instant [h], in hundredths since 1970, to what they return. *)
Record dos_date := mk_dos_date { dd_day : Z; dd_month : Z; dd_year : Z; dd_dow : Z }.
Record dos_time := mk_dos_time { dt_hour : Z; dt_minute : Z; dt_second : Z; dt_hsecond : Z }.
Definition date_at (h : Z) (d : dos_date) : Prop :=
  day_of (h / 8640000) (mk_date (dd_year d) (dd_month d) (dd_day d)) /\ dd_dow d = weekday_of (h / 8640000).
Definition time_at (h : Z) (t : dos_time) : Prop :=
  0 <= dt_hour t < 24 /\ 0 <= dt_minute t < 60 /\ 0 <= dt_second t < 60 /\ 0 <= dt_hsecond t < 100 /\
  h mod 8640000 = ((dt_hour t * 60 + dt_minute t) * 60 + dt_second t) * 100 + dt_hsecond t.
