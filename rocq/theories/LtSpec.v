(** What the fields of a time format mean (strftime, ISO 8601 weeks, eras), independent of the library. *)
From Coq Require Import String.
From Coq Require Import List.
From Verif Require Import Base NumSpec ScanSpec TimeSpec TimeTextSpec.

(** The data of a locale, include/fast_io_i18n/lc.h.  79-93 basic_lc_time_era (the field era is never read). *)
Record lt_era := mk_era {
  er_dir : bool; er_offset : Z;
  er_sy : Z; er_sm : Z; er_sd : Z;
  er_special : Z; er_ey : Z; er_em : Z; er_ed : Z;
  er_name : list Z; er_format : list Z }.

(** 95-122 basic_lc_time: the fields read by the formatter.  The arrays are functions of the index. *)
Record lt_time := mk_lt {
  lt_abday : Z -> list Z; lt_day : Z -> list Z;
  lt_abmon : Z -> list Z; lt_altmon : Z -> list Z; lt_mon : Z -> list Z;
  lt_d_t_fmt : list Z; lt_d_fmt : list Z; lt_t_fmt : list Z; lt_t_fmt_ampm : list Z; lt_date_fmt : list Z;
  lt_am : list Z; lt_pm : list Z;
  lt_eras : list lt_era;
  lt_era_d_fmt : list Z; lt_era_d_t_fmt : list Z; lt_era_t_fmt : list Z;
  lt_alt : list (list Z);
  lt_ndays : Z; lt_first_day : Z; lt_first_week : Z }.

(** The ranges of the fields of a timestamp as stored. *)
Definition stored (c : civil) : Prop :=
  - 2 ^ 63 <= cv_year c < 2 ^ 63 /\ 0 <= cv_month c < 256 /\ 0 <= cv_day c < 256 /\
  0 <= cv_hours c < 256 /\ 0 <= cv_minutes c < 256 /\ 0 <= cv_seconds c < 256 /\
  - 2 ^ 31 <= cv_tz c < 2 ^ 31.

(** A text occurring inside another. *)
Definition occurs (s f : list Z) : Prop := exists a b, f = a ++ s ++ b.

(** The day of the year, from 1: [n] is the day number of the date. *)
Definition year_day (d : date) (k : Z) : Prop :=
  exists n n0, day_of n d /\ day_of n0 (mk_date (d_year d) 1 1) /\ k = n - n0 + 1.

(** Days of the week from Monday = 1 to Sunday = 7. *)
Definition iso_weekday (n : Z) : Z := if weekday_of n =? 0 then 7 else weekday_of n.

(** ISO 8601: the week of a day, Monday to Sunday, belongs to the year of its Thursday, and its number
    counts the Thursdays of that year. *)
Definition iso_week (d : date) (y w : Z) : Prop :=
  exists n th k, day_of n d /\ day_of (n - iso_weekday n + 4) th /\ y = d_year th /\
    year_day th k /\ w = (k + 6) / 7.

(** strftime %U and %W: weeks begin on Sunday (Monday); the days before the first one are week 0, so
    that the number counts the Sundays (Mondays) of the year up to the day. *)
Definition days_from (n0 n : Z) : list Z := map (fun i => n0 + Z.of_nat i) (seq 0 (Z.to_nat (n - n0 + 1))).
Definition counts_days (d : date) (wd k : Z) : Prop :=
  exists n n0, day_of n d /\ day_of n0 (mk_date (d_year d) 1 1) /\
    k = zlen (filter (fun x => weekday_of x =? wd) (days_from n0 n)).
Definition sunday_week (d : date) (k : Z) : Prop := counts_days d 0 k.
Definition monday_week (d : date) (k : Z) : Prop := counts_days d 1 k.

(** The hour on a twelve hour clock. *)
Definition hour12 (h : Z) : Z := if h mod 12 =? 0 then 12 else h mod 12.

(** Dates in order. *)
Definition not_after (y0 m0 d0 y1 m1 d1 : Z) : Prop :=
  y0 < y1 \/ (y0 = y1 /\ (m0 < m1 \/ (m0 = m1 /\ d0 <= d1))).

(** POSIX eras: the date lies between the start and the end of the era, in either order; an era may last
    from its start for ever ([er_special] positive) or reach back from its start for ever (negative). *)
Definition era_covers (e : lt_era) (y m d : Z) : Prop :=
  if 0 <? er_special e then not_after (er_sy e) (er_sm e) (er_sd e) y m d
  else if er_special e <? 0 then not_after y m d (er_sy e) (er_sm e) (er_sd e)
  else (not_after (er_sy e) (er_sm e) (er_sd e) y m d /\ not_after y m d (er_ey e) (er_em e) (er_ed e)) \/
       (not_after (er_ey e) (er_em e) (er_ed e) y m d /\ not_after y m d (er_sy e) (er_sm e) (er_sd e)).

(** The number of the year within its era: counted from [er_offset] upwards or downwards going away from
    the start. *)
Definition era_year (e : lt_era) (y : Z) : Z :=
  if er_dir e then er_offset e + Z.abs (y - er_sy e) else er_offset e - Z.abs (y - er_sy e).

(** The era of a date is the first in the list that covers it. *)
Definition era_of (es : list lt_era) (y m d : Z) (e : lt_era) : Prop :=
  exists a b, es = a ++ e :: b /\ era_covers e y m d /\ Forall (fun x => ~ era_covers x y m d) a.

(** What a single directive stands for. *)
Definition lower (x : Z) : Z := if (65 <=? x) && (x <=? 90) then x + 32 else x.
Definition day_number (c : civil) (n : Z) : Prop := day_of n (civil_date c).

Inductive field (t : lt_time) (c : civil) : list Z -> list Z -> Prop :=
| f_percent : field t c (text "%%") (text "%")
| f_newline : field t c (text "%n") [10]
| f_tab : field t c (text "%t") [9]
| f_a n : day_number c n -> field t c (text "%a") (lt_abday t (weekday_of n))
| f_A n : day_number c n -> field t c (text "%A") (lt_day t (weekday_of n))
| f_w n : day_number c n -> field t c (text "%w") [48 + weekday_of n]
| f_u n : day_number c n -> field t c (text "%u") [48 + iso_weekday n]
| f_b : field t c (text "%b") (lt_abmon t (cv_month c - 1))
| f_h : field t c (text "%h") (lt_abmon t (cv_month c - 1))
| f_B : field t c (text "%B") (lt_mon t (cv_month c - 1))
| f_Ob : field t c (text "%Ob") (lt_altmon t (cv_month c - 1))
| f_d : field t c (text "%d") (pad2 (cv_day c))
| f_e : field t c (text "%e") (if cv_day c <? 10 then [32; 48 + cv_day c] else pad2 (cv_day c))
| f_dd o : is_numeral 10 false (cv_day c) o -> field t c (text "%-d") o
| f_m : field t c (text "%m") (pad2 (cv_month c))
| f_mm o : is_numeral 10 false (cv_month c) o -> field t c (text "%-m") o
| f_Y o : year_text (cv_year c) o -> field t c (text "%Y") o
| f_C o : 1000 <= cv_year c -> is_numeral 10 false (cv_year c / 100) o -> field t c (text "%C") o
| f_F o : year_text (cv_year c) o ->
    field t c (text "%F") (o ++ text "-" ++ pad2 (cv_month c) ++ text "-" ++ pad2 (cv_day c))
| f_H : field t c (text "%H") (pad2 (cv_hours c))
| f_kk o : is_numeral 10 false (cv_hours c) o -> field t c (text "%-k") o
| f_I : field t c (text "%I") (pad2 (hour12 (cv_hours c)))
| f_M : field t c (text "%M") (pad2 (cv_minutes c))
| f_S : field t c (text "%S") (pad2 (cv_seconds c))
| f_p : field t c (text "%p") (if cv_hours c <? 12 then lt_am t else lt_pm t)
| f_P : field t c (text "%P") (map lower (if cv_hours c <? 12 then lt_am t else lt_pm t))
| f_R : field t c (text "%R") (pad2 (cv_hours c) ++ text ":" ++ pad2 (cv_minutes c))
| f_T : field t c (text "%T")
    (pad2 (cv_hours c) ++ text ":" ++ pad2 (cv_minutes c) ++ text ":" ++ pad2 (cv_seconds c))
| f_z o : cv_tz c <> 0 -> zone_text (cv_tz c) o -> field t c (text "%z") o
| f_z0 : cv_tz c = 0 -> field t c (text "%z") (text "+00:00")
| f_alt l v o : In (l, v) [(100, cv_day c); (101, cv_day c); (109, cv_month c); (72, cv_hours c);
    (77, cv_minutes c); (83, cv_seconds c); (73, hour12 (cv_hours c)); (121, cv_year c mod 100)] ->
    nth_error (lt_alt t) (Z.to_nat v) = Some o -> field t c [37; 79; l] o
| f_EC e : era_of (lt_eras t) (cv_year c) (cv_month c) (cv_day c) e -> field t c (text "%EC") (er_name e)
| f_Ey e o : era_of (lt_eras t) (cv_year c) (cv_month c) (cv_day c) e -> 0 <= era_year e (cv_year c) < 2 ^ 63 ->
    is_numeral 10 false (era_year e (cv_year c)) o -> field t c (text "%Ey") o.

(** Directives that stand for another format of the locale. *)
Inductive nested (t : lt_time) (c : civil) : list Z -> list Z -> Prop :=
| n_c : nested t c (text "%c") (lt_d_t_fmt t)
| n_x : nested t c (text "%x") (lt_d_fmt t)
| n_X : nested t c (text "%X") (lt_t_fmt t)
| n_r : nested t c (text "%r") (lt_t_fmt_ampm t)
| n_Ec : lt_era_d_t_fmt t <> [] -> nested t c (text "%Ec") (lt_era_d_t_fmt t)
| n_Ex : lt_era_d_fmt t <> [] -> nested t c (text "%Ex") (lt_era_d_fmt t)
| n_EX : lt_era_t_fmt t <> [] -> nested t c (text "%EX") (lt_era_t_fmt t)
| n_EY e : era_of (lt_eras t) (cv_year c) (cv_month c) (cv_day c) e -> nested t c (text "%EY") (er_format e).

(** What a whole format stands for: ordinary characters stand for themselves. *)
Inductive meant (t : lt_time) (c : civil) : list Z -> list Z -> Prop :=
| m_nil : meant t c [] []
| m_char x f o : x <> 37 -> meant t c f o -> meant t c (x :: f) (x :: o)
| m_field s v f o : field t c s v -> meant t c f o -> meant t c (s ++ f) (v ++ o)
| m_nested s g v f o : nested t c s g -> meant t c g v -> meant t c f o -> meant t c (s ++ f) (v ++ o).

(** Eras whose direction is that of time and which end. *)
Definition plain_era (e : lt_era) : Prop :=
  (er_dir e = true /\ 0 < er_special e) \/
  (er_dir e = true /\ er_special e = 0 /\ not_after (er_sy e) (er_sm e) (er_sd e) (er_ey e) (er_em e) (er_ed e)) \/
  (er_dir e = false /\ er_special e = 0 /\ not_after (er_ey e) (er_em e) (er_ed e) (er_sy e) (er_sm e) (er_sd e)).
Definition era_fits (e : lt_era) : Prop := - 2 ^ 62 <= er_sy e < 2 ^ 62 /\ - 2 ^ 62 <= er_offset e < 2 ^ 62.

(** A real time: a date of the calendar in the years from 1 on and a time of the day. *)
Definition sane (c : civil) : Prop := stored c /\ valid_date (civil_date c) /\ valid_time c /\ 1 <= cv_year c.
(** Locales whose eras are plain. *)
Definition code_units_ok (s : list Z) : Prop := Forall (fun x => 0 <= x < 2 ^ 32) s.
Definition good_locale (t : lt_time) : Prop :=
  Forall plain_era (lt_eras t) /\ Forall era_fits (lt_eras t) /\ code_units_ok (lt_am t) /\ code_units_ok (lt_pm t).

(** Formats without %u and %N. *)
Definition measured (f : list Z) : Prop :=
  ~ occurs [37; 117] f /\ ~ occurs [37; 45; 117] f /\ ~ occurs [37; 78] f /\ ~ occurs [37; 45; 78] f.
Definition measured_locale (t : lt_time) : Prop :=
  0 <= lt_ndays t /\
  Forall measured [lt_d_t_fmt t; lt_d_fmt t; lt_t_fmt t; lt_t_fmt_ampm t; lt_era_d_fmt t; lt_era_d_t_fmt t; lt_era_t_fmt t] /\
  Forall (fun e => measured (er_format e)) (lt_eras t).


(** The eight manipulators and the format each one stands for; an empty era format is replaced by the
    ordinary one. *)
Inductive lt_flag := D_T_FMT | D_FMT | T_FMT | T_FMT_AMPM | DATE_FMT | ERA_D_T_FMT | ERA_D_FMT | ERA_T_FMT.
Inductive flag_format (t : lt_time) : lt_flag -> list Z -> Prop :=
| ff_d_t : flag_format t D_T_FMT (lt_d_t_fmt t)
| ff_d : flag_format t D_FMT (lt_d_fmt t)
| ff_t : flag_format t T_FMT (lt_t_fmt t)
| ff_ampm : flag_format t T_FMT_AMPM (lt_t_fmt_ampm t)
| ff_date : flag_format t DATE_FMT (lt_date_fmt t)
| ff_era_d_t : lt_era_d_t_fmt t <> [] -> flag_format t ERA_D_T_FMT (lt_era_d_t_fmt t)
| ff_era_d_t0 : lt_era_d_t_fmt t = [] -> flag_format t ERA_D_T_FMT (lt_d_t_fmt t)
| ff_era_d : lt_era_d_fmt t <> [] -> flag_format t ERA_D_FMT (lt_era_d_fmt t)
| ff_era_d0 : lt_era_d_fmt t = [] -> flag_format t ERA_D_FMT (lt_d_fmt t)
| ff_era_t : lt_era_t_fmt t <> [] -> flag_format t ERA_T_FMT (lt_era_t_fmt t)
| ff_era_t0 : lt_era_t_fmt t = [] -> flag_format t ERA_T_FMT (lt_t_fmt t).
