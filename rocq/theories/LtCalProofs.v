(** The calendar fields of time formats against the calendar. *)
From Coq Require Import List.
From Verif Require Import Base NumSpec NumFacts ScanSpec IntPrintModel IntPrintProofs IntPrintCorrect TimeSpec TimeModel TimeCalProofs TimeTextSpec
  TimeTextModel TimeTextProofs PropsTime LtSpec LtModel LtSizeProofs LtProofs.

Lemma is_leap_ok y : is_leap_year y = leap y.
Proof. unfold is_leap_year, leap. now rewrite !rem_zero by lia. Qed.

(** The day of the year, counted. *)
Definition doy (d : date) : Z := cum (d_year d) (d_month d) + d_day d.
Lemma doy_no d : day_no d = year_start (d_year d) + doy d - 1.
Proof. unfold day_no, doy. lia. Qed.
Lemma doy_bounds d : valid_date d -> 1 <= doy d <= 365 + leap_days (d_year d).
Proof. intros [Hm Hd]. unfold doy. pose proof (cum_range (d_year d) (d_month d) Hm). lia. Qed.
Lemma leap_days_01 y : leap_days y = if leap y then 1 else 0.
Proof. reflexivity. Qed.

Lemma first_day_no y : day_of (year_start y) (mk_date y 1 1).
Proof.
  apply day_of_iff. split.
  - split; cbn [d_month d_day d_year]; [lia|]. pose proof (month_days_range y 1). lia.
  - unfold day_no. cbn [d_year d_month d_day]. rewrite cum_1. lia.
Qed.

Lemma year_day_spec d k : valid_date d -> (year_day d k <-> k = doy d).
Proof.
  intros V. unfold year_day. split.
  - intros (n & n0 & Hn & H0 & ->). apply day_of_no in Hn, H0. pose proof (doy_no d).
    pose proof (day_of_no _ _ (first_day_no (d_year d))). lia.
  - intros ->. exists (day_no d), (year_start (d_year d)). split; [now apply day_of_iff|]. split; [apply first_day_no|].
    rewrite doy_no. lia.
Qed.

Lemma doy_code c : sane c -> day_of_the_year c = doy (civil_date c).
Proof.
  intros Hc. pose proof (month_index c Hc) as MI. pose proof (sane_ranges c Hc) as (Hy & Hm & Hd & _). destruct Hc as (_ & V & _).
  pose proof (doy_bounds _ V) as B. unfold doy in *. cbn [civil_date d_year d_month d_day] in *.
  pose proof (leap_days_01 (cv_year c)) as L.
  unfold day_of_the_year. cbv zeta. rewrite MI, is_leap_ok.
  destruct (Z.ltb_spec 11 (cv_month c - 1)); [lia|].
  unfold cum in *. unfold accum, month_accum.
  set (tb := nth _ _ 0) in *. assert (0 <= tb <= 334).
  { unfold tb. clear -Hm. revert Hm. generalize (cv_month c). intros m Hm.
    months Hm; (split; vm_compute; discriminate). }
  unfold wrap. replace (1 <? cv_month c - 1) with (2 <? cv_month c) by (apply eq_true_iff_eq; rewrite !Z.ltb_lt; lia).
  destruct ((2 <? cv_month c) && leap (cv_year c)).
  - rewrite (Z.mod_small (tb + cv_day c)) by lia. rewrite Z.mod_small by lia. lia.
  - rewrite Z.mod_small by lia. lia.
Qed.

Lemma iso_weekday_mod n : iso_weekday n = (n + 3) mod 7 + 1.
Proof. unfold iso_weekday, weekday_of. destruct (Z.eqb_spec ((n + 4) mod 7) 0); lia. Qed.
Lemma weekday_of_year y : 1 <= y < 2 ^ 63 -> weekday y 1 1 = iso_weekday (year_start y).
Proof. intros Hy. exact (C45_weekday_partial (mk_date y 1 1) _ Hy (first_day_no y)). Qed.
Lemma weekday_of_day c : sane c -> weekday (cv_year c) (cv_month c) (cv_day c) = iso_weekday (day_no (civil_date c)).
Proof.
  intros Hc. pose proof Hc as (_ & V & _). apply (sane_weekday c (day_no (civil_date c)) Hc). apply day_of_iff. auto.
Qed.

(** %j *)
Lemma doy_numeral c k : sane c -> year_day (civil_date c) k ->
  exists o, print_int default_pflags uint16_ty (day_of_the_year c) = Some o /\ is_numeral 10 false k o.
Proof.
  intros Hc Hk. rewrite doy_code by assumption. pose proof Hc as (_ & V & _). apply year_day_spec in Hk; [|exact V]. subst k.
  pose proof (doy_bounds _ V) as B. assert (leap_days (d_year (civil_date c)) <= 1) by (rewrite leap_days_01; destruct (leap _); lia).
  destruct (print_int_correct default_pflags uint16_ty (doy (civil_date c))) as (num & E & N).
  - right; left; reflexivity.
  - cbn; lia.
  - unfold config_ok. vm_compute. auto.
  - unfold in_range. cbn. lia.
  - cbn in N. unfold sign_text in E. cbn [pf_showpos pf_showbase default_pflags] in E.
    destruct (Z.ltb_spec (doy (civil_date c)) 0); [lia|]. cbn [app] in E. rewrite Z.abs_eq in N by lia. eauto.
Qed.

(** Counting the days with a given weekday. *)
Lemma count_days wd n0 m : 0 <= wd <= 6 ->
  zlen (filter (fun x => weekday_of x =? wd) (map (fun i => n0 + Z.of_nat i) (seq 0 m))) =
  (n0 + Z.of_nat m + 3 - wd) / 7 - (n0 + 3 - wd) / 7.
Proof.
  intros Hw. induction m as [|m IH].
  - cbn. replace (n0 + 0 + 3 - wd) with (n0 + 3 - wd) by lia. lia.
  - rewrite seq_S, map_app, filter_app. unfold zlen in *. rewrite app_length, Nat2Z.inj_add, IH. cbn [map filter Nat.add].
    unfold weekday_of. destruct (Z.eqb_spec ((n0 + Z.of_nat m + 4) mod 7) wd); cbn [length]; lia.
Qed.
Lemma counts_spec d wd k : valid_date d -> 0 <= wd <= 6 -> counts_days d wd k ->
  k = (day_no d + 4 - wd) / 7 - (year_start (d_year d) + 3 - wd) / 7.
Proof.
  intros V Hw (n & n0 & Hn & H0 & ->). apply day_of_no in Hn, H0.
  assert (n0 = year_start (d_year d)).
  { rewrite <- H0. apply (day_of_no _ _ (first_day_no (d_year d))). }
  unfold days_from. rewrite count_days by assumption. pose proof (doy_no d). pose proof (doy_bounds d V).
  rewrite Z2Nat.id by lia. do 2 f_equal; lia.
Qed.

Lemma small_wrap w x : 0 <= x < 2 ^ w -> wrap w x = x.
Proof. intros H. unfold wrap. apply Z.mod_small. exact H. Qed.

Lemma leap_le y : 0 <= leap_days y <= 1.
Proof. rewrite leap_days_01. destruct (leap y); lia. Qed.

Lemma sunday_code c k : sane c -> sunday_week (civil_date c) k ->
  wrap 16 (weekday (cv_year c) 1 1 + day_of_the_year c - 1) / 7 = k /\ 0 <= k <= 53.
Proof.
  intros Hc Hk. pose proof Hc as (_ & V & _). pose proof (sane_ranges c Hc) as (Hy & _).
  apply counts_spec in Hk; [|exact V|lia]. rewrite doy_code, weekday_of_year by (assumption || lia).
  pose proof (doy_no (civil_date c)) as D. pose proof (doy_bounds _ V) as B. cbn [civil_date d_year] in *.
  pose proof (leap_le (cv_year c)). rewrite iso_weekday_mod. rewrite D in Hk.
  set (n0 := year_start (cv_year c)) in *. set (k0 := doy (civil_date c)) in *.
  pose proof (Z.mod_pos_bound (n0 + 3) 7 ltac:(lia)).
  rewrite small_wrap by lia. split; [|subst k]; lia.
Qed.

(** The weeks beginning on Monday, as computed. *)
Lemma week_code c : sane c ->
  wrap 16 (day_of_the_year c - weekday (cv_year c) (cv_month c) (cv_day c) + weekday (cv_year c) 1 1 - 1) / 7
  = (doy (civil_date c) + iso_weekday (year_start (cv_year c)) - 2) / 7 /\
  doy (civil_date c) - iso_weekday (day_no (civil_date c)) + iso_weekday (year_start (cv_year c)) - 1 =
  7 * ((doy (civil_date c) + iso_weekday (year_start (cv_year c)) - 2) / 7).
Proof.
  intros Hc. pose proof Hc as (_ & V & _). pose proof (sane_ranges c Hc) as (Hy & _).
  rewrite doy_code, weekday_of_year, weekday_of_day by (assumption || lia).
  pose proof (doy_no (civil_date c)) as D. pose proof (doy_bounds _ V) as B. cbn [civil_date d_year] in *.
  pose proof (leap_le (cv_year c)). rewrite !iso_weekday_mod. rewrite D.
  set (n0 := year_start (cv_year c)) in *. set (k0 := doy (civil_date c)) in *.
  assert (E : k0 - ((n0 + k0 - 1 + 3) mod 7 + 1) + ((n0 + 3) mod 7 + 1) - 1 = 7 * ((k0 + ((n0 + 3) mod 7 + 1) - 2) / 7)) by lia.
  split; [|exact E]. rewrite E. rewrite small_wrap.
  - rewrite Z.mul_comm, Z.div_mul by lia. reflexivity.
  - pose proof (Z.mod_pos_bound (n0 + 3) 7 ltac:(lia)). lia.
Qed.

Lemma monday_code c k : sane c -> monday_week (civil_date c) k ->
  k = (doy (civil_date c) + iso_weekday (year_start (cv_year c)) - 2) / 7 + (if iso_weekday (year_start (cv_year c)) =? 1 then 1 else 0)
  /\ 0 <= k <= 53.
Proof.
  intros Hc Hk. pose proof Hc as (_ & V & _). apply counts_spec in Hk; [|exact V|lia].
  pose proof (doy_no (civil_date c)) as D. pose proof (doy_bounds _ V) as B. cbn [civil_date d_year] in *.
  pose proof (leap_le (cv_year c)). rewrite !iso_weekday_mod. rewrite D in Hk.
  set (n0 := year_start (cv_year c)) in *. set (k0 := doy (civil_date c)) in *.
  destruct (Z.eqb_spec ((n0 + 3) mod 7 + 1) 1); split; lia.
Qed.

(** ISO weeks. *)
Lemma year_of_no d y : valid_date d -> year_start y <= day_no d < year_start (y + 1) -> d_year d = y.
Proof.
  intros V H. pose proof (day_no_bounds d V).
  destruct (Z.lt_trichotomy (d_year d) y) as [L|[E|L]]; [|exact E|].
  - pose proof (year_mono (d_year d + 1) y ltac:(lia)). lia.
  - pose proof (year_mono (y + 1) (d_year d) ltac:(lia)). lia.
Qed.

Lemma iso_week_spec d y w : valid_date d -> iso_week d y w ->
  let n0 := year_start (d_year d) in let th := day_no d - iso_weekday (day_no d) + 4 in
  (th < n0 /\ y = d_year d - 1 /\ w = (th - n0 + 365 + leap_days (d_year d - 1)) / 7 + 1) \/
  (n0 <= th < n0 + 365 + leap_days (d_year d) /\ y = d_year d /\ w = (th - n0) / 7 + 1) \/
  (n0 + 365 + leap_days (d_year d) <= th /\ y = d_year d + 1 /\ w = 1).
Proof.
  intros V (n & thd & k & Hn & Ht & -> & Hk & ->). cbv zeta. apply day_of_no in Hn. subst n.
  apply day_of_iff in Ht as (Vt & Nt). apply year_day_spec in Hk; [|exact Vt]. subst k.
  pose proof (doy_no thd) as D. pose proof (doy_no d) as D0. pose proof (doy_bounds d V) as B.
  pose proof (iso_weekday_mod (day_no d)) as W. pose proof (Z.mod_pos_bound (day_no d + 3) 7 ltac:(lia)).
  set (th := day_no d - iso_weekday (day_no d) + 4) in *.
  pose proof (year_step (d_year d)) as S1. pose proof (year_step (d_year d - 1)) as S0. replace (d_year d - 1 + 1) with (d_year d) in S0 by lia.
  pose proof (leap_le (d_year d)). pose proof (leap_le (d_year d - 1)).
  destruct (Z.lt_ge_cases th (year_start (d_year d))) as [L|L].
  - left. assert (E : d_year thd = d_year d - 1).
    { apply year_of_no; [exact Vt|]. replace (d_year d - 1 + 1) with (d_year d) by lia. lia. }
    split; [exact L|]. split; [exact E|]. rewrite E in D. replace (doy thd + 6) with (doy thd - 1 + 1 * 7) by lia.
    rewrite Z.div_add by lia. do 2 f_equal. lia.
  - destruct (Z.lt_ge_cases th (year_start (d_year d) + 365 + leap_days (d_year d))) as [L2|L2]; right; [left|right].
    + assert (E : d_year thd = d_year d) by (apply year_of_no; [exact Vt|lia]).
      split; [lia|]. split; [exact E|]. rewrite E in D. replace (doy thd + 6) with (doy thd - 1 + 1 * 7) by lia.
      rewrite Z.div_add by lia. do 2 f_equal. lia.
    + assert (E : d_year thd = d_year d + 1).
      { apply year_of_no; [exact Vt|]. pose proof (year_step (d_year d + 1)). pose proof (leap_le (d_year d + 1)). lia. }
      split; [exact L2|]. split; [exact E|]. rewrite E in D. lia.
Qed.

Lemma january d : valid_date d -> (d_month d = 1 -> doy d = d_day d) /\ (d_month d <> 1 -> 32 <= doy d).
Proof.
  intros [Hm Hd]. unfold doy. split; intros E.
  - rewrite E, cum_1. lia.
  - pose proof (cum_mono (d_year d) 1 (d_month d) ltac:(lia) ltac:(lia) ltac:(lia)) as M. rewrite cum_1 in M.
    change (month_days (d_year d) 1) with 31 in M. lia.
Qed.
Lemma december d : valid_date d -> (d_month d = 12 -> doy d = 334 + leap_days (d_year d) + d_day d) /\
  (d_month d <> 12 -> doy d <= 334 + leap_days (d_year d)).
Proof.
  intros [Hm Hd]. unfold doy. pose proof (cum_12 (d_year d)) as C. change (month_days (d_year d) 12) with 31 in C. split; intros E.
  - rewrite E. lia.
  - pose proof (cum_mono (d_year d) (d_month d) 12 ltac:(lia) ltac:(lia) ltac:(lia)). lia.
Qed.

Definition week_thursday (d : date) : Z := day_no d - iso_weekday (day_no d) + 4.
Definition first_weekday (y : Z) : Z := iso_weekday (year_start y).

Lemma first_weekday_range y : 1 <= first_weekday y <= 7.
Proof. unfold first_weekday. rewrite iso_weekday_mod. pose proof (Z.mod_pos_bound (year_start y + 3) 7 ltac:(lia)). lia. Qed.

Lemma begins_late d : valid_date d ->
  (d_month d =? 1) && (4 <? first_weekday (d_year d)) && (first_weekday (d_year d) + d_day d <? 9) =
  (week_thursday d <? year_start (d_year d)).
Proof.
  intros V. destruct (january d V) as [J1 J2]. pose proof (doy_no d) as D. pose proof (doy_bounds d V).
  unfold week_thursday, first_weekday. rewrite !iso_weekday_mod. rewrite D. set (n0 := year_start (d_year d)) in *.
  apply eq_true_iff_eq. rewrite !andb_true_iff, Z.eqb_eq, !Z.ltb_lt.
  destruct (Z.eq_dec (d_month d) 1) as [E|E]; [rewrite (J1 E) in *|specialize (J2 E)]; lia.
Qed.

Lemma ends_early d : valid_date d ->
  ~ (leap (d_year d) = true /\ first_weekday (d_year d) = 7 /\ d_month d = 12 /\ d_day d = 31) ->
  (d_month d =? 12) && (first_weekday (d_year d) + leap_days (d_year d) <? 4) &&
    (31 <? first_weekday (d_year d) + leap_days (d_year d) + d_day d) =
  (year_start (d_year d) + 365 + leap_days (d_year d) <=? week_thursday d).
Proof.
  intros V N. destruct (december d V) as [J1 J2]. pose proof (doy_no d) as D. pose proof (doy_bounds d V).
  pose proof (leap_le (d_year d)) as L. pose proof (proj2 V) as VD. 
  assert (N' : ~ (leap_days (d_year d) = 1 /\ first_weekday (d_year d) = 7 /\ d_month d = 12 /\ d_day d = 31)).
  { intros (A & B). apply N. split; [|exact B]. rewrite leap_days_01 in A. destruct (leap (d_year d)); [reflexivity|lia]. }
  clear N. unfold week_thursday, first_weekday in *. rewrite !iso_weekday_mod in *. rewrite D. set (n0 := year_start (d_year d)) in *.
  apply eq_true_iff_eq. rewrite !andb_true_iff, Z.eqb_eq, !Z.ltb_lt, Z.leb_le.
  pose proof (month_days_range (d_year d) (d_month d)).
  destruct (Z.eq_dec (d_month d) 12) as [E|E]; [specialize (J1 E)|specialize (J2 E)]; set (k := doy d) in *; lia.
Qed.

Lemma last_weekday y : (if is_leap_year y then wrap 8 (first_weekday y + 1) else first_weekday y) = first_weekday y + leap_days y.
Proof.
  rewrite is_leap_ok, leap_days_01. pose proof (first_weekday_range y). destruct (leap y); [|lia].
  apply small_wrap. lia.
Qed.

(** The years of %g and %G. *)
Lemma week_year_ok c y w : sane c -> cv_year c < 2 ^ 63 - 1 -> iso_week (civil_date c) y w ->
  ~ (leap (cv_year c) = true /\ first_weekday (cv_year c) = 7 /\ cv_month c = 12 /\ cv_day c = 31) ->
  week_year c = Some y.
Proof.
  intros Hc Hm Hw N. pose proof (sane_ranges c Hc) as (Hy & _). pose proof Hc as (_ & V & _).
  pose proof (iso_week_spec _ y w V Hw) as S0. cbv zeta in S0. fold (week_thursday (civil_date c)) in S0.
  pose proof (begins_late _ V) as B. pose proof (ends_early _ V N) as E. cbn [civil_date d_year d_month d_day] in *.
  unfold week_year. cbv zeta. rewrite weekday_of_year by assumption. fold (first_weekday (cv_year c)). rewrite last_weekday, B, E.
  pose proof (leap_le (cv_year c)).
  destruct (Z.ltb_spec (week_thursday (civil_date c)) (year_start (cv_year c))).
  - rewrite chk64_ok by lia. f_equal. lia.
  - destruct (Z.leb_spec (year_start (cv_year c) + 365 + leap_days (cv_year c)) (week_thursday (civil_date c))).
    + rewrite chk64_ok by lia. f_equal. lia.
    + f_equal. lia.
Qed.

(** The week numbers of %V, as computed. *)
Lemma normal_week c y w : sane c -> iso_week (civil_date c) y w ->
  year_start (cv_year c) <= week_thursday (civil_date c) < year_start (cv_year c) + 365 + leap_days (cv_year c) ->
  w = (doy (civil_date c) + first_weekday (cv_year c) - 2) / 7 + (if first_weekday (cv_year c) <? 5 then 1 else 0)
  /\ 1 <= w <= 53.
Proof.
  intros Hc Hw HT. pose proof Hc as (_ & V & _).
  pose proof (iso_week_spec _ y w V Hw) as S0. cbv zeta in S0. fold (week_thursday (civil_date c)) in S0.
  pose proof (week_code c Hc) as (_ & W). pose proof (first_weekday_range (cv_year c)) as R. pose proof (leap_le (cv_year c)).
  pose proof (doy_no (civil_date c)) as D. cbn [civil_date d_year d_month d_day] in *.
  fold (first_weekday (cv_year c)) in W. unfold week_thursday in *.
  set (a := (doy (civil_date c) + first_weekday (cv_year c) - 2) / 7) in *.
  set (n := day_no (civil_date c)) in *. set (wd := iso_weekday n) in *. set (n0 := year_start (cv_year c)) in *.
  destruct S0 as [S0|[S0|S0]]; try lia.
  assert (E : n - wd + 4 - n0 = 7 * a - first_weekday (cv_year c) + 4) by lia.
  destruct S0 as (_ & _ & ->). rewrite E. destruct (Z.ltb_spec (first_weekday (cv_year c)) 5); lia.
Qed.

Lemma previous_week c y w : sane c -> iso_week (civil_date c) y w -> week_thursday (civil_date c) < year_start (cv_year c) ->
  4 < first_weekday (cv_year c) /\
  w = (if (first_weekday (cv_year c) =? 5) || ((first_weekday (cv_year c) =? 6) && leap (cv_year c - 1)) then 53 else 52).
Proof.
  intros Hc Hw HT. pose proof Hc as (_ & V & _).
  pose proof (iso_week_spec _ y w V Hw) as S0. cbv zeta in S0. fold (week_thursday (civil_date c)) in S0.
  pose proof (begins_late _ V) as B. destruct (january _ V) as [J1 J2].
  pose proof (doy_no (civil_date c)) as D. cbn [civil_date d_year d_month d_day] in *.
  destruct (Z.ltb_spec (week_thursday (civil_date c)) (year_start (cv_year c))); [|lia].
  rewrite !andb_true_iff, Z.eqb_eq, !Z.ltb_lt in B. destruct B as ((B1 & B2) & B3). specialize (J1 B1).
  pose proof (first_weekday_range (cv_year c)) as R. split; [exact B2|].
  pose proof (leap_le (cv_year c)). pose proof (leap_days_01 (cv_year c - 1)) as L1.
  assert (E : week_thursday (civil_date c) - year_start (cv_year c) = 4 - first_weekday (cv_year c)).
  { unfold week_thursday, first_weekday in *. rewrite !iso_weekday_mod in *. rewrite D, J1 in *. set (n0 := year_start (cv_year c)) in *.
    destruct V as [_ Vd]. cbn [civil_date d_day] in Vd. lia. }
  destruct S0 as [(_ & _ & ->)|[S0|S0]]; [|lia|lia].
  rewrite E, L1. destruct (leap (cv_year c - 1)), (Z.eqb_spec (first_weekday (cv_year c)) 5), (Z.eqb_spec (first_weekday (cv_year c)) 6);
    cbn [orb andb]; lia.
Qed.

Lemma print_V_ok c y w : sane c -> iso_week (civil_date c) y w ->
  (y < cv_year c -> first_weekday (cv_year c) = 5 \/ (first_weekday (cv_year c) = 7 /\ leap (cv_year c - 1) = true)) ->
  ~ (leap (cv_year c) = true /\ first_weekday (cv_year c) = 7 /\ cv_month c = 12 /\ cv_day c = 31) ->
  print_V c = Some (pad2 w).
Proof.
  intros Hc Hw HP N. pose proof (sane_ranges c Hc) as (Hy & _). pose proof Hc as (_ & V & _).
  pose proof (iso_week_spec _ y w V Hw) as S0. cbv zeta in S0. fold (week_thursday (civil_date c)) in S0.
  pose proof (begins_late _ V) as B. pose proof (ends_early _ V N) as E.
  pose proof (previous_week c y w Hc Hw) as PW. pose proof (normal_week c y w Hc Hw) as NW.
  pose proof (week_code c Hc) as (WC & _). cbn [civil_date d_year d_month d_day] in *.
  unfold print_V. cbv zeta. rewrite weekday_of_year in * by assumption. fold (first_weekday (cv_year c)) in *. rewrite last_weekday, B, E, WC.
  pose proof (leap_le (cv_year c)).
  destruct (Z.ltb_spec (week_thursday (civil_date c)) (year_start (cv_year c))) as [L|L].
  - rewrite chk64_ok by lia. cbn [obind]. rewrite is_leap_ok. destruct (PW L) as (P1 & ->).
    destruct HP as [F|[F F2]]; [lia| |].
    + rewrite F. destruct (leap (cv_year c - 1)); reflexivity.
    + rewrite F, F2. reflexivity.
  - destruct (Z.leb_spec (year_start (cv_year c) + 365 + leap_days (cv_year c)) (week_thursday (civil_date c))) as [L2|L2].
    + assert (w = 1) as -> by lia. reflexivity.
    + destruct (NW ltac:(lia)) as (EW & RW).
      assert (0 <= (doy (civil_date c) + first_weekday (cv_year c) - 2) / 7 <= 53) by (revert EW; destruct (first_weekday (cv_year c) <? 5); intros; lia).
      rewrite (small_wrap 8 ((doy (civil_date c) + first_weekday (cv_year c) - 2) / 7)) by lia. revert EW.
      destruct (first_weekday (cv_year c) <? 5); intros EW.
      * rewrite (small_wrap 8) by lia. rewrite two_digits_ok by lia. do 2 f_equal. lia.
      * rewrite two_digits_ok by lia. do 2 f_equal. lia.
Qed.

(** %v with the week description every locale starts from (Monday 1997-12-01, four days). *)
Lemma day_diff_ok y : 1 <= y < 2 ^ 50 -> day_diff y 1 1 1997 12 1 = Some (year_start y - 10196).
Proof.
  intros H. unfold day_diff. change (wrap 8 (1 - 1)) with 0. change (wrap 8 (12 - 1)) with 11. cbv zeta.
  change (11 <? 0) with false. change (11 <? 11) with false. cbn [orb].
  change (accum 0) with 0. change (accum 11) with 334. change (Z.quot 1997 4) with 499. change (Z.quot 1997 100) with 19.
  change (Z.quot 1997 400) with 4. change (0 <? 2) with true. change (11 <? 2) with false. cbn [andb].
  rewrite !Z.quot_div_nonneg by lia. rewrite is_leap_ok.
  rewrite (chk64_ok (y - 1997)) by lia. cbn [obind]. rewrite (chk64_ok (365 * _)) by lia. cbn [obind].
  assert (E : y / 4 - y / 100 + y / 400 = leaps_before y + leap_days y).
  { rewrite <- leaps_step. unfold leaps_before. replace (y + 1 - 1) with y by lia. reflexivity. }
  assert (B : 0 <= leaps_before y + leap_days y < 2 ^ 50) by lia.
  set (v := y / 4 - 499 - y / 100 + 19 + y / 400 - 4 + 365 * (y - 1997)).
  assert (Ev : v = leaps_before y + leap_days y - 484 + 365 * (y - 1997)) by (unfold v; lia).
  rewrite (chk64_ok v) by lia. cbn [obind]. rewrite (chk64_ok (v + 0)) by lia. cbn [obind].
  rewrite (chk64_ok (v + 0 - 334)) by lia. cbn [obind]. rewrite (chk64_ok (v + 0 - 334 + 1)) by lia. cbn [obind].
  rewrite (chk64_ok (v + 0 - 334 + 1 - 1)) by lia. cbn [obind]. rewrite leap_days_01 in *.
  unfold year_start. destruct (leap y).
  - rewrite chk64_ok by lia. cbn [obind]. f_equal. lia.
  - cbn [obind]. f_equal. lia.
Qed.

Lemma ends_early_v d : valid_date d ->
  (d_month d =? 12) && ((first_weekday (d_year d) + 363 + leap_days (d_year d)) mod 7 + 1 <=? 3) &&
    (32 <=? (first_weekday (d_year d) + 363 + leap_days (d_year d)) mod 7 + 1 + d_day d) =
  (year_start (d_year d) + 365 + leap_days (d_year d) <=? week_thursday d).
Proof.
  intros V. destruct (december d V) as [J1 J2]. pose proof (doy_no d) as D. pose proof (doy_bounds d V).
  pose proof (leap_le (d_year d)) as L. pose proof (proj2 V) as VD.
  unfold week_thursday, first_weekday in *. rewrite !iso_weekday_mod in *. rewrite D. set (n0 := year_start (d_year d)) in *.
  apply eq_true_iff_eq. rewrite !andb_true_iff, Z.eqb_eq, !Z.leb_le.
  pose proof (month_days_range (d_year d) (d_month d)).
  destruct (Z.eq_dec (d_month d) 12) as [E|E]; [specialize (J1 E)|specialize (J2 E)]; set (k := doy d) in *; lia.
Qed.

Lemma print_v_ok t c y w : sane c -> cv_year c < 2 ^ 50 -> iso_week (civil_date c) y w ->
  lt_ndays t = 7 -> lt_first_day t = 19971201 -> lt_first_week t = 4 -> cv_year c <= y ->
  print_v t c = Some (pad2 w).
Proof.
  intros Hc Hy50 Hw H7 Hf H4 Hyy. pose proof (sane_ranges c Hc) as (Hy & Hm & Hd & _). pose proof Hc as (_ & V & _).
  pose proof (iso_week_spec _ y w V Hw) as S0. cbv zeta in S0. fold (week_thursday (civil_date c)) in S0.
  pose proof (begins_late _ V) as B. pose proof (ends_early_v _ V) as E.
  pose proof (normal_week c y w Hc Hw) as NW. pose proof (doy_bounds _ V) as DB.
  pose proof (week_code c Hc) as (_ & WC). cbn [civil_date d_year d_month d_day] in *. fold (first_weekday (cv_year c)) in WC.
  unfold print_v. cbv zeta. rewrite H7, Hf, H4. change (Z.quot 19971201 10000) with 1997.
  change (wrap 8 (Z.quot (Z.rem 19971201 10000) 100)) with 12. change (wrap 8 (Z.rem 19971201 100)) with 1.
  rewrite day_diff_ok by lia. cbn [obind]. change (7 =? 0) with false. change (to_signed 64 7) with 7. change (7 =? -1) with false. cbn [orb andb].
  set (n0 := year_start (cv_year c)) in *. pose proof (first_weekday_range (cv_year c)) as R. pose proof (leap_le (cv_year c)) as L.
  pose proof (year_mono 1 (cv_year c) ltac:(lia)) as YM. change (year_start 1) with (-719162) in YM.
  assert (W1 : (if Z.rem (n0 - 10196) 7 <? 0 then wrap 64 (wrap 64 (Z.rem (n0 - 10196) 7) + wrap 64 (7 + 1)) else wrap 64 (Z.rem (n0 - 10196) 7 + 1))
    = first_weekday (cv_year c)).
  { unfold first_weekday. rewrite iso_weekday_mod. fold n0. pose proof (Z.quot_rem' (n0 - 10196) 7) as Q.
    pose proof (Z.rem_bound_abs (n0 - 10196) 7 ltac:(lia)) as RB.
    assert (SG : (0 <= n0 - 10196 -> 0 <= Z.rem (n0 - 10196) 7) /\ (n0 - 10196 <= 0 -> Z.rem (n0 - 10196) 7 <= 0)).
    { split; intros; [apply Z.rem_nonneg; lia|apply Z.rem_nonpos; lia]. }
    set (s := Z.rem (n0 - 10196) 7) in *. set (q := Z.quot (n0 - 10196) 7) in *.
    destruct (Z.ltb_spec s 0).
    - unfold wrap. replace (s mod 2 ^ 64) with (s + 2 ^ 64) by (apply (Z.mod_unique _ _ (-1)); lia).
      change ((7 + 1) mod 2 ^ 64) with 8. replace ((s + 2 ^ 64 + 8) mod 2 ^ 64) with (s + 8) by (apply (Z.mod_unique _ _ 1); lia).
      clear - Q RB H. lia.
    - rewrite small_wrap by lia. clear - Q RB H. lia. }
  rewrite W1. change (wrap 64 (7 - 4 + 1)) with 4. change (wrap 64 (7 + 2)) with 9. change (wrap 64 (7 - 4)) with 3. change (wrap 64 (7 - 4 + 2)) with 5.
  rewrite is_leap_ok.
  assert (WL : wrap 64 (wrap 64 (first_weekday (cv_year c) + (if leap (cv_year c) then 364 else 363)) mod 7 + 1)
    = (first_weekday (cv_year c) + 363 + leap_days (cv_year c)) mod 7 + 1).
  { rewrite leap_days_01. set (x := first_weekday (cv_year c)) in *. clearbody x. clear - R.
    rewrite (small_wrap 64 (x + _)) by (destruct (leap (cv_year c)); lia).
    rewrite small_wrap by (destruct (leap (cv_year c)); lia). destruct (leap (cv_year c)); do 2 f_equal; lia. }
  rewrite WL, (small_wrap 64 (first_weekday (cv_year c) + cv_day c)) by lia.
  rewrite (small_wrap 64 (_ mod 7 + 1 + cv_day c)) by (pose proof (Z.mod_pos_bound (first_weekday (cv_year c) + 363 + leap_days (cv_year c)) 7 ltac:(lia)); lia).
  rewrite B, E. destruct (Z.ltb_spec (week_thursday (civil_date c)) n0) as [T|T]; [lia|].
  destruct (Z.leb_spec (n0 + 365 + leap_days (cv_year c)) (week_thursday (civil_date c))) as [T2|T2].
  - assert (w = 1) as -> by lia. reflexivity.
  - destruct (NW ltac:(lia)) as (EW & RW). rewrite doy_code by assumption.
    set (k := doy (civil_date c)) in *. set (x := first_weekday (cv_year c)) in *.
    assert (WT : wrap 64 (wrap 64 (x + k - 2) mod 7 + 1) = iso_weekday (day_no (civil_date c))).
    { rewrite iso_weekday_mod in *. pose proof (Z.mod_pos_bound (day_no (civil_date c) + 3) 7 ltac:(lia)).
      set (m := (day_no (civil_date c) + 3) mod 7) in *. set (a := (k + x - 2) / 7) in *.
      clearbody m a x k. clear - WC H R DB L.
      rewrite (small_wrap 64 (x + k - 2)) by lia. rewrite small_wrap by lia. lia. }
    rewrite WT. replace (k + x - iso_weekday (day_no (civil_date c)) - 1) with (7 * ((k + x - 2) / 7)) by lia.
    set (a := (k + x - 2) / 7) in *. assert (0 <= a <= 53) by (revert EW; destruct (x <? 5); intros; lia).
    rewrite (small_wrap 64 (7 * a)) by lia. replace (7 * a / 7) with a by (rewrite Z.mul_comm, Z.div_mul; lia).
    revert EW. destruct (x <? 5); intros EW.
    + rewrite small_wrap by lia. rewrite two_digits_ok by lia. do 2 f_equal. lia.
    + rewrite two_digits_ok by lia. do 2 f_equal. lia.
Qed.
