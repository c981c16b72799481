(** Properties C24-C26, C44-C48: timestamps, their calendar form, arithmetic and text. *)
From Coq Require Import String.
From Verif Require Import Base NumSpec ScanSpec IntScanModel IntScanProofs Outcome TimeSpec TimeModel TimeCalProofs TimeArithProofs
  TimeTextSpec TimeTextModel TimeTextProofs TimeScanProofs.

(** ** C24.  Calendar conversion. *)

(** Every unix timestamp whose seconds stay in range when counted from 2000-03-01 has the date and time of day of its
    second in UTC; outside that range the conversion stops the program.  The subseconds are carried over. *)
Theorem C24_utc_is_civil_time : forall t, - 2 ^ 63 <= ts_sec t < 2 ^ 63 -> - 2 ^ 63 <= ts_sec t - 951868800 ->
  exists c, utc off_unix t = Done c /\ valid_date (civil_date c) /\ valid_time c /\ cv_tz c = 0 /\ cv_sub c = ts_sub t /\
    instant_of c (ts_sec t).
Proof.
  intros t H1 H2. unfold utc, off_unix. cbn [Z.eqb].
  destruct (to_iso8601_spec (ts_sec t) (ts_sub t) 0 H1) as (c & E & V & D & T & S & F & Z0); [exact H2|].
  exists c. repeat (split; [assumption|]). exists (ts_sec t / 86400). split; [apply day_of_iff; auto|].
  pose proof (Z.div_mod (ts_sec t) 86400). lia.
Qed.
Print Assumptions C24_utc_is_civil_time.
Theorem C24_utc_out_of_range : forall t, ts_sec t - 951868800 < - 2 ^ 63 -> utc off_unix t = Terminated.
Proof.
  intros t H. unfold utc, off_unix, to_iso8601, sub_overflow. cbn [Z.eqb]. change leapoch with 951868800.
  destruct (Z.leb_spec (- 2 ^ 63) (ts_sec t - 951868800)); [lia|]. reflexivity.
Qed.
Print Assumptions C24_utc_out_of_range.
Example C24_case : utc off_unix (mk_stamp (-1) 5) = Done (mk_civil 1969 12 31 23 59 59 5 0) /\
  utc off_unix (mk_stamp 951782400 0) = Done (mk_civil 2000 2 29 0 0 0 0 0).
Proof. split; vm_compute; reflexivity. Qed.

(** Back: the result is the instant of the civil time, except that (1) from February on of negative years, except March on
    of negative leap years, and in February of the other leap years, it is one day late; (2) it is 2^32 seconds late when
    the offset is larger than the time since the beginning of the month. *)
Theorem C24_to_timestamp_partial : forall c, safe_year (cv_year c) -> field_ranges c ->
  exists n, instant_of c n /\ to_timestamp c = Done (mk_stamp
    (n + (if late_month (cv_year c) (cv_month c) then 86400 else 0) + (if elapsed c <? cv_tz c then 2 ^ 32 else 0)) (cv_sub c)).
Proof. exact to_timestamp_spec. Qed.
Print Assumptions C24_to_timestamp_partial.
Theorem C24_there_and_back_partial : forall t c, - 2 ^ 63 <= ts_sec t < 2 ^ 63 ->
  utc off_unix t = Done c -> 0 <= cv_year c <= 292277024000 -> (cv_month c = 2 -> leap (cv_year c) = false) ->
  to_timestamp c = Done t.
Proof.
  intros t c Ht E Hy Hf.
  assert (R : - 2 ^ 63 <= ts_sec t - 951868800).
  { destruct (Z.le_gt_cases (- 2 ^ 63) (ts_sec t - 951868800)); [assumption|].
    rewrite C24_utc_out_of_range in E by assumption. discriminate. }
  destruct (C24_utc_is_civil_time t Ht R) as (c' & E' & V & T & Z0 & F & I). rewrite E in E'. injection E' as <-.
  destruct (C24_to_timestamp_partial c) as (n & In & ->).
  { unfold safe_year. lia. }
  { split; [exact V|]. split; [exact T|]. lia. }
  rewrite (instant_unique c _ _ In I). rewrite F.
  assert (LM : late_month (cv_year c) (cv_month c) = false).
  { unfold late_month. destruct (Z.ltb_spec (cv_year c) 0); [lia|]. destruct (Z.eqb_spec (cv_month c) 2) as [M|M]; [|reflexivity].
    now rewrite Hf. }
  rewrite LM. destruct V as [V1 V2], T as (T1 & T2 & T3). cbn [civil_date d_day d_month d_year] in *.
  destruct (Z.ltb_spec (elapsed c) (cv_tz c)) as [L|L]; [exfalso; unfold elapsed in L; rewrite Z0 in L; lia|].
  rewrite !Z.add_0_r. destruct t; reflexivity.
Qed.
Print Assumptions C24_there_and_back_partial.
Example C24_back_case : exists c, utc off_unix (mk_stamp 1614556799 7) = Done c /\ 0 <= cv_year c <= 292277024000 /\
  cv_month c = 2 /\ leap (cv_year c) = false.
Proof. eexists. split; [vm_compute; reflexivity|]. cbn. repeat split; lia. Qed.
(** 2020-02-29 comes back as the next day; 1970-01-01T00:00:00+08:00 comes back 2^32 seconds late; the last second of the
    range overflows. *)
Theorem C24_leap_february_refuted : exists t c, utc off_unix t = Done c /\ civil_date c = mk_date 2020 2 29 /\
  to_timestamp c = Done (mk_stamp (ts_sec t + 86400) 0).
Proof. exists (mk_stamp 1582934400 0). eexists. split; [vm_compute; reflexivity|]. split; vm_compute; reflexivity. Qed.
Print Assumptions C24_leap_february_refuted.
Theorem C24_negative_year_refuted : exists t c, utc off_unix t = Done c /\ civil_date c = mk_date (-1) 3 1 /\
  to_timestamp c = Done (mk_stamp (ts_sec t + 86400) 0).
Proof. exists (mk_stamp (-62193657600) 0). eexists. split; [vm_compute; reflexivity|]. split; vm_compute; reflexivity. Qed.
Print Assumptions C24_negative_year_refuted.
Theorem C24_offset_refuted : exists c, instant_of c (-28800) /\ valid_date (civil_date c) /\ valid_time c /\
  cv_tz c = 8 * 3600 /\ to_timestamp c = Done (mk_stamp (-28800 + 2 ^ 32) 0).
Proof.
  exists (mk_civil 1970 1 1 0 0 0 0 28800). split.
  - exists 0. split; [constructor|]. reflexivity.
  - split; [unfold valid_date; cbn; lia|]. split; [unfold valid_time; cbn; lia|]. split; vm_compute; reflexivity.
Qed.
Print Assumptions C24_offset_refuted.
Theorem C24_last_second_refuted : exists c, utc off_unix (mk_stamp (2 ^ 63 - 1) 0) = Done c /\ to_timestamp c <> Done (mk_stamp (2 ^ 63 - 1) 0).
Proof. eexists. split; [vm_compute; reflexivity|]. vm_compute. discriminate. Qed.
Print Assumptions C24_last_second_refuted.
(** With subseconds: the civil time has the exact value of the timestamp when it is not negative or has no subseconds;
    a negative timestamp with subseconds is taken the wrong way round. *)
Theorem C24_exact_value_partial : forall t c n, valid_stamp t -> 0 <= ts_sec t \/ ts_sub t = 0 -> utc off_unix t = Done c ->
  instant_of c n -> n * per_second + cv_sub c = stamp_value t.
Proof.
  intros t c n [Ht Hf] Hs E I.
  assert (R : - 2 ^ 63 <= ts_sec t - 951868800).
  { destruct (Z.le_gt_cases (- 2 ^ 63) (ts_sec t - 951868800)); [assumption|].
    rewrite C24_utc_out_of_range in E by assumption. discriminate. }
  destruct (C24_utc_is_civil_time t Ht R) as (c' & E' & V & T & Z0 & F & I'). rewrite E in E'. injection E' as <-.
  rewrite (instant_unique c _ _ I I'), F. unfold stamp_value. destruct (Z.ltb_spec (ts_sec t) 0); lia.
Qed.
Print Assumptions C24_exact_value_partial.
Theorem C24_negative_subseconds_refuted : exists a b ca cb, valid_stamp a /\ valid_stamp b /\ stamp_value a < stamp_value b /\
  utc off_unix a = Done ca /\ utc off_unix b = Done cb /\
  exists n, instant_of ca n /\ instant_of cb n /\ cv_sub cb < cv_sub ca.
Proof.
  exists (mk_stamp (-1) (per_second / 2)), (mk_stamp (-1) (per_second / 4)). eexists _, _.
  split; [split; vm_compute; split; congruence|]. split; [split; vm_compute; split; congruence|]. split; [vm_compute; reflexivity|].
  split; [vm_compute; reflexivity|]. split; [vm_compute; reflexivity|].
  exists (-1). split; [|split; [|vm_compute; reflexivity]];
  (exists (-1); split; [apply day_of_iff; split; [unfold valid_date; cbn; lia|vm_compute; reflexivity]|reflexivity]).
Qed.
Print Assumptions C24_negative_subseconds_refuted.

(** ** C25.  Arithmetic. *)
Theorem C25_compare : forall a b, valid_stamp a -> valid_stamp b -> stamp_cmp a b = (stamp_value a ?= stamp_value b).
Proof. exact cmp_correct. Qed.
Print Assumptions C25_compare.
Theorem C25_equal : forall a b, valid_stamp a -> valid_stamp b -> stamp_eqb a b = true <-> stamp_value a = stamp_value b.
Proof. exact eqb_correct. Qed.
Print Assumptions C25_equal.
(** The sum is exact when it is representable and the operands have opposite signs or their subseconds add up to
    less than 2^64 units; otherwise exactly 2^64 - 10^19 units are lost. *)
Theorem C25_add_partial : forall a b, valid_stamp a -> valid_stamp b -> representable (stamp_value a + stamp_value b) ->
  ts_sub a + ts_sub b < 2 ^ 64 \/ (ts_sec a < 0 <-> 0 <= ts_sec b) ->
  valid_stamp (stamp_add a b) /\ stamp_value (stamp_add a b) = stamp_value a + stamp_value b.
Proof.
  intros a b Va Vb R H. destruct (add_exact a b Va Vb R) as [V E]. split; [exact V|]. rewrite E.
  assert (L : subsecond_loss a b = 0).
  { unfold subsecond_loss. destruct (Z.leb_spec (2 ^ 64) (ts_sub a + ts_sub b)); [|now rewrite andb_false_r].
    destruct (Z.ltb_spec (ts_sec a) 0), (Z.ltb_spec (ts_sec b) 0); cbn [Bool.eqb andb]; try reflexivity; exfalso; lia. }
  lia.
Qed.
Print Assumptions C25_add_partial.
Theorem C25_add_loss_partial : forall a b, valid_stamp a -> valid_stamp b -> representable (stamp_value a + stamp_value b) ->
  2 ^ 64 <= ts_sub a + ts_sub b -> (ts_sec a < 0 <-> ts_sec b < 0) ->
  Z.abs (stamp_value (stamp_add a b)) = Z.abs (stamp_value a + stamp_value b) - (2 ^ 64 - per_second).
Proof.
  intros a b Va Vb R H1 H2. destruct (add_exact a b Va Vb R) as [V E]. rewrite E.
  unfold subsecond_loss. rewrite (proj2 (Z.leb_le _ _) H1).
  destruct Va as [A1 A2], Vb as [B1 B2]. unfold stamp_value. unfold per_second in *.
  destruct (Z.ltb_spec (ts_sec a) 0), (Z.ltb_spec (ts_sec b) 0); cbn [Bool.eqb andb]; try (exfalso; tauto || lia); lia.
Qed.
Print Assumptions C25_add_loss_partial.
Theorem C25_sub_partial : forall a b, valid_stamp a -> valid_stamp b -> representable (- stamp_value b) ->
  representable (stamp_value a - stamp_value b) -> ts_sub a + ts_sub b < 2 ^ 64 \/ (ts_sec a < 0 <-> ts_sec b < 0) ->
  valid_stamp (stamp_sub a b) /\ stamp_value (stamp_sub a b) = stamp_value a - stamp_value b.
Proof.
  intros a b Va Vb R1 R2 H. unfold stamp_sub. destruct (neg_correct b Vb R1) as [V E].
  assert (N : ts_sec (stamp_neg b) = - ts_sec b).
  { apply representable_iff in R1. destruct Vb as [B1 B2]. unfold stamp_value in R1. unfold stamp_neg. cbn [ts_sec]. rewrite to_signed64. unfold wrap.
    change (2 ^ 64) with 18446744073709551616. change (2 ^ 63) with 9223372036854775808 in *. unfold per_second in *.
    destruct (Z.ltb_spec (ts_sec b) 0);
    destruct (Z.ltb_spec ((0 - ts_sec b mod 18446744073709551616) mod 18446744073709551616) 9223372036854775808); lia. }
  rewrite <- Z.add_opp_r, <- E in R2 |- *.
  assert (S0 : ts_sec b = 0 -> ts_sub b = 0).
  { intros B0. apply representable_iff in R1. destruct Vb as [_ B2]. unfold stamp_value in R1. rewrite B0 in R1. cbn [Z.ltb Z.compare] in R1. unfold per_second in *. lia. }
  destruct (Z.eq_dec (ts_sec b) 0) as [B0|B0].
  - apply C25_add_partial; auto. left. cbn [stamp_neg ts_sub]. rewrite (S0 B0). destruct Va. unfold per_second in *. lia.
  - apply C25_add_partial; auto. rewrite N. cbn [stamp_neg ts_sub]. destruct H as [H|H]; [left; exact H|right]. lia.
Qed.
Print Assumptions C25_sub_partial.
Theorem C25_negate_partial : forall a, valid_stamp a -> representable (- stamp_value a) ->
  valid_stamp (stamp_neg a) /\ stamp_value (stamp_neg a) = - stamp_value a.
Proof. exact neg_correct. Qed.
Print Assumptions C25_negate_partial.
Example C25_case : let a := mk_stamp (-3) (per_second / 2) in let b := mk_stamp 1 (per_second / 4) in
  valid_stamp a /\ valid_stamp b /\ representable (- stamp_value b) /\ representable (stamp_value a + stamp_value b) /\
  representable (stamp_value a - stamp_value b) /\ (ts_sec a < 0 <-> 0 <= ts_sec b) /\ ts_sub a + ts_sub b < 2 ^ 64 /\
  stamp_add a b = mk_stamp (-2) (per_second / 4).
Proof.
  cbv zeta. split; [split; vm_compute; split; congruence|]. split; [split; vm_compute; split; congruence|].
  rewrite !representable_iff. do 3 (split; [vm_compute; split; [intuition congruence|split; congruence]|]).
  split; [cbn [ts_sec]; lia|]. split; vm_compute; reflexivity.
Qed.
(** 0.99 + 0.99 is not 1.98; 1 - 1.5 is +0.5 (no timestamp denotes -0.5); -(0.5) is 0.5. *)
Theorem C25_add_refuted : exists a b, valid_stamp a /\ valid_stamp b /\ representable (stamp_value a + stamp_value b) /\
  stamp_value (stamp_add a b) <> stamp_value a + stamp_value b.
Proof.
  exists (mk_stamp 0 9900000000000000000), (mk_stamp 0 9900000000000000000).
  split; [split; vm_compute; split; congruence|]. split; [split; vm_compute; split; congruence|].
  split; [apply representable_iff; vm_compute; split; [intuition congruence|split; congruence]|]. vm_compute. discriminate.
Qed.
Print Assumptions C25_add_refuted.
Theorem C25_small_negative_refuted : exists a b, valid_stamp a /\ valid_stamp b /\ stamp_value a - stamp_value b = - (per_second / 2) /\
  stamp_sub a b = mk_stamp 0 (per_second / 2) /\ (forall t, valid_stamp t -> stamp_value t <> - (per_second / 2)).
Proof.
  exists (mk_stamp 1 0), (mk_stamp 1 (per_second / 2)).
  split; [split; vm_compute; split; congruence|]. split; [split; vm_compute; split; congruence|].
  split; [vm_compute; reflexivity|]. split; [vm_compute; reflexivity|].
  intros t V E. assert (R : representable (- (per_second / 2))) by (exists t; auto).
  apply representable_iff in R. destruct R as [[R|R] _]; vm_compute in R; congruence.
Qed.
Print Assumptions C25_small_negative_refuted.
(** Division by an integer. *)
Theorem C25_divide_even : forall a d q, valid_stamp a -> 1 <= d < 2 ^ 64 -> Z.even d = true ->
  rounds_to_even (stamp_value a) d q -> representable q ->
  exists t, stamp_div a d = Done t /\ valid_stamp t /\ stamp_value t = q.
Proof. exact div_even. Qed.
Print Assumptions C25_divide_even.
Theorem C25_divide_partial : forall a d, valid_stamp a -> 1 <= d < 2 ^ 64 ->
  exists q, 2 * Z.abs (stamp_value a - q * d) <= d + 1 /\
  (representable q -> exists t, stamp_div a d = Done t /\ valid_stamp t /\ stamp_value t = q).
Proof. exact div_any. Qed.
Print Assumptions C25_divide_partial.
Theorem C25_divide_zero : forall a, stamp_div a 0 = Terminated.
Proof. reflexivity. Qed.
Print Assumptions C25_divide_zero.
Example C25_divide_case : let a := mk_stamp (-7) 5 in valid_stamp a /\ rounds_to_even (stamp_value a) 2 (-35000000000000000002) /\
  representable (-35000000000000000002) /\ stamp_div a 2 = Done (mk_stamp (-3) 5000000000000000002).
Proof.
  cbv zeta. split; [split; vm_compute; split; congruence|]. split; [right; vm_compute; split; reflexivity|].
  split; [apply representable_iff; vm_compute; split; [intuition congruence|split; congruence]|vm_compute; reflexivity].
Qed.
(** An odd divisor is rounded wrongly: one unit divided by one is two units. *)
Theorem C25_divide_odd_refuted : stamp_div (mk_stamp 0 1) 1 = Done (mk_stamp 0 2).
Proof. vm_compute. reflexivity. Qed.
Print Assumptions C25_divide_odd_refuted.

(** ** C44.  The printed form. *)
Theorem C44_iso_form : forall c, printable c ->
  exists txt, print_iso8601 c = Some txt /\ iso_text c txt /\ zlen txt <= iso8601_reserve_size.
Proof.
  intros c H. destruct (print_iso8601_ok c H) as (txt & E & T). exists txt. split; [exact E|]. split; [exact T|].
  now apply (iso_text_size c).
Qed.
Print Assumptions C44_iso_form.
Theorem C44_unix_form : forall t, valid_stamp t ->
  exists txt, print_stamp t = Some txt /\ unix_text t txt /\ zlen txt <= stamp_reserve_size.
Proof.
  intros t H. destruct (print_stamp_ok t H) as (txt & E & T). exists txt. split; [exact E|]. split; [exact T|].
  now apply (unix_text_size t).
Qed.
Print Assumptions C44_unix_form.
Example C44_case : printable (mk_civil (-44) 3 15 12 0 59 (per_second / 8) (-12600)) /\
  print_iso8601 (mk_civil (-44) 3 15 12 0 59 (per_second / 8) (-12600)) = Some (text "-0044-03-15T12:00:59.125-03:30") /\
  valid_stamp (mk_stamp (-12) 5) /\ print_stamp (mk_stamp (-12) 5) = Some (text "-12.0000000000000000005").
Proof.
  split; [unfold printable; cbn [cv_year cv_month cv_day cv_hours cv_minutes cv_seconds cv_sub cv_tz]; vm_compute; intuition congruence|].
  split; [vm_compute; reflexivity|]. split; [split; vm_compute; split; congruence|vm_compute; reflexivity].
Qed.

(** ** C26.  Scanning the printed form. *)
Theorem C26_iso_round_trip_partial : forall cw sse c ws rest, In cw char_widths -> scannable c ->
  Forall c_space ws -> units cw rest ->
  exists txt, print_iso8601 c = Some txt /\ scan_iso8601 cw sse (ws ++ txt ++ rest) = SGo (c, rest).
Proof.
  intros cw sse c ws rest Hw Hc Hws Hr. pose proof Hc as (Hy & Hmo & Hd & Hh & Hmi & Hs & Hf & Ha & Hm).
  destruct (print_iso8601_ok c) as (txt & E & T); [unfold printable; lia|].
  exists txt. split; [exact E|]. now apply scan_iso_text.
Qed.
Print Assumptions C26_iso_round_trip_partial.
(** The scanner's result does not depend on the printer: any text of the documented form scans. *)
Theorem C26_iso_scan : forall cw sse c txt ws rest, In cw char_widths -> scannable c -> iso_text c txt ->
  Forall c_space ws -> units cw rest -> scan_iso8601 cw sse (ws ++ txt ++ rest) = SGo (c, rest).
Proof. exact scan_iso_text. Qed.
Print Assumptions C26_iso_scan.
Example C26_case : scannable (mk_civil (-12345) 2 28 23 59 59 1 (-86340)).
Proof. unfold scannable; cbn [cv_year cv_month cv_day cv_hours cv_minutes cv_seconds cv_sub cv_tz]. vm_compute. intuition congruence. Qed.
(** Offsets with seconds lose them, offsets of a day or more and the smallest year do not scan. *)
Theorem C26_offset_seconds_refuted : exists c txt, printable c /\ Z.abs (cv_tz c) < 86400 /\ print_iso8601 c = Some txt /\
  exists c' rest, scan_iso8601 8 false (txt ++ [10]) = SGo (c', rest) /\ cv_tz c' <> cv_tz c /\ rest <> [10].
Proof.
  exists (mk_civil 1900 1 1 0 0 0 0 4772). eexists.
  split; [unfold printable; cbn [cv_year cv_month cv_day cv_hours cv_minutes cv_seconds cv_sub cv_tz]; vm_compute; intuition congruence|].
  split; [vm_compute; reflexivity|]. split; [vm_compute; reflexivity|]. eexists _, _.
  split; [vm_compute; reflexivity|]. split; discriminate.
Qed.
Print Assumptions C26_offset_seconds_refuted.
Theorem C26_long_offset_refuted : exists c txt, printable c /\ cv_tz c = 86400 /\ print_iso8601 c = Some txt /\
  exists rest, scan_iso8601 8 false txt = SFail pc_overflow rest.
Proof.
  exists (mk_civil 1900 1 1 0 0 0 0 86400). eexists.
  split; [unfold printable; cbn [cv_year cv_month cv_day cv_hours cv_minutes cv_seconds cv_sub cv_tz]; vm_compute; intuition congruence|].
  split; [reflexivity|]. split; [vm_compute; reflexivity|]. eexists. vm_compute. reflexivity.
Qed.
Print Assumptions C26_long_offset_refuted.
Theorem C26_smallest_year_refuted : exists c txt, printable c /\ cv_year c = - 2 ^ 63 /\ print_iso8601 c = Some txt /\
  exists rest, scan_iso8601 8 false txt = SFail pc_overflow rest.
Proof.
  exists (mk_civil (- 2 ^ 63) 1 1 0 0 0 0 0). eexists.
  split; [unfold printable; cbn [cv_year cv_month cv_day cv_hours cv_minutes cv_seconds cv_sub cv_tz]; vm_compute; intuition congruence|].
  split; [reflexivity|]. split; [vm_compute; reflexivity|]. eexists. vm_compute. reflexivity.
Qed.
Print Assumptions C26_smallest_year_refuted.

(** ** C45.  Day of the week. *)
Theorem C45_c_weekday_partial : forall d n, 1 <= d_year d < 2 ^ 63 -> day_of n d ->
  c_weekday (d_year d) (d_month d) (d_day d) = weekday_of n.
Proof.
  intros d n Hy Hn. apply day_of_iff in Hn as [V E]. pose proof (weekday_shift d 0 V Hy ltac:(lia)) as S.
  unfold c_weekday, weekday_of. destruct (weekday_args (d_year d) (d_month d)) as [y m]. rewrite S, E, Z.add_0_r.
  rewrite wrap_small; [reflexivity|]. pose proof (Z.mod_pos_bound (n + 4) 7). lia.
Qed.
Print Assumptions C45_c_weekday_partial.
(** ISO numbering: Monday = 1 ... Sunday = 7. *)
Theorem C45_weekday_partial : forall d n, 1 <= d_year d < 2 ^ 63 -> day_of n d ->
  weekday (d_year d) (d_month d) (d_day d) = (if weekday_of n =? 0 then 7 else weekday_of n).
Proof.
  intros d n Hy Hn. apply day_of_iff in Hn as [V E]. pose proof (weekday_shift d 6 V Hy ltac:(lia)) as S.
  unfold weekday, weekday_of. destruct (weekday_args (d_year d) (d_month d)) as [y m]. rewrite S, E.
  pose proof (Z.mod_pos_bound (n + 4 + 6) 7 ltac:(lia)). rewrite wrap_small by lia.
  destruct (Z.eqb_spec ((n + 4) mod 7) 0); lia.
Qed.
Print Assumptions C45_weekday_partial.
Example C45_case : day_of 0 (mk_date 1970 1 1) /\ weekday 1970 1 1 = 4 /\ c_weekday 2024 2 29 = 4.
Proof. split; [constructor|]. split; vm_compute; reflexivity. Qed.
(** 0000-01-01 was a Saturday. *)
Theorem C45_year_zero_refuted : exists n, day_of n (mk_date 0 1 1) /\ weekday_of n = 6 /\ c_weekday 0 1 1 <> 6.
Proof.
  exists (-719528). split; [apply day_of_iff; split; [unfold valid_date; cbn; lia|vm_compute; reflexivity]|].
  split; [vm_compute; reflexivity|]. vm_compute. discriminate.
Qed.
Print Assumptions C45_year_zero_refuted.

(** ** C46.  The named epochs and FILETIME. *)
Theorem C46_win32_epoch : exists c, utc off_win32 (mk_stamp 0 0) = Done c /\ civil_date c = mk_date 1601 1 1 /\ instant_of c off_win32.
Proof.
  eexists. split; [vm_compute; reflexivity|]. split; [reflexivity|]. exists (off_win32 / 86400).
  split; [apply day_of_iff; split; [unfold valid_date; cbn; lia|vm_compute; reflexivity]|vm_compute; reflexivity].
Qed.
Print Assumptions C46_win32_epoch.
Theorem C46_year0_epoch : exists c, utc off_year0 (mk_stamp 0 0) = Done c /\ civil_date c = mk_date 0 1 1 /\ instant_of c off_year0.
Proof.
  eexists. split; [vm_compute; reflexivity|]. split; [reflexivity|]. exists (off_year0 / 86400).
  split; [apply day_of_iff; split; [unfold valid_date; cbn; lia|vm_compute; reflexivity]|vm_compute; reflexivity].
Qed.
Print Assumptions C46_year0_epoch.
(** The C# epoch is 0001-01-01T00:00:00Z; the library's is 32 hours earlier. *)
Theorem C46_csharp_epoch_refuted : utc off_csharp (mk_stamp 0 0) = Done (mk_civil 0 12 30 16 0 0 0 0).
Proof. vm_compute. reflexivity. Qed.
Print Assumptions C46_csharp_epoch_refuted.
(** Moving between epochs keeps the instant (when it fits) and is undone by moving back. *)
Theorem C46_epoch_change : forall off off' t, valid_stamp t -> - 2 ^ 63 <= ts_sec t + (off - off') < 2 ^ 63 ->
  exists t', convert_epoch off off' t = Done t' /\ valid_stamp t' /\ ts_sec t' + off' = ts_sec t + off /\ ts_sub t' = ts_sub t /\
    convert_epoch off' off t' = Done t.
Proof.
  intros off off' t [H1 H2] H. unfold convert_epoch. rewrite int64_ok by assumption. cbn [obind].
  eexists. split; [reflexivity|]. cbn [ts_sec ts_sub]. split; [split; cbn [ts_sec ts_sub]; lia|]. split; [lia|]. split; [reflexivity|].
  rewrite int64_ok by lia. cbn [obind]. replace (ts_sec t + (off - off') + (off' - off)) with (ts_sec t) by lia. destruct t; reflexivity.
Qed.
Print Assumptions C46_epoch_change.
(** FILETIME: 100 ns ticks. *)
Theorem C46_filetime : forall ticks, 0 <= ticks < 2 ^ 64 ->
  valid_stamp (ftu64_to_win32 ticks) /\ stamp_value (ftu64_to_win32 ticks) * 10000000 = ticks * per_second.
Proof.
  intros k H. unfold ftu64_to_win32. rewrite sps. change (10000000000000000000 / 10000000) with 1000000000000.
  pose proof (Z.mod_pos_bound k 10000000 ltac:(lia)) as M. pose proof (Z.div_mod k 10000000 ltac:(lia)) as D.
  change (2 ^ 64) with 18446744073709551616 in *.
  assert (Q : 0 <= k / 10000000 < 2 ^ 63) by lia.
  rewrite to_signed_pos by exact Q. rewrite wrap_small by (change (2 ^ 64) with 18446744073709551616; lia).
  unfold valid_stamp, stamp_value. cbn [ts_sec ts_sub]. unfold per_second. change (10 ^ 19) with 10000000000000000000.
  split; [split; lia|]. destruct (Z.ltb_spec (k / 10000000) 0); lia.
Qed.
Print Assumptions C46_filetime.
Example C46_case : valid_stamp (mk_stamp 100 7) /\ - 2 ^ 63 <= 100 + (off_unix - off_win32) < 2 ^ 63 /\
  ftu64_to_win32 12345678 = mk_stamp 1 (2345678 * 10 ^ 12).
Proof. split; [split; vm_compute; split; congruence|]. split; [vm_compute; split; congruence|vm_compute; reflexivity]. Qed.

(** ** C47.  The text of a unix timestamp. *)
Theorem C47_unix_round_trip_partial : forall cw sse t ws rest, In cw char_widths -> valid_stamp t ->
  Forall c_space ws -> units cw rest -> unix_follow (ts_sub t) rest ->
  exists txt, print_stamp t = Some txt /\ scan_unix cw sse (ws ++ txt ++ rest) = SGo (t, rest).
Proof.
  intros cw sse t ws rest Hw Ht Hws Hr Hf. destruct (print_stamp_ok t Ht) as (txt & E & T). exists txt.
  split; [exact E|]. now apply scan_unix_text.
Qed.
Print Assumptions C47_unix_round_trip_partial.
Example C47_case : valid_stamp (mk_stamp (- 2 ^ 63) 1) /\ unix_follow 1 [32] /\ unix_follow 0 [].
Proof. split; [split; vm_compute; split; congruence|]. cbn. lia. Qed.
(** A whole number of seconds followed by anything is rejected. *)
Theorem C47_whole_seconds_followed_refuted : exists txt, print_stamp (mk_stamp 12 0) = Some txt /\
  scan_unix 8 false (txt ++ [10]) = SFail pc_invalid [10].
Proof. exists (text "12"). split; vm_compute; reflexivity. Qed.
Print Assumptions C47_whole_seconds_followed_refuted.
(** "-0.5" reads as +0.5; twenty digits can round to a subsecond part of a whole second; a timestamp with another epoch
    does not read back. *)
Theorem C47_minus_zero_refuted : scan_unix 8 false (text "-0.5") = SGo (mk_stamp 0 (per_second / 2), []).
Proof. vm_compute. reflexivity. Qed.
Print Assumptions C47_minus_zero_refuted.
Theorem C47_rounding_refuted : exists t, scan_unix 8 false (text "0.99999999999999999995") = SGo (t, []) /\ ~ valid_stamp t.
Proof. eexists. split; [vm_compute; reflexivity|]. intros [_ [_ H]]. vm_compute in H. congruence. Qed.
Print Assumptions C47_rounding_refuted.
Theorem C47_other_epoch_refuted : exists txt, print_stamp (mk_stamp 5 0) = Some txt /\
  scan_stamp off_win32 8 false txt = SGo (mk_stamp (5 - off_win32) 0, []).
Proof. exists (text "5"). split; vm_compute; reflexivity. Qed.
Print Assumptions C47_other_epoch_refuted.

(** ** C48.  The scanner stays inside the text: refuted, one character missing at the end. *)
Theorem C48_scan_overread_refuted : scan_iso8601 8 false (text "2021-01-03T10:29:56+08:0") = SUb.
Proof. vm_compute. reflexivity. Qed.
Print Assumptions C48_scan_overread_refuted.
(** It is the only way out: the text then ends in sign, two digits, ':' and one digit. *)
Theorem C48_scan_in_bounds_partial : forall cw sse s, In cw char_widths -> Forall (fun c => 0 <= c < 2 ^ cw) s ->
  (forall p c h1 h2 m, s <> p ++ [c; h1; h2; 58; m] \/ (c <> 43 /\ c <> 45)) -> scan_iso8601 cw sse s <> SUb.
Proof.
  intros cw sse s Hw Hu H E. destruct (scan_iso_safe cw sse s Hw Hu E) as (p & t & Es & (c & h1 & h2 & m & Et & Hc & _)).
  subst t. destruct (H p c h1 h2 m) as [N|[N1 N2]]; [now apply N|]. destruct Hc; contradiction.
Qed.
Print Assumptions C48_scan_in_bounds_partial.
Example C48_case : scan_iso8601 8 false (text "2021-01-03T10:29:56+08:00") = SGo (mk_civil 2021 1 3 10 29 56 0 28800, []) /\
  scan_iso8601 8 false (text "2021-01-03T10:29:56+08:") = SFail pc_invalid [].
Proof. split; vm_compute; reflexivity. Qed.
