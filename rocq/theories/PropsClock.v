(** Properties C109-C112: clocks and file times, the Windows clocks, local time, the DOS clock. *)
From Verif Require Import Base Outcome TimeSpec TimeModel TimeCalProofs TimeArithProofs ClockSpec ClockModel PropsTime.

Lemma p64 : 2 ^ 64 = 18446744073709551616. Proof. reflexivity. Qed.
Lemma pps : per_second = 10000000000000000000. Proof. reflexivity. Qed.
Ltac powers := change (2 ^ 64) with 18446744073709551616 in *; change (2 ^ 63) with 9223372036854775808 in *;
  change (10 ^ 9) with 1000000000 in *; change (10 ^ 10) with 10000000000 in *; change (10 ^ 12) with 1000000000000 in *; rewrite ?pps in *.

(** ** C109.  Times of the system and timestamps. *)

(** The timestamp of a time the system reports has the same second and its nanoseconds as subseconds; it is exactly that
    time from 1970 on, and before when the nanoseconds are 0. *)
Theorem C109_read_partial : forall x, valid_timespec x ->
  valid_stamp (timespec_to_stamp x) /\ ts_sec (timespec_to_stamp x) = tv_sec x /\
  (0 <= tv_sec x \/ tv_nsec x = 0 -> stamp_value (timespec_to_stamp x) = timespec_value x).
Proof.
  intros [s n] [Hs Hn]. unfold timespec_to_stamp, valid_stamp, stamp_value, timespec_value. cbn [tv_sec tv_nsec ts_sec ts_sub] in *.
  rewrite sps. change (10000000000000000000 / 1000000000) with 10000000000. unfold wrap. powers.
  rewrite (Z.mod_small n) by lia. rewrite Z.mod_small by lia.
  split; [split; lia|]. split; [reflexivity|]. intros H. destruct (Z.ltb_spec s 0); [|reflexivity]. destruct H as [H|H]; [lia|]. rewrite H. lia.
Qed.
Print Assumptions C109_read_partial.
(** Before 1970 the two conventions differ: half a second before 1970 is read as a second and a half before. *)
Theorem C109_before_1970_refuted : exists x, valid_timespec x /\ timespec_value x = - (per_second / 2) /\
  stamp_value (timespec_to_stamp x) = - (3 * per_second / 2).
Proof. exists (mk_timespec (-1) 500000000). repeat split; vm_compute; congruence. Qed.
Print Assumptions C109_before_1970_refuted.

(** What is handed to the system for a timestamp is the timestamp cut off to a nanosecond (from 1970 on), and it is always a
    legal [timespec]. *)
Theorem C109_write_partial : forall t, valid_stamp t ->
  valid_timespec (stamp_to_timespec t) /\ tv_sec (stamp_to_timespec t) = ts_sec t /\
  (0 <= ts_sec t \/ ts_sub t = 0 ->
   timespec_value (stamp_to_timespec t) <= stamp_value t < timespec_value (stamp_to_timespec t) + 10 ^ 10).
Proof.
  intros [s n] [Hs Hn]. unfold stamp_to_timespec, valid_timespec, stamp_value, timespec_value. cbn [tv_sec tv_nsec ts_sec ts_sub] in *.
  rewrite sps. change (10000000000000000000 / 1000000000) with 10000000000. powers.
  pose proof (Z.div_mod n 10000000000 ltac:(lia)) as D. pose proof (Z.mod_pos_bound n 10000000000 ltac:(lia)) as M.
  rewrite to_signed_pos by (powers; lia).
  split; [split; lia|]. split; [reflexivity|]. intros H. destruct (Z.ltb_spec s 0); [|lia]. destruct H as [H|H]; lia.
Qed.
Print Assumptions C109_write_partial.
Theorem C109_write_before_1970_refuted : exists t, valid_stamp t /\ stamp_value t = - (3 * per_second / 2) /\
  timespec_value (stamp_to_timespec t) = - (per_second / 2).
Proof. exists (mk_stamp (-1) (per_second / 2)). repeat split; vm_compute; congruence. Qed.
Print Assumptions C109_write_before_1970_refuted.

(** Reading a time and setting it again changes nothing, at any time. *)
Theorem C109_there_and_back : forall x, valid_timespec x -> stamp_to_timespec (timespec_to_stamp x) = x.
Proof.
  intros [s n] [Hs Hn]. unfold timespec_to_stamp, stamp_to_timespec. cbn [tv_sec tv_nsec ts_sec ts_sub] in *.
  rewrite sps. change (10000000000000000000 / 1000000000) with 10000000000. unfold wrap. powers.
  rewrite (Z.mod_small n) by lia. rewrite Z.mod_small by lia. rewrite Z.div_mul by lia. rewrite to_signed_pos by (powers; lia). reflexivity.
Qed.
Print Assumptions C109_there_and_back.
(** The order of two times the system reports is the order of their timestamps, from 1970 on. *)
Theorem C109_order_partial : forall x y, valid_timespec x -> valid_timespec y -> 0 <= tv_sec x -> 0 <= tv_sec y ->
  stamp_cmp (timespec_to_stamp x) (timespec_to_stamp y) = (timespec_value x ?= timespec_value y).
Proof.
  intros x y Hx Hy Px Py. destruct (C109_read_partial x Hx) as (Vx & _ & Ex), (C109_read_partial y Hy) as (Vy & _ & Ey).
  rewrite C25_compare by assumption. rewrite Ex, Ey by auto. reflexivity.
Qed.
Print Assumptions C109_order_partial.
Theorem C109_order_before_1970_refuted : exists x y, valid_timespec x /\ valid_timespec y /\ timespec_value x < timespec_value y /\
  stamp_cmp (timespec_to_stamp x) (timespec_to_stamp y) = Gt.
Proof. exists (mk_timespec (-1) 1), (mk_timespec (-1) 2). repeat split; vm_compute; congruence. Qed.
Print Assumptions C109_order_before_1970_refuted.

(** Setting file times: each of the two requests reaches the system as what it asks for, no timestamp is mistaken for one of
    the two reserved values, and asking for a creation time is an error. *)
Theorem C109_file_times : forall access modification,
  (forall t, access = SetTo t \/ modification = SetTo t -> valid_stamp t) ->
  exists a m, utimensat (option_of Keep) (option_of access) (option_of modification) = Value (a, m) /\
    (forall r x, (r, x) = (access, a) \/ (r, x) = (modification, m) ->
       kernel_reads x = match r with Keep => KKeep | SetNow => KNow | SetTo t => KTime (mk_timespec (ts_sec t) (ts_sub t / 10 ^ 10)) end).
Proof.
  intros access modification V. exists (option_to_timespec (option_of access)), (option_to_timespec (option_of modification)).
  split; [reflexivity|].
  assert (K : forall r, (forall t, r = SetTo t -> valid_stamp t) -> kernel_reads (option_to_timespec (option_of r)) =
    match r with Keep => KKeep | SetNow => KNow | SetTo t => KTime (mk_timespec (ts_sec t) (ts_sub t / 10 ^ 10)) end).
  { intros [| |t] Vt; [reflexivity|reflexivity|]. specialize (Vt t eq_refl). destruct Vt as [_ Vt]. rewrite pps in Vt.
    unfold option_to_timespec, option_of, stamp_to_timespec, kernel_reads. cbn [o_flags o_stamp tv_sec tv_nsec].
    rewrite sps. change (10000000000000000000 / 1000000000) with 10000000000. powers.
    assert (R : 0 <= ts_sub t / 10000000000 < 1000000000) by (split; [apply Z.div_pos; lia|apply Z.div_lt_upper_bound; lia]).
    rewrite to_signed_pos by (powers; lia). change (2 ^ 30 - 1) with 1073741823. change (2 ^ 30 - 2) with 1073741822.
    destruct (Z.eqb_spec (ts_sub t / 10000000000) 1073741823); [lia|].
    destruct (Z.eqb_spec (ts_sub t / 10000000000) 1073741822); [lia|].
    destruct (Z.leb_spec 0 (ts_sub t / 10000000000)); [|lia]. destruct (Z.ltb_spec (ts_sub t / 10000000000) 1000000000); [|lia]. reflexivity. }
  intros r x [H|H]; injection H as -> ->; apply K; intros t ->; apply V; auto.
Qed.
Print Assumptions C109_file_times.
Theorem C109_creation_time : forall r access modification, r <> Keep ->
  utimensat (option_of r) access modification = Error EINVAL.
Proof. intros [| |t] a m H; [congruence|reflexivity|reflexivity]. Qed.
Print Assumptions C109_creation_time.
Example C109_case : valid_timespec (mk_timespec 1600000000 999999999) /\
  timespec_to_stamp (mk_timespec 1600000000 999999999) = mk_stamp 1600000000 9999999990000000000 /\
  utimensat (option_of Keep) (option_of SetNow) (option_of (SetTo (mk_stamp 7 (15 * 10 ^ 9)))) =
    Value (mk_timespec 0 (2 ^ 30 - 1), mk_timespec 7 1).
Proof. repeat split; vm_compute; congruence. Qed.

(** ** C110.  The Windows clocks. *)

Lemma performance_spec freq counter : 0 < freq < 2 ^ 63 -> 0 <= counter < 2 ^ 63 ->
  performance_clock freq counter = Value (mk_stamp (counter / freq) (counter mod freq * (10000000000000000000 / freq))) /\
  0 <= counter / freq < 2 ^ 63 /\ 0 <= counter mod freq * (10000000000000000000 / freq) < 10000000000000000000 /\
  1 <= 10000000000000000000 / freq.
Proof.
  intros Hf Hc. unfold performance_clock. rewrite sps. destruct (Z.leb_spec freq 0); [lia|]. destruct (Z.ltb_spec counter 0); [lia|].
  powers. unfold wrap. rewrite p64. rewrite (Z.mod_small freq), (Z.mod_small counter) by lia.
  pose proof (Z.mod_pos_bound counter freq ltac:(lia)) as M. pose proof (Z.div_mod counter freq ltac:(lia)) as D.
  pose proof (Z.mod_pos_bound 10000000000000000000 freq ltac:(lia)) as M'. pose proof (Z.div_mod 10000000000000000000 freq ltac:(lia)) as D'.
  assert (Q1 : 1 <= 10000000000000000000 / freq) by (apply Z.div_le_lower_bound; lia).
  assert (Q2 : 0 <= counter / freq <= counter) by (split; [apply Z.div_pos; lia|apply Z.div_le_upper_bound; nia]).
  assert (B : 0 <= counter mod freq * (10000000000000000000 / freq) < 10000000000000000000) by (split; nia).
  rewrite to_signed_pos by (powers; lia). rewrite Z.mod_small by lia. repeat split; try reflexivity; lia.
Qed.

(** The monotonic clock: the counter divided by the frequency, at most one part in 10^19 per tick of the second begun below
    it; later counters never give earlier times and different counters give different times. *)
Theorem C110_monotonic_clock : forall freq counter, 0 < freq < 2 ^ 63 -> 0 <= counter < 2 ^ 63 ->
  exists t, performance_clock freq counter = Value t /\ valid_stamp t /\
    stamp_value t * freq <= counter * per_second < (stamp_value t + freq) * freq.
Proof.
  intros freq counter Hf Hc. destruct (performance_spec freq counter Hf Hc) as (E & Q & B & V). eexists. split; [exact E|].
  rewrite pps. split; [split; cbn [ts_sec ts_sub]; rewrite ?pps; lia|]. unfold stamp_value. cbn [ts_sec ts_sub]. rewrite pps.
  destruct (Z.ltb_spec (counter / freq) 0); [lia|].
  pose proof (Z.mod_pos_bound counter freq ltac:(lia)) as M. pose proof (Z.div_mod counter freq ltac:(lia)) as D.
  pose proof (Z.mod_pos_bound 10000000000000000000 freq ltac:(lia)) as M'. pose proof (Z.div_mod 10000000000000000000 freq ltac:(lia)) as D'.
  set (q := counter / freq) in *. set (r := counter mod freq) in *. set (v := 10000000000000000000 / freq) in *.
  set (w := 10000000000000000000 mod freq) in *. clearbody q r v w. clear - M D M' D' Hf.
  assert (X : counter * 10000000000000000000 = (q * 10000000000000000000 + r * v) * freq + r * w) by nia.
  rewrite X. split; nia.
Qed.
Print Assumptions C110_monotonic_clock.
Theorem C110_monotonic_order : forall freq c1 c2 t1 t2, 0 < freq < 2 ^ 63 -> 0 <= c1 -> c1 < c2 -> c2 < 2 ^ 63 ->
  performance_clock freq c1 = Value t1 -> performance_clock freq c2 = Value t2 -> stamp_value t1 < stamp_value t2.
Proof.
  intros freq c1 c2 t1 t2 Hf H1 H H2 E1 E2.
  destruct (performance_spec freq c1 Hf ltac:(lia)) as (F1 & Q1 & B1 & V). destruct (performance_spec freq c2 Hf ltac:(lia)) as (F2 & Q2 & B2 & _).
  assert (t1 = mk_stamp (c1 / freq) (c1 mod freq * (10000000000000000000 / freq))) by congruence.
  assert (t2 = mk_stamp (c2 / freq) (c2 mod freq * (10000000000000000000 / freq))) by congruence. subst t1 t2.
  unfold stamp_value. cbn [ts_sec ts_sub]. rewrite pps.
  destruct (Z.ltb_spec (c1 / freq) 0); [lia|]. destruct (Z.ltb_spec (c2 / freq) 0); [lia|].
  pose proof (Z.mod_pos_bound c1 freq ltac:(lia)) as M1. pose proof (Z.div_mod c1 freq ltac:(lia)) as D1.
  pose proof (Z.mod_pos_bound c2 freq ltac:(lia)) as M2. pose proof (Z.div_mod c2 freq ltac:(lia)) as D2.
  set (q1 := c1 / freq) in *. set (r1 := c1 mod freq) in *. set (q2 := c2 / freq) in *. set (r2 := c2 mod freq) in *.
  set (v := 10000000000000000000 / freq) in *. clearbody q1 r1 q2 r2 v.
  destruct (Z.lt_trichotomy q1 q2) as [L|[L|L]]; [lia| |exfalso; nia]. subst q2. nia.
Qed.
Print Assumptions C110_monotonic_order.
(** The resolution reported is the step between two counters in the same second. *)
Theorem C110_resolution : forall freq c t1 t2 r, 0 < freq < 2 ^ 63 -> 0 <= c -> c + 1 < 2 ^ 63 -> (c + 1) mod freq <> 0 ->
  performance_clock freq c = Value t1 -> performance_clock freq (c + 1) = Value t2 -> performance_resolution freq = Value r ->
  stamp_value t2 = stamp_value t1 + stamp_value r.
Proof.
  intros freq c t1 t2 r Hf H1 H2 N E1 E2 Er.
  destruct (performance_spec freq c Hf ltac:(lia)) as (F1 & Q1 & B1 & V). destruct (performance_spec freq (c + 1) Hf ltac:(lia)) as (F2 & Q2 & B2 & _).
  assert (t1 = mk_stamp (c / freq) (c mod freq * (10000000000000000000 / freq))) by congruence.
  assert (t2 = mk_stamp ((c + 1) / freq) ((c + 1) mod freq * (10000000000000000000 / freq))) by congruence. subst t1 t2.
  unfold performance_resolution in Er. rewrite sps in Er. destruct (Z.leb_spec freq 0); [lia|]. unfold wrap in Er. rewrite p64 in Er. powers.
  rewrite Z.mod_small in Er by lia. assert (r = mk_stamp 0 (10000000000000000000 / freq)) by congruence. subst r.
  unfold stamp_value. cbn [ts_sec ts_sub]. rewrite pps.
  destruct (Z.ltb_spec (c / freq) 0); [lia|]. destruct (Z.ltb_spec ((c + 1) / freq) 0); [lia|]. change (0 <? 0) with false. cbn iota.
  pose proof (Z.mod_pos_bound c freq ltac:(lia)) as M1. pose proof (Z.div_mod c freq ltac:(lia)) as D1.
  pose proof (Z.mod_pos_bound (c + 1) freq ltac:(lia)) as M2. pose proof (Z.div_mod (c + 1) freq ltac:(lia)) as D2.
  set (q1 := c / freq) in *. set (r1 := c mod freq) in *. set (q2 := (c + 1) / freq) in *. set (r2 := (c + 1) mod freq) in *.
  set (v := 10000000000000000000 / freq) in *. clearbody q1 r1 q2 r2 v.
  assert (q1 = q2) by (destruct (Z.lt_trichotomy q1 q2) as [L|[L|L]]; [exfalso; nia|assumption|exfalso; nia]). subst q2.
  assert (r2 = r1 + 1) by lia. subst r2. lia.
Qed.
Print Assumptions C110_resolution.
Theorem C110_invalid_counter : forall freq counter, freq <= 0 \/ counter < 0 -> performance_clock freq counter = Error 87.
Proof.
  intros freq counter H. unfold performance_clock. destruct (Z.leb_spec freq 0); [reflexivity|]. destruct (Z.ltb_spec counter 0); [reflexivity|lia].
Qed.
Print Assumptions C110_invalid_counter.

Lemma ticks_spec high low : 0 <= high < 2 ^ 32 -> 0 <= low < 2 ^ 32 -> filetime_ticks high low = high * 2 ^ 32 + low.
Proof.
  intros Hh Hl. unfold filetime_ticks, wrap. rewrite Z.shiftl_mul_pow2 by lia. rewrite Z.mod_small by (change (2 ^ 64) with (2 ^ 32 * 2 ^ 32); nia).
  apply Z.bits_inj'. intros n Hn. rewrite Z.lor_spec. destruct (Z.lt_ge_cases n 32) as [L|G].
  - rewrite Z.mul_pow2_bits_low by lia. cbn [orb]. rewrite <- (Z.mod_pow2_bits_low (high * 2 ^ 32 + low) 32) by lia.
    rewrite Z.add_comm, Z.mod_add by lia. rewrite Z.mod_small by lia. reflexivity.
  - rewrite Z.mul_pow2_bits by lia.
    assert (low = low mod 2 ^ 32) as -> by (symmetry; apply Z.mod_small; lia). rewrite Z.mod_pow2_bits_high by lia. rewrite orb_false_r.
    rewrite Z.mod_small by lia.
    replace n with (n - 32 + 32) at 2 by lia. rewrite <- Z.div_pow2_bits by lia. f_equal.
    rewrite Z.add_comm, Z.div_add by lia. rewrite Z.div_small by lia. lia.
Qed.
(** [ticks] 100 ns ticks are exactly the timestamp [t]. *)
Definition is_ticks (ticks : Z) (t : stamp) : Prop := valid_stamp t /\ stamp_value t * 10000000 = ticks * per_second.
Lemma from_ticks k : 0 <= k < 2 ^ 64 ->
  is_ticks k (mk_stamp (to_signed 64 (k / 10000000)) (wrap 64 (k mod 10000000 * (subseconds_per_second / 10000000)))).
Proof. intros H. exact (C46_filetime k H). Qed.

(** Processor time: the sum of the kernel's and the user's ticks, exactly, unless the sum leaves 64 bits. *)
Theorem C110_processor_time : forall kh kl uh ul, 0 <= kh < 2 ^ 32 -> 0 <= kl < 2 ^ 32 -> 0 <= uh < 2 ^ 32 -> 0 <= ul < 2 ^ 32 ->
  let ticks := (kh * 2 ^ 32 + kl) + (uh * 2 ^ 32 + ul) in ticks < 2 ^ 64 -> is_ticks ticks (cpu_time (kh, kl) (uh, ul)).
Proof.
  intros kh kl uh ul H1 H2 H3 H4 ticks H. unfold cpu_time. cbn [fst snd]. rewrite !ticks_spec by assumption. fold ticks.
  rewrite (wrap_small 64 ticks) by (unfold ticks in *; lia). apply from_ticks. unfold ticks in *; lia.
Qed.
Print Assumptions C110_processor_time.

(** A file time is exactly the unix timestamp from 1970 on; all earlier times become 1970-01-01. *)
Theorem C110_file_time_partial : forall high low, 0 <= high < 2 ^ 32 -> 0 <= low < 2 ^ 32 ->
  let since_1970 := high * 2 ^ 32 + low - 11644473600 * 10000000 in
  is_ticks (Z.max 0 since_1970) (filetime_to_unix high low).
Proof.
  intros high low Hh Hl since. unfold filetime_to_unix. rewrite ticks_spec by assumption. unfold since.
  destruct (Z.ltb_spec (high * 2 ^ 32 + low) 116444736000000000) as [L|G].
  - rewrite Z.max_l by lia. apply (from_ticks 0). lia.
  - rewrite Z.max_r by lia. change (11644473600 * 10000000) with 116444736000000000.
    assert (high * 2 ^ 32 + low < 2 ^ 64) by (change (2 ^ 64) with (2 ^ 32 * 2 ^ 32); nia).
    rewrite (wrap_small 64 (high * 2 ^ 32 + low - 116444736000000000)) by lia. apply from_ticks. lia.
Qed.
Print Assumptions C110_file_time_partial.
Theorem C110_file_time_before_1970_refuted : exists h l h' l', 0 <= h < 2 ^ 32 /\ 0 <= l < 2 ^ 32 /\ 0 <= h' < 2 ^ 32 /\ 0 <= l' < 2 ^ 32 /\
  h * 2 ^ 32 + l < h' * 2 ^ 32 + l' /\ filetime_to_unix h l = filetime_to_unix h' l'.
Proof. exists 1, 0, 27000000, 0. repeat split; vm_compute; congruence. Qed.
Print Assumptions C110_file_time_before_1970_refuted.

(** The system time is exactly the ticks since 1601 from 1970 on. *)
Theorem C110_system_time_partial : forall high low, 0 <= high < 2 ^ 32 -> 0 <= low < 2 ^ 32 ->
  let ticks := high * 2 ^ 32 + low in 11644473600 * 10000000 <= ticks ->
  exists t, system_time high low = Done t /\ is_ticks (ticks - 11644473600 * 10000000) t.
Proof.
  intros high low Hh Hl ticks G. unfold system_time. rewrite ticks_spec by assumption. fold ticks.
  assert (T : ticks < 2 ^ 64) by (unfold ticks; change (2 ^ 64) with (2 ^ 32 * 2 ^ 32); nia).
  destruct (C46_filetime ticks ltac:(lia)) as [V E]. set (w := ftu64_to_win32 ticks) in *.
  assert (W : ts_sec w = ticks / 10000000).
  { unfold w, ftu64_to_win32. cbn [ts_sec]. apply to_signed_pos. split; [apply Z.div_pos; lia|apply Z.div_lt_upper_bound; powers; lia]. }
  assert (B : 11644473600 <= ticks / 10000000) by (apply Z.div_le_lower_bound; lia).
  destruct V as [V1 V2]. unfold convert_epoch, off_win32, off_unix.
  replace (ts_sec w + (-11644473600 - 0)) with (ts_sec w - 11644473600) by lia.
  rewrite int64_ok by lia. cbn [obind]. eexists. split; [reflexivity|]. split; [split; cbn [ts_sec ts_sub]; lia|].
  unfold stamp_value in *. cbn [ts_sec ts_sub]. destruct (Z.ltb_spec (ts_sec w) 0); [lia|]. destruct (Z.ltb_spec (ts_sec w - 11644473600) 0); [lia|].
  powers. lia.
Qed.
Print Assumptions C110_system_time_partial.

(** Setting the system time: the ticks handed over are the time cut off to 100 ns, for times from 1970 on that fit, and the old
    time comes back exactly. *)
Theorem C110_set_time_partial : forall t, valid_stamp t -> 0 <= ts_sec t ->
  stamp_value t + 11644473600 * per_second < 2 ^ 64 * 10 ^ 12 ->
  exists ticks, nt_settime off_unix t = Done ticks /\
    let since := ticks - 11644473600 * 10000000 in
    since * 10 ^ 12 <= stamp_value t < (since + 1) * 10 ^ 12.
Proof.
  intros [s f] [V1 V2] H0 H. unfold stamp_value in H. cbn [ts_sec ts_sub] in *. destruct (Z.ltb_spec s 0); [lia|]. powers. unfold nt_settime. change (off_unix =? off_win32) with false. cbn iota.
  unfold convert_epoch, off_unix, off_win32. cbn [ts_sec ts_sub]. rewrite int64_ok by (powers; lia). cbn [obind ts_sec ts_sub].
  rewrite sps. change (10000000000000000000 / 10000000) with 1000000000000. unfold wrap. rewrite p64. powers.
  pose proof (Z.div_mod f 1000000000000 ltac:(lia)) as D. pose proof (Z.mod_pos_bound f 1000000000000 ltac:(lia)) as M.
  rewrite (Z.mod_small (s + (0 - -11644473600))) by lia. rewrite (Z.mod_small ((s + (0 - -11644473600)) * 10000000)) by lia.
  rewrite Z.mod_small by lia. eexists. split; [reflexivity|]. cbv zeta. unfold stamp_value. cbn [ts_sec ts_sub]. rewrite pps.
  destruct (Z.ltb_spec s 0); lia.
Qed.
Print Assumptions C110_set_time_partial.
Theorem C110_set_time_old : forall ticks, 11644473600 * 10000000 <= ticks < 2 ^ 64 ->
  exists t, nt_settime_old off_unix ticks = Done t /\ is_ticks (ticks - 11644473600 * 10000000) t /\ nt_settime off_unix t = Done ticks.
Proof.
  intros ticks H. destruct (C110_system_time_partial (ticks / 2 ^ 32) (ticks mod 2 ^ 32)) as (t & E & T).
  { split; [apply Z.div_pos; lia|apply Z.div_lt_upper_bound; lia]. }
  { apply Z.mod_pos_bound. lia. }
  { pose proof (Z.div_mod ticks (2 ^ 32)). lia. }
  assert (Q : ticks / 2 ^ 32 * 2 ^ 32 + ticks mod 2 ^ 32 = ticks) by (pose proof (Z.div_mod ticks (2 ^ 32)); lia).
  rewrite Q in T. unfold system_time in E. rewrite ticks_spec in E; [|split; [apply Z.div_pos; lia|apply Z.div_lt_upper_bound; lia]|apply Z.mod_pos_bound; lia].
  rewrite Q in E. exists t. split; [exact E|]. split; [exact T|].
  destruct T as [V T]. assert (Tn : 0 <= ts_sec t).
  { unfold stamp_value in T. destruct (Z.ltb_spec (ts_sec t) 0); [|assumption]. destruct V as [_ V]. powers. lia. }
  assert (Tx : stamp_value t + 11644473600 * per_second < 2 ^ 64 * 10 ^ 12) by (powers; lia).
  destruct (C110_set_time_partial t V Tn Tx) as (k & -> & K). cbv zeta in K. f_equal. powers. lia.
Qed.
Print Assumptions C110_set_time_old.
(** Times before 1601, or too late, do not raise an error: they wrap to some other time. *)
Theorem C110_set_time_wraps_refuted : exists t ticks, valid_stamp t /\ ts_sec t = -11644473601 /\ nt_settime off_unix t = Done ticks /\
  ticks = 2 ^ 64 - 10000000.
Proof. exists (mk_stamp (-11644473601) 0). eexists. repeat split; vm_compute; congruence. Qed.
Print Assumptions C110_set_time_wraps_refuted.
Example C110_case : performance_clock 10000000 123456789 = Value (mk_stamp 12 3456789000000000000) /\
  performance_clock 3 4 = Value (mk_stamp 1 3333333333333333333) /\ filetime_to_unix 27111902 3577643008 = mk_stamp 0 0 /\
  cpu_time (0, 5) (0, 10000000) = mk_stamp 1 5000000000000.
Proof. repeat split; vm_compute; reflexivity. Qed.

(** ** C111.  Local time. *)

Lemma to_signed32 x : - 2 ^ 31 <= x < 2 ^ 31 -> to_signed 32 (wrap 32 x) = x.
Proof.
  intros H. unfold to_signed, wrap. change (32 - 1) with 31. rewrite Z.mod_mod by lia. change (2 ^ 32) with 4294967296. change (2 ^ 31) with 2147483648 in *.
  destruct (Z.ltb_spec (x mod 4294967296) 2147483648); lia.
Qed.
Lemma to_local_spec tz (day dst : bool) s f : - 2 ^ 63 <= s < 2 ^ 63 ->
  let off := - tz + (if dst then if day then 3600 else 0 else 0) in - 2 ^ 31 < off < 2 ^ 31 ->
  - 2 ^ 63 <= s + off < 2 ^ 63 -> - 2 ^ 63 <= s + off - 951868800 ->
  exists c, to_local tz day dst s f = Done c /\ valid_date (civil_date c) /\ valid_time c /\ cv_sub c = f /\ cv_tz c = off /\ instant_of c s.
Proof.
  intros Hs off Ho Hr Hl. unfold to_local.
  set (bias := if dst then if day then -3600 else 0 else 0). assert (B : off = - (tz + bias)) by (unfold off, bias; destruct dst, day; lia).
  assert (W : wrap 32 (wrap 32 tz + wrap 32 bias) = wrap 32 (tz + bias)) by (unfold wrap; rewrite <- Z.add_mod by lia; reflexivity).
  rewrite W. assert (W' : wrap 32 (0 - wrap 32 (tz + bias)) = wrap 32 off).
  { unfold wrap. rewrite B. rewrite Zminus_mod_idemp_r. replace (0 - (tz + bias)) with (- (tz + bias)) by lia. reflexivity. }
  rewrite W'. rewrite !to_signed32 by lia.
  replace (sub_overflow s (tz + bias)) with (Done (s + off)).
  2:{ unfold sub_overflow. replace (s - (tz + bias)) with (s + off) by lia. destruct (Z.leb_spec (- 2 ^ 63) (s + off)); [|lia].
      destruct (Z.ltb_spec (s + off) (2 ^ 63)); [reflexivity|lia]. }
  cbn [obind]. destruct (to_iso8601_spec (s + off) f off Hr Hl) as (c & E & V & D & T & S & F & Z0).
  exists c. repeat (split; [assumption|]). exists ((s + off) / 86400). split; [apply day_of_iff; auto|].
  pose proof (Z.div_mod (s + off) 86400). lia.
Qed.

(** The local time of a timestamp always denotes the timestamp's instant, with valid fields, whatever the zone. *)
Theorem C111_instant : forall tz (day : bool) (isdst : Z -> bool) t, - 2 ^ 63 <= ts_sec t < 2 ^ 63 ->
  let off := - tz + (if isdst 0 then if day then 3600 else 0 else 0) in - 2 ^ 31 < off < 2 ^ 31 ->
  - 2 ^ 63 <= ts_sec t + off < 2 ^ 63 -> - 2 ^ 63 <= ts_sec t + off - 951868800 ->
  exists c, local off_unix tz day isdst t = Done c /\ valid_date (civil_date c) /\ valid_time c /\ cv_sub c = ts_sub t /\
    cv_tz c = off /\ instant_of c (ts_sec t).
Proof.
  intros tz day isdst t Hs off Ho Hr Hl. unfold local, off_unix. cbn [Z.eqb].
  exact (to_local_spec tz day (posix_daylight isdst) (ts_sec t) (ts_sub t) Hs Ho Hr Hl).
Qed.
Print Assumptions C111_instant.
(** The offset is that of the zone if summer time is in force at the time asked for exactly when it was at 1970-01-01. *)
Theorem C111_offset_partial : forall z day t, libc_daylight z day -> - 2 ^ 31 < z_standard z < 2 ^ 31 - 3600 ->
  0 <= ts_sec t < 2 ^ 62 -> z_summer z (ts_sec t) = z_summer z 0 ->
  exists c, local off_unix (libc_timezone z) day (z_summer z) t = Done c /\ cv_tz c = offset_at z (ts_sec t) /\ instant_of c (ts_sec t).
Proof.
  intros z day t Hd Hz Ht E.
  assert (D : (if z_summer z 0 then if day then 3600 else 0 else 0) = if z_summer z (ts_sec t) then 3600 else 0).
  { rewrite E. destruct (z_summer z 0) eqn:S; [|reflexivity]. destruct day; [reflexivity|]. exfalso. destruct Hd as [_ Hd].
    assert (false = true) by (apply Hd; eauto). discriminate. }
  destruct (C111_instant (libc_timezone z) day (z_summer z) t) as (c & L & _ & _ & _ & O & In).
  - lia.
  - unfold libc_timezone. rewrite D. destruct (z_summer z (ts_sec t)); lia.
  - unfold libc_timezone. rewrite D. destruct (z_summer z (ts_sec t)); lia.
  - unfold libc_timezone. rewrite D. destruct (z_summer z (ts_sec t)); lia.
  - exists c. split; [exact L|]. split; [|exact In]. rewrite O. unfold offset_at, libc_timezone. rewrite D. lia.
Qed.
Print Assumptions C111_offset_partial.
(** Otherwise not: noon UTC of 2021-07-01 in New York (UTC-4 then, UTC-5 in winter) is given as 07:00 -05:00. *)
Theorem C111_summer_time_refuted : exists z day t c, libc_daylight z day /\ z_summer z (ts_sec t) = true /\
  offset_at z (ts_sec t) = -14400 /\ ts_sec t = 1625140800 /\
  local off_unix (libc_timezone z) day (z_summer z) t = Done c /\ c = mk_civil 2021 7 1 7 0 0 0 (-18000).
Proof.
  exists (mk_zone (-18000) (fun s => (1615705200 <=? s) && (s <? 1636264800))), true, (mk_stamp 1625140800 0). eexists.
  split; [split; [intros _; exists 1625140800; reflexivity|reflexivity]|]. repeat split; vm_compute; reflexivity.
Qed.
Print Assumptions C111_summer_time_refuted.
(** Timestamps of other epochs: the same as the unix timestamp of the instant. *)
Theorem C111_other_epochs : forall off tz day isdst t u, off <> 0 -> convert_epoch off 0 t = Done u ->
  local off tz day isdst t = local 0 tz day isdst u.
Proof.
  intros off tz day isdst t u N E. unfold local. destruct (Z.eqb_spec off 0); [lia|]. rewrite E. reflexivity.
Qed.
Print Assumptions C111_other_epochs.

(** On the systems where localtime_r supplies the broken-down time (BSD, macOS) the result is right from February to December
    and 31 days early in January. *)
Theorem C111_tm_partial : forall x s off f, is_localtime x s off -> - 2 ^ 31 <= off < 2 ^ 31 -> - 2 ^ 31 < tm_year x + 1900 < 2 ^ 31 ->
  exists c, to_local_tm x f = Done c /\ cv_tz c = off /\ cv_sub c = f /\ valid_time c /\
    instant_of c (s - if tm_mon x =? 0 then 31 * 86400 else 0).
Proof.
  intros [y mo d h mi sc g] s off f (V & T & (dn & D & E) & G) Ho Hy. cbn [tm_year tm_mon tm_mday tm_hour tm_min tm_sec tm_gmtoff] in *.
  destruct V as [Vm Vd]. destruct T as (T1 & T2 & T3). cbn [civil_date cv_year cv_month cv_day cv_hours cv_minutes cv_seconds cv_tz d_year d_month d_day] in *.
  pose proof (month_days_range (y + 1900) (mo + 1)) as MD. unfold to_local_tm. cbn [tm_year tm_mon tm_mday tm_hour tm_min tm_sec tm_gmtoff].
  rewrite !(wrap_small 8) by (change (2 ^ 8) with 256; lia).
  assert (SR : signed_result 32 (y + 1900) = Done (y + 1900)).
  { unfold signed_result. change (32 - 1) with 31. destruct (Z.leb_spec (- 2 ^ 31) (y + 1900)); [|lia]. destruct (Z.ltb_spec (y + 1900) (2 ^ 31)); [reflexivity|lia]. }
  rewrite SR. cbn [obind]. rewrite G, to_signed32 by assumption.
  destruct (Z.eqb_spec mo 0) as [M|M].
  - assert (SR' : signed_result 32 (y + 1900 - 1) = Done (y + 1900 - 1)).
    { unfold signed_result. change (32 - 1) with 31. destruct (Z.leb_spec (- 2 ^ 31) (y + 1900 - 1)); [|lia]. destruct (Z.ltb_spec (y + 1900 - 1) (2 ^ 31)); [reflexivity|lia]. }
    rewrite SR'. cbn [obind]. eexists. split; [reflexivity|]. cbn [cv_tz cv_sub]. split; [reflexivity|]. split; [reflexivity|]. split; [repeat split; cbn; lia|].
    exists (dn - 31). split; [|cbn [cv_hours cv_minutes cv_seconds cv_tz] in *; lia].
    cbn [civil_date cv_year cv_month cv_day]. apply day_of_iff in D. destruct D as [_ D]. apply day_of_iff.
    subst mo. split; [split|].
    + cbn [d_month]. split; discriminate.
    + cbn [d_year d_month d_day]. change (month_days (y + 1900 - 1) 12) with 31.
      change (month_days (y + 1900) (0 + 1)) with 31 in Vd. exact Vd.
    + rewrite <- D. unfold day_no, civil_date. cbn [cv_year cv_month cv_day d_year d_month d_day]. pose proof (year_step (y + 1900 - 1)) as Y.
      replace (y + 1900 - 1 + 1) with (y + 1900) in Y by lia. change (0 + 1) with 1. rewrite cum_1. pose proof (cum_12 (y + 1900 - 1)) as C. change (month_days (y + 1900 - 1) 12) with 31 in C.
      lia.
  - cbn [obind]. eexists. split; [reflexivity|]. cbn [cv_tz cv_sub].
    split; [reflexivity|]. split; [reflexivity|]. split; [repeat split; cbn; lia|].
    exists dn. split; [exact D|]. cbn [cv_hours cv_minutes cv_seconds cv_tz]. lia.
Qed.
Print Assumptions C111_tm_partial.
Theorem C111_january_refuted : exists x s, is_localtime x s 0 /\ s = 1609459200 /\
  to_local_tm x 0 = Done (mk_civil 2020 12 1 0 0 0 0 0).
Proof.
  exists (mk_tm 121 0 1 0 0 0 0), 1609459200.
  split; [|split; [reflexivity|vm_compute; reflexivity]].
  split; [split; vm_compute; split; congruence|]. split; [repeat split; vm_compute; congruence|].
  split; [|reflexivity]. exists 18628. split; [apply day_of_iff; split; [split; vm_compute; split; congruence|vm_compute; reflexivity]|reflexivity].
Qed.
Print Assumptions C111_january_refuted.
Example C111_case : libc_daylight (mk_zone 3600 (fun _ => false)) false /\
  local off_unix (libc_timezone (mk_zone 3600 (fun _ => false))) false (fun _ => false) (mk_stamp 1609455600 5) = Done (mk_civil 2021 1 1 0 0 0 5 3600).
Proof. split; [split; [discriminate|intros [s H]; discriminate H]|vm_compute; reflexivity]. Qed.

(** ** C112.  The DOS clock. *)

(** The reads of a call happen at instants that do not go backwards. *)
Definition reads (h : nat -> Z) (dates : nat -> dos_date) (times : nat -> dos_time) : Prop :=
  (forall i j, (i <= j)%nat -> h i <= h j) /\
  (forall i, date_at (h (3 * i)%nat) (dates (2 * i)%nat) /\ time_at (h (3 * i + 1)%nat) (times i) /\
             date_at (h (3 * i + 2)%nat) (dates (2 * i + 1)%nat)).
Lemma same_date_true a b : same_date a b = true <-> a = b.
Proof.
  destruct a as [a1 a2 a3 a4], b as [b1 b2 b3 b4]. unfold same_date. cbn [dd_day dd_month dd_year dd_dow].
  rewrite !andb_true_iff, !Z.eqb_eq. split; [intros [[[-> ->] ->] ->]; reflexivity|intros H; injection H as -> -> -> ->; auto].
Qed.
Lemma day_unique n m d : day_of n d -> day_of m d -> n = m.
Proof. intros A B. apply day_of_no in A, B. congruence. Qed.
Lemma dos_rounds_spec h dates times : reads h dates times -> forall fuel i,
  match dos_rounds fuel i dates times with
  | Value c => exists k, (i <= k < i + fuel)%nat /\ valid_date (civil_date c) /\ valid_time c /\ cv_tz c = 0 /\
      exists s, instant_of c s /\ s * 100 + cv_sub c / 10 ^ 17 = h (3 * k + 1)%nat /\ cv_sub c mod 10 ^ 17 = 0 /\ 0 <= cv_sub c < per_second
  | Error e => e = EINVAL /\ forall k, (i <= k < i + fuel)%nat -> dates (2 * k)%nat <> dates (2 * k + 1)%nat
  end.
Proof.
  intros [Hm Hr]. induction fuel as [|fuel IH]; intros i; cbn [dos_rounds].
  - split; [reflexivity|]. intros k Hk. lia.
  - destruct (same_date _ _) eqn:E.
    + apply same_date_true in E. destruct (Hr i) as ((D1 & _) & (T1 & T2 & T3 & T4 & T5) & (D2 & _)). rewrite <- E in D2.
      pose proof (day_unique _ _ _ D1 D2) as Eq. pose proof (Hm (3 * i)%nat (3 * i + 1)%nat ltac:(lia)) as M1. pose proof (Hm (3 * i + 1)%nat (3 * i + 2)%nat ltac:(lia)) as M2.
      set (h1 := h (3 * i + 1)%nat) in *.
      assert (Eq' : h (3 * i)%nat / 8640000 = h1 / 8640000).
      { pose proof (Z.div_le_mono _ _ 8640000 ltac:(lia) M1). pose proof (Z.div_le_mono _ _ 8640000 ltac:(lia) M2). lia. }
      rewrite Eq' in D1. rewrite sps. change (10000000000000000000 / 100) with 100000000000000000. change (10 ^ 17) with 100000000000000000.
      exists i. split; [lia|]. set (d := dates (2 * i)%nat) in *. set (t := times i) in *.
      assert (W : wrap 64 (dt_hsecond t * 100000000000000000) = dt_hsecond t * 100000000000000000) by (apply wrap_small; powers; lia).
      rewrite W. cbn [civil_date cv_year cv_month cv_day cv_hours cv_minutes cv_seconds cv_sub cv_tz].
      split; [exact (day_of_valid _ _ D1)|]. split; [split; [|split]; cbn [cv_hours cv_minutes cv_seconds]; assumption|]. split; [reflexivity|].
      exists (h1 / 8640000 * 86400 + dt_hour t * 3600 + dt_minute t * 60 + dt_second t). split.
      { exists (h1 / 8640000). split; [exact D1|]. cbn [cv_hours cv_minutes cv_seconds cv_tz]. lia. }
      rewrite Z.div_mul, Z.mod_mul by lia. pose proof (Z.div_mod h1 8640000 ltac:(lia)). rewrite pps. split; [lia|]. split; [reflexivity|lia].
    + specialize (IH (S i)). destruct (dos_rounds fuel (S i) dates times) as [c|e].
      * destruct IH as (k & K & R). exists k. split; [lia|exact R].
      * destruct IH as [-> IH]. split; [reflexivity|]. intros k Hk. destruct (Nat.eq_dec k i) as [->|N].
        -- intros Q. apply same_date_true in Q. rewrite Q in E. discriminate.
        -- apply IH. lia.
Qed.

(** Although the date and the time are read separately, whatever the clock does between the reads, the result is one instant,
    to the hundredth of a second, at which the time was read during the call: midnight cannot tear it. *)
Theorem C112_read_is_atomic : forall h dates times c, reads h dates times -> get_dos dates times = Value c ->
  valid_date (civil_date c) /\ valid_time c /\
  exists k s, instant_of c s /\ s * 100 + cv_sub c / 10 ^ 17 = h k /\ cv_sub c mod 10 ^ 17 = 0 /\ 0 <= cv_sub c < per_second.
Proof.
  intros h dates times c R E. pose proof (dos_rounds_spec h dates times R 100 0) as S. unfold get_dos in E. rewrite E in S.
  destruct S as (k & K & V & T & Z0 & s & I1 & I2 & I3 & I4). split; [exact V|]. split; [exact T|]. exists (3 * k + 1)%nat, s. auto.
Qed.
Print Assumptions C112_read_is_atomic.
(** It fails only if the day changed during each of a hundred attempts. *)
Theorem C112_read_fails_only : forall h dates times e, reads h dates times -> get_dos dates times = Error e ->
  e = EINVAL /\ h 0%nat + 99 * 8640000 < h 299%nat.
Proof.
  intros h dates times e R E. pose proof (dos_rounds_spec h dates times R 100 0) as Sp. unfold get_dos in E. rewrite E in Sp.
  destruct Sp as [-> Sp]. split; [reflexivity|]. destruct R as [Hm Hr].
  assert (A : forall k, (k < 100)%nat -> h (3 * k)%nat / 8640000 < h (3 * k + 2)%nat / 8640000).
  { intros k Hk. specialize (Sp k ltac:(lia)). destruct (Hr k) as ((D1 & W1) & _ & (D2 & W2)).
    pose proof (Z.div_le_mono _ _ 8640000 ltac:(lia) (Hm (3 * k)%nat (3 * k + 2)%nat ltac:(lia))) as L.
    destruct (Z.eq_dec (h (3 * k)%nat / 8640000) (h (3 * k + 2)%nat / 8640000)) as [Q|Q]; [|lia]. exfalso. apply Sp.
    rewrite <- Q in D2, W2. apply day_of_iff in D1, D2. destruct D1 as [V1 N1], D2 as [V2 N2].
    pose proof (day_no_inj _ _ V1 V2 (eq_trans N1 (eq_sym N2))) as X. pose proof (f_equal d_year X) as X1. pose proof (f_equal d_month X) as X2. pose proof (f_equal d_day X) as X3. cbn [d_year d_month d_day] in X1, X2, X3.
    apply same_date_true. unfold same_date. rewrite X1, X2, X3, W1, W2, !Z.eqb_refl. reflexivity. }
  assert (B : forall k, (k < 100)%nat -> h 0%nat / 8640000 + Z.of_nat k < h (3 * k + 2)%nat / 8640000).
  { induction k as [|k IH]; intros Hk.
    - specialize (A 0%nat ltac:(lia)). change (3 * 0)%nat with 0%nat in A. change (0 + 2)%nat with 2%nat in A. change (3 * 0 + 2)%nat with 2%nat. change (Z.of_nat 0) with 0. rewrite Z.add_0_r. exact A.
    - specialize (IH ltac:(lia)). specialize (A (S k) ltac:(lia)).
      pose proof (Z.div_le_mono _ _ 8640000 ltac:(lia) (Hm (3 * k + 2)%nat (3 * S k)%nat ltac:(lia))). lia. }
  specialize (B 99%nat ltac:(lia)). change (3 * 99 + 2)%nat with 299%nat in B.
  pose proof (Z.div_mod (h 0%nat) 8640000 ltac:(lia)). pose proof (Z.mod_pos_bound (h 0%nat) 8640000 ltac:(lia)).
  pose proof (Z.div_mod (h 299%nat) 8640000 ltac:(lia)). pose proof (Z.mod_pos_bound (h 299%nat) 8640000 ltac:(lia)). lia.
Qed.
Print Assumptions C112_read_fails_only.
(** The unix time made of it is exact, except in February of leap years: a day late. *)
Theorem C112_unix_partial : forall h dates times t, reads h dates times -> (forall i, 1970 <= dd_year (dates i) < 65536) ->
  get_dos_unix dates times = Done (Value t) ->
  exists k d, (exists i, dates i = d) /\ valid_stamp t /\
    stamp_value t = h k * (per_second / 100) + (if (dd_month d =? 2) && leap (dd_year d) then 86400 * per_second else 0).
Proof.
  intros h dates times t R Hy E. unfold get_dos_unix in E. destruct (get_dos dates times) as [c|] eqn:G; [|discriminate].
  pose proof (dos_rounds_spec h dates times R 100 0) as Sp. unfold get_dos in G. rewrite G in Sp.
  destruct Sp as (k & K & V & T & Z0 & s & I1 & I2 & I3 & I4).
  assert (Y : exists i, civil_date c = mk_date (dd_year (dates i)) (dd_month (dates i)) (dd_day (dates i))).
  { clear - G. assert (A : forall fuel j, dos_rounds fuel j dates times = Value c -> exists i, civil_date c = mk_date (dd_year (dates i)) (dd_month (dates i)) (dd_day (dates i))); [|exact (A _ _ G)].
    clear G. induction fuel as [|f IH]; intros j G; [discriminate G|]. cbn [dos_rounds] in G.
    destruct (same_date _ _); [|exact (IH _ G)]. exists (2 * j)%nat. set (w := wrap 64 _) in G. clearbody w.
    assert (c = mk_civil (dd_year (dates (2 * j)%nat)) (dd_month (dates (2 * j)%nat)) (dd_day (dates (2 * j)%nat)) (dt_hour (times j))
      (dt_minute (times j)) (dt_second (times j)) w 0) by congruence. subst c. reflexivity. }
  destruct Y as [i Y]. pose proof (f_equal d_year Y) as Y1. pose proof (f_equal d_month Y) as Y2. cbn [civil_date d_year d_month] in Y1, Y2.
  specialize (Hy i). destruct (C24_to_timestamp_partial c) as (n & In & Et).
  { unfold safe_year. rewrite Y1. lia. }
  { split; [exact V|]. split; [exact T|]. lia. }
  rewrite Et in E. cbn [obind] in E. rewrite (instant_unique c _ _ In I1) in E. exists (3 * k + 1)%nat, (dates i). split; [eauto|].
  assert (N : 0 <= s < 10 ^ 13).
  { destruct I1 as (dn & D & Es). apply day_of_no in D. destruct V as [V1 V2], T as (T1 & T2 & T3). cbn [civil_date d_year d_month d_day] in V1, V2, D.
    pose proof (month_days_range (cv_year c) (cv_month c)). pose proof (cum_range (cv_year c) (cv_month c) V1) as [C1 C2].
    assert (L : 0 <= leap_days (cv_year c) <= 1) by (unfold leap_days; destruct (leap _); lia).
    assert (Dn : 0 <= dn <= 366 * 66000).
    { unfold day_no in D. cbn [civil_date d_year d_month d_day] in D. pose proof (year_mono 1970 (cv_year c) ltac:(lia)) as Ya.
      pose proof (year_mono (cv_year c) 65536 ltac:(lia)) as Yb. change (year_start 1970) with 0 in Ya. change (year_start 65536) with 23217004 in Yb. lia. }
    change (10 ^ 13) with 10000000000000. rewrite Z0 in Es. lia. }
  assert (LM : late_month (cv_year c) (cv_month c) = (dd_month (dates i) =? 2) && leap (dd_year (dates i))).
  { unfold late_month. rewrite Y1, Y2. destruct (Z.ltb_spec (dd_year (dates i)) 0); [lia|]. reflexivity. }
  rewrite LM in E. destruct V as [V1 V2], T as (T1 & T2 & T3). cbn [civil_date cv_day d_day d_month d_year] in *.
  destruct (Z.ltb_spec (elapsed c) (cv_tz c)) as [L|L]; [exfalso; unfold elapsed in L; lia|].
  set (b := (dd_month (dates i) =? 2) && leap (dd_year (dates i))) in *. clearbody b.
  assert (Ht : t = mk_stamp (s + (if b then 86400 else 0) + 0) (cv_sub c)) by congruence. subst t.
  change (10 ^ 13) with 10000000000000 in N. change (10 ^ 17) with 100000000000000000 in *. rewrite pps in *. clear - N I2 I3 I4.
  pose proof (Z.div_mod (cv_sub c) 100000000000000000 ltac:(lia)) as Dm. rewrite I3 in Dm. change (10000000000000000000 / 100) with 100000000000000000.
  rewrite <- I2. unfold valid_stamp, stamp_value. cbn [ts_sec ts_sub]. rewrite pps. powers. split; [destruct b; lia|].
  destruct (Z.ltb_spec (s + (if b then 86400 else 0) + 0) 0); destruct b; lia.
Qed.
Print Assumptions C112_unix_partial.
Theorem C112_leap_february_refuted : exists h dates times, reads h dates times /\ (forall i, h i = 158289120000) /\ get_dos_unix dates times = Done (Value (mk_stamp (1582891200 + 86400) 0)).
Proof.
  exists (fun _ => 158289120000), (fun _ => mk_dos_date 28 2 2020 5), (fun _ => mk_dos_time 12 0 0 0).
  split; [|split; [reflexivity|vm_compute; reflexivity]]. split; [intros; lia|]. intros _.
  assert (date_at 158289120000 (mk_dos_date 28 2 2020 5)).
  { split; [apply day_of_iff; split; [split; vm_compute; split; congruence|vm_compute; reflexivity]|vm_compute; reflexivity]. }
  split; [assumption|]. split; [repeat split; vm_compute; congruence|assumption].
Qed.
Print Assumptions C112_leap_february_refuted.
(** Setting the clock never reports success, whatever DOS does. *)
Theorem C112_set_refuted : forall realtime t setdate settime reread errno,
  dos_clock_settime realtime t setdate settime reread errno <> Done (Value tt).
Proof.
  intros realtime t sd st rr e. unfold dos_clock_settime. destruct realtime; [|discriminate].
  destruct (set_dos t sd st rr e) as [[u|c]| |]; discriminate.
Qed.
Print Assumptions C112_set_refuted.
(** Nor would it if that were repaired, with a system that returns the day of the week with a date, except on Sundays. *)
Theorem C112_set_weekday_refuted : exists t, forall setdate settime errno,
  set_dos t setdate settime (fun _ => mk_dos_date 1 1 1970 4) errno <> Done (Value tt).
Proof.
  exists (mk_stamp 0 0). intros sd st e. unfold set_dos.
  replace (utc off_unix (mk_stamp 0 0)) with (Done (mk_civil 1970 1 1 0 0 0 0 0)) by (vm_compute; reflexivity).
  cbn [obind cv_year cv_day cv_month]. change ((65535 <? 1970) || (1970 <? 0)) with false. cbn iota. change (wrap 16 1970) with 1970.
  destruct (sd 0%nat); cbn [negb]; [|discriminate]. destruct (st 0%nat); cbn [negb]; [|discriminate].
  assert (A : forall fuel i, dos_check fuel i (mk_dos_date 1 1 1970 0) sd st (fun _ => mk_dos_date 1 1 1970 4) e <> Value tt).
  { induction fuel as [|f IH]; intros i; cbn [dos_check]; [discriminate|].
    change (same_date (mk_dos_date 1 1 1970 0) (mk_dos_date 1 1 1970 4)) with false. cbn iota.
    destruct (sd (S i)); cbn [negb]; [|discriminate]. destruct (st (S i)); cbn [negb]; [|discriminate]. apply IH. }
  intros Q. assert (dos_check 100 0 (mk_dos_date 1 1 1970 0) sd st (fun _ => mk_dos_date 1 1 1970 4) e = Value tt) by congruence. eapply A; eauto.
Qed.
Print Assumptions C112_set_weekday_refuted.
Example C112_case : let dates (i : nat) := match i with O => mk_dos_date 31 12 2020 4 | _ => mk_dos_date 1 1 2021 5 end in
  get_dos dates (fun i => match i with O => mk_dos_time 0 0 0 0 | _ => mk_dos_time 0 0 0 5 end) = Value (mk_civil 2021 1 1 0 0 0 (5 * 10 ^ 17) 0) /\
  (* the readings around midnight of 2020-12-31: the first pair straddles it *)
  date_at 160945919999 (dates 0%nat) /\ time_at 160945920000 (mk_dos_time 0 0 0 0) /\ date_at 160945920001 (dates 1%nat).
Proof.
  cbv zeta. split; [vm_compute; reflexivity|].
  split; [split; [apply day_of_iff; split; [split; vm_compute; split; congruence|vm_compute; reflexivity]|vm_compute; reflexivity]|].
  split; [repeat split; vm_compute; congruence|].
  split; [apply day_of_iff; split; [split; vm_compute; split; congruence|vm_compute; reflexivity]|vm_compute; reflexivity].
Qed.
