(** Calendar proofs: a closed form for day numbers, uniqueness, and the two conversions. *)
From Verif Require Import Base Outcome TimeSpec TimeModel.

Ltac Zify.zify_post_hook ::= Z.div_mod_to_equations.

(** Leap days before year [y] (floor division). *)
Definition leaps_before (y : Z) : Z := (y - 1) / 4 - (y - 1) / 100 + (y - 1) / 400.
Definition year_start (y : Z) : Z := 365 * y + leaps_before y - 719527.
Definition cum (y m : Z) : Z :=
  nth (Z.to_nat (m - 1)) [0; 31; 59; 90; 120; 151; 181; 212; 243; 273; 304; 334] 0
  + (if (2 <? m) && leap y then 1 else 0).
Definition day_no (d : date) : Z :=
  year_start (d_year d) + cum (d_year d) (d_month d) + d_day d - 1.

Lemma day_no_epoch : day_no (mk_date 1970 1 1) = 0.
Proof. reflexivity. Qed.

Lemma leap_true y : leap y = true <-> y mod 4 = 0 /\ (y mod 100 <> 0 \/ y mod 400 = 0).
Proof.
  unfold leap. destruct (Z.eqb_spec (y mod 4) 0), (Z.eqb_spec (y mod 100) 0), (Z.eqb_spec (y mod 400) 0);
    cbn; intuition congruence.
Qed.

Definition leap_days (y : Z) : Z := if leap y then 1 else 0.

Lemma leaps_step y : leaps_before (y + 1) = leaps_before y + leap_days y.
Proof.
  unfold leaps_before, leap_days. destruct (leap y) eqn:E.
  - apply leap_true in E. lia.
  - assert (N : ~ (y mod 4 = 0 /\ (y mod 100 <> 0 \/ y mod 400 = 0))).
    { rewrite <- leap_true. congruence. }
    lia.
Qed.

Lemma year_step y : year_start (y + 1) = year_start y + 365 + leap_days y.
Proof. unfold year_start. rewrite leaps_step. lia. Qed.

Lemma year_mono a b : a <= b -> year_start a <= year_start b.
Proof. unfold year_start, leaps_before. lia. Qed.

(** Months 1..12 by cases. *)
Lemma month_cases m : 1 <= m <= 12 ->
  m = 1 \/ m = 2 \/ m = 3 \/ m = 4 \/ m = 5 \/ m = 6 \/ m = 7 \/ m = 8 \/ m = 9 \/ m = 10 \/ m = 11 \/ m = 12.
Proof. lia. Qed.
Ltac months H := apply month_cases in H;
  destruct H as [->|[->|[->|[->|[->|[->|[->|[->|[->|[->|[->| ->]]]]]]]]]]].

Lemma cum_step y m : 1 <= m <= 11 -> cum y (m + 1) = cum y m + month_days y m.
Proof.
  intros H. assert (H' : 1 <= m <= 12) by lia.
  months H'; try (exfalso; lia); unfold cum, month_days; destruct (leap y); reflexivity.
Qed.
Lemma cum_1 y : cum y 1 = 0.
Proof. reflexivity. Qed.
Lemma cum_12 y : cum y 12 + month_days y 12 = 365 + leap_days y.
Proof. unfold cum, month_days, leap_days. cbn. destruct (leap y); reflexivity. Qed.
Lemma month_days_range y m : 28 <= month_days y m <= 31.
Proof. unfold month_days. destruct (_ =? 2); [destruct (leap y); lia|]. destruct (_ || _); lia. Qed.
Lemma cum_mono y m m' : 1 <= m -> m < m' -> m' <= 12 -> cum y m + month_days y m <= cum y m'.
Proof.
  intros H1 H2 H3. replace m' with (m + 1 + Z.of_nat (Z.to_nat (m' - m - 1))) in * by lia.
  revert H3. clear H2. induction (Z.to_nat (m' - m - 1)) as [|k IH]; intros H3.
  - rewrite Z.add_0_r, cum_step by lia. lia.
  - replace (m + 1 + Z.of_nat (S k)) with (m + 1 + Z.of_nat k + 1) in * by lia.
    rewrite cum_step by lia. pose proof (month_days_range y (m + 1 + Z.of_nat k)). lia.
Qed.
Lemma cum_range y m : 1 <= m <= 12 -> 0 <= cum y m /\ cum y m + month_days y m <= 365 + leap_days y.
Proof.
  intros H. split.
  - destruct (Z.eq_dec m 1) as [->|]; [rewrite cum_1; lia|].
    pose proof (cum_mono y 1 m). pose proof (month_days_range y 1). rewrite cum_1 in *. lia.
  - destruct (Z.eq_dec m 12) as [->|]; [rewrite cum_12; lia|].
    pose proof (cum_mono y m 12). pose proof (month_days_range y 12). pose proof (cum_12 y). lia.
Qed.

Lemma next_valid d : valid_date d -> valid_date (next_day d).
Proof.
  unfold valid_date, next_day. intros [H1 H2].
  destruct (Z.ltb_spec (d_day d) (month_days (d_year d) (d_month d))); cbn [d_year d_month d_day]; [lia|].
  destruct (Z.ltb_spec (d_month d) 12); cbn [d_year d_month d_day];
    pose proof month_days_range; (split; [lia|]).
  - specialize (H3 (d_year d) (d_month d + 1)). lia.
  - specialize (H3 (d_year d + 1) 1). lia.
Qed.

Lemma day_no_next d : valid_date d -> day_no (next_day d) = day_no d + 1.
Proof.
  unfold valid_date, next_day, day_no. intros [H1 H2].
  destruct (Z.ltb_spec (d_day d) (month_days (d_year d) (d_month d))); cbn [d_year d_month d_day]; [lia|].
  destruct (Z.ltb_spec (d_month d) 12); cbn [d_year d_month d_day].
  - rewrite cum_step by lia. lia.
  - replace (d_month d) with 12 in * by lia. rewrite year_step, cum_1.
    pose proof (cum_12 (d_year d)). lia.
Qed.

Lemma day_of_valid n d : day_of n d -> valid_date d.
Proof.
  induction 1; [|now apply next_valid|assumption]. unfold valid_date. cbn. lia.
Qed.
Lemma day_of_no n d : day_of n d -> day_no d = n.
Proof.
  induction 1 as [|n d H IH|n d V H IH]; [reflexivity| |].
  - rewrite day_no_next by (now apply day_of_valid in H). lia.
  - rewrite day_no_next in IH by assumption. lia.
Qed.

Lemma day_no_bounds d : valid_date d ->
  year_start (d_year d) <= day_no d < year_start (d_year d + 1).
Proof.
  intros [H1 H2]. unfold day_no. rewrite year_step. pose proof (cum_range (d_year d) (d_month d) H1). lia.
Qed.

Lemma day_no_inj a b : valid_date a -> valid_date b -> day_no a = day_no b -> a = b.
Proof.
  intros Va Vb E. pose proof (day_no_bounds a Va). pose proof (day_no_bounds b Vb).
  assert (Ey : d_year a = d_year b).
  { destruct (Z.lt_trichotomy (d_year a) (d_year b)) as [L|[L|L]]; [|assumption|];
      exfalso; [pose proof (year_mono (d_year a + 1) (d_year b))|pose proof (year_mono (d_year b + 1) (d_year a))]; lia. }
  destruct a as [y m d], b as [y' m' d']. cbn [d_year] in *. subst y'.
  unfold valid_date, day_no in *. cbn [d_year d_month d_day] in *.
  assert (Em : m = m').
  { destruct (Z.lt_trichotomy m m') as [L|[L|L]]; [|assumption|]; exfalso;
      [pose proof (cum_mono y m m')|pose proof (cum_mono y m' m)]; lia. }
  subst m'. f_equal. lia.
Qed.

Definition prev_day (d : date) : date :=
  if 1 <? d_day d then mk_date (d_year d) (d_month d) (d_day d - 1)
  else if 1 <? d_month d then mk_date (d_year d) (d_month d - 1) (month_days (d_year d) (d_month d - 1))
  else mk_date (d_year d - 1) 12 31.
Lemma prev_spec d : valid_date d -> valid_date (prev_day d) /\ next_day (prev_day d) = d.
Proof.
  destruct d as [y m d]. unfold valid_date, prev_day, next_day. cbn [d_year d_month d_day]. intros [H1 H2].
  destruct (Z.ltb_spec 1 d); cbn [d_year d_month d_day].
  - split; [lia|]. destruct (Z.ltb_spec (d - 1) (month_days y m)); [f_equal; lia|lia].
  - destruct (Z.ltb_spec 1 m); cbn [d_year d_month d_day].
    + pose proof (month_days_range y (m - 1)). split; [lia|].
      rewrite Z.ltb_irrefl. destruct (Z.ltb_spec (m - 1) 12); [f_equal; lia|lia].
    + split; [unfold month_days; cbn; lia|]. unfold month_days. cbn. f_equal; lia.
Qed.

Lemma day_of_total n : exists d, day_of n d.
Proof.
  assert (P : forall k, exists d, day_of (Z.of_nat k) d).
  { induction k as [|k [d H]]; [exists (mk_date 1970 1 1); constructor|].
    exists (next_day d). replace (Z.of_nat (S k)) with (Z.of_nat k + 1) by lia. now constructor. }
  assert (N : forall k, exists d, day_of (- Z.of_nat k) d).
  { induction k as [|k [d H]]; [exists (mk_date 1970 1 1); constructor|].
    destruct (prev_spec d (day_of_valid _ _ H)) as [V E].
    exists (prev_day d). replace (- Z.of_nat (S k)) with (- Z.of_nat k - 1) by lia.
    constructor; [assumption|]. now rewrite E. }
  destruct (Z_le_gt_dec 0 n).
  - destruct (P (Z.to_nat n)) as [d H]. exists d. now rewrite Z2Nat.id in H.
  - destruct (N (Z.to_nat (- n))) as [d H]. exists d. rewrite Z2Nat.id in H by lia.
    now replace (- - n) with n in H by lia.
Qed.

Lemma day_of_iff n d : day_of n d <-> valid_date d /\ day_no d = n.
Proof.
  split.
  - intros H. split; [eapply day_of_valid; eassumption|now apply day_of_no].
  - intros [V E]. destruct (day_of_total n) as [d' H].
    replace d with d'; [assumption|]. apply day_no_inj; [now apply day_of_valid in H|assumption|].
    rewrite E. now apply day_of_no.
Qed.

(** ** Seconds to calendar *)

Lemma floor_adj s k : 0 < k ->
  (if Z.rem s k <? 0 then (Z.quot s k - 1, Z.rem s k + k) else (Z.quot s k, Z.rem s k))
  = (s / k, s mod k).
Proof.
  intros K. destruct (Z.ltb_spec (Z.rem s k) 0).
  - assert (E : s = k * (Z.quot s k - 1) + (Z.rem s k + k)) by (pose proof (Z.quot_rem s k); nia).
    assert (B : 0 <= Z.rem s k + k < k) by (pose proof (Z.rem_bound_abs s k); lia).
    f_equal; [apply (Z.div_unique_pos s k (Z.quot s k - 1) (Z.rem s k + k) B E)
             |apply (Z.mod_unique_pos s k (Z.quot s k - 1) (Z.rem s k + k) B E)].
  - assert (E : s = k * Z.quot s k + Z.rem s k) by (pose proof (Z.quot_rem s k); nia).
    assert (B : 0 <= Z.rem s k < k) by (pose proof (Z.rem_bound_abs s k); lia).
    f_equal; [apply (Z.div_unique_pos s k (Z.quot s k) (Z.rem s k) B E)
             |apply (Z.mod_unique_pos s k (Z.quot s k) (Z.rem s k) B E)].
Qed.

(** The day number of March 1st of year [y]. *)
Definition march (y : Z) : Z := year_start (y + 1) - 306.

(** Decomposition of a day count from 2000-03-01 into a March year and a day in it. *)
Definition musl_year (D : Z) : Z * Z :=
  let qc := D / 146097 in
  let R := D mod 146097 in
  let c := if R / 36524 =? 4 then R / 36524 - 1 else R / 36524 in
  let R := R - c * 36524 in
  let q := if R / 1461 =? 25 then R / 1461 - 1 else R / 1461 in
  let R := R - q * 1461 in
  let r := if R / 365 =? 4 then R / 365 - 1 else R / 365 in
  (r + 4 * q + 100 * c + 400 * qc, R - r * 365).

Lemma musl_year_spec D : let '(Y, rd) := musl_year D in
  march (2000 + Y) + rd = D + 11017 /\ 0 <= rd <= 365 /\ (rd = 365 -> leap (2001 + Y) = true).
Proof.
  unfold musl_year.
  set (qc := D / 146097). set (R := D mod 146097).
  assert (HD : D = 146097 * qc + R) by (unfold qc, R; apply Z.div_mod; lia).
  assert (HR : 0 <= R < 146097) by (unfold R; apply Z.mod_pos_bound; lia).
  clearbody qc R. subst D.
  set (c := if R / 36524 =? 4 then R / 36524 - 1 else R / 36524).
  assert (Hc : 0 <= c <= 3 /\ 0 <= R - c * 36524 /\ (R - c * 36524 <= 36523 \/ (c = 3 /\ R - c * 36524 = 36524))).
  { unfold c. destruct (Z.eqb_spec (R / 36524) 4); lia. }
  clearbody c. set (R1 := R - c * 36524) in *.
  assert (ER : R = c * 36524 + R1) by (unfold R1; lia). clearbody R1. subst R. clear HR.
  set (q := if R1 / 1461 =? 25 then R1 / 1461 - 1 else R1 / 1461).
  assert (Hq : 0 <= q <= 24 /\ 0 <= R1 - q * 1461 <= 1460 /\ (q = 24 -> c <> 3 -> R1 - q * 1461 <= 1459)).
  { unfold q. destruct (Z.eqb_spec (R1 / 1461) 25); lia. }
  clearbody q. set (R2 := R1 - q * 1461) in *.
  assert (ER : R1 = q * 1461 + R2) by (unfold R2; lia). clearbody R2. subst R1.
  set (r := if R2 / 365 =? 4 then R2 / 365 - 1 else R2 / 365).
  assert (Hr : 0 <= r <= 3 /\ 0 <= R2 - r * 365 <= 365 /\ (R2 - r * 365 = 365 -> r = 3 /\ R2 = 1460)).
  { unfold r. destruct (Z.eqb_spec (R2 / 365) 4); lia. }
  clearbody r. set (rd := R2 - r * 365) in *.
  assert (ER : R2 = r * 365 + rd) by (unfold rd; lia). clearbody rd. subst R2.
  set (Y := r + 4 * q + 100 * c + 400 * qc).
  split; [|split; [lia|]].
  - unfold march, year_start, leaps_before.
    assert (E4 : (2000 + Y + 1 - 1) / 4 = 500 + q + 25 * c + 100 * qc) by (unfold Y; lia).
    assert (E100 : (2000 + Y + 1 - 1) / 100 = 20 + c + 4 * qc) by (unfold Y; lia).
    assert (E400 : (2000 + Y + 1 - 1) / 400 = 5 + qc) by (unfold Y; lia).
    rewrite E4, E100, E400. unfold Y. lia.
  - intros E. assert (r = 3) by lia. apply leap_true. subst r.
    assert (EY : 2001 + Y = 4 * (501 + q + 25 * c + 100 * qc)) by (unfold Y; lia).
    assert (A : q < 24 \/ (q = 24 /\ c = 3)) by lia.
    assert (Bq : 0 <= q) by lia. clear Hq Hc Hr. rewrite EY. clear EY Y.
    split; [lia|]. destruct A as [A|[-> ->]]; lia.
Qed.

Lemma month_loop_cons d tb m r :
  month_loop (d :: tb) m r = if d <=? r then month_loop tb (m + 1) (r - d) else Done (m, r).
Proof. reflexivity. Qed.

Lemma month_loop_spec rd : 0 <= rd <= 365 -> exists k r, month_loop days_in_month 0 rd = Done (k, r) /\
  0 <= k <= 11 /\ 0 <= r < nth (Z.to_nat k) days_in_month 0 /\
  rd = nth (Z.to_nat k) [0; 31; 61; 92; 122; 153; 184; 214; 245; 275; 306; 337] 0 + r.
Proof.
  intros H. unfold days_in_month at 1.
  do 12 (rewrite month_loop_cons;
    match goal with |- context [if ?a <=? ?b then _ else Done (?m, _)] => destruct (Z.leb_spec a b);
        [|let n := eval cbv in m in exists n, b; split; [reflexivity|split; [lia|split; (cbv [Z.to_nat Pos.to_nat Pos.iter_op Init.Nat.add nth days_in_month]; lia)]]]
    end).
  exfalso. lia.
Qed.

(** Date fields from a March year [2000+Y] and month index [k]. *)
Lemma cum_table y : cum y 1 = 0 /\ cum y 2 = 31 /\
  forall k, 0 <= k <= 9 -> cum y (k + 3) = 59 + leap_days y + nth (Z.to_nat k) [0; 31; 61; 92; 122; 153; 184; 214; 245; 275] 0.
Proof.
  split; [reflexivity|]. split; [reflexivity|]. intros k H.
  assert (K : k = 0 \/ k = 1 \/ k = 2 \/ k = 3 \/ k = 4 \/ k = 5 \/ k = 6 \/ k = 7 \/ k = 8 \/ k = 9) by lia.
  unfold cum, leap_days. destruct K as [->|[->|[->|[->|[->|[->|[->|[->|[->| ->]]]]]]]]]; destruct (leap y); reflexivity.
Qed.
Lemma days_table y k : 0 <= k <= 9 -> month_days y (k + 3) = nth (Z.to_nat k) days_in_month 0.
Proof.
  intros H.
  assert (K : k = 0 \/ k = 1 \/ k = 2 \/ k = 3 \/ k = 4 \/ k = 5 \/ k = 6 \/ k = 7 \/ k = 8 \/ k = 9) by lia.
  destruct K as [->|[->|[->|[->|[->|[->|[->|[->|[->| ->]]]]]]]]]; reflexivity.
Qed.
Lemma nth_firstn10 (l : list Z) k : 0 <= k <= 9 -> nth (Z.to_nat k) (firstn 10 l) 0 = nth (Z.to_nat k) l 0.
Proof.
  intros H. assert (J : (Z.to_nat k < 10)%nat) by lia.
  clear H. revert J. generalize (Z.to_nat k), 10%nat. intros n m. revert l n.
  induction m as [|m IH]; intros l n J; [lia|]. destruct l as [|x l]; [reflexivity|].
  destruct n as [|n]; [reflexivity|]. cbn. apply IH. lia.
Qed.

Lemma march_date Y k r rd :
  0 <= k <= 11 -> 0 <= r < nth (Z.to_nat k) days_in_month 0 ->
  rd = nth (Z.to_nat k) [0; 31; 61; 92; 122; 153; 184; 214; 245; 275; 306; 337] 0 + r ->
  rd <= 365 -> (rd = 365 -> leap (2001 + Y) = true) ->
  let d := if 10 <=? k then mk_date (2001 + Y) (k - 9) (r + 1)
           else mk_date (2000 + Y) (k + 3) (r + 1) in
  valid_date d /\ day_no d = march (2000 + Y) + rd.
Proof.
  intros Hk Hr Erd Hle Hleap.
  unfold march.
  assert (S1 : year_start (2000 + Y + 1) = year_start (2000 + Y) + 365 + leap_days (2000 + Y)) by apply year_step.
  replace (2000 + Y + 1) with (2001 + Y) in * by lia.
  destruct (Z.leb_spec 10 k); unfold valid_date, day_no; cbn [d_year d_month d_day].
  - assert (K : k = 10 \/ k = 11) by lia. destruct (cum_table (2001 + Y)) as [C1 [C2 _]].
    destruct K as [-> | ->]; cbv [Z.to_nat Pos.to_nat Pos.iter_op Init.Nat.add nth days_in_month] in Hr, Erd.
    + change (10 - 9) with 1. rewrite C1. change (month_days (2001 + Y) 1) with 31. lia.
    + change (11 - 9) with 2. rewrite C2.
      assert (M : month_days (2001 + Y) 2 = if leap (2001 + Y) then 29 else 28) by reflexivity.
      rewrite M. destruct (leap (2001 + Y)); [lia|].
      destruct (Z.eq_dec rd 365) as [E|E]; [specialize (Hleap E); discriminate|lia].
  - assert (K : 0 <= k <= 9) by lia. destruct (cum_table (2000 + Y)) as [_ [_ C]]. rewrite C by assumption.
    rewrite days_table by assumption.
    rewrite <- nth_firstn10 in Erd by assumption. cbn [firstn] in Erd. lia.
Qed.

Lemma wrap_small w x : 0 <= x < 2 ^ w -> wrap w x = x.
Proof. intros H. unfold wrap. now apply Z.mod_small. Qed.

Lemma day_entry_bound k : nth (Z.to_nat k) days_in_month 0 <= 31.
Proof.
  assert (A : Forall (fun x => x <= 31) days_in_month) by (repeat constructor; discriminate).
  destruct (nth_in_or_default (Z.to_nat k) days_in_month 0) as [I|E]; [|rewrite E; lia].
  rewrite Forall_forall in A. exact (A _ I).
Qed.

Theorem to_iso8601_spec s f tz : - 2 ^ 63 <= s < 2 ^ 63 -> - 2 ^ 63 <= s - leapoch ->
  exists c, to_iso8601 s f tz = Done c /\ valid_date (civil_date c) /\
    day_no (civil_date c) = s / 86400 /\ valid_time c /\
    cv_hours c * 3600 + cv_minutes c * 60 + cv_seconds c = s mod 86400 /\
    cv_sub c = f /\ cv_tz c = tz.
Proof.
  intros Hs Hl. unfold to_iso8601, sub_overflow.
  destruct (Z.leb_spec (- 2 ^ 63) (s - leapoch)); [|lia].
  destruct (Z.ltb_spec (s - leapoch) (2 ^ 63)); [|unfold leapoch, y2k in *; lia].
  cbn [andb obind]. rewrite floor_adj by lia.
  set (D := (s - leapoch) / 86400). set (T := (s - leapoch) mod 86400).
  assert (ED : s / 86400 = D + 11017) by (unfold D, leapoch, y2k; lia).
  assert (ET : s mod 86400 = T) by (unfold T, leapoch, y2k; lia).
  assert (HT : 0 <= T < 86400) by (unfold T; apply Z.mod_pos_bound; lia).
  assert (HD : - 200000000000000 <= D <= 200000000000000) by (unfold D, leapoch, y2k in *; lia).
  clearbody D T.
  change days_per_400_year with 146097. change days_per_100_year with 36524.
  change days_per_4_year with 1461.
  rewrite floor_adj by lia.
  assert (NR : 0 <= D mod 146097) by (apply Z.mod_pos_bound; lia).
  pose proof (musl_year_spec D) as M. unfold musl_year in M.
  rewrite (Z.quot_div_nonneg (D mod 146097) 36524) by lia.
  set (c := if D mod 146097 / 36524 =? 4 then _ else _) in *.
  assert (Hc : 0 <= D mod 146097 - c * 36524).
  { unfold c. destruct (Z.eqb_spec (D mod 146097 / 36524) 4); lia. }
  set (R1 := D mod 146097 - c * 36524) in *.
  rewrite (Z.quot_div_nonneg R1 1461) by lia.
  set (q := if R1 / 1461 =? 25 then _ else _) in *.
  assert (Hq : 0 <= R1 - q * 1461).
  { unfold q. destruct (Z.eqb_spec (R1 / 1461) 25); lia. }
  set (R2 := R1 - q * 1461) in *.
  rewrite (Z.quot_div_nonneg R2 365) by lia.
  set (r := if R2 / 365 =? 4 then _ else _) in *.
  set (Y := r + 4 * q + 100 * c + 400 * (D / 146097)) in *. set (rd := R2 - r * 365) in *.
  clearbody rd Y. clear r R2 q R1 c Hc Hq NR.
  destruct M as [M1 [M2 M3]].
  destruct (month_loop_spec rd M2) as (k & e & EL & K1 & K2 & K3). rewrite EL. cbn [obind].
  pose proof (march_date Y k e rd K1 K2 K3 (proj2 M2) M3) as [V N].
  pose proof (day_entry_bound k) as B31.
  assert (HY : - 1000000000000 <= Y <= 1000000000000).
  { unfold march, year_start, leaps_before in M1. lia. }
  rewrite (Z.quot_div_nonneg T 3600), (Z.quot_div_nonneg T 60) by lia.
  rewrite (Z.rem_mod_nonneg T 60), (Z.rem_mod_nonneg (T / 60) 60) by lia.
  assert (F : forall y m, - 2 ^ 63 <= y < 2 ^ 63 -> 0 <= m < 256 ->
     (let! year := int64 y in
      Done (mk_civil year (wrap 8 m) (wrap 8 (e + 1)) (wrap 8 (T / 3600))
         (wrap 8 ((T / 60) mod 60)) (wrap 8 (T mod 60)) f tz))
     = Done (mk_civil y m (e + 1) (T / 3600) ((T / 60) mod 60) (T mod 60) f tz)).
  { intros y m Hy Hm. unfold int64, signed_result.
    change (64 - 1) with 63.
    destruct (Z.leb_spec (- 2 ^ 63) y); [|lia]. destruct (Z.ltb_spec y (2 ^ 63)); [|lia].
    cbn [andb obind]. rewrite !wrap_small by (change (2 ^ 8) with 256; lia). reflexivity. }
  destruct (Z.leb_spec 10 k).
  - eexists. split.
    + replace (wrap 8 (wrap 8 (k - 12) + 3)) with (wrap 8 (k - 9)).
      2:{ unfold wrap. rewrite Zplus_mod_idemp_l. f_equal. lia. }
      apply F; lia.
    + unfold civil_date. cbn [cv_year cv_month cv_day cv_hours cv_minutes cv_seconds cv_sub cv_tz].
      replace (Y + 1 + 2000) with (2001 + Y) by lia.
      split; [exact V|]. split; [rewrite N; lia|].
      split; [unfold valid_time; cbn [cv_year cv_month cv_day cv_hours cv_minutes cv_seconds cv_sub cv_tz]; lia|].
      split; [lia|]. split; reflexivity.
  - eexists. split.
    + apply F; lia.
    + unfold civil_date. cbn [cv_year cv_month cv_day cv_hours cv_minutes cv_seconds cv_sub cv_tz].
      replace (Y + 2000) with (2000 + Y) by lia.
      split; [exact V|]. split; [rewrite N; lia|].
      split; [unfold valid_time; cbn [cv_year cv_month cv_day cv_hours cv_minutes cv_seconds cv_sub cv_tz]; lia|].
      split; [lia|]. split; reflexivity.
Qed.

(** ** Calendar to seconds *)

(** The dates for which year_month_to_seconds is one day late. *)
Definition late_month (y m : Z) : bool :=
  if y <? 0 then (m =? 2) || ((2 <? m) && negb (leap y)) else (m =? 2) && leap y.

Lemma quot_floor y k : 0 < k -> Z.quot y k = if y <? 0 then - (- y / k) else y / k.
Proof.
  intros K. destruct (Z.ltb_spec y 0).
  - rewrite <- (Z.opp_involutive y) at 1. rewrite Z.quot_opp_l by lia.
    rewrite Z.quot_div_nonneg by lia. reflexivity.
  - apply Z.quot_div_nonneg; lia.
Qed.
Lemma rem_zero y k : 0 < k -> (Z.rem y k =? 0) = (y mod k =? 0).
Proof.
  intros K. destruct (Z.eqb_spec (Z.rem y k) 0) as [E|E], (Z.eqb_spec (y mod k) 0) as [F|F]; try reflexivity; exfalso.
  - apply Z.rem_divide in E; [|lia]. apply Z.mod_divide in E; lia.
  - apply Z.mod_divide in F; [|lia]. apply Z.rem_divide in F; lia.
Qed.

Lemma leap_code y : (Z.rem y 400 =? 0) || ((Z.rem y 4 =? 0) && negb (Z.rem y 100 =? 0)) = leap y.
Proof.
  rewrite !rem_zero by lia. unfold leap.
  destruct (Z.eqb_spec (y mod 4) 0), (Z.eqb_spec (y mod 100) 0), (Z.eqb_spec (y mod 400) 0); try reflexivity; exfalso; lia.
Qed.

Lemma int64_ok x : - 2 ^ 63 <= x < 2 ^ 63 -> int64 x = Done x.
Proof.
  intros H. unfold int64, signed_result. change (64 - 1) with 63.
  destruct (Z.leb_spec (- 2 ^ 63) x); [|lia]. now destruct (Z.ltb_spec x (2 ^ 63)); [|lia].
Qed.

Definition safe_year (y : Z) : Prop := - 292277022000 <= y <= 292277024000.

Lemma ym_spec y m : safe_year y -> 1 <= m <= 12 ->
  year_month_to_seconds y m
  = Done (86400 * (day_no (mk_date y m 1) + (if late_month y m then 1 else 0))).
Proof.
  intros Hy Hm. unfold year_month_to_seconds, safe_year in *.
  change (Z.quot (- 2 ^ 63) (365 * 86400)) with (-292471208677).
  change (Z.quot (2 ^ 63 - 1) (365 * 86400)) with 292471208677.
  destruct (Z.leb_spec y (-292471208677)); [lia|]. destruct (Z.leb_spec 292471208677 y); [lia|].
  cbn [orb]. rewrite leap_code. rewrite (wrap_small 8 (m - 1)) by (change (2 ^ 8) with 256; lia).
  destruct (Z.ltb_spec 11 (m - 1)); [lia|].
  set (L := Z.quot y 4 + (Z.quot y 400 - Z.quot y 100)).
  assert (HL : L = if y <? 0 then leaps_before y + 1 else leaps_before (y + 1)).
  { unfold L. rewrite !quot_floor by lia. unfold leaps_before. clear L.
    destruct (Z.ltb_spec y 0); lia. }
  clearbody L.
  assert (HS : day_no (mk_date y m 1) = 365 * y + leaps_before y - 719527 + cum y m) by (unfold day_no, year_start; cbn [d_year d_month d_day]; lia).
  pose proof (leaps_step y) as LS.
  assert (HLb : - 100000000000 <= L <= 100000000000).
  { subst L. destruct (y <? 0); unfold leaps_before in *; lia. }
  set (t := nth (Z.to_nat (m - 1)) secs_through_month 0).
  assert (Ht : t = 86400 * (cum y m - (if (2 <? m) && leap y then 1 else 0))).
  { unfold t, cum, secs_through_month. rewrite (map_nth (fun d => d * 86400) _ 0 (Z.to_nat (m - 1)) : nth _ _ 0 = _). cbv beta. lia. }
  assert (Htb : 0 <= t <= 334 * 86400).
  { rewrite Ht. pose proof (cum_range y m Hm). pose proof (month_days_range y m). unfold leap_days in *.
    clear - Hm. unfold cum. rewrite Z.add_simpl_r. months Hm; split; discriminate. }
  clearbody t.
  set (t' := if negb (m - 1 =? 0) || _ then _ else _).
  assert (Ht' : t' = t + (if negb (m - 1 =? 0) || (0 <=? y) && negb (leap y) then 86400 else 0)).
  { unfold t'. destruct (_ || _); [|lia]. apply wrap_small. lia. }
  clearbody t'.
  assert (Hb : 0 <= t' <= 400 * 86400) by (rewrite Ht'; destruct (_ || _); lia).
  assert (Q : - 2 ^ 63 <= (365 * y + L) * 86400 < 2 ^ 63 /\ - 2 ^ 63 <= (365 * y + L) * 86400 - 62167219200 < 2 ^ 63 - 400 * 86400).
  { subst L. destruct (Z.ltb_spec y 0); unfold leaps_before in *; lia. }
  rewrite int64_ok by lia. cbn [obind]. rewrite int64_ok by lia. cbn [obind].
  rewrite int64_ok by lia. cbn [obind]. rewrite int64_ok by lia. cbn [obind].
  rewrite int64_ok by lia. f_equal. rewrite Ht', HS, Ht.
  clear Q Hb Htb Ht HLb Ht' HS t t'.
  unfold late_month, leap_days in *. generalize dependent (leaps_before (y + 1)).
  generalize dependent (leaps_before y). generalize (cum y m). intros.
  destruct (leap y), (Z.ltb_spec y 0), (Z.leb_spec 0 y), (Z.eqb_spec (m - 1) 0), (Z.eqb_spec m 2), (Z.ltb_spec 2 m);
    cbn [negb orb andb]; lia.
Qed.

(** Field ranges assumed of a civil time handed to to_timestamp; the offset is int32. *)
Definition field_ranges (c : civil) : Prop :=
  valid_date (civil_date c) /\ valid_time c /\ - 2 ^ 31 <= cv_tz c < 2 ^ 31.

(** Seconds elapsed since the start of the month, local time. *)
Definition elapsed (c : civil) : Z :=
  (cv_day c - 1) * 86400 + cv_hours c * 3600 + cv_minutes c * 60 + cv_seconds c.

Lemma to_timestamp_spec c : safe_year (cv_year c) -> field_ranges c ->
  exists n, instant_of c n /\
  to_timestamp c = Done (mk_stamp
     (n + (if late_month (cv_year c) (cv_month c) then 86400 else 0)
        + (if elapsed c <? cv_tz c then 2 ^ 32 else 0)) (cv_sub c)).
Proof.
  intros Hy ((Hm & Hd) & (Hh & Hmi & Hs) & Htz). cbn [civil_date d_year d_month d_day] in *.
  pose proof (month_days_range (cv_year c) (cv_month c)) as R31.
  exists (day_no (civil_date c) * 86400 + cv_hours c * 3600 + cv_minutes c * 60 + cv_seconds c - cv_tz c).
  split.
  { exists (day_no (civil_date c)). split; [|reflexivity]. apply day_of_iff. split; [split; assumption|reflexivity]. }
  unfold to_timestamp. rewrite ym_spec by assumption. cbn [obind].
  rewrite (wrap_small 32 (cv_day c - 1)) by (change (2 ^ 32) with 4294967296; lia).
  rewrite (wrap_small 32 (_ * 86400 + _)) by (change (2 ^ 32) with 4294967296; lia).
  rewrite (wrap_small 32 (_ + _ * 60)) by (change (2 ^ 32) with 4294967296; lia).
  rewrite (wrap_small 32 (_ + cv_seconds c)) by (change (2 ^ 32) with 4294967296; lia).
  fold (elapsed c).
  assert (Eb : 0 <= elapsed c < 31 * 86400) by (unfold elapsed; lia).
  assert (EU : wrap 32 (elapsed c - wrap 32 (cv_tz c)) = elapsed c - cv_tz c + (if elapsed c <? cv_tz c then 2 ^ 32 else 0)).
  { unfold wrap. rewrite Zminus_mod_idemp_r. change (2 ^ 32) with 4294967296 in *. change (2 ^ 31) with 2147483648 in *.
    destruct (Z.ltb_spec (elapsed c) (cv_tz c)); lia. }
  rewrite EU.
  assert (DN : day_no (civil_date c) = day_no (mk_date (cv_year c) (cv_month c) 1) + (cv_day c - 1)).
  { unfold day_no, civil_date. cbn [d_year d_month d_day]. lia. }
  rewrite int64_ok.
  - cbn [obind]. f_equal. f_equal. rewrite DN. unfold elapsed. destruct (late_month _ _); lia.
  - assert (- 106751991100000 <= day_no (mk_date (cv_year c) (cv_month c) 1) <= 106751990400000 ).
    { unfold day_no, year_start, leaps_before. cbn [d_year d_month d_day].
      pose proof (cum_range (cv_year c) (cv_month c) Hm). unfold leap_days, safe_year in *. destruct (leap _); lia. }
    change (2 ^ 31) with 2147483648 in *. change (2 ^ 32) with 4294967296 in *.
    destruct (late_month _ _), (elapsed c <? cv_tz c); lia.
Qed.

Lemma instant_unique c n n' : instant_of c n -> instant_of c n' -> n = n'.
Proof.
  intros [d [H ->]] [d' [H' ->]]. apply day_of_no in H, H'. lia.
Qed.

(** ** Day of the week *)
Lemma weekday_sum_spec y m d x : 0 <= y < 2 ^ 63 -> 0 <= nth (Z.to_nat m) c_weekday_tb 0 <= 6 -> 0 <= d < 256 -> 0 <= x <= 6 ->
  weekday_sum y m d x = y + leaps_before (y + 1) + nth (Z.to_nat m) c_weekday_tb 0 + d + x.
Proof.
  intros Hy Hn Hd Hx. unfold weekday_sum. rewrite !Z.quot_div_nonneg by lia.
  unfold leaps_before. replace (y + 1 - 1) with y by lia.
  change (2 ^ 63) with 9223372036854775808 in *.
  rewrite !(wrap_small 64) by (change (2 ^ 64) with 18446744073709551616; try rewrite !wrap_small by (change (2 ^ 64) with 18446744073709551616; lia); lia).
  lia.
Qed.

Lemma weekday_shift d x : valid_date d -> 1 <= d_year d < 2 ^ 63 -> 0 <= x <= 6 ->
  (let '(y, m) := weekday_args (d_year d) (d_month d) in weekday_sum y m (d_day d) x) mod 7
  = (day_no d + 4 + x) mod 7.
Proof.
  intros [Hm Hd] Hy Hx. unfold weekday_args.
  pose proof (month_days_range (d_year d) (d_month d)).
  rewrite (wrap_small 8 (d_month d - 1)) by (change (2 ^ 8) with 256; lia).
  destruct (cum_table (d_year d)) as (C1 & C2 & C3). unfold day_no.
  destruct (Z.ltb_spec (d_month d - 1) 2) as [L|L].
  - assert (TS : to_signed 64 (d_year d - 1) = d_year d - 1).
    { unfold to_signed. change (64 - 1) with 63. rewrite wrap_small by (change (2 ^ 64) with 18446744073709551616; lia).
      destruct (Z.ltb_spec (d_year d - 1) (2 ^ 63)); lia. }
    assert (M : d_month d = 1 \/ d_month d = 2) by lia.
    rewrite TS, weekday_sum_spec; [|lia| |lia|lia].
    2:{ destruct M as [-> | ->]; split; vm_compute; discriminate. }
    replace (d_year d - 1 + 1) with (d_year d) by lia. unfold year_start.
    assert (W : nth (Z.to_nat (d_month d - 1)) c_weekday_tb 0 = cum (d_year d) (d_month d) mod 7).
    { destruct M as [E|E]; rewrite E; [rewrite C1|rewrite C2]; reflexivity. }
    rewrite W. generalize (leaps_before (d_year d)) (cum (d_year d) (d_month d)). intros. lia.
  - destruct (Z.ltb_spec 11 (d_month d - 1)); [lia|].
    rewrite weekday_sum_spec; [|lia| |lia|lia].
    2:{ months Hm; split; vm_compute; discriminate. }
    rewrite leaps_step. replace (d_month d) with (d_month d - 3 + 3) by lia.
    rewrite C3 by lia. unfold year_start.
    assert (W : (nth (Z.to_nat (d_month d - 3 + 3 - 1)) c_weekday_tb 0 - nth (Z.to_nat (d_month d - 3))
          [0; 31; 61; 92; 122; 153; 184; 214; 245; 275] 0) mod 7 = 2).
    { clear - Hm L. revert Hm L. generalize (d_month d). intros mm Hm L.
      months Hm; try (exfalso; lia); reflexivity. }
    revert W. generalize (nth (Z.to_nat (d_month d - 3 + 3 - 1)) c_weekday_tb 0).
    generalize (nth (Z.to_nat (d_month d - 3)) [0; 31; 61; 92; 122; 153; 184; 214; 245; 275] 0).
    generalize (leaps_before (d_year d)) (leap_days (d_year d)). intros. lia.
Qed.
