(** dragonbox_main on double: what the returned decimal satisfies. *)
From Verif Require Import Base Outcome IntrinModel FloatTables FloatModel FloatCertProofs FloatDragonProofs FloatCodeProofs.

Lemma fits32_signed x : fits32 x = true -> signed_result 32 x = Done x.
Proof. unfold fits32, signed_result. change (32 - 1) with 31. intros ->. reflexivity. Qed.

Record facts64 (e2 k b P D hi lo : Z) : Prop := mk_facts64
  { f_b : 6 <= b <= 9;
    f_l2 : mul_ln2_div_ln10_floor e2 = Done (2 - k);
    f_l10 : mul_ln10_div_ln2_floor k = Done (b - e2);
    f_pw : compute_pow10_float64 k = Done (hi, lo);
    f_hi : 0 <= hi < 2 ^ 64;
    f_lo : 0 <= lo < 2 ^ 64;
    f_delta : Z.shiftr hi (63 - b) = 2 * P / D;
    f_same : forall n, 0 < n < 2 ^ 54 -> n * P / D = n * (hi * 2 ^ 64 + lo) / 2 ^ (128 - b);
    f_wlo : 100 * D <= 2 * P;
    f_wlo' : e2 <> 0 -> 100 * D < 2 * P;
    f_whi : 2 * P < 1000 * D;
    f_end : (e2 < -2 -> 0 <= k /\ e2 - 1 + k < 0) /\
            (-2 <= e2 <= 9 -> 0 <= k /\ 0 <= e2 - 1 + k) /\
            (9 < e2 <= 86 -> -23 <= k <= 0 /\ 0 <= e2 - 1 + k) /\
            (86 < e2 -> k <= -24 /\ 0 <= e2 - 1 + k);
    f_mid : -4 <= e2 -> -1 <= e2 - 1 + k;
    f_k : -292 <= k <= 326 }.

Lemma get_facts64 e2 : -1074 <= e2 <= 971 ->
  exists hi lo, let k := kof 2 e2 in let b := betaof k e2 in
    facts64 e2 k b (fnum e2 k) (fden e2 k) hi lo.
Proof.
  intros H. destruct (check64_all e2 H) as (c & C). pose proof (same64 e2) as SM. cbv zeta in SM.
  pose proof C as C0. unfold check64 in C. cbv zeta in C.
  cbv zeta. pose proof (fden_pos e2 (kof 2 e2)) as D0.
  set (k := kof 2 e2) in *. set (b := betaof k e2) in *.
  set (P := fnum e2 k) in *. set (D := fden e2 k) in *.
  rewrite !andb_true_iff in C. destruct C as [[[[[[[C1 C2] C3] C4] C5] C8] C9] C10].
  destruct (nth_error pow10_float64_tb (Z.to_nat (k + 292))) as [[hi lo]|] eqn:T; [|discriminate].
  destruct (SM hi lo c C0 eq_refl) as (Same & W1 & W2 & W3). clear SM C0.
  rewrite !andb_true_iff in C8. destruct C8 as [[[[T1 T2] T3] T4] _].
  rewrite Z.leb_le in *. rewrite Z.ltb_lt in *.
  exists hi, lo. constructor.
  - lia.
  - unfold mul_ln2_div_ln10_floor. rewrite (fits32_signed _ C1). cbn [obind]. f_equal. unfold k, kof. lia.
  - unfold mul_ln10_div_ln2_floor. rewrite (fits32_signed _ C2). cbn [obind]. f_equal. unfold b, betaof. lia.
  - unfold compute_pow10_float64, tb_at. destruct (Z.ltb_spec (k + 292) 0); [lia|]. rewrite T. reflexivity.
  - lia.
  - lia.
  - rewrite (Same 2) by lia. rewrite Z.shiftr_div_pow2 by lia.
    replace (2 ^ (128 - b)) with (2 * (2 ^ 64 * 2 ^ (63 - b))).
    2: { rewrite <- (Z.pow_add_r 2 64 (63 - b)) by lia. change 2 with (2 ^ 1) at 1. rewrite <- Z.pow_add_r by lia. f_equal. lia. }
    rewrite Z.div_mul_cancel_l by (try apply Z.neq_mul_0; try split; try (apply Z.pow_nonzero; lia); lia).
    rewrite <- Z.div_div by (try (apply Z.pow_nonzero; lia); apply Z.pow_pos_nonneg; lia).
    f_equal. apply (Z.div_unique_pos _ _ hi lo); lia.
  - exact Same.
  - exact W1.
  - exact W2.
  - exact W3.
  - clear C10.
    destruct (Z.ltb_spec e2 (-2)) as [L1|L1].
    { rewrite andb_true_iff, Z.leb_le, Z.ltb_lt in C9. repeat split; intros; lia. }
    destruct (Z.leb_spec e2 9) as [L2|L2].
    { rewrite andb_true_iff, !Z.leb_le in C9. repeat split; intros; lia. }
    destruct (Z.leb_spec e2 86) as [L3|L3].
    { rewrite !andb_true_iff, !Z.leb_le in C9. repeat split; intros; lia. }
    rewrite !andb_true_iff, !Z.leb_le in C9. repeat split; intros; lia.
  - intros L. destruct (Z.leb_spec (-4) e2); [|lia]. cbn [implb] in C10. apply Z.leb_le in C10. assumption.
  - assert (Ln : (Z.to_nat (k + 292) < length pow10_float64_tb)%nat) by (apply nth_error_Some; congruence).
    change (length pow10_float64_tb) with 619%nat in Ln. lia.
Qed.

Lemma divide_mod n D : 0 < D -> ((D | n) <-> n mod D = 0).
Proof. intros H. split; intros X; [apply Z.mod_divide; [lia|assumption]|apply Z.mod_divide in X; [assumption|lia]]. Qed.

Lemma Done_eqb (x : Z) (Q : Prop) b : (Q <-> x = 0) -> (b = true <-> Q) -> Done b = Done (x =? 0).
Proof.
  intros H1 H2. f_equal. destruct (Z.eqb_spec x 0) as [E|E].
  - apply H2, H1. assumption.
  - destruct b; [|reflexivity]. elim E. apply H1, H2. reflexivity.
Qed.

Lemma half_bounds d : 2 * (d / 2) <= d < 2 * (d / 2) + 2.
Proof. pose proof (Z.div_mod d 2 ltac:(lia)). pose proof (Z.mod_pos_bound d 2 ltac:(lia)). lia. Qed.

Section Body64.
Variables (m2 e2 : Z).
Hypothesis Hm : 1 <= m2 < 2 ^ 53.
Hypothesis He : -1074 <= e2 <= 971.
Variables (hi lo : Z).
Let k := kof 2 e2.
Let b := betaof k e2.
Let P := fnum e2 k.
Let D := fden e2 k.
Hypothesis F : facts64 e2 k b P D hi lo.

Lemma end_point64 n : 0 < n < 2 ^ 54 -> Z.odd n = true ->
  is_integral_end_point n e2 (- k) = Done (n * P mod D =? 0).
Proof.
  intros Hn O. pose proof (fden_pos e2 k) as D0. destruct F as [_ _ _ _ _ _ _ _ _ _ _ (E1 & E2 & E3 & E4) _ Kr].
  unfold is_integral_end_point.
  destruct (Z.ltb_spec e2 (-2)) as [L1|L1].
  { apply Done_eqb with (Q := (D | n * P)); [apply divide_mod; assumption|].
    split; [discriminate|]. intros X. elim (integral_never2 e2 k n); try (apply E1; lia); assumption. }
  destruct (Z.leb_spec e2 9) as [L2|L2].
  { apply Done_eqb with (Q := (D | n * P)); [apply divide_mod; assumption|].
    split; [intros _|reflexivity]. apply integral_always; apply E2; lia. }
  destruct (Z.leb_spec e2 86) as [L3|L3].
  { destruct E3 as [K S]; [lia|]. rewrite wrap_id by lia. rewrite multiple5_64 by lia.
    apply Done_eqb with (Q := (D | n * P)); [apply divide_mod; assumption|].
    rewrite Z.eqb_eq. unfold D, P. rewrite integral_five by lia. symmetry. apply divide_mod.
    apply Z.pow_pos_nonneg; lia. }
  apply Done_eqb with (Q := (D | n * P)); [apply divide_mod; assumption|].
  split; [discriminate|]. intros X. destruct E4 as [K S]; [lia|].
  unfold D, P in X. rewrite integral_five in X by lia. apply Z.divide_pos_le in X; [|lia].
  assert (5 ^ 24 <= 5 ^ (- k)) by (apply Z.pow_le_mono_r; lia).
  assert (2 ^ 54 < 5 ^ 24) by reflexivity. lia.
Qed.

Lemma mid_point64 : is_integral_mid_point (2 * m2) e2 (- k) = Done (2 * m2 * P mod D =? 0).
Proof.
  pose proof (fden_pos e2 k) as D0. destruct F as [_ _ _ _ _ _ _ _ _ _ _ (E1 & E2 & E3 & E4) M Kr].
  unfold is_integral_mid_point.
  destruct (Z.ltb_spec e2 (-4)) as [L1|L1].
  { destruct E1 as [K S]; [lia|]. set (j := - k - e2 + 1).
    assert (T : Done (2 * m2 mod 2 ^ j =? 0) = Done (2 * m2 * P mod D =? 0)).
    { apply Done_eqb with (Q := (D | 2 * m2 * P)); [apply divide_mod; assumption|].
      rewrite Z.eqb_eq. unfold D, P. rewrite integral_two by lia.
      replace (- (e2 - 1 + k)) with j by (unfold j; lia). symmetry. apply divide_mod. apply Z.pow_pos_nonneg; lia. }
    rewrite <- T. unfold multiple_of_pow2. destruct (Z.ltb_spec j 64) as [L|L].
    - rewrite wrap_id by lia. unfold multiple_of_pow2_unchecked.
      rewrite ushl_one by lia. cbn [obind]. f_equal.
      rewrite wrap_id. 2: { assert (0 < 2 ^ j) by (apply Z.pow_pos_nonneg; lia).
        assert (2 ^ j < 2 ^ 64) by (apply Z.pow_lt_mono_r; lia). lia. }
      replace (2 ^ j - 1) with (Z.ones j) by (rewrite Z.ones_equiv; lia).
      rewrite Z.land_ones by lia. reflexivity.
    - f_equal. symmetry. apply Z.eqb_neq. rewrite Z.mod_small; [lia|].
      assert (2 ^ 64 <= 2 ^ j) by (apply Z.pow_le_mono_r; lia). lia. }
  destruct (Z.leb_spec e2 9) as [L2|L2].
  { apply Done_eqb with (Q := (D | 2 * m2 * P)); [apply divide_mod; assumption|].
    split; [intros _|reflexivity]. apply integral_even; [|apply M; lia].
    destruct (Z_lt_le_dec e2 (-2)); [apply E1|apply E2]; lia. }
  destruct (Z.leb_spec e2 86) as [L3|L3].
  { destruct E3 as [K S]; [lia|]. rewrite wrap_id by lia. rewrite multiple5_64 by lia.
    apply Done_eqb with (Q := (D | 2 * m2 * P)); [apply divide_mod; assumption|].
    rewrite Z.eqb_eq. unfold D, P. rewrite integral_five by lia. symmetry. apply divide_mod.
    apply Z.pow_pos_nonneg; lia. }
  apply Done_eqb with (Q := (D | 2 * m2 * P)); [apply divide_mod; assumption|].
  split; [discriminate|]. intros X. destruct E4 as [K S]; [lia|].
  unfold D, P in X. rewrite integral_five in X by lia. apply Z.divide_pos_le in X; [|lia].
  assert (5 ^ 24 <= 5 ^ (- k)) by (apply Z.pow_le_mono_r; lia).
  assert (2 ^ 54 < 5 ^ 24) by reflexivity. lia.
Qed.
(** What dragonbox_main returns: a multiple of 1000 (times 10^-k) in the interval, or there is
    none, and the closest multiple of 100. *)
Definition main_spec (k kappa A P D s : Z) (even : bool) (res : Z * Z) : Prop :=
  (snd res = kappa + 1 - k /\ inI A P D even (fst res * (10 * s))) \/
  (snd res = kappa - k /\ noneB A P D even (10 * s) /\ rounded A P D even s (fst res)).

Lemma body64_right : e2 <> 0 -> exists res,
  dragonbox_main64_body m2 e2 = Done res /\
  main_spec k 2 (2 * m2 * P) P D 100 (Z.even m2) res /\ 0 < fst res < 2 ^ 60.
Proof.
  intros NZ. pose proof (fden_pos e2 k) as D0. pose proof (fnum_pos e2 k) as P0.
  fold P in P0. fold D in D0.
  pose proof (end_point64 (2 * m2 + 1)) as EU. pose proof (end_point64 (2 * m2 - 1)) as EL.
  pose proof mid_point64 as MP.
  destruct F as [Hb L2 L10 PW Hhi Hlo DE SA W1 W1' W2 _ _ _].
  specialize (W1' NZ).
  unfold dragonbox_main64_body. rewrite L2. cbn [obind]. cbv zeta.
  replace (- (2 - k - 2)) with k by lia. replace (2 - k - 2) with (- k) by lia.
  rewrite L10. cbn [obind]. rewrite PW. cbn [obind]. cbv beta iota zeta.
  replace (e2 + (b - e2)) with b by lia.
  unfold ushr at 1. destruct (Z.leb_spec 0 (63 - b)); [|lia]. destruct (Z.ltb_spec (63 - b) 64); [|lia].
  cbn [andb obind]. rewrite DE.
  set (A := 2 * m2 * P).
  set (delta := 2 * P / D).
  assert (Delta : delta * D <= 2 * P < (delta + 1) * D) by (apply div_char; [assumption|reflexivity]).
  assert (dr : 100 <= delta < 1000) by (split; nia).
  rewrite (wrap_id 32 delta) by lia.
  rewrite (Z.shiftl_mul_pow2 m2 1) by lia. change (2 ^ 1) with 2.
  rewrite (wrap_id 64 (m2 * 2)) by lia. replace (m2 * 2) with (2 * m2) by ring.
  rewrite (wrap_id 64 (2 * m2 - 1)), (wrap_id 64 (2 * m2 + 1)) by lia.
  assert (pb : 2 ^ b <= 2 ^ 9) by (apply Z.pow_le_mono_r; lia).
  assert (pb0 : 0 < 2 ^ b) by (apply Z.pow_pos_nonneg; lia).
  unfold ushl at 1. destruct (Z.leb_spec 0 b); [|lia]. destruct (Z.ltb_spec b 64); [|lia].
  cbn [andb obind]. rewrite Z.shiftl_mul_pow2 by lia.
  rewrite (wrap_id 64 ((2 * m2 + 1) * 2 ^ b)) by nia.
  rewrite mulshift64_spec by nia.
  assert (ZE : (2 * m2 + 1) * 2 ^ b * (hi * 2 ^ 64 + lo) / 2 ^ 128 = (2 * m2 + 1) * P / D).
  { rewrite SA by lia.
    replace (2 ^ 128) with (2 ^ (128 - b) * 2 ^ b) by (rewrite <- Z.pow_add_r by lia; f_equal; lia).
    replace ((2 * m2 + 1) * 2 ^ b * (hi * 2 ^ 64 + lo)) with ((2 * m2 + 1) * (hi * 2 ^ 64 + lo) * 2 ^ b) by ring.
    apply Z.div_mul_cancel_r; [apply Z.pow_nonzero; lia|lia]. }
  rewrite ZE. set (zi := (2 * m2 + 1) * P / D).
  assert (Zi : zi * D <= A + P < (zi + 1) * D).
  { replace (A + P) with ((2 * m2 + 1) * P) by (unfold A; ring). apply div_char; [assumption|reflexivity]. }
  change (1000 / 10) with 100. change (100 / 2) with 50.
  set (q := zi / 1000). set (r := zi mod 1000).
  assert (Rr : 0 <= r < 1000) by (apply Z.mod_pos_bound; lia).
  assert (Zq : zi = 1000 * q + r) by (apply Z.div_mod; lia).
  rewrite (wrap_id 32 r) by lia.
  assert (zlo : 100 <= zi). { assert (3 * P <= A + P) by (unfold A; nia). nia. }
  assert (zhi : zi < 2 ^ 54 * 500) by (unfold A in Zi; nia).
  assert (q0 : 0 <= q) by lia.
  (* the floors of the lower end and of the middle *)
  set (xfl := (2 * m2 - 1) * P / D).
  assert (Xfl : xfl * D <= A - P < (xfl + 1) * D).
  { replace (A - P) with ((2 * m2 - 1) * P) by (unfold A; ring). apply div_char; [assumption|reflexivity]. }
  set (yfl := 2 * m2 * P / D).
  assert (Yfl : yfl * D <= A < (yfl + 1) * D) by (unfold A; apply div_char; [assumption|reflexivity]).
  assert (Pfl : (delta / 2) * D <= P < (delta / 2 + 1) * D).
  { assert (E : delta / 2 = P / D).
    { unfold delta. rewrite Z.div_div by lia. rewrite (Z.mul_comm D 2). apply Z.div_mul_cancel_l; lia. }
    rewrite E. apply div_char; [assumption|reflexivity]. }
  set (pfl := delta / 2) in *.
  assert (pr : 50 <= pfl < 500) by (split; nia).
  rewrite (parity64_spec (2 * m2 - 1)) by lia.
  rewrite <- !SA by lia. fold xfl.
  rewrite EU by (try (rewrite Z.odd_add, Z.odd_mul; reflexivity); lia).
  rewrite EL by (try (rewrite Z.odd_sub, Z.odd_mul; reflexivity); lia).
  clear EU EL.
  assert (EV : (Z.land m2 1 =? 0) = Z.even m2).
  { rewrite <- (negb_involutive (Z.land m2 1 =? 0)), land1_odd. apply Z.negb_odd. }
  rewrite EV.
  assert (UP : (((2 * m2 + 1) * P) mod D =? 0) = (zi * D =? A + P)).
  { assert (X : (2 * m2 + 1) * P mod D = A + P - zi * D) by (unfold zi, A; rewrite Z.mod_eq by lia; ring).
    rewrite X. destruct (Z.eqb_spec (A + P - zi * D) 0), (Z.eqb_spec (zi * D) (A + P)); lia. }
  assert (LO : (((2 * m2 - 1) * P) mod D =? 0) = (xfl * D =? A - P)).
  { assert (X : (2 * m2 - 1) * P mod D = A - P - xfl * D) by (unfold xfl, A; rewrite Z.mod_eq by lia; ring).
    rewrite X. destruct (Z.eqb_spec (A - P - xfl * D) 0), (Z.eqb_spec (xfl * D) (A - P)); lia. }
  assert (MI : ((2 * m2 * P) mod D =? 0) = (yfl * D =? A)).
  { assert (X : 2 * m2 * P mod D = A - yfl * D) by (unfold yfl, A; rewrite Z.mod_eq by lia; ring).
    rewrite X. destruct (Z.eqb_spec (A - yfl * D) 0), (Z.eqb_spec (yfl * D) A); lia. }
  rewrite UP, LO.
  (* the small branch, for the quotient and remainder it is entered with *)
  assert (SM : forall q1 r1, zi = 1000 * q1 + r1 -> delta <= r1 <= 1000 -> 0 <= q1 ->
    noneB A P D (Z.even m2) 1000 -> exists res,
    dragonbox_small64 (2 * m2) delta lo hi b e2 (- k) q1 r1 = Done res /\
    main_spec k 2 A P D 100 (Z.even m2) res /\ 0 < fst res < 2 ^ 60).
  { intros q1 r1 Z1 R1 Q1 NB. unfold dragonbox_small64. cbv zeta.
    change (100 / 2) with 50. fold pfl.
    rewrite (wrap_id 64 (q1 * 10)) by nia.
    assert (dl : 2 * pfl <= delta < 2 * pfl + 2) by (unfold pfl; apply half_bounds).
    rewrite (wrap_id 32 (r1 - pfl + 50)) by lia.
    set (dist := r1 - pfl + 50). set (dq := dist / 100).
    assert (Dq : 100 * dq <= dist < 100 * dq + 100).
    { pose proof (Z.div_mod dist 100 ltac:(lia)) as J. pose proof (Z.mod_pos_bound dist 100 ltac:(lia)). fold dq in J. lia. }
    assert (dr2 : 100 <= dist <= 1000) by (unfold dist; lia).
    assert (dqr : 1 <= dq <= 10) by lia.
    rewrite (wrap_id 32 (dq * 100)) by lia.
    rewrite (wrap_id 64 (q1 * 10 + dq)) by nia.
    set (Q := q1 * 10 + dq).
    assert (HQ : Q * 100 <= zi - pfl + 50 < (Q + 1) * 100) by (unfold Q, dist in *; lia).
    assert (EQ : (dist =? dq * 100) = (Q * 100 =? zi - pfl + 50)).
    { unfold Q, dist in *. destruct (Z.eqb_spec (r1 - pfl + 50) (dq * 100)), (Z.eqb_spec ((q1 * 10 + dq) * 100) (zi - pfl + 50)); lia. }
    rewrite EQ. clear EQ.
    assert (R : forall down : bool,
       (Q * 100 = zi - pfl + 50 -> down = (negb (yfl =? zi - pfl) || (Z.odd Q && (yfl * D =? A)))%bool) ->
       (Q * 100 <> zi - pfl + 50 -> down = false) ->
       main_spec k 2 A P D 100 (Z.even m2) (if down then Q - 1 else Q, - k + 2) /\
       0 < fst (if down then Q - 1 else Q, - k + 2) < 2 ^ 60).
    { intros down J1 J2. split.
      - right. cbn [fst snd]. split; [lia|]. split; [exact NB|].
        apply (rounding_right A P D (Z.even m2) 50 100) with (zi := zi) (yfl := yfl) (pfl := pfl); try assumption; try lia.
      - cbn [fst]. assert (J3 : 1 < Q \/ down = false).
        { destruct (Z.eq_dec (Q * 100) (zi - pfl + 50)); [|right; auto].
          destruct (Z.eq_dec Q 1) as [E1|]; [|left; lia]. right. rewrite J1 by assumption.
          assert (zi - pfl = 50) by lia.
          exfalso. assert (2 * P <= A) by (clear - P0 Hm; unfold A; nia). nia. }
        assert (zi - pfl + 50 < 2 ^ 60 * 50) by lia.
        destruct down; [destruct J3; [|discriminate]|]; unfold Q in *; lia. }
    destruct (Z.eqb_spec (Q * 100) (zi - pfl + 50)) as [E|E].
    - rewrite (parity64_spec (2 * m2)) by lia. rewrite <- SA by lia. fold yfl. cbn [obind].
      assert (Yc : yfl = zi - pfl \/ yfl = zi - pfl - 1) by (apply (yfl_cases A P D); assumption).
      assert (Par : Z.odd dist = Z.odd (zi - pfl)).
      { replace dist with (zi - pfl + 2 * (25 - 500 * q1)) by (unfold dist; lia). rewrite Z.odd_add, Z.odd_mul. cbn [Z.odd andb]. apply xorb_false_r. }
      rewrite land1_odd, Par.
      assert (PE : negb (Bool.eqb (Z.odd yfl) (Z.odd (zi - pfl))) = negb (yfl =? zi - pfl)).
      { destruct Yc as [-> | ->]; [rewrite Z.eqb_refl, eqb_reflx; reflexivity|].
        destruct (Z.eqb_spec (zi - pfl - 1) (zi - pfl)); [lia|].
        rewrite Z.odd_sub. destruct (Z.odd (zi - pfl)); reflexivity. }
      rewrite PE. rewrite land1_odd. rewrite MP, MI.
      assert (OB : obool_or (negb (yfl =? zi - pfl)) (obool_and (Z.odd Q) (Done (yfl * D =? A))) =
        Done (negb (yfl =? zi - pfl) || (Z.odd Q && (yfl * D =? A)))%bool).
      { destruct (yfl =? zi - pfl); cbn; [|reflexivity]. destruct (Z.odd Q); reflexivity. }
      rewrite OB. cbn [obind].
      set (down := (negb (yfl =? zi - pfl) || (Z.odd Q && (yfl * D =? A)))%bool).
      destruct (R down (fun _ => eq_refl) (fun N => False_ind _ (N E))) as [R2 R3].
      exists (if down then Q - 1 else Q, - k + 2). split; [|split; assumption].
      destruct down; [rewrite wrap_id by (cbn [fst] in R3; lia)|]; reflexivity.
    - destruct (R false (fun X => False_ind _ (E X)) (fun _ => eq_refl)) as [R2 R3].
      exists (Q, - k + 2). split; [reflexivity|]. split; assumption. }
  assert (BIG : inI A P D (Z.even m2) (q * 1000) -> exists res, Done (q, - k + 2 + 1) = Done res /\
    main_spec k 2 A P D 100 (Z.even m2) res /\ 0 < fst res < 2 ^ 60).
  { intros I. exists (q, - k + 2 + 1). split; [reflexivity|]. split.
    - left. cbn [fst snd]. split; [lia|]. exact I.
    - cbn [fst]. split; [|lia]. unfold inI in I. assert (P <= A - P) by (clear - P0 Hm; unfold A; nia).
      assert (J : 0 < q * (1000 * D)) by lia. clear - J D0. nia. }
  destruct (Z.ltb_spec r delta) as [L|L].
  - assert (UPP : obool_and (negb (negb (r =? 0) || Z.even m2)) (Done (zi * D =? A + P)) =
      Done ((r =? 0) && negb (Z.even m2) && (zi * D =? A + P))%bool).
    { destruct (r =? 0), (Z.even m2); reflexivity. }
    rewrite UPP. cbn [obind].
    destruct ((r =? 0) && negb (Z.even m2) && (zi * D =? A + P))%bool eqn:U; cbn [negb].
    + rewrite !andb_true_iff, negb_true_iff, !Z.eqb_eq in U. destruct U as [[U1 U2] U3].
      assert (q1 : 1 <= q) by lia.
      rewrite (wrap_id 64 (q - 1)) by lia.
      apply SM; try lia.
      rewrite U2. apply (refuse_lower A P D false 50 100 1000) with (zi := zi) (q := q) (r := r); try assumption; try lia.
    + apply BIG.
      apply (take_lower A P D (Z.even m2) 50 100 1000) with (zi := zi) (delta := delta) (r := r); try assumption; try lia.
      destruct (Z.eqb_spec r 0); [|left; assumption]. destruct (Z.even m2); [right; left; reflexivity|].
      destruct (Z.eqb_spec (zi * D) (A + P)); [discriminate|right; right; assumption].
  - destruct (Z.eqb_spec r delta) as [E|E].
    + assert (LOW : obool_and (Z.even m2) (Done (xfl * D =? A - P)) = Done (Z.even m2 && (xfl * D =? A - P))%bool)
        by (destruct (Z.even m2); reflexivity).
      rewrite LOW. cbn [obind].
      assert (INS : obool_or (Z.even m2 && (xfl * D =? A - P))%bool (Done (Z.odd xfl)) =
        Done (Z.even m2 && (xfl * D =? A - P) || Z.odd xfl)%bool) by (destruct (Z.even m2 && (xfl * D =? A - P))%bool; reflexivity).
      rewrite INS. cbn [obind].
      destruct (Z.even m2 && (xfl * D =? A - P) || Z.odd xfl)%bool eqn:U.
      * apply BIG. apply (take_equal A P D (Z.even m2) 50 100 1000) with (zi := zi) (delta := delta) (r := r) (xfl := xfl); try assumption; try lia.
        rewrite orb_true_iff, andb_true_iff, Z.eqb_eq in U. tauto.
      * apply SM; try lia.
        rewrite orb_false_iff, andb_false_iff, Z.eqb_neq in U. destruct U as [U1 U2].
        apply (refuse_equal A P D (Z.even m2) 50 100 1000) with (zi := zi) (delta := delta) (q := q) (r := r) (xfl := xfl); try assumption; try lia.
    + apply SM; try lia.
      apply (refuse_above A P D (Z.even m2) 50 100 1000) with (zi := zi) (delta := delta) (q := q) (r := r) (xfl := xfl); try assumption; try lia.
Qed.
End Body64.
