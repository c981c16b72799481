(** Double-word division by a double word. *)
From Verif Require Import Base Outcome TimeSpec TimeModel IntrinModel Leb128Proofs IntrinProofs IntrinDivProofs.

Definition double w (low high : Z) : Z := high * 2 ^ w + low.

Lemma pow2w w : 0 <= w -> 2 ^ (2 * w) = 2 ^ w * 2 ^ w.
Proof. intros. rewrite <- Z.pow_add_r by lia. f_equal; lia. Qed.

Lemma diff2 w a0 a1 b0 b1 c : 1 <= w -> 0 <= a0 < 2 ^ w -> 0 <= a1 < 2 ^ w -> 0 <= b0 < 2 ^ w -> 0 <= b1 < 2 ^ w ->
  exists r0 c0 r1 k, diff_with_borrow w a0 b0 c = (r0, c0) /\ diff_with_borrow w a1 b1 c0 = (r1, k) /\
    0 <= r0 < 2 ^ w /\ 0 <= r1 < 2 ^ w /\
    double w r0 r1 = double w a0 a1 - double w b0 b1 - Z.b2z c + Z.b2z k * 2 ^ (2 * w) /\
    k = (double w a0 a1 - double w b0 b1 - Z.b2z c <? 0).
Proof.
  intros Hw A0 A1 B0 B1. unfold diff_with_borrow. eexists _, _, _, _. split; [reflexivity|]. split; [reflexivity|].
  rewrite !diff_wrap by assumption. unfold double. rewrite pow2w by lia. pose proof (b2z_range c).
  generalize dependent (Z.b2z c). intros c' Hc. set (B := 2 ^ w) in *. clearbody B.
  destruct (Z.ltb_spec (a0 - b0 - c') 0) as [L|L]; cbn [Z.b2z].
  - destruct (Z.ltb_spec (a1 - b1 - 1) 0) as [L2|L2]; cbn [Z.b2z]; (split; [lia|]); (split; [lia|]); (split; [ring|]).
    + symmetry. apply Z.ltb_lt. assert ((a1 - b1) * B <= 0 * B) by (apply Z.mul_le_mono_nonneg_r; lia). lia.
    + symmetry. apply Z.ltb_ge. assert (1 * B <= (a1 - b1) * B) by (apply Z.mul_le_mono_nonneg_r; lia). lia.
  - destruct (Z.ltb_spec (a1 - b1 - 0) 0) as [L2|L2]; cbn [Z.b2z]; (split; [lia|]); (split; [lia|]); (split; [ring|]).
    + symmetry. apply Z.ltb_lt. assert ((a1 - b1) * B <= (-1) * B) by (apply Z.mul_le_mono_nonneg_r; lia). lia.
    + symmetry. apply Z.ltb_ge. assert (0 * B <= (a1 - b1) * B) by (apply Z.mul_le_mono_nonneg_r; lia). lia.
Qed.

Lemma sum2 w a0 a1 b0 b1 c : 1 <= w -> 0 <= a0 < 2 ^ w -> 0 <= a1 < 2 ^ w -> 0 <= b0 < 2 ^ w -> 0 <= b1 < 2 ^ w ->
  exists r0 c0 r1 k, sum_with_carry w a0 b0 c = (r0, c0) /\ sum_with_carry w a1 b1 c0 = (r1, k) /\
    0 <= r0 < 2 ^ w /\ 0 <= r1 < 2 ^ w /\
    double w r0 r1 = double w a0 a1 + double w b0 b1 + Z.b2z c - Z.b2z k * 2 ^ (2 * w).
Proof.
  intros Hw A0 A1 B0 B1. unfold sum_with_carry. eexists _, _, _, _. split; [reflexivity|]. split; [reflexivity|].
  rewrite !sum_wrap by assumption. unfold double. rewrite pow2w by lia. pose proof (b2z_range c).
  generalize dependent (Z.b2z c). intros c' Hc. set (B := 2 ^ w) in *. clearbody B.
  destruct (Z.ltb_spec (a0 + b0 + c') B) as [L|L], (Z.leb_spec B (a0 + b0 + c')) as [L'|L']; try lia; cbn [Z.b2z].
  - destruct (Z.ltb_spec (a1 + b1 + 0) B) as [L2|L2], (Z.leb_spec B (a1 + b1 + 0)) as [L3|L3]; try lia; cbn [Z.b2z]; (split; [lia|]); (split; [lia|]); ring.
  - destruct (Z.ltb_spec (a1 + b1 + 1) B) as [L2|L2], (Z.leb_spec B (a1 + b1 + 1)) as [L3|L3]; try lia; cbn [Z.b2z]; (split; [lia|]); (split; [lia|]); ring.
Qed.

Lemma double_range w a0 a1 : 0 <= w -> 0 <= a0 < 2 ^ w -> 0 <= a1 < 2 ^ w -> 0 <= double w a0 a1 < 2 ^ (2 * w).
Proof. intros. rewrite pow2w by assumption. unfold double. nia. Qed.

(** Any double word is the pair of its halves. *)
Lemma double_parts w a0 a1 : 0 <= a0 < 2 ^ w -> double w a0 a1 mod 2 ^ w = a0 /\ double w a0 a1 / 2 ^ w = a1.
Proof.
  intros H. unfold double. split.
  - rewrite Z.add_comm, Z_mod_plus_full. apply Z.mod_small. exact H.
  - rewrite Z.div_add_l by lia. rewrite Z.div_small by exact H. lia.
Qed.

Lemma half_pow w : 1 <= w -> 2 ^ w = 2 * 2 ^ (w - 1).
Proof. intros. rewrite <- Z.pow_succ_r by lia. f_equal; lia. Qed.

Lemma shiftright1 w d0 d1 : 2 <= w -> 0 <= d0 < 2 ^ w -> 0 <= d1 < 2 ^ w ->
  0 <= shiftright w d0 d1 1 < 2 ^ w /\ 0 <= Z.shiftr d1 1 < 2 ^ w /\
  double w (shiftright w d0 d1 1) (Z.shiftr d1 1) = double w d0 d1 / 2.
Proof.
  intros Hw H0 H1. unfold shiftright. change (1 =? 0) with false. cbv iota.
  rewrite Z.shiftl_mul_pow2, !Z.shiftr_div_pow2 by lia. change (2 ^ 1) with 2.
  pose proof (half_pow w ltac:(lia)) as HP.
  assert (P : 0 < 2 ^ (w - 1)) by (apply pow_pos; lia).
  pose proof (Z.div_mod d1 2 ltac:(lia)). pose proof (Z.mod_pos_bound d1 2 ltac:(lia)).
  pose proof (Z.div_mod d0 2 ltac:(lia)). pose proof (Z.mod_pos_bound d0 2 ltac:(lia)).
  assert (E : wrap w (d1 * 2 ^ (w - 1)) = (d1 mod 2) * 2 ^ (w - 1)).
  { rewrite (wrap_eq w _ (- (d1 / 2))); [rewrite HP; nia|]. rewrite HP. nia. }
  rewrite E. rewrite lor_pack by lia. unfold double.
  set (P' := 2 ^ (w - 1)) in *. clearbody P'. rewrite HP in *.
  set (x1 := d1 / 2) in *. set (y1 := d1 mod 2) in *. set (x0 := d0 / 2) in *. set (y0 := d0 mod 2) in *. clearbody x1 y1 x0 y0.
  assert (0 <= y1 * P' <= P') by nia.
  split; [lia|]. split; [lia|]. subst d1 d0.
  apply (Z.div_unique_pos _ 2 _ y0); [lia|]. ring.
Qed.

Lemma land_mask w x (c : bool) : 1 <= w -> 0 <= x < 2 ^ w ->
  Z.land x (wrap w (0 - Z.b2z c)) = if c then x else 0.
Proof.
  intros Hw Hx. destruct c; cbn [Z.b2z].
  - rewrite (wrap_eq w _ 1) by (pose proof (two_le w Hw); lia). replace (0 - 1 + 1 * 2 ^ w) with (2 ^ w - 1) by lia.
    rewrite low_bits by lia. apply Z.mod_small. exact Hx.
  - change (0 - 0) with 0. unfold wrap. rewrite Z.mod_0_l by (pose proof (two_le w Hw); lia). apply Z.land_0_r.
Qed.

Lemma udivmod_step_ok w n0 n1 d0 d1 q : 2 <= w -> 0 <= n0 < 2 ^ w -> 0 <= n1 < 2 ^ w -> 0 <= d0 < 2 ^ w -> 0 <= d1 < 2 ^ w -> 0 <= q < 2 ^ w ->
  exists m0 m1 e0 e1, udivmod_step w (n0, n1, d0, d1, q) =
      (m0, m1, e0, e1, wrap w (2 * q + Z.b2z (double w d0 d1 <=? double w n0 n1))) /\
    0 <= m0 < 2 ^ w /\ 0 <= m1 < 2 ^ w /\ 0 <= e0 < 2 ^ w /\ 0 <= e1 < 2 ^ w /\
    double w m0 m1 = double w n0 n1 - Z.b2z (double w d0 d1 <=? double w n0 n1) * double w d0 d1 /\
    double w e0 e1 = double w d0 d1 / 2.
Proof.
  intros Hw N0 N1 D0 D1 Q. unfold udivmod_step.
  rewrite subc_ok by (assumption || lia).
  destruct (diff2 w n0 n1 d0 d1 false ltac:(lia) N0 N1 D0 D1) as [r0 [c0 [r1 [k [E0 [E1 [R0 [R1 [ER Ek]]]]]]]]].
  rewrite E0. rewrite subc_ok by (assumption || lia). rewrite E1.
  rewrite !land_mask by (assumption || lia). rewrite addc_ok by (assumption || lia).
  cbn [Z.b2z] in ER, Ek.
  set (t0 := if k then d0 else 0). set (t1 := if k then d1 else 0).
  assert (T0 : 0 <= t0 < 2 ^ w) by (unfold t0; destruct k; lia).
  assert (T1 : 0 <= t1 < 2 ^ w) by (unfold t1; destruct k; lia).
  unfold sum_with_carry at 1.
  rewrite addc_ok by (assumption || lia).
  destruct (sum2 w r0 r1 t0 t1 false ltac:(lia) R0 R1 T0 T1) as [m0 [c1 [m1 [k2 [F0 [F1 [M0 [M1 EM]]]]]]]].
  rewrite F0. rewrite addc_ok by (assumption || lia). rewrite F1.
  destruct (shiftright1 w d0 d1 Hw D0 D1) as [S0 [S1 ES]].
  exists m0, m1, (shiftright w d0 d1 1), (Z.shiftr d1 1).
  assert (EB : negb k = (double w d0 d1 <=? double w n0 n1)).
  { rewrite Ek. destruct (Z.ltb_spec (double w n0 n1 - double w d0 d1 - 0) 0), (Z.leb_spec (double w d0 d1) (double w n0 n1)); cbn; lia || reflexivity. }
  split.
  { rewrite <- EB. unfold wrap. do 2 f_equal. lia. }
  do 4 (split; [assumption|]). split; [|exact ES].
  rewrite <- EB. clear EB.
  pose proof (double_range w n0 n1 ltac:(lia) N0 N1). pose proof (double_range w m0 m1 ltac:(lia) M0 M1).
  pose proof (double_range w d0 d1 ltac:(lia) D0 D1). pose proof (double_range w r0 r1 ltac:(lia) R0 R1).
  assert (ET : double w t0 t1 = if k then double w d0 d1 else 0) by (unfold t0, t1; destruct k; [reflexivity|unfold double; lia]).
  rewrite ET in EM. clear ET t0 t1 T0 T1 F0 F1. cbn [Z.b2z] in EM.
  destruct k; cbn [negb Z.b2z] in *; destruct k2; cbn [Z.b2z] in *; lia.
Qed.

Lemma wrap_mul_add w x y z : 0 <= w -> wrap w (wrap w x * y + z) = wrap w (x * y + z).
Proof.
  intros Hw. unfold wrap. pose proof (pow_pos w Hw).
  rewrite <- Z.add_mod_idemp_l by lia. rewrite Z.mul_mod_idemp_l by lia. rewrite Z.add_mod_idemp_l by lia. reflexivity.
Qed.

Lemma udivmod_loop_ok w d n : 2 <= w -> 0 < d -> forall n0 n1 d0 d1 q,
  0 <= n0 < 2 ^ w -> 0 <= n1 < 2 ^ w -> 0 <= d0 < 2 ^ w -> 0 <= d1 < 2 ^ w -> 0 <= q < 2 ^ w ->
  double w d0 d1 = d * 2 ^ Z.of_nat n -> double w n0 n1 < 2 * double w d0 d1 ->
  exists m0 m1 e0 e1, udivmod_loop (S n) w (n0, n1, d0, d1, q) =
     (m0, m1, e0, e1, wrap w (q * 2 ^ Z.of_nat (S n) + double w n0 n1 / d)) /\
     0 <= m0 < 2 ^ w /\ 0 <= m1 < 2 ^ w /\ double w m0 m1 = double w n0 n1 mod d.
Proof.
  intros Hw Hd. induction n as [|n IH]; intros n0 n1 d0 d1 q N0 N1 D0 D1 Q ED HN.
  - cbn [udivmod_loop]. destruct (udivmod_step_ok w n0 n1 d0 d1 q Hw N0 N1 D0 D1 Q) as [m0 [m1 [e0 [e1 [E [M0 [M1 [_ [_ [EM _]]]]]]]]]].
    exists m0, m1, e0, e1. rewrite E. change (Z.of_nat 0) with 0 in ED. rewrite Z.pow_0_r, Z.mul_1_r in ED. rewrite ED in *.
    pose proof (double_range w n0 n1 ltac:(lia) N0 N1). pose proof (double_range w m0 m1 ltac:(lia) M0 M1).
    assert (EQ : double w n0 n1 / d = Z.b2z (d <=? double w n0 n1)).
    { apply quot_unique; [exact Hd|]. destruct (Z.leb_spec d (double w n0 n1)); cbn [Z.b2z]; lia. }
    rewrite EQ. change (2 ^ Z.of_nat 1) with 2. replace (q * 2) with (2 * q) by lia. split; [reflexivity|].
    split; [exact M0|]. split; [exact M1|]. rewrite EM.
    destruct (Z.leb_spec d (double w n0 n1)); cbn [Z.b2z]; [apply (Z.mod_unique_pos _ _ 1)|apply (Z.mod_unique_pos _ _ 0)]; lia.
  - cbn [udivmod_loop]. destruct (udivmod_step_ok w n0 n1 d0 d1 q Hw N0 N1 D0 D1 Q) as [m0 [m1 [e0 [e1 [E [M0 [M1 [E0' [E1' [EM EE]]]]]]]]]].
    rewrite E. set (b := double w d0 d1 <=? double w n0 n1) in *.
    assert (HD : double w d0 d1 = 2 * (d * 2 ^ Z.of_nat n)) by (rewrite ED, Nat2Z.inj_succ, Z.pow_succ_r by lia; ring).
    assert (EE2 : double w e0 e1 = d * 2 ^ Z.of_nat n) by (rewrite EE, HD, Z.mul_comm, Z.div_mul; lia).
    assert (HM : double w m0 m1 < 2 * double w e0 e1).
    { rewrite EM, EE2, <- HD. unfold b. destruct (Z.leb_spec (double w d0 d1) (double w n0 n1)); cbn [Z.b2z]; lia. }
    destruct (IH m0 m1 e0 e1 (wrap w (2 * q + Z.b2z b)) M0 M1 E0' E1' ltac:(apply wrap_range; lia) EE2 HM)
      as [m0' [m1' [e0' [e1' [EL [M0' [M1' EM']]]]]]].
    exists m0', m1', e0', e1'. cbn [udivmod_loop] in EL. rewrite EL. rewrite wrap_mul_add by lia.
    assert (EN : double w n0 n1 = double w m0 m1 + (Z.b2z b * (2 * 2 ^ Z.of_nat n)) * d) by (rewrite EM, HD; ring).
    split; [|split; [exact M0'|split; [exact M1'|]]].
    + do 2 f_equal. rewrite EN, Z.div_add by lia.
      rewrite (Nat2Z.inj_succ (S n)), (Z.pow_succ_r 2 (Z.of_nat (S n))), Nat2Z.inj_succ, Z.pow_succ_r by lia. ring.
    + rewrite EM', EN, Z_mod_plus_full. reflexivity.
Qed.

Definition quotient_words w n d : Z * Z * Z * Z :=
  ((n / d) mod 2 ^ w, n / d / 2 ^ w, (n mod d) mod 2 ^ w, n mod d / 2 ^ w).

Lemma words_of w q r : forall q0 q1 r0 r1, 0 <= q0 < 2 ^ w -> 0 <= r0 < 2 ^ w -> double w q0 q1 = q -> double w r0 r1 = r ->
  (q mod 2 ^ w, q / 2 ^ w, r mod 2 ^ w, r / 2 ^ w) = (q0, q1, r0, r1).
Proof.
  intros q0 q1 r0 r1 Q R <- <-. destruct (double_parts w q0 q1 Q) as [-> ->]. destruct (double_parts w r0 r1 R) as [-> ->]. reflexivity.
Qed.

Lemma clz_le w a b : 0 < a -> a <= b -> clz w b <= clz w a.
Proof.
  intros Ha H. unfold clz. destruct (Z.eqb_spec a 0), (Z.eqb_spec b 0); try lia. pose proof (Z.log2_le_mono a b H). lia.
Qed.

Theorem udivmod_ok h n0 n1 d0 d1 : 1 <= h -> let w := 2 * h in
  0 <= n0 < 2 ^ w -> 0 <= n1 < 2 ^ w -> 0 <= d0 < 2 ^ w -> 0 <= d1 < 2 ^ w -> 0 < double w d0 d1 ->
  udivmod w n0 n1 d0 d1 = Done (quotient_words w (double w n0 n1) (double w d0 d1)).
Proof.
  intros Hh w N0 N1 D0 D1 HD. assert (Hw : 2 <= w) by (unfold w; lia).
  assert (P : 0 < 2 ^ w) by (apply pow_pos; lia).
  pose proof (double_range w n0 n1 ltac:(lia) N0 N1) as RN.
  unfold udivmod, quotient_words.
  destruct ((n1 <? d1) || ((d1 =? n1) && (n0 <? d0))) eqn:Ec.
  - assert (L : double w n0 n1 < double w d0 d1).
    { unfold double. apply orb_true_iff in Ec. destruct Ec as [Ec|Ec].
      - apply Z.ltb_lt in Ec. assert ((n1 + 1) * 2 ^ w <= d1 * 2 ^ w) by (apply Z.mul_le_mono_nonneg_r; lia). lia.
      - apply andb_true_iff in Ec. destruct Ec as [Ec1 Ec2]. apply Z.eqb_eq in Ec1. apply Z.ltb_lt in Ec2. subst. lia. }
    f_equal. symmetry. apply words_of; [lia|assumption|rewrite Z.div_small by lia; unfold double; lia|rewrite Z.mod_small by lia; reflexivity].
  - assert (L : double w d0 d1 <= double w n0 n1).
    { unfold double. apply orb_false_iff in Ec. destruct Ec as [Ec1 Ec2]. apply Z.ltb_ge in Ec1.
      destruct (Z.eqb_spec d1 n1) as [->|Hne].
      - cbn [andb] in Ec2. apply Z.ltb_ge in Ec2. lia.
      - assert ((d1 + 1) * 2 ^ w <= n1 * 2 ^ w) by (apply Z.mul_le_mono_nonneg_r; lia). lia. }
    destruct (Z.eqb_spec d1 0) as [Z1|Z1].
    + assert (ED : double w d0 d1 = d0) by (unfold double; rewrite Z1; lia). rewrite ED in *.
      pose proof (Z.mod_pos_bound (double w n0 n1) d0 HD) as RM.
      destruct (Z.ltb_spec n1 d0) as [L2|L2].
      * unfold w in *. rewrite udivbigbysmall_ok by (assumption || lia). cbn [obind].
        change (n1 * 2 ^ (2 * h) + n0) with (double (2 * h) n0 n1). f_equal. symmetry.
        assert (0 <= double (2 * h) n0 n1 / d0 < 2 ^ (2 * h)).
        { split; [apply Z.div_pos; lia|]. apply Z.div_lt_upper_bound; [lia|]. unfold double. nia. }
        apply words_of; unfold double in *; lia.
      * destruct (Z.eqb_spec d0 0) as [Z0|Z0]; [lia|].
        pose proof (Z.mod_pos_bound n1 d0 HD) as Rn1. pose proof (Z.div_mod n1 d0 ltac:(lia)) as Dn1.
        unfold w in *. rewrite udivbigbysmall_ok by (assumption || lia). cbn [obind]. f_equal. symmetry.
        set (u := n1 mod d0 * 2 ^ (2 * h) + n0) in *.
        assert (EN : double (2 * h) n0 n1 = u + (n1 / d0 * 2 ^ (2 * h)) * d0).
        { unfold double, u. rewrite Dn1 at 1. ring. }
        assert (Hu : 0 <= u / d0 < 2 ^ (2 * h)).
        { split; [apply Z.div_pos; unfold u; nia|]. apply Z.div_lt_upper_bound; [lia|]. unfold u. nia. }
        apply words_of.
        -- exact Hu.
        -- pose proof (Z.mod_pos_bound u d0 HD). lia.
        -- rewrite EN, Z.div_add by lia. unfold double. ring.
        -- rewrite EN, Z_mod_plus_full. unfold double. ring.
    + assert (L1 : d1 <= n1).
      { destruct (Z.le_gt_cases d1 n1); [assumption|]. exfalso. unfold double in L.
        assert ((n1 + 1) * 2 ^ w <= d1 * 2 ^ w) by (apply Z.mul_le_mono_nonneg_r; lia). lia. }
      pose proof (clz_le w d1 n1 ltac:(lia) L1) as Hcl.
      destruct (clz_spec w d1 ltac:(lia)) as [Hcd [Hd1 Hd2]]. destruct (clz_spec w n1 ltac:(lia)) as [Hcn [Hn1 Hn2]].
      set (cd := clz w d1) in *. set (cn := clz w n1) in *. clearbody cd cn.
      set (s := cd - cn). assert (Hs : 0 <= s < w) by (unfold s; lia).
      assert (Ps : 0 < 2 ^ s) by (apply pow_pos; lia). assert (Pn : 0 < 2 ^ cn) by (apply pow_pos; lia).
      assert (Es : 2 ^ cd = 2 ^ s * 2 ^ cn) by (unfold s; rewrite <- Z.pow_add_r by lia; f_equal; lia).
      assert (Hdw : d1 * 2 ^ s < 2 ^ w) by (rewrite Es in Hd2; nia).
      assert (HDD : double w (wrap w (Z.shiftl d0 s)) (shiftleft w d0 d1 s) = double w d0 d1 * 2 ^ s).
      { unfold shiftleft, double. destruct (Z.eqb_spec s 0) as [Es0|Es0].
        - rewrite Es0, Z.shiftl_0_r, Z.pow_0_r, (wrap_small w d0) by lia. ring.
        - apply shifted; lia. }
      assert (RS0 : 0 <= wrap w (Z.shiftl d0 s) < 2 ^ w) by (apply wrap_range; lia).
      assert (RS1 : 0 <= shiftleft w d0 d1 s < 2 ^ w).
      { assert (HDlt : double w d0 d1 * 2 ^ s < 2 ^ w * 2 ^ w).
        { assert (E1 : 2 ^ w = 2 ^ (w - s) * 2 ^ s) by (rewrite <- Z.pow_add_r by lia; f_equal; lia).
          assert (0 < 2 ^ (w - s)) by (apply pow_pos; lia).
          assert (d1 < 2 ^ (w - s)) by (apply (Z.mul_lt_mono_pos_r (2 ^ s)); lia).
          assert ((d1 + 1) * 2 ^ s <= 2 ^ w) by nia. unfold double. nia. }
        rewrite <- HDD in HDlt. unfold double in HDlt.
        assert (0 <= double w d0 d1 * 2 ^ s) by nia. rewrite <- HDD in H. unfold double in H. split; nia. }
      assert (HNlt : double w n0 n1 < 2 * double w (wrap w (Z.shiftl d0 s)) (shiftleft w d0 d1 s)).
      { rewrite HDD. pose proof (half_pow w ltac:(lia)) as HP.
        assert (n1 + 1 <= 2 * (d1 * 2 ^ s)).
        { apply Z.le_succ_l. apply (Z.mul_lt_mono_pos_r (2 ^ cn)); [lia|]. rewrite Es in Hd1. lia. }
        unfold double. nia. }
      destruct (udivmod_loop_ok w (double w d0 d1) (Z.to_nat s) Hw HD n0 n1 _ _ 0 N0 N1 RS0 RS1 ltac:(lia) ltac:(rewrite Z2Nat.id by lia; exact HDD) HNlt)
        as [m0 [m1 [e0 [e1 [EL [M0 [M1 EM]]]]]]].
      cbv zeta. rewrite EL. rewrite Z.mul_0_l, Z.add_0_l. f_equal. symmetry.
      assert (HQ : 0 <= double w n0 n1 / double w d0 d1 < 2 ^ w).
      { split; [apply Z.div_pos; lia|]. apply Z.div_lt_upper_bound; [lia|]. rewrite pow2w in RN by lia. unfold double at 2. nia. }
      rewrite wrap_small by exact HQ.
      apply words_of; [exact HQ|exact M0|unfold double; lia|exact EM].
Qed.
