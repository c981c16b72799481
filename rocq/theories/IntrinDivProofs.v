(** Double-word division (fast_io::intrinsics::udivmod). *)
From Verif Require Import Base Outcome TimeSpec TimeModel IntrinModel Leb128Proofs IntrinProofs.

Lemma quot_unique n d q : 0 < d -> q * d <= n < (q + 1) * d -> n / d = q.
Proof. intros Hd H. symmetry. apply (Z.div_unique_pos n d q (n - q * d)); lia. Qed.
Lemma wrap_small w x : 0 <= x < 2 ^ w -> wrap w x = x.
Proof. intros. apply Z.mod_small. assumption. Qed.
Lemma div_bounds n d : 0 < d -> n / d * d <= n < (n / d + 1) * d.
Proof.
  intros Hd. pose proof (Z.div_mod n d ltac:(lia)). pose proof (Z.mod_pos_bound n d Hd).
  rewrite (Z.mul_comm d) in H. lia.
Qed.

Section digit.
  Variables w B vn1 vn0 u un v qt : Z.
  Hypothesis HB : B * B = 2 ^ w.
  Hypothesis HB1 : 1 <= B.
  Hypothesis Hn : B <= 2 * vn1.
  Hypothesis Hvn1 : vn1 < B.
  Hypothesis Hvn0 : 0 <= vn0 < B.
  Hypothesis Hv : v = vn1 * B + vn0.
  Hypothesis Hu : 0 <= u < v.
  Hypothesis Hun : 0 <= un < B.
  Hypothesis Hq : qt * v <= u * B + un < (qt + 1) * v.

  Lemma qt_range : 0 <= qt < B.
  Proof.
    assert (0 < v) by nia.
    split.
    - assert (0 < (qt + 1) * v) by nia. assert (0 < qt + 1) by (apply (Z.mul_pos_cancel_r _ v); lia). lia.
    - assert (qt * v < B * v) by nia. apply (Z.mul_lt_mono_pos_r v); assumption.
  Qed.

  (** The comparison is exact as long as the guess has one digit. *)
  Lemma cmp_ok q rhat : 0 <= rhat < B -> 0 <= q < B ->
    (wrap w (B * rhat + un) <? wrap w (q * vn0)) = (B * rhat + un <? q * vn0).
  Proof.
    intros Hr Hq0.
    assert (0 <= B * rhat + un < 2 ^ w) by (rewrite <- HB; nia).
    assert (0 <= q * vn0 < 2 ^ w) by (rewrite <- HB; nia).
    rewrite !wrap_small by assumption. reflexivity.
  Qed.

  Lemma digit_loop_ok fuel : forall q rhat, q * vn1 + rhat = u -> 0 <= rhat < B -> qt <= q <= B + 1 ->
    B <= rhat + Z.of_nat fuel * vn1 -> exists r, digit_loop fuel w B vn1 vn0 un q rhat = Some (qt, r).
  Proof.
    induction fuel as [|fuel IH]; intros q rhat E Hr Hqq Hf; [lia|].
    pose proof qt_range as Hqt.
    assert (HBw : B <= 2 ^ w) by nia.
    assert (HB2 : B + 1 <= 2 ^ w) by (rewrite <- HB; nia).
    cbn [digit_loop].
    destruct (Z.leb_spec B q) as [L|L]; cbn [orb].
    - (* two digits: too big *)
      assert (Hw2 : rhat + vn1 < 2 ^ w) by (rewrite <- HB; nia).
      rewrite (wrap_small w (q - 1)) by lia.
      rewrite (wrap_small w (rhat + vn1)) by lia.
      destruct (Z.leb_spec B (rhat + vn1)) as [L2|L2].
      + exists (rhat + vn1). f_equal. f_equal. symmetry.
        assert (q - 1 <= qt); [|lia]. apply Z.lt_succ_r, (Z.mul_lt_mono_pos_r v); [nia|]. unfold Z.succ.
        apply Z.le_lt_trans with (u * B + un); [|lia].
        assert (0 <= (B + 1 - q) * vn0) by nia.
        assert ((q - 1) * v = (u - rhat - vn1) * B + (q - 1) * vn0) by (rewrite Hv, <- E; ring). nia.
      + apply IH; try lia.
    - rewrite cmp_ok by lia. destruct (Z.ltb_spec (B * rhat + un) (q * vn0)) as [L1|L1].
      + assert (Hlt : qt < q).
        { apply (Z.mul_lt_mono_pos_r v); [nia|]. apply Z.le_lt_trans with (u * B + un); [lia|]. rewrite Hv, <- E. nia. }
        assert (Hw2 : rhat + vn1 < 2 ^ w) by (rewrite <- HB; nia).
        rewrite (wrap_small w (q - 1)) by lia.
        rewrite (wrap_small w (rhat + vn1)) by lia.
        destruct (Z.leb_spec B (rhat + vn1)) as [L2|L2].
        * exists (rhat + vn1). f_equal. f_equal. symmetry.
          assert (q - 1 <= qt); [|lia]. apply Z.lt_succ_r, (Z.mul_lt_mono_pos_r v); [nia|]. unfold Z.succ.
          apply Z.le_lt_trans with (u * B + un); [|lia].
          assert ((q - 1) * v = (u - rhat - vn1) * B + (q - 1) * vn0) by (rewrite Hv, <- E; ring).
          assert ((q - 1) * vn0 <= B * B) by nia. nia.
        * apply IH; try lia.
      + exists rhat. f_equal. f_equal. symmetry.
        assert (q <= qt); [|lia]. apply Z.lt_succ_r, (Z.mul_lt_mono_pos_r v); [nia|]. unfold Z.succ.
        apply Z.le_lt_trans with (u * B + un); [|lia].
        assert (q * v = (u - rhat) * B + q * vn0) by (rewrite Hv, <- E; ring). nia.
  Qed.

  Lemma digit_ok : exists r, digit_loop 3 w B vn1 vn0 un (u / vn1) (wrap w (u - u / vn1 * vn1)) = Some (qt, r).
  Proof.
    pose proof (div_bounds u vn1 ltac:(lia)) as Hd. pose proof qt_range as Hqt.
    assert (HBw : B <= 2 ^ w) by nia.
    rewrite wrap_small by lia. apply digit_loop_ok; try lia.
    split.
    - apply Z.lt_succ_r, (Z.mul_lt_mono_pos_r (vn1 * B)); [nia|]. unfold Z.succ.
      assert (qt * (vn1 * B) <= qt * v) by (apply Z.mul_le_mono_nonneg_l; lia). nia.
    - apply Z.lt_succ_r, (Z.mul_lt_mono_pos_r vn1); [lia|]. unfold Z.succ. nia.
  Qed.
End digit.

Lemma clz_spec w x : 0 < x < 2 ^ w -> 0 <= clz w x < w /\ 2 ^ (w - 1) <= x * 2 ^ clz w x < 2 ^ w.
Proof.
  intros Hx. unfold clz. destruct (Z.eqb_spec x 0); [lia|].
  pose proof (Z.log2_spec x ltac:(lia)) as [L1 L2].
  assert (L3 : Z.log2 x < w) by (apply Z.log2_lt_pow2; lia). pose proof (Z.log2_nonneg x).
  split; [lia|].
  assert (E1 : 2 ^ (w - 1) = 2 ^ Z.log2 x * 2 ^ (w - 1 - Z.log2 x)) by (rewrite <- Z.pow_add_r by lia; f_equal; lia).
  assert (E2 : 2 ^ w = 2 ^ Z.succ (Z.log2 x) * 2 ^ (w - 1 - Z.log2 x)) by (rewrite <- Z.pow_add_r by lia; f_equal; lia).
  assert (0 < 2 ^ (w - 1 - Z.log2 x)) by (apply pow_pos; lia). rewrite E1, E2. split.
  - apply Z.mul_le_mono_nonneg_r; lia.
  - apply Z.mul_lt_mono_pos_r; lia.
Qed.

Lemma low_bits x n : 0 <= n -> Z.land x (2 ^ n - 1) = x mod 2 ^ n.
Proof. intros. replace (2 ^ n - 1) with (Z.ones n) by (rewrite Z.ones_equiv; lia). apply Z.land_ones. assumption. Qed.

(** (u1<<s)|(u0>>(w-s)) and u0<<s hold the double word shifted left. *)
Lemma shifted w s u1 u0 : 0 < s < w -> 0 <= u1 -> u1 * 2 ^ s < 2 ^ w -> 0 <= u0 < 2 ^ w ->
  Z.lor (wrap w (Z.shiftl u1 s)) (Z.shiftr u0 (w - s)) * 2 ^ w + wrap w (Z.shiftl u0 s) = (u1 * 2 ^ w + u0) * 2 ^ s.
Proof.
  intros Hs H1 H1' H0. rewrite !Z.shiftl_mul_pow2, Z.shiftr_div_pow2 by lia.
  rewrite (wrap_small w (u1 * 2 ^ s)) by nia.
  assert (E : 2 ^ w = 2 ^ (w - s) * 2 ^ s) by (rewrite <- Z.pow_add_r by lia; f_equal; lia).
  assert (P1 : 0 < 2 ^ (w - s)) by (apply pow_pos; lia). assert (P2 : 0 < 2 ^ s) by (apply pow_pos; lia).
  rewrite lor_pack; [|lia|].
  2:{ split; [apply Z.div_pos; lia|]. apply Z.div_lt_upper_bound; [lia|]. nia. }
  unfold wrap. rewrite E. rewrite Z.mul_mod_distr_r by lia.
  pose proof (Z.div_mod u0 (2 ^ (w - s)) ltac:(lia)) as D. nia.
Qed.

Theorem udivbigbysmall_ok h u1 u0 v : 1 <= h -> 0 <= u1 < v -> 0 <= u0 < 2 ^ (2 * h) -> v < 2 ^ (2 * h) ->
  udivbigbysmall (2 * h) u1 u0 v = Done ((u1 * 2 ^ (2 * h) + u0) / v, (u1 * 2 ^ (2 * h) + u0) mod v).
Proof.
  intros Hh H1 H0 Hv. set (w := 2 * h) in *.
  assert (Hw2 : w / 2 = h) by (unfold w; rewrite Z.mul_comm; apply Z.div_mul; lia).
  unfold udivbigbysmall. rewrite Hw2. set (B := 2 ^ h).
  assert (HB : B * B = 2 ^ w) by (unfold B, w; rewrite <- Z.pow_add_r by lia; f_equal; lia).
  assert (HB1 : 2 <= B) by (apply two_le; lia).
  destruct (clz_spec w v ltac:(lia)) as [Hs Hn].
  set (s := clz w v) in *. clearbody s.
  assert (Ps : 0 < 2 ^ s) by (apply pow_pos; lia).
  assert (HwB : 2 ^ (w - 1) * 2 = 2 ^ w) by (change 2 with (2 ^ 1) at 2; rewrite <- Z.pow_add_r by lia; f_equal; lia).
  set (D := v * 2 ^ s) in *.
  set (U := u1 * 2 ^ w + u0).
  assert (Hnorm : exists un64 un10, (if s =? 0 then (v, u1, u0)
     else (wrap w (Z.shiftl v s), Z.lor (wrap w (Z.shiftl u1 s)) (Z.shiftr u0 (w - s)), wrap w (Z.shiftl u0 s))) = (D, un64, un10) /\
     un64 * 2 ^ w + un10 = U * 2 ^ s /\ 0 <= un10 < 2 ^ w).
  { destruct (Z.eqb_spec s 0) as [E|E].
    - exists u1, u0. unfold D, U. rewrite E, Z.pow_0_r. split; [f_equal; f_equal; lia|]. split; lia.
    - eexists _, _. split; [|split; [apply shifted; try lia; unfold D in *; nia|apply wrap_range; lia]].
      f_equal. f_equal. rewrite Z.shiftl_mul_pow2 by lia. apply wrap_small. unfold D in *. lia. }
  destruct Hnorm as [un64 [un10 [-> [EU R10]]]].
  assert (HU : 0 <= U < v * 2 ^ w) by (unfold U; nia).
  assert (R64 : 0 <= un64 < D).
  { split.
    - assert (0 < (un64 + 1) * 2 ^ w) by nia. assert (0 < un64 + 1) by (apply (Z.mul_pos_cancel_r _ (2 ^ w)); lia). lia.
    - apply (Z.mul_lt_mono_pos_r (2 ^ w)); [lia|]. unfold D. nia. }
  rewrite !Z.shiftr_div_pow2 by lia. fold B.
  assert (HL : forall x, Z.land x (B - 1) = x mod B) by (intros x; apply low_bits; lia). rewrite !HL. clear HL.
  pose proof (Z.div_mod D B ltac:(lia)) as ED. pose proof (Z.mod_pos_bound D B ltac:(lia)) as RD.
  pose proof (Z.div_mod un10 B ltac:(lia)) as E10. pose proof (Z.mod_pos_bound un10 B ltac:(lia)) as R0.
  set (vn1 := D / B) in *. set (vn0 := D mod B) in *. set (un1 := un10 / B) in *. set (un0 := un10 mod B) in *.
  assert (Hvn1 : B <= 2 * vn1 /\ vn1 < B).
  { split.
    - assert (EB : B = 2 * 2 ^ (h - 1)) by (unfold B; rewrite <- Z.pow_succ_r by lia; f_equal; lia).
      assert (2 ^ (h - 1) <= vn1); [|lia]. unfold vn1. apply Z.div_le_lower_bound; [lia|].
      replace (B * 2 ^ (h - 1)) with (2 ^ (w - 1)); [lia|]. unfold B, w. rewrite <- Z.pow_add_r by lia. f_equal; lia.
    - unfold vn1. apply Z.div_lt_upper_bound; lia. }
  assert (Hun1 : 0 <= un1 < B).
  { unfold un1. split; [apply Z.div_pos; lia|apply Z.div_lt_upper_bound; lia]. }
  destruct (Z.eqb_spec vn1 0); [lia|].
  pose proof (div_bounds (un64 * B + un1) D ltac:(lia)) as Hq1.
  set (q1 := (un64 * B + un1) / D) in *.
  destruct (digit_ok w B vn1 vn0 un64 un1 D q1) as [r1 Ed1]; try lia. rewrite Ed1. cbv beta iota zeta.
  assert (Eun21 : wrap w (un64 * B + un1 - q1 * D) = un64 * B + un1 - q1 * D) by (apply wrap_small; lia).
  rewrite Eun21. set (un21 := un64 * B + un1 - q1 * D) in *.
  pose proof (div_bounds (un21 * B + un0) D ltac:(lia)) as Hq0.
  set (q0 := (un21 * B + un0) / D) in *.
  destruct (digit_ok w B vn1 vn0 un21 un0 D q0) as [r0 Ed0]; try lia. rewrite Ed0. cbv beta iota zeta.
  assert (Rq1 : 0 <= q1 < B) by (apply qt_range with (w := w) (v := D) (vn1 := vn1) (vn0 := vn0) (u := un64) (un := un1); lia).
  assert (Rq0 : 0 <= q0 < B) by (apply qt_range with (w := w) (v := D) (vn1 := vn1) (vn0 := vn0) (u := un21) (un := un0); lia).
  assert (EQ : U * 2 ^ s = (q1 * B + q0) * D + (un21 * B + un0 - q0 * D)).
  { rewrite <- EU, E10, <- HB. unfold un21. ring. }
  set (R := un21 * B + un0 - q0 * D) in *.
  assert (HR : 0 <= R < D) by (unfold R; lia).
  assert (HqB : q1 * B <= (B - 1) * B) by (apply Z.mul_le_mono_nonneg_r; lia).
  assert (Hq1B : 0 <= q1 * B) by (apply Z.mul_nonneg_nonneg; lia).
  rewrite (wrap_small w (q1 * B + q0)) by (rewrite <- HB; lia).
  rewrite (wrap_small w R) by lia.
  assert (EU2 : U / v = q1 * B + q0).
  { rewrite <- (Z.div_mul_cancel_r U v (2 ^ s)) by lia. fold D. apply quot_unique; [lia|]. rewrite EQ. clear - HR. generalize (q1 * B + q0). intros; lia. }
  assert (ER : R = U mod v * 2 ^ s).
  { rewrite <- Z.mul_mod_distr_r by lia. fold D. apply (Z.mod_unique_pos _ _ (q1 * B + q0)); [lia|]. rewrite EQ. ring. }
  rewrite Z.shiftr_div_pow2 by lia. rewrite ER, Z.div_mul by lia. rewrite EU2. reflexivity.
Qed.
