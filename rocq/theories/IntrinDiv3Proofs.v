(** fast_io::details::intrinsics::udivmod for single-word divisors up to half the word range, and
    the timestamp division built on it. *)
From Verif Require Import Base Outcome TimeSpec TimeModel IntrinModel Leb128Proofs IntrinProofs IntrinDivProofs IntrinDiv2Proofs.

Lemma split_pow w k : 0 <= k <= w -> 2 ^ w = 2 ^ (w - k) * 2 ^ k.
Proof. intros. rewrite <- Z.pow_add_r by lia. f_equal; lia. Qed.

Lemma shl2 w k u0 u1 : 0 < k < w -> 0 <= u0 < 2 ^ w -> 0 <= u1 < 2 ^ w ->
  let hi := Z.lor (wrap w (Z.shiftl u1 k)) (Z.shiftr u0 (w - k)) in
  0 <= hi < 2 ^ w /\ double w (wrap w (Z.shiftl u0 k)) hi = (double w u0 u1 * 2 ^ k) mod 2 ^ (2 * w).
Proof.
  intros Hk H0 H1. cbv zeta. rewrite !Z.shiftl_mul_pow2, Z.shiftr_div_pow2 by lia.
  pose proof (split_pow w k ltac:(lia)) as E.
  assert (P1 : 0 < 2 ^ (w - k)) by (apply pow_pos; lia). assert (P2 : 0 < 2 ^ k) by (apply pow_pos; lia).
  assert (Ew : wrap w (u1 * 2 ^ k) = u1 mod 2 ^ (w - k) * 2 ^ k).
  { unfold wrap. rewrite E. apply Z.mul_mod_distr_r; lia. }
  assert (Ew0 : wrap w (u0 * 2 ^ k) = u0 mod 2 ^ (w - k) * 2 ^ k).
  { unfold wrap. rewrite E. apply Z.mul_mod_distr_r; lia. }
  assert (Hd : 0 <= u0 / 2 ^ (w - k) < 2 ^ k).
  { split; [apply Z.div_pos; lia|]. apply Z.div_lt_upper_bound; lia. }
  rewrite Ew, Ew0, lor_pack by lia.
  pose proof (Z.mod_pos_bound u1 (2 ^ (w - k)) P1). pose proof (Z.div_mod u1 (2 ^ (w - k)) ltac:(lia)) as D1.
  pose proof (Z.mod_pos_bound u0 (2 ^ (w - k)) P1). pose proof (Z.div_mod u0 (2 ^ (w - k)) ltac:(lia)) as D0.
  set (x1 := u1 / 2 ^ (w - k)) in *. set (y1 := u1 mod 2 ^ (w - k)) in *. set (x0 := u0 / 2 ^ (w - k)) in *. set (y0 := u0 mod 2 ^ (w - k)) in *.
  clearbody x1 y1 x0 y0.
  assert (RH : 0 <= y1 * 2 ^ k + x0 < 2 ^ w).
  { rewrite E. assert (y1 * 2 ^ k <= (2 ^ (w - k) - 1) * 2 ^ k) by (apply Z.mul_le_mono_nonneg_r; lia).
    assert (0 <= y1 * 2 ^ k) by (apply Z.mul_nonneg_nonneg; lia). lia. }
  split; [exact RH|].
  assert (RL : 0 <= y0 * 2 ^ k < 2 ^ w).
  { rewrite E. split; [apply Z.mul_nonneg_nonneg; lia|apply Z.mul_lt_mono_pos_r; lia]. }
  pose proof (double_range w (y0 * 2 ^ k) (y1 * 2 ^ k + x0) ltac:(lia) RL RH) as RD.
  apply (Z.mod_unique_pos _ _ x1); [exact RD|]. unfold double. rewrite pow2w, D1, D0, E by lia. ring.
Qed.

Lemma shr2 w k u0 u1 : 0 < k < w -> 0 <= u0 < 2 ^ w -> 0 <= u1 < 2 ^ w ->
  let lo := Z.lor (wrap w (Z.shiftl u1 (w - k))) (Z.shiftr u0 k) in
  0 <= lo < 2 ^ w /\ 0 <= Z.shiftr u1 k < 2 ^ w /\ double w lo (Z.shiftr u1 k) = double w u0 u1 / 2 ^ k.
Proof.
  intros Hk H0 H1. cbv zeta. rewrite Z.shiftl_mul_pow2, !Z.shiftr_div_pow2 by lia.
  pose proof (split_pow w k ltac:(lia)) as E.
  assert (P1 : 0 < 2 ^ (w - k)) by (apply pow_pos; lia). assert (P2 : 0 < 2 ^ k) by (apply pow_pos; lia).
  assert (Ew : wrap w (u1 * 2 ^ (w - k)) = u1 mod 2 ^ k * 2 ^ (w - k)).
  { unfold wrap. rewrite E, (Z.mul_comm (2 ^ (w - k)) (2 ^ k)). apply Z.mul_mod_distr_r; lia. }
  assert (Hd : 0 <= u0 / 2 ^ k < 2 ^ (w - k)).
  { split; [apply Z.div_pos; lia|]. apply Z.div_lt_upper_bound; lia. }
  rewrite Ew, lor_pack by lia.
  pose proof (Z.mod_pos_bound u1 (2 ^ k) P2). pose proof (Z.div_mod u1 (2 ^ k) ltac:(lia)) as D1.
  pose proof (Z.mod_pos_bound u0 (2 ^ k) P2). pose proof (Z.div_mod u0 (2 ^ k) ltac:(lia)) as D0.
  assert (Hx1 : 0 <= u1 / 2 ^ k < 2 ^ w).
  { split; [apply Z.div_pos; lia|]. apply Z.div_lt_upper_bound; nia. }
  set (x1 := u1 / 2 ^ k) in *. set (y1 := u1 mod 2 ^ k) in *. set (x0 := u0 / 2 ^ k) in *. set (y0 := u0 mod 2 ^ k) in *.
  clearbody x1 y1 x0 y0.
  split.
  { rewrite E. assert (y1 * 2 ^ (w - k) <= (2 ^ k - 1) * 2 ^ (w - k)) by (apply Z.mul_le_mono_nonneg_r; lia).
    assert (0 <= y1 * 2 ^ (w - k)) by (apply Z.mul_nonneg_nonneg; lia). lia. }
  split; [exact Hx1|].
  apply (Z.div_unique_pos _ _ _ y0); [lia|]. unfold double. rewrite D1, D0, E. ring.
Qed.

Lemma shl2_carry w u0 u1 c : 2 <= w -> 0 <= u0 < 2 ^ w -> 0 <= u1 < 2 ^ w -> 0 <= c <= 1 ->
  let hi := Z.lor (wrap w (Z.shiftl u1 1)) (Z.shiftr u0 (w - 1)) in
  let lo := Z.lor (wrap w (Z.shiftl u0 1)) c in
  0 <= hi < 2 ^ w /\ 0 <= lo < 2 ^ w /\ double w lo hi = (2 * double w u0 u1 + c) mod 2 ^ (2 * w).
Proof.
  intros Hw H0 H1 Hc. destruct (shl2 w 1 u0 u1 ltac:(lia) H0 H1) as [RH E]. cbv zeta in *. split; [exact RH|].
  pose proof (half_pow w ltac:(lia)) as HP. assert (P1 : 0 < 2 ^ (w - 1)) by (apply pow_pos; lia).
  assert (Ew : wrap w (Z.shiftl u0 1) = u0 mod 2 ^ (w - 1) * 2 ^ 1).
  { rewrite Z.shiftl_mul_pow2 by lia. unfold wrap. rewrite HP, (Z.mul_comm 2). apply Z.mul_mod_distr_r; lia. }
  pose proof (Z.mod_pos_bound u0 (2 ^ (w - 1)) P1).
  rewrite Ew in *. rewrite lor_pack by lia. change (2 ^ 1) with 2 in *.
  split; [lia|]. set (hi := Z.lor _ _) in *. clearbody hi.
  unfold double in E |- *. set (y := u0 mod 2 ^ (w - 1)) in *. clearbody y.
  set (M := 2 ^ (2 * w)) in *.
  assert (HM : M = 2 ^ w * (2 * 2 ^ (w - 1))) by (unfold M; rewrite pow2w, <- HP by lia; reflexivity).
  assert (PM : 0 < M) by (unfold M; apply pow_pos; lia).
  pose proof (Z.div_mod ((u1 * 2 ^ w + u0) * 2) M ltac:(lia)) as D. rewrite <- E in D.
  apply (Z.mod_unique_pos _ _ ((u1 * 2 ^ w + u0) * 2 / M)).
  - split; [nia|]. rewrite HM. assert (hi * 2 ^ w <= (2 ^ w - 1) * 2 ^ w) by (apply Z.mul_le_mono_nonneg_r; lia). lia.
  - lia.
Qed.

(** One iteration when the divisor is a single word not above half the range. *)
Lemma dstep w d q0 q1 r c : 2 <= w -> 0 < d <= 2 ^ (w - 1) -> 0 <= q0 < 2 ^ w -> 0 <= q1 < 2 ^ w -> 0 <= r < d -> 0 <= c <= 1 ->
  let r' := 2 * r + double w q0 q1 / 2 ^ (2 * w - 1) in
  let b := Z.b2z (d <=? r') in
  exists p0 p1, dudivmod_step w d 0 (q0, q1, r, 0, c) = (p0, p1, r' - b * d, 0, b) /\
    0 <= p0 < 2 ^ w /\ 0 <= p1 < 2 ^ w /\ double w p0 p1 = (2 * double w q0 q1 + c) mod 2 ^ (2 * w) /\
    0 <= r' < 2 * d.
Proof.
  intros Hw Hd Q0 Q1 Hr Hc. pose proof (half_pow w ltac:(lia)) as HP. assert (P1 : 0 < 2 ^ (w - 1)) by (apply pow_pos; lia).
  destruct (shl2_carry w q0 q1 c Hw Q0 Q1 Hc) as [RH [RL EQ]]. cbv zeta in RH, RL, EQ. cbv zeta.
  assert (Ebit : double w q0 q1 / 2 ^ (2 * w - 1) = q1 / 2 ^ (w - 1)).
  { replace (2 * w - 1) with (w + (w - 1)) by lia. rewrite Z.pow_add_r, <- Z.div_div by lia.
    destruct (double_parts w q0 q1 Q0) as [_ ->]. reflexivity. }
  rewrite Ebit. assert (Hbit : 0 <= q1 / 2 ^ (w - 1) <= 1).
  { split; [apply Z.div_pos; lia|]. apply Z.lt_succ_r, Z.div_lt_upper_bound; lia. }
  unfold dudivmod_step. set (p1 := Z.lor (wrap w (Z.shiftl q1 1)) (Z.shiftr q0 (w - 1))) in *.
  set (p0 := Z.lor (wrap w (Z.shiftl q0 1)) c) in *. clearbody p0 p1.
  assert (Erl : Z.lor (wrap w (Z.shiftl r 1)) (Z.shiftr q1 (w - 1)) = 2 * r + q1 / 2 ^ (w - 1)).
  { rewrite Z.shiftl_mul_pow2, Z.shiftr_div_pow2 by lia. rewrite wrap_small by lia. rewrite lor_pack by lia. lia. }
  assert (Erh : Z.lor (wrap w (Z.shiftl 0 1)) (Z.shiftr r (w - 1)) = 0).
  { rewrite Z.shiftr_div_pow2, Z.div_small, Z.shiftl_0_l by lia. unfold wrap. rewrite Z.mod_0_l by lia. reflexivity. }
  rewrite Erl, Erh. set (r' := 2 * r + q1 / 2 ^ (w - 1)) in *. assert (Rr : 0 <= r' < 2 * d) by (unfold r'; lia). clearbody r'. clear Erl Erh Ebit.
  assert (RZ : 0 <= 0 < 2 ^ w) by lia. assert (Rr2 : 0 <= r' < 2 ^ w) by lia. assert (Rd : 0 <= d < 2 ^ w) by lia.
  rewrite sub_borrow_ok by (assumption || lia). unfold diff_with_borrow at 1. rewrite diff_wrap by assumption. cbn [Z.b2z].
  cbv zeta. exists p0, p1.
  unfold shiftright_naive. destruct (Z.eqb_spec (w - 1) 0); [lia|].
  assert (Eval : wrap w (wrap w (Z.shiftl 1 (w - 1)) - 1) = 2 ^ (w - 1) - 1).
  { rewrite Z.shiftl_mul_pow2 by lia. rewrite Z.mul_1_l, !wrap_small; try lia; rewrite wrap_small; lia. }
  rewrite Eval. clear Eval. replace (w - (w - 1)) with 1 by lia.
  destruct (Z.leb_spec d r') as [L|L]; cbn [Z.b2z].
  - destruct (Z.ltb_spec (d - r' - 1) 0); [|lia].
    rewrite (sub_borrow_ok w ltac:(lia) 0 0 RZ RZ true). unfold diff_with_borrow at 1. rewrite diff_wrap by assumption. cbn [Z.b2z].
    change (0 - 0 - 1 <? 0) with true. cbv iota.
    rewrite low_bits by lia.
    replace ((0 - 0 - 1 + 2 ^ w) mod 2 ^ (w - 1)) with (2 ^ (w - 1) - 1) by (apply (Z.mod_unique_pos _ _ 1); lia).
    rewrite Z.shiftl_mul_pow2 by lia. rewrite !Z.shiftr_div_pow2 by lia.
    assert (E1 : (d - r' - 1 + 2 ^ w) / 2 ^ (w - 1) = 1) by (apply quot_unique; lia).
    assert (E2 : (0 - 0 - 1 + 2 ^ w) / 2 ^ (w - 1) = 1) by (apply quot_unique; lia).
    rewrite E1, E2. rewrite wrap_small by lia. rewrite Z.lor_comm, lor_pack by lia.
    replace ((2 ^ (w - 1) - 1) * 2 ^ 1 + 1) with (2 ^ w - 1) by lia.
    assert (E3 : Z.land (2 ^ w - 1) 1 = 1).
    { rewrite Z.land_comm, low_bits by lia. apply Z.mod_small. pose proof (two_le w ltac:(lia)). lia. }
    assert (E4 : Z.land (2 ^ w - 1) d = d).
    { rewrite Z.land_comm, low_bits by lia. apply Z.mod_small. lia. }
    rewrite E3, E4, Z.land_0_r.
    rewrite sub_borrow_ok by (assumption || lia). unfold diff_with_borrow at 1. rewrite diff_wrap by assumption. cbn [Z.b2z].
    destruct (Z.ltb_spec (r' - d - 0) 0); [lia|].
    rewrite (sub_borrow_ok w ltac:(lia) 0 0 RZ RZ false). unfold diff_with_borrow. rewrite diff_wrap by assumption. cbn [Z.b2z].
    change (0 - 0 - 0 <? 0) with false. cbv iota. change (0 - 0 - 0) with 0.
    split; [|split; [exact RL|split; [exact RH|split; [exact EQ|exact Rr]]]]. f_equal. f_equal. f_equal. lia.
  - destruct (Z.ltb_spec (d - r' - 1) 0); [lia|].
    rewrite (sub_borrow_ok w ltac:(lia) 0 0 RZ RZ false). unfold diff_with_borrow at 1. rewrite diff_wrap by assumption. cbn [Z.b2z].
    change (0 - 0 - 0 <? 0) with false. cbv iota. change (0 - 0 - 0) with 0. rewrite Z.land_0_l, Z.shiftl_0_l, Z.shiftr_0_l.
    unfold wrap. rewrite (Z.mod_0_l (2 ^ w)) by lia. rewrite Z.lor_0_r.
    rewrite Z.shiftr_div_pow2, Z.div_small by lia. rewrite !Z.land_0_l.
    rewrite sub_borrow_ok by (assumption || lia). unfold diff_with_borrow at 1. rewrite diff_wrap by assumption. cbn [Z.b2z].
    destruct (Z.ltb_spec (r' - 0 - 0) 0); [lia|].
    rewrite (sub_borrow_ok w ltac:(lia) 0 0 RZ RZ false). unfold diff_with_borrow. rewrite diff_wrap by assumption. cbn [Z.b2z].
    change (0 - 0 - 0 <? 0) with false. cbv iota. change (0 - 0 - 0) with 0.
    split; [|split; [exact RL|split; [exact RH|split; [exact EQ|exact Rr]]]]. f_equal. f_equal. f_equal. lia.
Qed.

Lemma dloop w d sr : 2 <= w -> 0 < d <= 2 ^ (w - 1) -> Z.of_nat sr <= 2 * w -> forall q0 q1 r c m x,
  0 <= q0 < 2 ^ w -> 0 <= q1 < 2 ^ w -> 0 <= r < d -> 0 <= c <= 1 ->
  double w q0 q1 = m * 2 ^ (2 * w - Z.of_nat sr) + x -> 0 <= x < 2 ^ (2 * w - Z.of_nat sr) -> 0 <= m < 2 ^ Z.of_nat sr ->
  exists p0 p1 r' c', dudivmod_loop sr w d 0 (q0, q1, r, 0, c) = (p0, p1, r', 0, c') /\
    0 <= p0 < 2 ^ w /\ 0 <= p1 < 2 ^ w /\ 0 <= c' <= 1 /\
    2 * double w p0 p1 + c' = (2 * x + c) * 2 ^ Z.of_nat sr + (r * 2 ^ Z.of_nat sr + m) / d /\
    r' = (r * 2 ^ Z.of_nat sr + m) mod d.
Proof.
  intros Hw Hd. induction sr as [|sr IH]; intros Hsr q0 q1 r c m x Q0 Q1 Hr Hc EQ Hx Hm.
  - change (Z.of_nat 0) with 0 in *. rewrite Z.pow_0_r, Z.sub_0_r in *. assert (m = 0) by lia. subst m.
    exists q0, q1, r, c. cbn [dudivmod_loop]. repeat (split; [assumption || reflexivity|]).
    rewrite EQ, Z.mul_0_l, Z.add_0_r, !Z.mul_1_r, Z.div_small, Z.mod_small by lia. lia.
  - rewrite Nat2Z.inj_succ in *. set (s := Z.of_nat sr) in *. assert (Hs : 0 <= s) by (unfold s; lia).
    cbn [dudivmod_loop]. destruct (dstep w d q0 q1 r c Hw Hd Q0 Q1 Hr Hc) as [p0 [p1 [E [P0 [P1 [EP Rr']]]]]].
    rewrite E. clear E.
    assert (Ppow : 0 < 2 ^ s) by (apply pow_pos; lia).
    assert (Ex : 2 ^ (2 * w - s) = 2 * 2 ^ (2 * w - Z.succ s)) by (rewrite <- Z.pow_succ_r by lia; f_equal; lia).
    assert (Px : 0 < 2 ^ (2 * w - Z.succ s)) by (apply pow_pos; lia).
    assert (Em : 2 ^ Z.succ s = 2 * 2 ^ s) by (apply Z.pow_succ_r; lia).
    assert (EM : 2 ^ (2 * w) = 2 ^ s * 2 ^ (2 * w - s)) by (rewrite <- Z.pow_add_r by lia; f_equal; lia).
    assert (EM1 : 2 ^ (2 * w - 1) = 2 ^ s * 2 ^ (2 * w - Z.succ s)) by (rewrite <- Z.pow_add_r by lia; f_equal; lia).
    assert (Ebit : double w q0 q1 / 2 ^ (2 * w - 1) = m / 2 ^ s).
    { rewrite EQ, EM1, (Z.mul_comm (2 ^ s)), <- Z.div_div by lia. rewrite Z.div_add_l by lia.
      rewrite (Z.div_small x), Z.add_0_r by lia. reflexivity. }
    rewrite Ebit in *. set (bit := m / 2 ^ s) in *.
    pose proof (Z.div_mod m (2 ^ s) ltac:(lia)) as Dm. pose proof (Z.mod_pos_bound m (2 ^ s) Ppow) as Rm. fold bit in Dm.
    set (m' := m mod 2 ^ s) in *.
    set (r1 := 2 * r + bit) in *. set (b := Z.b2z (d <=? r1)) in *.
    assert (Hb : 0 <= b <= 1) by apply b2z_range.
    assert (Hr1 : 0 <= r1 - b * d < d) by (unfold b; destruct (Z.leb_spec d r1); cbn [Z.b2z]; lia).
    assert (EP2 : double w p0 p1 = m' * 2 ^ (2 * w - s) + (2 * x + c)).
    { rewrite EP. symmetry. apply (Z.mod_unique_pos _ _ bit).
      - rewrite EM. assert (m' * 2 ^ (2 * w - s) <= (2 ^ s - 1) * 2 ^ (2 * w - s)) by (apply Z.mul_le_mono_nonneg_r; lia).
        assert (0 <= m' * 2 ^ (2 * w - s)) by (apply Z.mul_nonneg_nonneg; lia). lia.
      - rewrite EQ, EM, Dm, Ex. ring. }
    destruct (IH ltac:(lia) p0 p1 (r1 - b * d) b m' (2 * x + c) P0 P1 Hr1 Hb EP2 ltac:(lia) Rm) as [p0' [p1' [r' [c' [EL [P0' [P1' [C' [EV ER]]]]]]]]].
    exists p0', p1', r', c'. rewrite EL. split; [reflexivity|]. do 3 (split; [assumption|]).
    assert (EN : r * 2 ^ Z.succ s + m = (r1 - b * d) * 2 ^ s + m' + (b * 2 ^ s) * d).
    { rewrite Em. unfold r1. lia. }
    rewrite EN, Z.div_add, Z_mod_plus_full by lia. split; [|exact ER]. rewrite EV, Em. ring.
Qed.

Lemma dmain w d sr q0 q1 n : 2 <= w -> 0 < d <= 2 ^ (w - 1) -> 0 <= sr <= 2 * w -> 0 <= n < 2 ^ (2 * w) ->
  0 <= q0 < 2 ^ w -> 0 <= q1 < 2 ^ w -> double w q0 q1 = (n * 2 ^ (2 * w - sr)) mod 2 ^ (2 * w) -> n / 2 ^ sr < d ->
  dudivmod_main w d 0 sr q0 q1 (n / 2 ^ sr) 0 = Done (quotient_words w n d).
Proof.
  intros Hw Hd Hsr Hn Q0 Q1 EQ Hr. unfold dudivmod_main.
  assert (Ps : 0 < 2 ^ sr) by (apply pow_pos; lia). assert (Px : 0 < 2 ^ (2 * w - sr)) by (apply pow_pos; lia).
  assert (Hr0 : 0 <= n / 2 ^ sr) by (apply Z.div_pos; lia).
  pose proof (Z.mod_pos_bound n (2 ^ sr) Ps) as Rm. pose proof (Z.div_mod n (2 ^ sr) ltac:(lia)) as Dn.
  assert (EQ2 : double w q0 q1 = n mod 2 ^ sr * 2 ^ (2 * w - sr) + 0).
  { rewrite EQ, (split_pow (2 * w) sr) by lia. rewrite (Z.mul_comm (2 ^ (2 * w - sr))), Z.mul_mod_distr_r by lia. lia. }
  destruct (dloop w d (Z.to_nat sr) Hw Hd ltac:(rewrite Z2Nat.id by lia; lia) q0 q1 (n / 2 ^ sr) 0 (n mod 2 ^ sr) 0 Q0 Q1 ltac:(lia) ltac:(lia)
    ltac:(rewrite Z2Nat.id by lia; exact EQ2) ltac:(rewrite Z2Nat.id by lia; lia) ltac:(rewrite Z2Nat.id by lia; lia))
    as [p0 [p1 [r' [c' [EL [P0 [P1 [C' [EV ER]]]]]]]]].
  rewrite Z2Nat.id in EV, ER by lia. rewrite EL. clear EL.
  assert (EN : n / 2 ^ sr * 2 ^ sr + n mod 2 ^ sr = n) by lia. rewrite EN in EV, ER.
  destruct (shl2_carry w p0 p1 c' Hw P0 P1 C') as [RH [RL EF]]. cbv zeta in RH, RL, EF. cbv zeta.
  assert (EF2 : double w (Z.lor (wrap w (Z.shiftl p0 1)) c') (Z.lor (wrap w (Z.shiftl p1 1)) (Z.shiftr p0 (w - 1))) = n / d).
  { rewrite EF, EV. change (2 * 0 + 0) with 0. rewrite Z.mul_0_l, Z.add_0_l. apply Z.mod_small.
    split; [apply Z.div_pos; lia|]. apply Z.le_lt_trans with n; [apply Z.div_le_upper_bound; nia|lia]. }
  f_equal. unfold quotient_words. symmetry. apply words_of; [exact RL| |exact EF2|].
  - rewrite ER. pose proof (Z.mod_pos_bound n d ltac:(lia)). pose proof (half_pow w ltac:(lia)). lia.
  - rewrite ER. unfold double. lia.
Qed.

Lemma pow2_of_land d : 0 < d -> Z.land d (d - 1) = 0 -> d = 2 ^ Z.log2 d.
Proof.
  intros Hd HL. pose proof (Z.log2_spec d Hd) as [L1 L2]. destruct (Z.eq_dec d (2 ^ Z.log2 d)) as [E|E]; [exact E|exfalso].
  assert (B1 : Z.testbit d (Z.log2 d) = true) by (apply Z.bit_log2; lia).
  assert (EL : Z.log2 (d - 1) = Z.log2 d) by (apply Z.log2_unique; [apply Z.log2_nonneg|lia]).
  assert (0 < 2 ^ Z.log2 d) by (apply pow_pos, Z.log2_nonneg).
  assert (B2 : Z.testbit (d - 1) (Z.log2 d) = true) by (rewrite <- EL; apply Z.bit_log2; lia).
  assert (B : Z.testbit (Z.land d (d - 1)) (Z.log2 d) = true) by (rewrite Z.land_spec, B1, B2; reflexivity).
  rewrite HL, Z.bits_0 in B. discriminate.
Qed.
Lemma ctz_pow w k : 0 <= k -> ctz w (2 ^ k) = k.
Proof.
  intros Hk. pattern k. apply natlike_ind; [reflexivity| |exact Hk]. intros x Hx IH.
  rewrite Z.pow_succ_r by lia. assert (P : 0 < 2 ^ x) by (apply pow_pos; lia).
  destruct (2 ^ x) as [|p|p]; try lia. cbn [ctz] in IH. change (2 * Z.pos p) with (Z.pos (xO p)). cbn [ctz ctz_pos]. lia.
Qed.

Theorem dudivmod_ok w n0 n1 d : 2 <= w < 2 ^ 31 -> 0 <= n0 < 2 ^ w -> 0 <= n1 < 2 ^ w ->
  0 < d < 2 ^ w -> n1 = 0 \/ d <= 2 ^ (w - 1) ->
  dudivmod true w n0 n1 d 0 = Done (quotient_words w (double w n0 n1) d).
Proof.
  intros [Hw Hw'] N0 N1 Hd Hc. unfold dudivmod. change (0 =? 0) with true. cbv iota.
  pose proof (half_pow w ltac:(lia)) as HP.
  destruct (Z.eqb_spec n1 0) as [Z1|Z1].
  { destruct (Z.eqb_spec d 0); [lia|]. f_equal. symmetry. subst n1.
    assert (ED : double w n0 0 = n0) by (unfold double; lia). unfold quotient_words. rewrite ED.
    pose proof (Z.mod_pos_bound n0 d ltac:(lia)).
    assert (0 <= n0 / d <= n0) by (split; [apply Z.div_pos; lia|apply Z.div_le_upper_bound; nia]).
    apply words_of; unfold double; lia. }
  destruct Hc as [Hc|Hc]; [lia|].
  pose proof (double_range w n0 n1 ltac:(lia) N0 N1) as RN.
  destruct (Z.eqb_spec d 0); [lia|].
  destruct (Z.eqb_spec (Z.land d (d - 1)) 0) as [L|L].
  - pose proof (pow2_of_land d ltac:(lia) L) as Ed. set (k := Z.log2 d) in *. assert (Hk : 0 <= k) by apply Z.log2_nonneg. clearbody k.
    assert (Hkw : k <= w - 1) by (apply (Z.pow_le_mono_r_iff 2); lia).
    assert (ER : Z.land n0 (d - 1) = double w n0 n1 mod d).
    { subst d. rewrite low_bits by lia. unfold double. rewrite (split_pow w k) by lia.
      rewrite Z.mul_assoc, Z.add_comm, Z_mod_plus_full. reflexivity. }
    assert (RR : 0 <= double w n0 n1 mod d < d) by (apply Z.mod_pos_bound; lia).
    destruct (Z.eqb_spec d 1) as [D1|D1].
    + rewrite ER, D1. f_equal. symmetry. apply words_of; [lia| |rewrite Z.div_1_r; reflexivity|unfold double; lia].
      rewrite D1 in RR. lia.
    + unfold dctz. subst d. rewrite ctz_pow by lia. destruct (Z.eqb_spec k 0) as [K0|K0]; [subst k; cbn in D1; lia|].
      destruct (shr2 w k n0 n1 ltac:(lia) N0 N1) as [RL [_ E]]. cbv zeta in RL, E.
      f_equal. symmetry. rewrite ER. apply words_of; [exact RL|lia|exact E|unfold double; lia].
  - destruct (clz_spec w d ltac:(lia)) as [Hcd [Hd1 Hd2]]. destruct (clz_spec w n1 ltac:(lia)) as [Hcn [Hn1 Hn2]].
    assert (Hcd2 : clz w d <= w - 2).
    { destruct (Z.le_gt_cases (clz w d) (w - 2)) as [H|H]; [exact H|exfalso].
      assert (Ec : clz w d = w - 1) by lia. rewrite Ec in *.
      assert (0 < 2 ^ (w - 1)) by (apply pow_pos; lia).
      assert (d = 1) by nia. subst d. apply L. reflexivity. }
    set (cd := clz w d) in *. set (cn := clz w n1) in *. clearbody cd cn.
    assert (P31 : 2 ^ 31 * 2 = 2 ^ 32) by reflexivity.
    rewrite (wrap_small 32) by lia. set (sr := 1 + w + cd - cn).
    assert (Hsr : 2 <= sr <= 2 * w - 1) by (unfold sr; lia).
    assert (Hlt : double w n0 n1 / 2 ^ sr < d).
    { assert (Psr : 0 < 2 ^ sr) by (apply pow_pos; lia). apply Z.div_lt_upper_bound; [exact Psr|].
      (* n < 2^(2w-cn) = 2^sr * 2^(w-1-cd) <= 2^sr * d *)
      assert (X1 : double w n0 n1 < 2 ^ (w - cn) * 2 ^ w).
      { pose proof (split_pow w cn ltac:(lia)) as E1. assert (0 < 2 ^ cn) by (apply pow_pos; lia).
        assert (n1 < 2 ^ (w - cn)) by (apply (Z.mul_lt_mono_pos_r (2 ^ cn)); lia).
        unfold double. assert ((n1 + 1) * 2 ^ w <= 2 ^ (w - cn) * 2 ^ w) by (apply Z.mul_le_mono_nonneg_r; lia). lia. }
      assert (X2 : 2 ^ (w - cn) * 2 ^ w = 2 ^ sr * 2 ^ (w - 1 - cd)) by (rewrite <- !Z.pow_add_r by lia; f_equal; unfold sr; lia).
      assert (X3 : 2 ^ (w - 1 - cd) <= d).
      { assert (0 < 2 ^ cd) by (apply pow_pos; lia). apply (Z.mul_le_mono_pos_r _ _ (2 ^ cd)); [lia|].
        rewrite <- Z.pow_add_r by lia. replace (w - 1 - cd + cd) with (w - 1) by lia. lia. }
      assert (2 ^ sr * 2 ^ (w - 1 - cd) <= 2 ^ sr * d) by (apply Z.mul_le_mono_nonneg_l; lia). lia. }
    clearbody sr. clear Hd1 Hd2 Hn1 Hn2.
    destruct (Z.eqb_spec sr w) as [E|E].
    + subst sr. rewrite <- (dmain w d w 0 n0 (double w n0 n1)); try lia.
      * destruct (double_parts w n0 n1 N0) as [_ ->]. reflexivity.
      * replace (2 * w - w) with w by lia. apply (Z.mod_unique_pos _ _ n1); [apply double_range; lia|].
        unfold double. rewrite pow2w by lia. ring.
    + destruct (Z.ltb_spec sr w) as [Lsr|Lsr].
      * destruct (shr2 w sr n0 n1 ltac:(lia) N0 N1) as [RL [RH E2]]. cbv zeta in RL, RH, E2.
        set (rl := Z.lor _ _) in *. set (rh := Z.shiftr n1 sr) in *. clearbody rl rh.
        assert (Erh : rh = 0).
        { unfold double in E2 at 1. assert (rh * 2 ^ w < 1 * 2 ^ w) by lia.
          assert (rh < 1) by (apply (Z.mul_lt_mono_pos_r (2 ^ w)); lia). lia. }
        subst rh. assert (Erl : rl = double w n0 n1 / 2 ^ sr) by (rewrite <- E2; unfold double; lia). rewrite Erl.
        rewrite (dmain w d sr 0 (wrap w (Z.shiftl n0 (w - sr))) (double w n0 n1)); try lia; try reflexivity.
        -- apply wrap_range; lia.
        -- rewrite Z.shiftl_mul_pow2 by lia. unfold wrap. rewrite (split_pow w (w - sr)) at 1 by lia. replace (w - (w - sr)) with sr by lia.
           pose proof (pow_pos (w - sr) ltac:(lia)). pose proof (pow_pos sr ltac:(lia)). rewrite Z.mul_mod_distr_r by lia.
           pose proof (Z.mod_pos_bound n0 (2 ^ sr) ltac:(lia)). pose proof (Z.div_mod n0 (2 ^ sr) ltac:(lia)) as Dn.
           apply (Z.mod_unique_pos _ _ (n1 * 2 ^ (w - sr) + n0 / 2 ^ sr)).
           ++ apply double_range; try lia. rewrite (split_pow w (w - sr)) by lia. replace (w - (w - sr)) with sr by lia.
              split; [apply Z.mul_nonneg_nonneg; lia|apply Z.mul_lt_mono_pos_r; lia].
           ++ unfold double. replace (2 * w - sr) with (w + (w - sr)) by lia. rewrite Z.pow_add_r, pow2w by lia.
              rewrite Dn at 1. assert (E3 : 2 ^ w = 2 ^ sr * 2 ^ (w - sr)) by (rewrite <- Z.pow_add_r by lia; f_equal; lia).
              rewrite E3. ring.
      * set (k := 2 * w - sr) in *. assert (Hk : 0 < k < w) by (unfold k; lia).
        replace (sr - w) with (w - k) by (unfold k; lia).
        destruct (shl2 w k n0 n1 Hk N0 N1) as [RH E2]. cbv zeta in RH, E2.
        assert (Er : Z.shiftr n1 (w - k) = double w n0 n1 / 2 ^ sr).
        { rewrite Z.shiftr_div_pow2 by lia. replace sr with (w + (w - k)) by (unfold k; lia).
          rewrite Z.pow_add_r, <- Z.div_div by lia. destruct (double_parts w n0 n1 N0) as [_ ->]. reflexivity. }
        rewrite Er. apply dmain; try lia; try exact E2. apply wrap_range; lia.
Qed.

(** ** Timestamp division without __int128. *)
Lemma quotient_words_small w n d : 0 < d < 2 ^ w -> 0 <= n -> n / d < 2 ^ w ->
  quotient_words w n d = (n / d, 0, n mod d, 0).
Proof.
  intros Hd Hn Hq. pose proof (Z.mod_pos_bound n d ltac:(lia)).
  assert (0 <= n / d) by (apply Z.div_pos; lia).
  apply words_of; unfold double; lia.
Qed.

Theorem stamp_div_no128_ok a d : valid_stamp a -> 1 <= d <= 2 ^ 63 -> Z.abs (stamp_value a) < (2 ^ 64 - 1) * d ->
  stamp_div_no128 true a d = stamp_div a d.
Proof.
  intros [Hs Hf] Hd Hb. unfold stamp_div_no128, stamp_div.
  destruct (Z.eqb_spec d 0); [lia|]. destruct a as [s f]. cbn [ts_sec ts_sub] in *.
  set (secs := if s <? 0 then wrap 64 (0 - wrap 64 s) else wrap 64 s).
  assert (Hsecs : secs = Z.abs s).
  { unfold secs. change (2 ^ 63) with 9223372036854775808 in Hs. destruct (Z.ltb_spec s 0).
    - rewrite (wrap_eq 64 s 1) by (rewrite p64; lia). rewrite (wrap_eq 64 _ 1) by (rewrite p64; lia). lia.
    - rewrite (wrap_eq 64 s 0) by (rewrite p64; lia). lia. }
  assert (Habs : Z.abs (stamp_value (mk_stamp s f)) = Z.abs s * subseconds_per_second + f).
  { unfold stamp_value. cbn [ts_sec ts_sub]. change per_second with subseconds_per_second in *. change subseconds_per_second with 10000000000000000000 in *.
    destruct (Z.ltb_spec s 0); lia. }
  rewrite Habs in Hb. rewrite Hsecs. clear secs Hsecs Habs.
  change per_second with 10000000000000000000 in Hf. change subseconds_per_second with 10000000000000000000 in *.
  change (2 ^ 63) with 9223372036854775808 in *.
  assert (Hsec : 0 <= Z.abs s <= 9223372036854775808) by lia.
  set (t := Z.abs s) in *. clearbody t.
  destruct (umul_parts t 10000000000000000000 ltac:(rewrite p64; lia) ltac:(rewrite p64; lia)) as [El [Eh _]].
  destruct (umul_least_64_emulated t 10000000000000000000) as [low high]. cbn [fst snd] in El, Eh.
  pose proof (Z.div_mod (t * 10000000000000000000) (2 ^ 64) ltac:(lia)) as Dt. pose proof (Z.mod_pos_bound (t * 10000000000000000000) (2 ^ 64) ltac:(lia)) as Rt.
  rewrite <- El, <- Eh in *. clear El Eh.
  assert (Hhigh : 0 <= high < 2 ^ 64) by (rewrite p64 in *; lia).
  assert (Ff : 0 <= f < 2 ^ 64) by (rewrite p64; lia). assert (Z0 : 0 <= 0 < 2 ^ 64) by (rewrite p64; lia).
  rewrite add_carry_ok by (assumption || lia).
  destruct (sum2 64 low high f 0 false ltac:(lia) Rt Hhigh Ff Z0) as [l [c [h [k [E0 [E1 [Rl [Rh EV]]]]]]]].
  rewrite E0. rewrite add_carry_ok by (assumption || lia). rewrite E1. clear E0 E1.
  assert (EV2 : double 64 l h = t * 10000000000000000000 + f).
  { pose proof (double_range 64 l h ltac:(lia) Rl Rh) as RR.
    change (2 ^ (2 * 64)) with 340282366920938463463374607431768211456 in *. unfold double in EV at 2 3. cbn [Z.b2z] in EV. pose proof (b2z_range k). lia. }
  set (T := t * 10000000000000000000 + f) in *.
  assert (HT : 0 <= T < 2 ^ 128) by (change (2 ^ 128) with 340282366920938463463374607431768211456; unfold T; lia).
  assert (EW : wrap 128 (wrap 128 (t * 10000000000000000000) + f) = T).
  { change (2 ^ 128) with 340282366920938463463374607431768211456 in HT.
    rewrite (wrap_small 128 (t * _)) by (change (2 ^ 128) with 340282366920938463463374607431768211456; unfold T in HT; lia).
    apply wrap_small. exact HT. }
  rewrite EW. clear EW. clearbody T. clear EV Dt.
  assert (HdW : 0 < d < 2 ^ 64) by (rewrite p64; lia).
  rewrite dudivmod_ok; [|change (2 ^ 31) with 2147483648; lia|exact Rl|exact Rh|exact HdW|right; change (2 ^ (64 - 1)) with 9223372036854775808; lia].
  rewrite EV2. assert (HQ : 0 <= T / d < 2 ^ 64 - 1) by (split; [apply Z.div_pos; lia|apply Z.div_lt_upper_bound; lia]).
  rewrite quotient_words_small by lia. cbn [obind].
  pose proof (Z.mod_pos_bound T d ltac:(lia)) as RM. rewrite (wrap_small 64 (T mod d)) by lia.
  set (q := T / d) in *. set (r := T mod d) in *. clearbody q r. clear EV2 l h Rl Rh k c.
  set (q2 := if Z.shiftr d 1 <? r then wrap 128 (q + 1) else if Z.shiftr d 1 =? r then if Z.land q 1 =? 1 then wrap 128 (q + 1) else q else q).
  assert (E128 : wrap 128 (q + 1) = q + 1).
  { apply wrap_small. change (2 ^ 128) with 340282366920938463463374607431768211456. rewrite p64 in HQ. lia. }
  assert (Eq : (if (Z.shiftr d 1 <? r) || ((Z.shiftr d 1 =? r) && (Z.land q 1 =? 1))
       then let '(qlow, c) := add_carry 64 false q 1 in let '(qhigh, _) := add_carry 64 c 0 0 in (qlow, qhigh) else (q, 0)) = (q2, 0)).
  { assert (EA : (let '(qlow, c) := add_carry 64 false q 1 in let '(qhigh, _) := add_carry 64 c 0 0 in (qlow, qhigh)) = (q + 1, 0)).
    { rewrite add_carry_ok by (rewrite ?p64 in *; lia). unfold sum_with_carry. cbn [Z.b2z]. rewrite Z.add_0_r.
      destruct (Z.leb_spec (2 ^ 64) (q + 1)); [lia|]. rewrite Z.mod_small by lia. reflexivity. }
    rewrite EA. unfold q2. rewrite E128. destruct (Z.shiftr d 1 <? r), (Z.shiftr d 1 =? r), (Z.land q 1 =? 1); reflexivity. }
  rewrite Eq. clear Eq.
  assert (R2 : 0 <= q2 < 2 ^ 64) by (unfold q2; rewrite E128; destruct (Z.shiftr d 1 <? r), (Z.shiftr d 1 =? r), (Z.land q 1 =? 1); lia).
  clearbody q2. clear E128.
  rewrite dudivmod_ok; [|change (2 ^ 31) with 2147483648; lia|exact R2|exact Z0|rewrite p64; lia|left; reflexivity].
  assert (ED : double 64 q2 0 = q2) by (unfold double; lia). rewrite ED.
  assert (Rq2 : 0 <= q2 / 10000000000000000000 < 2 ^ 64) by (split; [apply Z.div_pos; lia|apply Z.div_lt_upper_bound; lia]).
  rewrite quotient_words_small; [|clear; rewrite p64; lia|clear - R2; lia|clear - Rq2; lia]. cbn [obind].
  pose proof (Z.mod_pos_bound q2 10000000000000000000 ltac:(lia)).
  rewrite (wrap_small 64 (q2 / _)) by exact Rq2. rewrite (wrap_small 64 (q2 mod _)) by (clear - H; rewrite p64; lia). reflexivity.
Qed.
