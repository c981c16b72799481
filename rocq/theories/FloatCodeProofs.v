(** What the arithmetic helpers of roundtrip.h compute. *)
From Coq Require Import Znumtheory Zpow_facts.
From Verif Require Import Base Outcome IntrinModel FloatTables FloatModel FloatCertProofs.

Lemma wrap_id w x : 0 <= x < 2 ^ w -> wrap w x = x.
Proof. intros H. unfold wrap. apply Z.mod_small. assumption. Qed.

Lemma umul64_high_spec a b : 0 <= a < 2 ^ 64 -> 0 <= b < 2 ^ 64 -> umul64_high a b = a * b / 2 ^ 64.
Proof.
  intros Ha Hb. unfold umul64_high. rewrite Z.shiftr_div_pow2 by lia. apply wrap_id.
  split; [apply Z.div_pos; nia|]. apply Z.div_lt_upper_bound; nia.
Qed.

Lemma mulshift64_spec x lo hi : 0 <= x < 2 ^ 64 -> 0 <= lo < 2 ^ 64 -> 0 <= hi < 2 ^ 64 ->
  mulshift_float64 x lo hi = x * (hi * 2 ^ 64 + lo) / 2 ^ 128.
Proof.
  intros Hx Hlo Hhi. unfold mulshift_float64, umul64. rewrite umul64_high_spec by assumption.
  rewrite Z.shiftr_div_pow2 by lia.
  set (W := 2 ^ 64) in *. assert (HW : W = 18446744073709551616) by reflexivity.
  assert (E128 : 2 ^ 128 = W * W) by reflexivity.
  set (p0 := x * lo / W).
  assert (P0 : p0 * W <= x * lo < (p0 + 1) * W) by (apply div_char; [lia|reflexivity]).
  set (ph := x * hi / W).
  assert (PH : ph * W <= x * hi < (ph + 1) * W) by (apply div_char; [lia|reflexivity]).
  assert (p0r : 0 <= p0 < W) by (split; nia).
  assert (phr : 0 <= ph /\ ph * W <= (W - 1) * (W - 1)) by (split; nia).
  assert (phr' : ph <= W - 2) by nia.
  assert (E1 : wrap 64 (x * hi) = x * hi - ph * W).
  { unfold wrap. change (2 ^ 64) with W. rewrite Z.mod_eq by lia. fold ph. lia. }
  assert (E2 : wrap 64 ph = ph) by (apply wrap_id; change (2 ^ 64) with W; lia).
  rewrite E1, E2. set (pl := x * hi - ph * W) in *.
  assert (plr : 0 <= pl < W) by (unfold pl; lia).
  unfold add_carry. cbv beta iota zeta. change (Z.b2z false) with 0. rewrite Z.add_0_l.
  rewrite (wrap_id 64 pl) by (change (2 ^ 64) with W; lia).
  assert (C : ((wrap 64 (pl + p0) <? p0) || (pl <? pl))%bool = (W <=? pl + p0)).
  { rewrite Z.ltb_irrefl, orb_false_r. unfold wrap. change (2 ^ 64) with W.
    destruct (Z.leb_spec W (pl + p0)) as [L|L].
    - apply Z.ltb_lt. replace (pl + p0) with ((pl + p0 - W) + 1 * W) by ring.
      rewrite Z.mod_add, Z.mod_small by lia. lia.
    - apply Z.ltb_ge. rewrite Z.mod_small by lia. lia. }
  rewrite C. cbn [fst].
  rewrite Z.add_0_r.
  symmetry. apply div_char; [lia|]. rewrite E128.
  set (t := Z.b2z (W <=? pl + p0)).
  assert (T : t * W <= pl + p0 < (t + 1) * W).
  { unfold t. destruct (Z.leb_spec W (pl + p0)); cbn [Z.b2z]; lia. }
  assert (tr : 0 <= t <= 1) by (unfold t; destruct (W <=? pl + p0); cbn [Z.b2z]; lia).
  rewrite (wrap_id 64 (t + ph)) by (change (2 ^ 64) with W; lia).
  rewrite (wrap_id 64 (t + ph)) by (change (2 ^ 64) with W; lia).
  assert (X : x * (hi * W + lo) = (ph * W + pl) * W + x * lo) by (unfold pl; ring).
  rewrite X. clearbody pl p0 ph t W. nia.
Qed.

Lemma land_bit m i : 0 <= i -> negb (Z.land m (2 ^ i) =? 0) = Z.testbit m i.
Proof.
  intros Hi. destruct (Z.testbit m i) eqn:T.
  - apply negb_true_iff, Z.eqb_neq. intros E.
    assert (H : Z.testbit (Z.land m (2 ^ i)) i = true).
    { rewrite Z.land_spec, T, Z.pow2_bits_true by lia. reflexivity. }
    rewrite E, Z.bits_0 in H. discriminate.
  - apply negb_false_iff, Z.eqb_eq. apply Z.bits_inj'. intros j Hj.
    rewrite Z.land_spec, Z.bits_0. destruct (Z.eq_dec i j) as [<-|N]; [rewrite T; reflexivity|].
    rewrite Z.pow2_bits_false by lia. apply andb_false_r.
Qed.
Lemma testbit_odd x i : 0 <= i -> Z.testbit x i = Z.odd (x / 2 ^ i).
Proof. intros H. rewrite <- Z.shiftr_div_pow2 by lia. rewrite <- Z.bit0_odd, Z.shiftr_spec by lia. f_equal. Qed.
Lemma testbit_wrap w x i : 0 <= i < w -> Z.testbit (wrap w x) i = Z.testbit x i.
Proof. intros H. unfold wrap. apply Z.mod_pow2_bits_low. lia. Qed.

Lemma land1_odd x : negb (Z.land x 1 =? 0) = Z.odd x.
Proof. change 1 with (2 ^ 0). rewrite land_bit by lia. apply Z.bit0_odd. Qed.

Lemma ushl_one i : 0 <= i < 64 -> ushl 64 1 i = Done (2 ^ i).
Proof.
  intros H. unfold ushl. destruct (Z.leb_spec 0 i); [|lia]. destruct (Z.ltb_spec i 64); [|lia].
  cbn [andb]. rewrite Z.shiftl_mul_pow2, Z.mul_1_l by lia. rewrite wrap_id; [reflexivity|].
  split; [apply Z.pow_nonneg; lia|apply Z.pow_lt_mono_r; lia].
Qed.

Lemma parity64_spec n lo hi b : 0 <= n < 2 ^ 64 -> 0 <= lo < 2 ^ 64 -> 0 <= hi < 2 ^ 64 -> 1 <= b <= 64 ->
  mul_parity_float64 n lo hi b = Done (Z.odd (n * (hi * 2 ^ 64 + lo) / 2 ^ (128 - b))).
Proof.
  intros Hn Hlo Hhi Hb. unfold mul_parity_float64. rewrite ushl_one by lia. cbn [obind].
  rewrite land_bit by lia. do 2 f_equal.
  rewrite testbit_wrap by lia. rewrite umul64_high_spec by assumption.
  replace (wrap 64 (n * hi) + n * lo / 2 ^ 64)
    with (n * (hi * 2 ^ 64 + lo) / 2 ^ 64 + (- (n * hi / 2 ^ 64)) * 2 ^ 64).
  2:{ replace (n * (hi * 2 ^ 64 + lo)) with (n * lo + n * hi * 2 ^ 64) by ring.
      rewrite Z.div_add by lia. unfold wrap. rewrite Z.mod_eq by lia. ring. }
  rewrite <- (testbit_wrap 64) by lia. unfold wrap. rewrite Z.mod_add by lia.
  change (Z.testbit (wrap 64 (n * (hi * 2 ^ 64 + lo) / 2 ^ 64)) (64 - b) = Z.odd (n * (hi * 2 ^ 64 + lo) / 2 ^ (128 - b))).
  rewrite testbit_wrap by lia. rewrite testbit_odd by lia.
  rewrite Z.div_div by (try apply Z.pow_pos_nonneg; lia). rewrite <- Z.pow_add_r by lia.
  do 3 f_equal. lia.
Qed.
Lemma parity32_spec n pw b : 1 <= b <= 64 ->
  mul_parity_float32 n pw b = Done (Z.odd (n * pw / 2 ^ (64 - b))).
Proof.
  intros Hb. unfold mul_parity_float32. rewrite ushl_one by lia. cbn [obind].
  rewrite land_bit by lia. rewrite testbit_wrap by lia. rewrite testbit_odd by lia. reflexivity.
Qed.

(** ** Divisibility *)
Lemma pow5_inverse w hi j n : 0 < w -> 0 <= j -> hi * 5 ^ j mod 2 ^ w = 1 -> 0 <= n < 2 ^ w ->
  (wrap w (n * hi) <=? (2 ^ w - 1) / 5 ^ j) = (n mod 5 ^ j =? 0).
Proof.
  intros Hw Hj Hi Hn. set (F := 5 ^ j) in *. assert (F0 : 0 < F) by (apply Z.pow_pos_nonneg; lia).
  assert (W0 : 0 < 2 ^ w) by lia.
  unfold wrap. set (u := (n * hi) mod 2 ^ w).
  assert (U : 0 <= u < 2 ^ w) by (apply Z.mod_pos_bound; lia).
  assert (C : u * F mod 2 ^ w = n).
  { unfold u. rewrite Z.mul_mod_idemp_l by lia. replace (n * hi * F) with (n * (hi * F)) by ring.
    rewrite <- Z.mul_mod_idemp_r, Hi, Z.mul_1_r by lia. apply Z.mod_small. assumption. }
  destruct (Z.eqb_spec (n mod F) 0) as [E|E].
  - apply Z.leb_le. apply Z.div_exact in E; [|lia]. set (t := n / F) in *.
    assert (T : u = t).
    { unfold u. rewrite E. replace (F * t * hi) with (t * (hi * F)) by ring.
      rewrite <- Z.mul_mod_idemp_r, Hi, Z.mul_1_r by lia. apply Z.mod_small. nia. }
    rewrite T. apply Z.div_le_lower_bound; nia.
  - apply Z.leb_gt. apply Z.nle_gt. intros L.
    assert (u * F <= 2 ^ w - 1).
    { pose proof (Z.mul_div_le (2 ^ w - 1) F F0). nia. }
    rewrite Z.mod_small in C by nia. apply E. rewrite <- C. apply Z.mod_mul. lia.
Qed.

Lemma mod5_at w t j : mod5_ok w t = true -> 0 <= j < zlen t ->
  exists hi, tb_at t j = Done (hi, (2 ^ w - 1) / 5 ^ j) /\ hi * 5 ^ j mod 2 ^ w = 1.
Proof.
  intros Ok Hj. unfold mod5_ok in Ok. rewrite forallb_forall in Ok.
  specialize (Ok (Z.to_nat j)). unfold tb_at. destruct (Z.ltb_spec j 0); [lia|].
  unfold zlen in Hj.
  destruct (nth_error t (Z.to_nat j)) as [[hi lo]|] eqn:E.
  - assert (I : In (Z.to_nat j) (seq 0 (length t))) by (apply in_seq; lia).
    specialize (Ok I). rewrite Z2Nat.id in Ok by lia. apply andb_prop in Ok as [O1 O2].
    apply Z.eqb_eq in O1. apply Z.eqb_eq in O2. exists hi. rewrite O2. split; [reflexivity|assumption].
  - apply nth_error_None in E. lia.
Qed.

Lemma multiple5_64 n j : 0 <= n < 2 ^ 64 -> 0 <= j <= 23 ->
  multiple_of_pow5 n j = Done (n mod 5 ^ j =? 0).
Proof.
  intros Hn Hj. destruct (mod5_at 64 float64_mod5_tb j mod5_64) as (hi & E & I).
  { change (zlen float64_mod5_tb) with 24. lia. }
  unfold multiple_of_pow5. rewrite E. cbn [obind fst snd]. f_equal. apply pow5_inverse; lia.
Qed.
Lemma multiple5_32 n j : 0 <= n < 2 ^ 32 -> 0 <= j <= 10 ->
  multiple_of_pow5_float32 n j = Done (n mod 5 ^ j =? 0).
Proof.
  intros Hn Hj. destruct (mod5_at 32 float_mod5_tb j mod5_32) as (hi & E & I).
  { change (zlen float_mod5_tb) with 11. lia. }
  unfold multiple_of_pow5_float32. rewrite E. cbn [obind fst snd]. f_equal. apply pow5_inverse; lia.
Qed.

(** the factor 2^(e2-1) * 10^k in lowest terms *)
Lemma factor_parts e2 k :
  let s := e2 - 1 + k in
  fnum e2 k * (2 ^ Z.max (- s) 0 * 5 ^ Z.max (- k) 0) = fden e2 k * (2 ^ Z.max s 0 * 5 ^ Z.max k 0).
Proof.
  intros s. unfold fnum, fden. change 10 with (2 * 5). rewrite !Z.pow_mul_l.
  transitivity (2 ^ (Z.max (e2 - 1) 0 + Z.max k 0 + Z.max (- s) 0) * (5 ^ (Z.max k 0 + Z.max (- k) 0))).
  - rewrite !Z.pow_add_r by lia. ring.
  - transitivity (2 ^ (Z.max (1 - e2) 0 + Z.max (- k) 0 + Z.max s 0) * (5 ^ (Z.max (- k) 0 + Z.max k 0))).
    + f_equal; f_equal; lia.
    + rewrite !Z.pow_add_r by lia. ring.
Qed.
Lemma fnum_pos e2 k : 0 < fnum e2 k.
Proof. unfold fnum. apply Z.mul_pos_pos; apply Z.pow_pos_nonneg; lia. Qed.
Lemma fden_pos e2 k : 0 < fden e2 k.
Proof. unfold fden. apply Z.mul_pos_pos; apply Z.pow_pos_nonneg; lia. Qed.

Lemma integral_parts e2 k n :
  let s := e2 - 1 + k in
  (fden e2 k | n * fnum e2 k) <-> (2 ^ Z.max (- s) 0 * 5 ^ Z.max (- k) 0 | n * (2 ^ Z.max s 0 * 5 ^ Z.max k 0)).
Proof.
  intros s. pose proof (factor_parts e2 k) as F. cbv zeta in F. fold s in F.
  pose proof (fden_pos e2 k) as D0.
  set (U := 2 ^ Z.max (- s) 0 * 5 ^ Z.max (- k) 0) in *. set (V := 2 ^ Z.max s 0 * 5 ^ Z.max k 0) in *.
  assert (U0 : 0 < U) by (apply Z.mul_pos_pos; apply Z.pow_pos_nonneg; lia).
  set (P := fnum e2 k) in *. set (D := fden e2 k) in *. clearbody U V P D.
  split; intros [t T]; exists t.
  - apply (Z.mul_cancel_l _ _ D); [lia|]. transitivity (n * (P * U)); [rewrite F; ring|].
    transitivity (n * P * U); [ring|]. rewrite T. ring.
  - apply (Z.mul_cancel_l _ _ U); [lia|]. transitivity (n * (P * U)); [ring|]. rewrite F.
    transitivity (D * (n * V)); [ring|]. rewrite T. ring.
Qed.

Lemma integral_never2 e2 k n : 0 <= k -> e2 - 1 + k < 0 -> Z.odd n = true -> ~ (fden e2 k | n * fnum e2 k).
Proof.
  intros Hk Hs O D. apply integral_parts in D.
  rewrite (Z.max_l (- (e2 - 1 + k)) 0), (Z.max_r (- k) 0), (Z.max_r (e2 - 1 + k) 0), (Z.max_l k 0) in D by lia.
  change (5 ^ 0) with 1 in D. change (2 ^ 0) with 1 in D. rewrite Z.mul_1_r, Z.mul_1_l in D.
  assert (D2 : (2 | n * 5 ^ k)).
  { apply Z.divide_trans with (2 ^ (- (e2 - 1 + k))); [|assumption].
    replace (- (e2 - 1 + k)) with (1 + (- (e2 - 1 + k) - 1)) by lia. rewrite Z.pow_add_r by lia.
    apply Z.divide_factor_l. }
  destruct D2 as [t T]. assert (O' : Z.odd (n * 5 ^ k) = true).
  { rewrite Z.odd_mul, O. destruct (Z.eq_dec k 0) as [->|]; [reflexivity|]. rewrite Z.odd_pow by lia. reflexivity. }
  rewrite T, Z.odd_mul, andb_false_r in O'. discriminate.
Qed.
Lemma integral_always e2 k n : 0 <= k -> 0 <= e2 - 1 + k -> (fden e2 k | n * fnum e2 k).
Proof.
  intros Hk Hs. apply integral_parts. cbv zeta.
  rewrite (Z.max_r (- (e2 - 1 + k)) 0), (Z.max_r (- k) 0) by lia. change (2 ^ 0 * 5 ^ 0) with 1. apply Z.divide_1_l.
Qed.
Lemma integral_even e2 k n : 0 <= k -> -1 <= e2 - 1 + k -> (fden e2 k | 2 * n * fnum e2 k).
Proof.
  intros Hk Hs. destruct (Z.eq_dec (e2 - 1 + k) (-1)) as [E|E]; [|apply integral_always; lia].
  apply integral_parts. cbv zeta. rewrite E, (Z.max_r (- k) 0) by lia.
  change (2 ^ Z.max (- -1) 0 * 5 ^ 0) with 2. exists (n * (2 ^ Z.max (-1) 0 * 5 ^ Z.max k 0)). ring.
Qed.
Lemma integral_two e2 k n : 0 <= k -> e2 - 1 + k < 0 ->
  (fden e2 k | n * fnum e2 k) <-> (2 ^ (- (e2 - 1 + k)) | n).
Proof.
  intros Hk Hs. rewrite integral_parts. cbv zeta.
  rewrite (Z.max_l (- (e2 - 1 + k)) 0), (Z.max_r (- k) 0), (Z.max_r (e2 - 1 + k) 0), (Z.max_l k 0) by lia.
  change (5 ^ 0) with 1. change (2 ^ 0) with 1. rewrite Z.mul_1_r, Z.mul_1_l.
  split; intros H; [|apply Z.divide_mul_l; assumption].
  apply Gauss with (5 ^ k); [rewrite Z.mul_comm; assumption|].
  apply rel_prime_Zpower; [lia|lia|]. apply Zgcd_1_rel_prime. reflexivity.
Qed.
Lemma integral_five e2 k n : k <= 0 -> 0 <= e2 - 1 + k ->
  (fden e2 k | n * fnum e2 k) <-> (5 ^ (- k) | n).
Proof.
  intros Hk Hs. rewrite integral_parts. cbv zeta.
  rewrite (Z.max_r (- (e2 - 1 + k)) 0), (Z.max_l (- k) 0), (Z.max_l (e2 - 1 + k) 0), (Z.max_r k 0) by lia.
  change (5 ^ 0) with 1. change (2 ^ 0) with 1. rewrite Z.mul_1_r, Z.mul_1_l.
  split; intros H; [|apply Z.divide_mul_l; assumption].
  apply Gauss with (2 ^ (e2 - 1 + k)); [rewrite Z.mul_comm; assumption|].
  apply rel_prime_Zpower; [lia|lia|]. apply Zgcd_1_rel_prime. reflexivity.
Qed.
