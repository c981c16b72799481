(** From the integers dragonbox_main works on to the decimal it prints. *)
From Coq Require Import QArith Qabs Qpower Lqa.
From Verif Require Import Base FloatSpec FloatRoundProofs FloatCertProofs FloatDragonProofs FloatCodeProofs FloatMainProofs.

Local Open Scope Q_scope.

Lemma ten_mono a b : (a <= b)%Z -> Qpower (10 # 1) a <= Qpower (10 # 1) b.
Proof.
  intros H. replace b with (a + (b - a))%Z by lia. rewrite pow10_add, (pow10_Z (b - a)) by lia.
  assert (1 <= 10 ^ (b - a))%Z by (assert (0 < 10 ^ (b - a))%Z by (apply Z.pow_pos_nonneg; lia); lia).
  assert (inject_Z 1 <= inject_Z (10 ^ (b - a))) by (rewrite <- Zle_Qle; assumption).
  pose proof (ten_pow_pos a). change (inject_Z 1) with 1 in H1. nra.
Qed.

Lemma bin_mul10 n e2 k : bin n (e2 - 1) * Qpower (10 # 1) k * inject_Z (fden e2 k) == inject_Z (n * fnum e2 k).
Proof.
  unfold bin, fden, fnum. rewrite !inject_Z_mult.
  rewrite <- !pow2_Z, <- !pow10_Z by lia.
  assert (E2 : Qpower (2 # 1) (Z.max (e2 - 1) 0) == Qpower (2 # 1) (e2 - 1) * Qpower (2 # 1) (Z.max (1 - e2) 0)).
  { rewrite <- pow2_add. assert (E : (Z.max (e2 - 1) 0 = e2 - 1 + Z.max (1 - e2) 0)%Z) by lia. rewrite E. reflexivity. }
  assert (E10 : Qpower (10 # 1) (Z.max k 0) == Qpower (10 # 1) k * Qpower (10 # 1) (Z.max (- k) 0)).
  { rewrite <- pow10_add. assert (E : (Z.max k 0 = k + Z.max (- k) 0)%Z) by lia. rewrite E. reflexivity. }
  rewrite E2, E10. ring.
Qed.
Lemma dec_mul10 X k : dec X (- k) * Qpower (10 # 1) k == inject_Z X.
Proof.
  unfold dec. rewrite <- Qmult_assoc, <- pow10_add. replace (- k + k)%Z with 0%Z by lia. cbn [Qpower]. ring.
Qed.

Section Scale.
Variables (m e k : Z).
Let P := fnum e k.
Let D := fden e k.
Let A := (2 * m * P)%Z.

(** The scale factor: multiplication by it gives the integers. *)
Definition scale : Q := Qpower (10 # 1) k * inject_Z D.
Lemma scale_pos : 0 < scale.
Proof.
  unfold scale. pose proof (ten_pow_pos k). pose proof (fden_pos e k) as H0. fold D in H0.
  assert (0 < inject_Z D) by (change 0 with (inject_Z 0); rewrite <- Zlt_Qlt; assumption).
  nra.
Qed.
Lemma scale_dec X : dec X (- k) * scale == inject_Z (X * D).
Proof. unfold scale. rewrite Qmult_assoc, dec_mul10, inject_Z_mult. reflexivity. Qed.
Lemma scale_bin n : bin n (e - 1) * scale == inject_Z (n * P).
Proof. unfold scale. rewrite Qmult_assoc. apply bin_mul10. Qed.
Lemma scale_m : bin m e * scale == inject_Z A.
Proof.
  rewrite (bin_shift m (e - 1) e) by lia. replace (e - (e - 1))%Z with 1%Z by lia. change (2 ^ 1)%Z with 2%Z.
  rewrite scale_bin. replace (m * 2 * P)%Z with A by (unfold A; ring). reflexivity.
Qed.
Lemma scale_half : bin 1 (e - 1) * scale == inject_Z P.
Proof. rewrite scale_bin. replace (1 * P)%Z with P by ring. reflexivity. Qed.

Lemma scale_dist X : Qabs (dec X (- k) - bin m e) * scale == inject_Z (Z.abs (X * D - A)).
Proof.
  assert (inject_Z_abs : forall z, inject_Z (Z.abs z) == Qabs (inject_Z z)) by (intros z; reflexivity). rewrite inject_Z_abs.
  rewrite <- (Qabs_pos scale) at 1 by (apply Qlt_le_weak, scale_pos).
  rewrite <- Qabs_Qmult. apply Qabs_wd.
  unfold Zminus. rewrite inject_Z_plus, inject_Z_opp, <- scale_m, <- scale_dec. ring.
Qed.

Lemma inI_interval X : inI A P D (Z.even m) X <-> in_interval m e (dec X (- k)).
Proof.
  unfold inI, in_interval. pose proof (scale_dist X) as S1. pose proof scale_half as S2. pose proof scale_pos as S0.
  set (t := Qabs (dec X (- k) - bin m e)) in *. set (u := bin 1 (e - 1)) in *.
  assert (L : t < u <-> (Z.abs (X * D - A) < P)%Z).
  { rewrite Zlt_Qlt. split; intros H; nra. }
  assert (Eq : t == u <-> (Z.abs (X * D - A) = P)%Z).
  { split; intros H.
    - assert (G : inject_Z (Z.abs (X * D - A)) == inject_Z P) by (rewrite <- S1, <- S2, H; reflexivity).
      unfold Qeq, inject_Z in G. cbn [Qnum Qden] in G. lia.
    - rewrite H in S1. assert (G : t * scale == u * scale) by lra.
      apply Qmult_inj_r in G; [assumption|]. intros Z0. rewrite Z0 in S0. apply Qlt_irrefl in S0. assumption. }
  rewrite L, Eq. pose proof (fnum_pos e k) as P0. fold P in P0. intuition lia.
Qed.

Lemma closer X Y : (Z.abs (X * D - A) <= Z.abs (Y * D - A))%Z ->
  Qabs (dec X (- k) - bin m e) <= Qabs (dec Y (- k) - bin m e).
Proof.
  intros H. rewrite Zle_Qle in H. rewrite <- !scale_dist in H.
  apply Qmult_le_r in H; [assumption|apply scale_pos].
Qed.
End Scale.

Section Finish.
Variables (p emin m e k kappa s : Z).
Hypothesis Hp : (1 < p)%Z.
Hypothesis Can : canonical p emin m e.
Hypothesis Nor : (e = emin \/ 2 ^ (p - 1) < m)%Z.
Hypothesis M : (0 < m)%Z.
Let P := fnum e k.
Let D := fden e k.
Let A := (2 * m * P)%Z.
Hypothesis Kap : (1 <= kappa)%Z.
Hypothesis Hs : (s = 10 ^ kappa)%Z.
Hypothesis Wlo : (s * D < 2 * P)%Z.
Hypothesis Whi : (2 * P < 10 * s * D)%Z.

Lemma dec_one_digit d0 e0 d f : (0 < d0)%Z -> (0 < d < 10)%Z -> (f < e0)%Z ->
  in_interval m e (dec d0 e0) -> in_interval m e (dec d f) -> (m <= 9 /\ f = e0 - 1)%Z.
Proof.
  intros H1 H2 H3 I1 I2. set (u := Qpower (10 # 1) (e0 - 1)). set (h := bin 1 (e - 1)).
  assert (u0 : 0 < u) by apply ten_pow_pos.
  assert (h0 : 0 < h) by (apply half_pos).
  assert (E0 : 10 * u <= dec d0 e0).
  { unfold dec. assert (E10 : Qpower (10 # 1) e0 == 10 * u).
    { unfold u. assert (T : e0 = (1 + (e0 - 1))%Z) by lia. rewrite T at 1. rewrite pow10_add. reflexivity. }
    rewrite E10. assert (1 <= inject_Z d0) by (change 1 with (inject_Z 1); rewrite <- Zle_Qle; lia).
    nra. }
  assert (dq : inject_Z d <= 9) by (change 9 with (inject_Z 9); rewrite <- Zle_Qle; lia).
  assert (dq0 : 1 <= inject_Z d) by (change 1 with (inject_Z 1); rewrite <- Zle_Qle; lia).
  assert (B : bin m e == inject_Z (2 * m) * h).
  { unfold h. rewrite (bin_shift m (e - 1) e) by lia. replace (e - (e - 1))%Z with 1%Z by lia.
    unfold bin. replace (m * 2 ^ 1)%Z with (2 * m)%Z by (change (2 ^ 1)%Z with 2%Z; ring). rewrite Qmult_1_l. reflexivity. }
  unfold in_interval in I1, I2. fold h in I1, I2. rewrite B in I1, I2.
  rewrite inject_Z_mult in *. change (inject_Z 2) with 2 in *.
  assert (m1 : 1 <= inject_Z m) by (change 1 with (inject_Z 1); rewrite <- Zle_Qle; lia).
  assert (U : 10 * u <= (2 * inject_Z m + 1) * h).
  { destruct (abs_spec (dec d0 e0 - 2 * inject_Z m * h)) as [[? ?]|[? ?]]; destruct I1 as [I1|[I1 _]]; lra. }
  assert (Lo : (2 * inject_Z m - 1) * h <= dec d f).
  { destruct (abs_spec (dec d f - 2 * inject_Z m * h)) as [[? ?]|[? ?]]; destruct I2 as [I2|[I2 _]]; lra. }
  split.
  - assert (X : dec d f <= 9 * u).
    { unfold dec. assert (Qpower (10 # 1) f <= u) by (apply ten_mono; lia). pose proof (ten_pow_pos f). nra. }
    assert (Y : (2 * inject_Z m - 19) * h <= 0) by lra.
    assert (Z' : inject_Z m < inject_Z 10). { change (inject_Z 10) with 10. nra. }
    rewrite <- Zlt_Qlt in Z'. lia.
  - destruct (Z.eq_dec f (e0 - 1)) as [|Nf]; [assumption|exfalso].
    assert (X : dec d f <= (9 # 10) * u).
    { unfold dec. assert (T : Qpower (10 # 1) f <= Qpower (10 # 1) (e0 - 2)) by (apply ten_mono; lia).
      assert (U' : u == 10 * Qpower (10 # 1) (e0 - 2)).
      { unfold u. replace (e0 - 1)%Z with (1 + (e0 - 2))%Z by lia. rewrite pow10_add. reflexivity. }
      pose proof (ten_pow_pos f). nra. }
    assert (Y : (20 * inject_Z m - 10 - (18 # 10) * inject_Z m - (9 # 10)) * h <= 0) by lra.
    nra.
Qed.

Variables (c e10 d0 e0 : Z).
Hypothesis MS : main_spec k kappa A P D s (Z.even m) (c, e10).
Hypothesis C0 : (0 < c)%Z.
Hypothesis He0 : (e10 <= e0)%Z.
Hypothesis Str : (c = d0 * 10 ^ (e0 - e10))%Z.
Hypothesis NoZero : (d0 mod 10 <> 0)%Z.
Hypothesis One9 : (m <= 9)%Z -> (d0 < 10)%Z -> forall d, (0 < d < 10)%Z ->
  inI A P D (Z.even m) (d * 10 ^ (e0 - 1 + k)) ->
  (Z.abs (d0 * 10 ^ (e0 + k) * D - A) <= Z.abs (d * 10 ^ (e0 - 1 + k) * D - A))%Z.

Lemma at_least : (kappa - k <= e0)%Z.
Proof. destruct MS as [[E _]|[E _]]; cbn [snd] in E; lia. Qed.
Lemma d0_pos : (0 < d0)%Z.
Proof. assert (0 < 10 ^ (e0 - e10))%Z by (apply Z.pow_pos_nonneg; lia). nia. Qed.

Lemma dec_scaled d f : (- k <= f)%Z -> dec d f == dec (d * 10 ^ (f + k)) (- k).
Proof. intros H. rewrite (dec_shift d (- k) f) by lia. replace (f - - k)%Z with (f + k)%Z by lia. reflexivity. Qed.
Lemma inI_dec d f : (- k <= f)%Z -> (in_interval m e (dec d f) <-> inI A P D (Z.even m) (d * 10 ^ (f + k))).
Proof.
  intros H. unfold A, P, D. rewrite (inI_interval m e k).
  split; intros I; (eapply interval_eq; [|exact I]); [|symmetry]; apply dec_scaled; assumption.
Qed.

(** what was printed, in the scaled integers *)
Lemma printed : (d0 * 10 ^ (e0 + k) = c * 10 ^ (e10 + k))%Z.
Proof.
  destruct MS as [[E _]|[E _]]; cbn [snd] in E; rewrite Str, <- Z.mul_assoc, <- Z.pow_add_r by lia; do 2 f_equal; lia.
Qed.
Lemma pow_split f : (kappa + 1 - k <= f)%Z -> (10 ^ (f + k) = 10 ^ (f + k - kappa - 1) * (10 * s))%Z.
Proof.
  intros H. rewrite Hs. replace (10 * 10 ^ kappa)%Z with (10 ^ (kappa + 1))%Z by (rewrite Z.pow_add_r by lia; ring).
  rewrite <- Z.pow_add_r by lia. f_equal. lia.
Qed.

Lemma finish : best_decimal p emin d0 e0 m e.
Proof.
  pose proof at_least as AL. pose proof d0_pos as DP.
  pose proof (fden_pos e k) as D0. pose proof (fnum_pos e k) as P0. fold D in D0. fold P in P0.
  assert (s0 : (0 < s)%Z) by (rewrite Hs; apply Z.pow_pos_nonneg; lia).
  assert (Is : inI A P D (Z.even m) (d0 * 10 ^ (e0 + k))).
  { rewrite printed. destruct MS as [[E I]|[E [_ [I _]]]]; cbn [fst snd] in E, I; subst e10.
    - replace (kappa + 1 - k + k)%Z with (kappa + 1)%Z by lia. rewrite Z.pow_add_r, <- Hs by lia. 
      replace (c * (s * 10 ^ 1))%Z with (c * (10 * s))%Z by (change (10 ^ 1)%Z with 10%Z; ring). exact I.
    - replace (kappa - k + k)%Z with kappa by lia. rewrite <- Hs. exact I. }
  assert (B : forall j j', inI A P D (Z.even m) (j * (10 * s)) -> inI A P D (Z.even m) (j' * (10 * s)) -> j = j').
  { intros j j' I1 I2. unfold inI in I1, I2. set (W := (10 * s * D)%Z) in *.
    assert (L1 : (A - P <= j * W <= A + P)%Z) by (replace (j * W)%Z with (j * (10 * s) * D)%Z by (unfold W; ring); lia).
    assert (L2 : (A - P <= j' * W <= A + P)%Z) by (replace (j' * W)%Z with (j' * (10 * s) * D)%Z by (unfold W; ring); lia).
    clear I1 I2. clearbody W A. clear - L1 L2 Whi P0.
    destruct (Z.lt_trichotomy j j') as [L|[E|L]]; [|assumption|]; exfalso; nia. }
  assert (Is' : in_interval m e (dec d0 e0)) by (apply inI_dec; [lia|assumption]).
  assert (Same : forall d f, (0 < d)%Z -> (e0 <= f)%Z -> in_interval m e (dec d f) -> (kappa + 1 - k <= e0)%Z -> (d0 = d * 10 ^ (f - e0))%Z).
  { intros d f Hd Hf I K. apply inI_dec in I; [|lia].
    rewrite pow_split, Z.mul_assoc in I by lia. 
    assert (Is2 := Is). rewrite pow_split, Z.mul_assoc in Is2 by lia.
    pose proof (B _ _ I Is2) as E.
    replace (f + k - kappa - 1)%Z with ((f - e0) + (e0 + k - kappa - 1))%Z in E by lia.
    rewrite Z.pow_add_r, Z.mul_assoc in E by lia.
    apply Z.mul_reg_r in E; [congruence|]. assert (0 < 10 ^ (e0 + k - kappa - 1))%Z by (apply Z.pow_pos_nonneg; lia). lia. }
  apply best; try assumption.
  - intros d f Hd I. destruct (Z_le_gt_dec f e0) as [|G]; [assumption|exfalso].
    destruct MS as [[E I']|[E [NB [I' _]]]]; cbn [fst snd] in E, I'.
    + assert (X : d0 = (d * 10 ^ (f - e0))%Z) by (apply Same; try assumption; lia).
      apply NoZero. rewrite X. replace (f - e0)%Z with (Z.succ (f - e0 - 1)) by lia. rewrite Z.pow_succ_r by lia.
      replace (d * (10 * 10 ^ (f - e0 - 1)))%Z with (d * 10 ^ (f - e0 - 1) * 10)%Z by ring. apply Z.mod_mul. lia.
    + apply inI_dec in I; [|lia]. rewrite pow_split, Z.mul_assoc in I by lia. apply NB in I. assumption.
  - intros d Hd I.
    destruct MS as [[E I']|[E [NB [I' [Cl _]]]]]; cbn [fst snd] in E, I'.
    + assert (X : d0 = (d * 10 ^ (e0 - e0))%Z) by (apply Same; try assumption; lia).
      rewrite Z.sub_diag, Z.mul_1_r in X. subst d. apply Qle_refl.
    + assert (EE : e0 = e10).
      { destruct (Z.eq_dec e0 e10) as [|NE]; [assumption|exfalso].
        assert (Is2 := Is). rewrite pow_split, Z.mul_assoc in Is2 by lia. apply NB in Is2. assumption. }
      rewrite (dec_scaled d0 e0), (dec_scaled d e0) by lia. apply closer. fold P. fold D. fold A.
      rewrite printed. rewrite EE, E. replace (kappa - k + k)%Z with kappa by lia. rewrite <- Hs. apply Cl.
  - intros L d f Hd Hf I.
    destruct (dec_one_digit d0 e0 d f DP Hd Hf Is' I) as [M9 Ef]. subst f.
    apply inI_dec in I; [|lia].
    rewrite (dec_scaled d0 e0), (dec_scaled d (e0 - 1)) by lia. apply closer. fold P. fold D. fold A. apply One9; assumption.
Qed.
End Finish.
