(** Powers of two: the interval of numbers that read back is narrower below. *)
From Coq Require Import QArith Qabs Qpower Lqa.
From Verif Require Import Base Outcome IntrinModel FloatTables FloatModel FloatSpec FloatRoundProofs FloatCertProofs
  FloatCodeProofs FloatBestProofs FloatImplProofs.

Local Open Scope Q_scope.

Section Asym.
Variables (p emin e : Z).
Hypothesis Hp : (2 <= p)%Z.
Hypothesis He : (emin < e)%Z.
Let m : Z := (2 ^ (p - 1))%Z.

Lemma two_m : (2 ^ p = 2 * m)%Z.
Proof. unfold m. replace p with (Z.succ (p - 1)) at 1 by lia. rewrite Z.pow_succ_r by lia. reflexivity. Qed.
Lemma m_even : Z.even m = true.
Proof. unfold m. rewrite Z.even_pow by lia. reflexivity. Qed.
Lemma m_big : (2 <= m)%Z.
Proof. unfold m. assert (2 ^ 1 <= 2 ^ (p - 1))%Z by (apply Z.pow_le_mono_r; lia). change (2 ^ 1)%Z with 2%Z in *. lia. Qed.

Lemma half_half e' : bin 1 e' == bin 1 (e' - 1) + bin 1 (e' - 1).
Proof.
  rewrite (bin_shift 1 (e' - 1) e') by lia. replace (e' - (e' - 1))%Z with 1%Z by lia.
  replace (1 * 2 ^ 1)%Z with (1 + 1)%Z by reflexivity. apply bin_add.
Qed.
Lemma bin_pos n e' : (0 < n)%Z -> 0 < bin n e'.
Proof.
  intros H. unfold bin. pose proof (two_pow_pos e').
  assert (0 < inject_Z n) by (change 0 with (inject_Z 0); rewrite <- Zlt_Qlt; assumption). nra.
Qed.
Lemma m_low : bin m e - bin 1 (e - 1) == bin (2 * m - 1) (e - 1).
Proof.
  rewrite bin_sub. rewrite (bin_shift m (e - 1) e) by lia. replace (e - (e - 1))%Z with 1%Z by lia.
  replace (m * 2 ^ 1)%Z with (2 * m)%Z by (change (2 ^ 1)%Z with 2%Z; ring). reflexivity.
Qed.

Lemma gap_asym m' e' : in_format p emin m' e' ->
  bin m' e' == bin m e \/ bin m e + bin 1 e <= bin m' e' \/ bin m' e' <= bin m e - bin 1 (e - 1).
Proof.
  intros [H1 H2]. pose proof m_big as MB. pose proof two_m as TM.
  destruct (Z_lt_le_dec e' e) as [L|L].
  - right. right. rewrite m_low. rewrite TM in H1.
    apply Qle_trans with (bin (2 * m - 1) e'); [apply bin_le; lia|].
    rewrite (bin_shift (2 * m - 1) e' (e - 1)) by lia. apply bin_le.
    assert (0 < 2 ^ (e - 1 - e'))%Z by (apply Z.pow_pos_nonneg; lia). nia.
  - rewrite (bin_shift m' e e') by lia. set (n := (m' * 2 ^ (e' - e))%Z).
    destruct (Z.lt_trichotomy n m) as [G|[G|G]].
    + right. right. assert (bin n e <= bin (m - 1) e) by (apply bin_le; lia). rewrite bin_sub in H.
      pose proof (half_half e). pose proof (bin_pos 1 (e - 1) ltac:(lia)). lra.
    + left. rewrite G. reflexivity.
    + right. left. assert (bin (m + 1) e <= bin n e) by (apply bin_le; lia). rewrite bin_add in H. lra.
Qed.

Definition asym_interval (x : Q) : Prop := bin m e - bin 1 (e - 2) <= x /\ x <= bin m e + bin 1 (e - 1).

Lemma asym_rounds x : rounds_to p emin x m e <-> asym_interval x.
Proof.
  pose proof m_big as MB. pose proof two_m as TM.
  pose proof (half_half e) as U1. pose proof (half_half (e - 1)) as U2. replace (e - 1 - 1)%Z with (e - 2)%Z in U2 by lia.
  pose proof (bin_pos 1 (e - 2) ltac:(lia)) as U0.
  split.
  - intros [_ R]. 
    assert (Fu : in_format p emin (m + 1) e) by (split; lia).
    assert (Fl : in_format p emin (2 * m - 1) (e - 1)) by (split; lia).
    pose proof (bin_add m 1 e) as Eu. pose proof m_low as El.
    assert (Du : ~ bin (m + 1) e == bin m e) by lra.
    assert (Dl : ~ bin (2 * m - 1) (e - 1) == bin m e) by lra.
    pose proof (R _ _ Fu Du) as Ru. pose proof (R _ _ Fl Dl) as Rl.
    unfold asym_interval.
    destruct (abs_spec (x - bin m e)) as [[? ?]|[? ?]], (abs_spec (x - bin (m + 1) e)) as [[? ?]|[? ?]],
      (abs_spec (x - bin (2 * m - 1) (e - 1))) as [[? ?]|[? ?]];
      destruct Ru as [Ru|[Ru Ev]], Rl as [Rl|[Rl Ev']]; split; lra.
  - intros [I1 I2]. split.
    + split; [split; lia|right; unfold m; lia].
    + intros m' e' F Dn. pose proof (gap_asym m' e' F) as G.
      destruct (Qlt_le_dec (Qabs (x - bin m e)) (Qabs (x - bin m' e'))) as [L|L]; [left; assumption|right].
      split; [|apply m_even].
      destruct (abs_spec (x - bin m e)) as [[? ?]|[? ?]], (abs_spec (x - bin m' e')) as [[? ?]|[? ?]];
        destruct G as [G|[G|G]]; try (elim Dn; assumption); lra.
Qed.

(** in integers *)
Definition asymb (d e10 : Z) : bool :=
  let k := (- e10)%Z in let P := fnum e k in let D := fden e k in
  ((4 * m - 1) * P <=? 2 * d * D)%Z && (d * D <=? (2 * m + 1) * P)%Z.
Lemma asymb_ok d e10 : asymb d e10 = true <-> asym_interval (dec d e10).
Proof.
  unfold asymb. cbv zeta. rewrite andb_true_iff, !Z.leb_le. set (k := (- e10)%Z).
  replace e10 with (- k)%Z by (unfold k; lia).
  pose proof (scale_pos e k) as S0. pose proof (scale_dec e k d) as SD. pose proof (scale_m m e k) as SM.
  pose proof (scale_half e k) as SH. pose proof (half_half (e - 1)) as U2. replace (e - 1 - 1)%Z with (e - 2)%Z in U2 by lia.
  rewrite !Zle_Qle. unfold asym_interval.
  set (P := fnum e k) in *. set (D := fden e k) in *.
  assert (X1 : inject_Z ((4 * m - 1) * P) == 2 * ((bin m e - bin 1 (e - 2)) * scale e k)).
  { replace ((4 * m - 1) * P)%Z with (2 * (2 * m * P) + (- P))%Z by ring.
    rewrite inject_Z_plus, inject_Z_opp, inject_Z_mult, <- SM, <- SH, U2. change (inject_Z 2) with 2. ring. }
  assert (X2 : inject_Z (2 * d * D) == 2 * (dec d (- k) * scale e k)).
  { replace (2 * d * D)%Z with (2 * (d * D))%Z by ring. rewrite inject_Z_mult, <- SD. reflexivity. }
  assert (X3 : inject_Z ((2 * m + 1) * P) == (bin m e + bin 1 (e - 1)) * scale e k).
  { replace ((2 * m + 1) * P)%Z with (2 * m * P + P)%Z by ring. rewrite inject_Z_plus, <- SM, <- SH. ring. }
  rewrite X1, X2, X3, <- SD.
  split; intros [H1 H2]; split.
  - apply (Qmult_le_r _ _ (scale e k)); [assumption|]. lra.
  - apply (Qmult_le_r _ _ (scale e k)); assumption.
  - apply (Qmult_le_r _ _ (scale e k)) in H1; [|assumption]. lra.
  - apply (Qmult_le_r _ _ (scale e k)) in H2; assumption.
Qed.
(** The same with the entry of the table of powers of ten, which is within 1 of the exact power. *)
Definition le_fast (x y lo hi H : Z) (slow : bool) : bool :=
  if (x * hi <=? H * y)%Z then true else if (H * y <? x * lo)%Z then false else slow.
Definition ge_fast (x y lo hi H : Z) (slow : bool) : bool :=
  if (H * y <=? x * lo)%Z then true else if (x * hi <? H * y)%Z then false else slow.
Lemma fast_ok x y lo hi H P D : (0 <= x)%Z -> (0 < D)%Z -> (0 < H)%Z -> (lo * D <= H * P <= hi * D)%Z ->
  le_fast x y lo hi H (x * P <=? y * D)%Z = (x * P <=? y * D)%Z /\
  ge_fast x y lo hi H (y * D <=? x * P)%Z = (y * D <=? x * P)%Z.
Proof.
  intros Hx D0 H0 [N1 N2].
  assert (X1 : (x * lo * D <= x * (H * P))%Z) by (rewrite <- Z.mul_assoc; apply Z.mul_le_mono_nonneg_l; assumption).
  assert (X2 : (x * (H * P) <= x * hi * D)%Z) by (rewrite <- Z.mul_assoc; apply Z.mul_le_mono_nonneg_l; assumption).
  split.
  - unfold le_fast. destruct (Z.leb_spec (x * hi) (H * y)) as [C|C].
    { symmetry. apply Z.leb_le. apply (Z.mul_le_mono_pos_l _ _ H); [assumption|].
      apply (Z.mul_le_mono_nonneg_r _ _ D) in C; lia. }
    destruct (Z.ltb_spec (H * y) (x * lo)) as [C'|C']; [|reflexivity].
    symmetry. apply Z.leb_gt. apply (Z.mul_lt_mono_pos_l H); [assumption|]. apply (Z.mul_lt_mono_pos_r D) in C'; lia.
  - unfold ge_fast. destruct (Z.leb_spec (H * y) (x * lo)) as [C|C].
    { symmetry. apply Z.leb_le. apply (Z.mul_le_mono_pos_l _ _ H); [assumption|].
      apply (Z.mul_le_mono_nonneg_r _ _ D) in C; lia. }
    destruct (Z.ltb_spec (x * hi) (H * y)) as [C'|C']; [|reflexivity].
    symmetry. apply Z.leb_gt. apply (Z.mul_lt_mono_pos_l H); [assumption|]. apply (Z.mul_lt_mono_pos_r D) in C'; lia.
Qed.
Definition asym_fast (d e10 : Z) : bool :=
  let k := (- e10)%Z in let b := betaof k e in
  if ((-292 <=? k) && (b <=? 128))%Z then
    match nth_error pow10_float64_tb (Z.to_nat (k + 292)) with
    | Some w =>
        let G := word2 w in let H := (2 ^ (128 - b))%Z in
        let g := if ((0 <=? k) && (k <=? 55))%Z then 0%Z else 1%Z in
        let lo := (G - g)%Z in let hi := (G + g)%Z in
        le_fast (4 * m - 1) (2 * d) lo hi H ((4 * m - 1) * fnum e k <=? 2 * d * fden e k)%Z &&
        ge_fast (2 * m + 1) d lo hi H (d * fden e k <=? (2 * m + 1) * fnum e k)%Z
    | None => asymb d e10
    end
  else asymb d e10.
Lemma asym_fast_ok d e10 : asym_fast d e10 = asymb d e10.
Proof.
  unfold asym_fast. cbv zeta. set (k := (- e10)%Z).
  destruct (Z.leb_spec (-292) k) as [K|K]; [|reflexivity].
  destruct (Z.leb_spec (betaof k e) 128) as [B|B]; [|reflexivity]. cbn [andb].
  destruct (nth_error pow10_float64_tb (Z.to_nat (k + 292))) as [w|] eqn:T; [|reflexivity].
  pose proof (near_factor e k (word2 w) B (table_near k w K T)) as N. cbv zeta in N.
  pose proof m_big as MB. pose proof (fden_pos' e k) as D0.
  assert (H0 : (0 < 2 ^ (128 - betaof k e))%Z) by (apply Z.pow_pos_nonneg; lia).
  set (g := if ((0 <=? k) && (k <=? 55))%Z then 0%Z else 1%Z).
  assert (N' : ((word2 w - g) * fden e k <= 2 ^ (128 - betaof k e) * fnum e k <= (word2 w + g) * fden e k)%Z).
  { destruct N as [N1 N2]. unfold g. destruct (Z.leb_spec 0 k); [|cbn [andb]; lia].
    destruct (Z.leb_spec k 55); cbn [andb]; [|lia]. specialize (N2 ltac:(lia)). rewrite Z.sub_0_r, Z.add_0_r. lia. }
  unfold asymb. fold k. cbv zeta. f_equal.
  - apply (fast_ok (4 * m - 1) (2 * d) _ _ _ (fnum e k) (fden e k)); try assumption. lia.
  - apply (fast_ok (2 * m + 1) d _ _ _ (fnum e k) (fden e k)); try assumption. lia.
Qed.
End Asym.

Local Open Scope Z_scope.
Definition power_ok (p bias ef : Z) (main : outcome (Z * Z)) : bool :=
  match main with
  | Done (d, e10) => asym_fast p (exponent (p - 1) bias ef) d e10
  | _ => false
  end.
Lemma stripped_interval p e c e10 d0 e0 : stripped c e10 d0 e0 ->
  asym_interval p e (dec d0 e0) <-> asym_interval p e (dec c e10).
Proof.
  intros (A & B & C). unfold asym_interval. rewrite (dec_shift d0 e10 e0) by assumption. rewrite <- B. reflexivity.
Qed.
