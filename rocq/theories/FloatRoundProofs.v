(** The rounding interval of a binary number, and when a decimal is the best one. *)
From Coq Require Import QArith Qabs Qpower Lqa.
From Verif Require Import Base FloatSpec.

Open Scope Q_scope.

Lemma two_pow_pos e : 0 < Qpower (2 # 1) e.
Proof. apply Qpower_0_lt. reflexivity. Qed.
Lemma ten_pow_pos e : 0 < Qpower (10 # 1) e.
Proof. apply Qpower_0_lt. reflexivity. Qed.

Lemma pow2_add a b : Qpower (2 # 1) (a + b) == Qpower (2 # 1) a * Qpower (2 # 1) b.
Proof. apply Qpower_plus. discriminate. Qed.
Lemma pow10_add a b : Qpower (10 # 1) (a + b) == Qpower (10 # 1) a * Qpower (10 # 1) b.
Proof. apply Qpower_plus. discriminate. Qed.
Lemma pow2_Z n : (0 <= n)%Z -> Qpower (2 # 1) n == inject_Z (2 ^ n).
Proof. intros H. rewrite Zpower_Qpower by assumption. reflexivity. Qed.
Lemma pow10_Z n : (0 <= n)%Z -> Qpower (10 # 1) n == inject_Z (10 ^ n).
Proof. intros H. rewrite Zpower_Qpower by assumption. reflexivity. Qed.

Lemma bin_shift m e e' : (e <= e')%Z -> bin m e' == bin (m * 2 ^ (e' - e)) e.
Proof.
  intros H. unfold bin. replace e' with ((e' - e) + e)%Z at 1 by lia.
  rewrite pow2_add, pow2_Z by lia. rewrite inject_Z_mult. ring.
Qed.
Lemma dec_shift m e e' : (e <= e')%Z -> dec m e' == dec (m * 10 ^ (e' - e)) e.
Proof.
  intros H. unfold dec. replace e' with ((e' - e) + e)%Z at 1 by lia.
  rewrite pow10_add, pow10_Z by lia. rewrite inject_Z_mult. ring.
Qed.
Lemma bin_le a b e : (a <= b)%Z -> bin a e <= bin b e.
Proof.
  intros H. unfold bin. apply Qmult_le_compat_r; [rewrite <- Zle_Qle; assumption|].
  apply Qlt_le_weak, two_pow_pos.
Qed.
Lemma bin_lt a b e : (a < b)%Z <-> bin a e < bin b e.
Proof.
  unfold bin. split; intros H.
  - apply Qmult_lt_r; [apply two_pow_pos|]. rewrite <- Zlt_Qlt. assumption.
  - apply Qmult_lt_r in H; [|apply two_pow_pos]. rewrite <- Zlt_Qlt in H. assumption.
Qed.
Lemma bin_add a b e : bin (a + b) e == bin a e + bin b e.
Proof. unfold bin. rewrite inject_Z_plus. ring. Qed.
Lemma bin_sub a b e : bin (a - b) e == bin a e - bin b e.
Proof. unfold bin. unfold Z.sub. rewrite inject_Z_plus, inject_Z_opp. ring. Qed.
Lemma dec_le a b e : (a <= b)%Z -> dec a e <= dec b e.
Proof.
  intros H. unfold dec. apply Qmult_le_compat_r; [rewrite <- Zle_Qle; assumption|].
  apply Qlt_le_weak, ten_pow_pos.
Qed.
Lemma dec_lt a b e : (a < b)%Z <-> dec a e < dec b e.
Proof.
  unfold dec. split; intros H.
  - apply Qmult_lt_r; [apply ten_pow_pos|]. rewrite <- Zlt_Qlt. assumption.
  - apply Qmult_lt_r in H; [|apply ten_pow_pos]. rewrite <- Zlt_Qlt in H. assumption.
Qed.

(** ** The numbers of the format next to m * 2^e *)
Section Gap.
Variables (p emin m e : Z).
Hypothesis Hp : (1 < p)%Z.
Hypothesis C : canonical p emin m e.
(** m is not the least significand of its binade, unless the exponent is the least *)
Hypothesis N : (e = emin \/ 2 ^ (p - 1) < m)%Z.

Lemma gap m' e' : in_format p emin m' e' ->
  bin m' e' <= bin m e - bin 1 e \/ bin m' e' == bin m e \/ bin m e + bin 1 e <= bin m' e'.
Proof.
  intros [Hm' He']. destruct C as [[Hm He] _].
  destruct (Z.le_gt_cases e e') as [L|L].
  - rewrite (bin_shift m' e e' L). set (M := (m' * 2 ^ (e' - e))%Z).
    destruct (Z.lt_trichotomy M m) as [T|[T|T]].
    + left. rewrite <- bin_sub. apply bin_le. lia.
    + right; left. rewrite T. reflexivity.
    + right; right. rewrite <- bin_add. apply bin_le. lia.
  - left. rewrite <- bin_sub. destruct N as [N'|N']; [lia|].
    rewrite (bin_shift (m - 1) e' e) by lia.
    apply bin_le.
    replace (e - e')%Z with (1 + (e - e' - 1))%Z by lia.
    rewrite Z.pow_add_r by lia.
    assert (2 ^ p = 2 ^ (p - 1) * 2)%Z.
    { replace p with ((p - 1) + 1)%Z at 1 by lia. rewrite Z.pow_add_r by lia. reflexivity. }
    assert (1 <= 2 ^ (e - e' - 1))%Z by (apply (Z.pow_le_mono_r 2 0); lia).
    nia.
Qed.

Lemma upper_neighbour : exists m' e', in_format p emin m' e' /\ bin m' e' == bin m e + bin 1 e.
Proof.
  destruct C as [[Hm He] _].
  destruct (Z.eq_dec (m + 1) (2 ^ p)) as [E|E].
  - exists (2 ^ (p - 1))%Z, (e + 1)%Z. split.
    + split; [|lia]. split; [apply Z.pow_nonneg; lia|]. apply Z.pow_lt_mono_r; lia.
    + rewrite (bin_shift _ e (e + 1)) by lia. rewrite <- bin_add. replace (e + 1 - e)%Z with 1%Z by lia.
      rewrite E. replace p with ((p - 1) + 1)%Z at 2 by lia. rewrite Z.pow_add_r by lia. reflexivity.
  - exists (m + 1)%Z, e. split; [split; lia|]. apply bin_add.
Qed.
Lemma lower_neighbour : (0 < m)%Z -> in_format p emin (m - 1) e /\ bin (m - 1) e == bin m e - bin 1 e.
Proof. intros H. destruct C as [[Hm He] _]. split; [split; lia|]. apply bin_sub. Qed.

Lemma bin_half x : Qabs (x - bin m e) < bin 1 (e - 1) \/ bin 1 (e - 1) <= Qabs (x - bin m e).
Proof. destruct (Qlt_le_dec (Qabs (x - bin m e)) (bin 1 (e - 1))); auto. Qed.

Lemma one_half : bin 1 e == bin 1 (e - 1) + bin 1 (e - 1).
Proof.
  rewrite (bin_shift 1 (e - 1) e) by lia. replace (e - (e - 1))%Z with 1%Z by lia.
  rewrite <- bin_add. reflexivity.
Qed.
Lemma half_pos : 0 < bin 1 (e - 1).
Proof. unfold bin. pose proof (two_pow_pos (e - 1)). rewrite Qmult_1_l. assumption. Qed.

(** The rounding interval: closed for even m, open for odd m. *)
Definition in_interval (x : Q) : Prop :=
  Qabs (x - bin m e) < bin 1 (e - 1) \/
  (Qabs (x - bin m e) == bin 1 (e - 1) /\ Z.even m = true).

Lemma abs_spec t : (0 <= t /\ Qabs t == t) \/ (t <= 0 /\ Qabs t == - t).
Proof.
  destruct (Qlt_le_dec t 0) as [H|H].
  - right. split; [lra|]. apply Qabs_neg. lra.
  - left. split; [lra|]. apply Qabs_pos. lra.
Qed.

Lemma interval_rounds x : in_interval x -> rounds_to p emin x m e.
Proof.
  intros I. split; [assumption|]. intros m' e' F D.
  pose proof (gap m' e' F) as G. pose proof one_half. pose proof half_pos.
  destruct (Qlt_le_dec (Qabs (x - bin m e)) (Qabs (x - bin m' e'))) as [L|L]; [left; assumption|right].
  unfold in_interval in I.
  destruct (abs_spec (x - bin m e)) as [[? ?]|[? ?]], (abs_spec (x - bin m' e')) as [[? ?]|[? ?]];
    destruct G as [G|[G|G]]; try (elim D; assumption);
    destruct I as [I|[I Ev]]; try (exfalso; lra); (split; [lra|assumption]).
Qed.

Lemma rounds_interval x : (0 < m)%Z -> rounds_to p emin x m e -> in_interval x.
Proof.
  intros M [_ R]. unfold in_interval. pose proof one_half. pose proof half_pos.
  destruct upper_neighbour as (mu & eu & Fu & Eu).
  destruct (lower_neighbour M) as [Fl El].
  assert (Du : ~ bin mu eu == bin m e) by lra.
  assert (Dl : ~ bin (m - 1) e == bin m e) by lra.
  pose proof (R _ _ Fu Du) as Ru. pose proof (R _ _ Fl Dl) as Rl.
  destruct (Qlt_le_dec (Qabs (x - bin m e)) (bin 1 (e - 1))) as [L|L]; [left; assumption|right].
  destruct (abs_spec (x - bin m e)) as [[? ?]|[? ?]], (abs_spec (x - bin mu eu)) as [[? ?]|[? ?]],
    (abs_spec (x - bin (m - 1) e)) as [[? ?]|[? ?]];
    destruct Ru as [Ru|[Ru Ev]], Rl as [Rl|[Rl Ev']]; try (exfalso; lra); (split; [lra|assumption]).
Qed.

Lemma interval_convex a b c : in_interval a -> in_interval c -> a <= b -> b <= c -> in_interval b.
Proof.
  unfold in_interval. intros A C' H1 H2.
  destruct (Qlt_le_dec (Qabs (b - bin m e)) (bin 1 (e - 1))) as [L|L]; [left; assumption|right].
  destruct (abs_spec (a - bin m e)) as [[? ?]|[? ?]], (abs_spec (b - bin m e)) as [[? ?]|[? ?]],
    (abs_spec (c - bin m e)) as [[? ?]|[? ?]];
    destruct A as [A|[A Ev]], C' as [C'|[C' Ev']]; try (exfalso; lra); (split; [lra|assumption]).
Qed.

Lemma interval_eq a b : a == b -> in_interval a -> in_interval b.
Proof. intros E I. apply (interval_convex a b a I I); lra. Qed.

(** ** When a decimal is the best one *)
Variables (d0 e0 : Z).
Hypothesis M : (0 < m)%Z.
Hypothesis D0 : (0 < d0)%Z.
Hypothesis I0 : in_interval (dec d0 e0).
(** no decimal of the interval has a larger exponent *)
Hypothesis Top : forall d f, (0 < d)%Z -> in_interval (dec d f) -> (f <= e0)%Z.
(** none with the same exponent is closer *)
Hypothesis Closest : forall d, (0 < d)%Z -> in_interval (dec d e0) ->
  Qabs (dec d0 e0 - bin m e) <= Qabs (dec d e0 - bin m e).
(** and, if it has one digit, no decimal of one digit and smaller exponent is closer *)
Hypothesis One : (d0 < 10)%Z -> forall d f, (0 < d < 10)%Z -> (f < e0)%Z -> in_interval (dec d f) ->
  Qabs (dec d0 e0 - bin m e) <= Qabs (dec d f - bin m e).

Lemma digits_exist d : (0 < d)%Z -> exists n, has_digits d n.
Proof.
  intros H. unfold has_digits.
  assert (G : forall k : nat, (0 < d < 10 ^ Z.of_nat k)%Z -> exists n, (0 < n /\ 10 ^ (n - 1) <= d < 10 ^ n)%Z).
  { induction k as [|k IH]; intros B.
    - change (10 ^ Z.of_nat 0)%Z with 1%Z in B. lia.
    - destruct (Z_lt_le_dec d (10 ^ Z.of_nat k)) as [L|L]; [apply IH; lia|].
      exists (Z.of_nat (S k)). replace (Z.of_nat (S k) - 1)%Z with (Z.of_nat k) by lia. lia. }
  apply (G (Z.to_nat d)). split; [assumption|]. rewrite Z2Nat.id by lia.
  apply Z.pow_gt_lin_r; lia.
Qed.

(** a decimal below a power of ten that is not above d0 * 10^e0 *)
Lemma between d f n : (0 < d)%Z -> has_digits d0 n -> (2 <= n)%Z -> in_interval (dec d f) ->
  dec d f <= dec 1 (e0 + n - 1) -> False.
Proof.
  intros Hd (Hn & Lo & Hi) Hn2 I L.
  assert (I1 : in_interval (dec 1 (e0 + n - 1))).
  { apply (interval_convex (dec d f) _ (dec d0 e0)); try assumption.
    rewrite (dec_shift 1 e0) by lia. apply dec_le. replace (e0 + n - 1 - e0)%Z with (n - 1)%Z by lia. lia. }
  apply Top in I1; [lia|lia].
Qed.

Lemma best : best_decimal p emin d0 e0 m e.
Proof.
  split; [apply interval_rounds; assumption|].
  destruct (digits_exist d0 D0) as [n Hn]. exists n. split; [assumption|].
  intros d f n' Hn' R. apply rounds_interval in R; [|assumption].
  assert (Hd : (0 < d)%Z). { destruct Hn' as (A & B & _). assert (0 < 10 ^ (n' - 1))%Z by (apply Z.pow_pos_nonneg; lia). lia. }
  pose proof (Top d f Hd R) as T.
  assert (LE : (n' < n)%Z \/ (n' = n /\ (f < e0)%Z /\ (2 <= n)%Z) -> False).
  { intros HH. assert (n2 : (2 <= n)%Z) by (destruct Hn' as (A & _); lia).
    apply (between d f n Hd Hn n2 R).
    destruct Hn' as (A & B & C'). 
    apply Qle_trans with (dec (10 ^ n') f).
    { apply dec_le. lia. }
    assert (E : dec (10 ^ n') f == dec 1 (f + n')).
    { unfold dec. rewrite pow10_add, <- (pow10_Z n') by lia. ring. }
    rewrite E. rewrite (dec_shift 1 (f + n') (e0 + n - 1)) by lia. apply dec_le.
    rewrite Z.mul_1_l. apply (Z.pow_le_mono_r 10 0). lia. lia. }
  split.
  - destruct (Z_lt_le_dec n' n); [|assumption]. exfalso. apply LE. left; assumption.
  - intros ->. destruct (Z.eq_dec f e0) as [->|NE]; [apply Closest; assumption|].
    destruct (Z_lt_le_dec n 2) as [S1|S1].
    + destruct Hn as (A & B & C'). destruct Hn' as (A' & B' & C'').
      assert (n = 1)%Z by lia. subst n. change (10 ^ 1)%Z with 10%Z in *. apply One; lia || assumption.
    + exfalso. apply LE. right. repeat split; lia.
Qed.
End Gap.
