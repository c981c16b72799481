(** The decisions of dragonbox_main, on exact integers: A/D is the scaled number, P/D the
    scaled half width of its rounding interval. *)
From Verif Require Import Base.

Section Exact.
Variables (A P D : Z) (even : bool) (h s B : Z).
Hypothesis HD : 0 < D.
Hypothesis HP : 0 < P.
Hypothesis Hh : 0 < h.
Hypothesis Hs : s = 2 * h.
Hypothesis HB : B = 10 * s.
Hypothesis Wlo : s * D < 2 * P.
Hypothesis Whi : 2 * P < B * D.

(** X is in the interval *)
Definition inI (X : Z) : Prop :=
  (A - P < X * D < A + P) \/ ((A - P = X * D \/ X * D = A + P) /\ even = true).
(** no multiple of [B] is *)
Definition noneB : Prop := forall j, ~ inI (j * B).

Variables (zi delta q r : Z).
Hypothesis Zi : zi * D <= A + P < (zi + 1) * D.
Hypothesis Delta : delta * D <= 2 * P < (delta + 1) * D.
Hypothesis Zq : zi = B * q + r.
Hypothesis Rr : 0 <= r < B.

Lemma delta_range : s <= delta < B.
Proof. split; nia. Qed.

Lemma one_multiple j j' : inI (j * B) -> inI (j' * B) -> j = j'.
Proof.
  unfold inI. intros H1 H2.
  assert (L1 : A - P <= j * B * D <= A + P) by lia.
  assert (L2 : A - P <= j' * B * D <= A + P) by lia.
  destruct (Z.lt_trichotomy j j') as [L|[E|L]]; [|assumption|]; exfalso; nia.
Qed.

Lemma below_delta : r < delta -> A - P < q * B * D /\ q * B * D <= A + P /\
  (q * B * D = A + P <-> r = 0 /\ zi * D = A + P).
Proof. intros L. assert (zi * D = q * B * D + r * D) by (rewrite Zq; ring). split; [nia|]. split; nia. Qed.

Lemma take_lower : r < delta -> (r <> 0 \/ even = true \/ zi * D <> A + P) -> inI (q * B).
Proof.
  intros L H. destruct (below_delta L) as (B1 & B2 & B3). unfold inI.
  destruct (Z.eq_dec (q * B * D) (A + P)) as [E|E]; [|left; lia].
  right. split; [right; assumption|]. apply B3 in E. destruct H as [H|[H|H]]; [lia|assumption|lia].
Qed.
Lemma refuse_lower : r = 0 -> even = false -> zi * D = A + P -> noneB.
Proof.
  intros R0 Ev Z0 j I. unfold inI in I. rewrite Ev in I.
  assert (zi = B * q) by lia. assert (A - P < j * B * D < A + P) by (destruct I as [I|[_ I]]; [lia|discriminate]).
  assert (j < q) by nia. nia.
Qed.

Variable xfl : Z.
Hypothesis Xfl : xfl * D <= A - P < (xfl + 1) * D.
Lemma at_delta : r = delta ->
  (Z.odd xfl = true <-> A - P < q * B * D) /\ (Z.odd xfl = false -> q * B = xfl) /\ q * B * D < A + P.
Proof.
  intros E. assert (Eq : q * B = zi - delta) by lia.
  assert (X : xfl = q * B \/ xfl = q * B - 1) by (rewrite Eq; nia).
  assert (Od : Z.odd (q * B) = false).
  { rewrite HB, Hs. replace (q * (10 * (2 * h))) with (2 * (10 * q * h)) by ring. rewrite Z.odd_mul. reflexivity. }
  pose proof delta_range.
  split; [|split].
  - split; intros H0.
    + destruct X as [X|X]; [rewrite X, Od in H0; discriminate|]. nia.
    + destruct X as [X|X]; [exfalso; nia|]. rewrite X, Z.odd_sub, Od. reflexivity.
  - intros H0. destruct X as [X|X]; [lia|]. rewrite X, Z.odd_sub, Od in H0. discriminate.
  - nia.
Qed.
Lemma take_equal : r = delta -> (Z.odd xfl = true \/ (even = true /\ xfl * D = A - P)) -> inI (q * B).
Proof.
  intros E H. destruct (at_delta E) as (P1 & P2 & P3). unfold inI.
  destruct (Z.odd xfl) eqn:O.
  - left. split; [apply P1; reflexivity|assumption].
  - destruct H as [H|[H H']]; [discriminate|]. specialize (P2 eq_refl).
    right. split; [|assumption]. left. rewrite P2. lia.
Qed.
Lemma refuse_equal : r = delta -> Z.odd xfl = false -> (even = false \/ xfl * D <> A - P) -> noneB.
Proof.
  intros E O H j I. destruct (at_delta E) as (P1 & P2 & P3). specialize (P2 O).
  unfold inI in I.
  assert (L : A - P <= j * B * D <= A + P) by lia.
  pose proof delta_range.
  assert (j < q + 1) by nia. assert (q - 1 < j) by nia. assert (j = q) by lia. subst j.
  rewrite P2 in *. destruct (Z.eq_dec (xfl * D) (A - P)) as [E'|E'].
  - destruct H as [H|H]; [|lia]. rewrite H in I. destruct I as [I|[_ I]]; [lia|discriminate].
  - lia.
Qed.
Lemma refuse_above : delta < r -> noneB.
Proof.
  intros L j I. unfold inI in I. assert (L' : A - P <= j * B * D <= A + P) by lia.
  assert (j < q + 1) by nia. assert (q * B * D < A - P) by nia. nia.
Qed.
End Exact.

(** The rounding to a multiple of the small divisor [s]. *)
Section Small.
Variables (A P D : Z) (even : bool) (h s : Z).
Hypothesis HD : 0 < D.
Hypothesis HP : 0 < P.
Hypothesis Hh : 0 < h.
Hypothesis Hs : s = 2 * h.
Hypothesis Wlo : s * D < 2 * P.
Variables (zi yfl pfl dist q : Z).
Hypothesis Zi : zi * D <= A + P < (zi + 1) * D.
Hypothesis Yfl : yfl * D <= A < (yfl + 1) * D.
Hypothesis Pfl : pfl * D <= P < (pfl + 1) * D.
(** [q] is the quotient after the addition of dist / s *)
Hypothesis Hq : q * s <= zi - pfl + h < (q + 1) * s.

Definition closest (X : Z) : Prop := forall j, Z.abs (X * D - A) <= Z.abs (j * s * D - A).
Definition ties_even (c : Z) : Prop :=
  forall j, j <> c -> Z.abs (c * s * D - A) = Z.abs (j * s * D - A) -> Z.even c = true.

Lemma yfl_cases : yfl = zi - pfl \/ yfl = zi - pfl - 1.
Proof. nia. Qed.

Lemma half_close c : 2 * Z.abs (c * s * D - A) <= s * D ->
  inI A P D even (c * s) /\ closest (c * s).
Proof.
  intros H. split.
  - left. lia.
  - intros j. destruct (Z.eq_dec j c) as [->|N]; [lia|].
    assert (s * D <= Z.abs (j * s * D - c * s * D)) by nia. lia.
Qed.

Lemma no_tie c : 2 * Z.abs (c * s * D - A) < s * D -> ties_even c.
Proof.
  intros H j N E. exfalso.
  assert (s * D <= Z.abs (j * s * D - c * s * D)) by nia. lia.
Qed.

(** an integral middle is never missed by one *)
Lemma exact_middle : yfl * D = A -> yfl = zi - pfl.
Proof. intros E. pose proof yfl_cases. nia. Qed.

Lemma round_plain : q * s <> zi - pfl + h -> 2 * Z.abs (q * s * D - A) < s * D.
Proof.
  intros N. pose proof yfl_cases as [Y|Y].
  - nia.
  - assert (yfl * D <> A) by (intros E; apply exact_middle in E; lia). nia.
Qed.
Lemma round_down : q * s = zi - pfl + h -> yfl = zi - pfl - 1 ->
  2 * Z.abs ((q - 1) * s * D - A) < s * D.
Proof. intros E Y. assert (yfl * D <> A) by (intros T; apply exact_middle in T; lia). nia. Qed.
Lemma round_up : q * s = zi - pfl + h -> yfl = zi - pfl -> yfl * D <> A -> 2 * Z.abs (q * s * D - A) < s * D.
Proof. intros E Y. nia. Qed.
Lemma round_tie : q * s = zi - pfl + h -> yfl * D = A ->
  2 * Z.abs (q * s * D - A) <= s * D /\ 2 * Z.abs ((q - 1) * s * D - A) <= s * D.
Proof. intros E T. pose proof (exact_middle T) as Y. nia. Qed.

(** the outcome: c * s is in the interval, closest, and even if another is as close *)
Definition rounded (c : Z) : Prop := inI A P D even (c * s) /\ closest (c * s) /\ ties_even c.
Lemma rounded_strict c : 2 * Z.abs (c * s * D - A) < s * D -> rounded c.
Proof.
  intros H. destruct (half_close c) as [H1 H2]; [lia|].
  split; [assumption|]. split; [assumption|]. apply no_tie. assumption.
Qed.
Lemma rounded_even c : 2 * Z.abs (c * s * D - A) <= s * D -> Z.even c = true -> rounded c.
Proof.
  intros H E. destruct (half_close c) as [H1 H2]; [lia|].
  split; [assumption|]. split; [assumption|]. intros j _ _. assumption.
Qed.

Lemma rounding_right (down : bool) :
  (q * s = zi - pfl + h ->
     down = (negb (yfl =? zi - pfl) || (Z.odd q && (yfl * D =? A)))%bool) ->
  (q * s <> zi - pfl + h -> down = false) ->
  rounded (if down then q - 1 else q).
Proof.
  intros H1 H2. destruct (Z.eq_dec (q * s) (zi - pfl + h)) as [E|E].
  - specialize (H1 E). destruct (Z.eqb_spec yfl (zi - pfl)) as [Y|Y].
    + destruct (Z.eqb_spec (yfl * D) A) as [T|T].
      * destruct (round_tie E T) as [R1 R2]. simpl in H1. rewrite andb_true_r in H1. subst down.
        destruct (Z.odd q) eqn:O.
        -- apply rounded_even; [assumption|]. rewrite Z.even_sub, <- Z.negb_odd, O. reflexivity.
        -- apply rounded_even; [assumption|]. rewrite <- Z.negb_odd, O. reflexivity.
      * simpl in H1. rewrite andb_false_r in H1. subst down. apply rounded_strict, round_up; assumption.
    + simpl in H1. subst down. apply rounded_strict, round_down; [assumption|].
      pose proof yfl_cases. lia.
  - rewrite (H2 E). apply rounded_strict, round_plain. assumption.
Qed.
End Small.
