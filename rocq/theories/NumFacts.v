(** Facts about numerals, used by several proof files. *)
From Coq Require Import String Ascii NArith.
From Verif Require Import Base NumSpec.

Lemma value_of_app base ds es :
  value_of base (ds ++ es) = value_of base ds * base ^ Z.of_nat (length es) + value_of base es.
Proof.
  unfold value_of. rewrite fold_left_app. generalize (fold_left (fun acc d => acc * base + d) ds 0) as a.
  induction es as [|e es IH] using rev_ind; intros a.
  - simpl. lia.
  - rewrite !fold_left_app, IH. cbn [fold_left]. rewrite app_length, Nat2Z.inj_add. cbn [length].
    rewrite Z.pow_add_r by lia. change (Z.of_nat 1) with 1. rewrite Z.pow_1_r.
    set (f := fold_left _ es 0). ring.
Qed.

Lemma value_of_snoc base ds d : value_of base (ds ++ [d]) = value_of base ds * base + d.
Proof. unfold value_of. rewrite fold_left_app. reflexivity. Qed.

Lemma value_of_cons base d ds : value_of base (d :: ds) = d * base ^ Z.of_nat (length ds) + value_of base ds.
Proof. change (d :: ds) with ([d] ++ ds). rewrite value_of_app. unfold value_of at 1. simpl. lia. Qed.

Lemma value_of_bound base ds : 0 < base -> digits_ok base ds ->
  0 <= value_of base ds < base ^ Z.of_nat (length ds).
Proof.
  intros Hb. induction ds as [|d ds IH] using rev_ind; intros Hd.
  - simpl. unfold value_of; simpl. lia.
  - rewrite value_of_snoc, app_length, Nat2Z.inj_add. cbn [length]. change (Z.of_nat 1) with 1.
    apply Forall_app in Hd as [Hd1 Hd2]. inversion Hd2; subst.
    rewrite Z.pow_add_r, Z.pow_1_r by lia. specialize (IH Hd1). nia.
Qed.

(** Fixed width digit expansion. *)
Fixpoint digs (base : Z) (n : nat) (u : Z) : list Z :=
  match n with O => [] | S k => digs base k (u / base) ++ [u mod base] end.

Lemma digs_length base n u : length (digs base n u) = n.
Proof. revert u; induction n; intros u; simpl; [reflexivity|]. rewrite app_length, IHn. simpl. lia. Qed.

Lemma digs_ok base n u : 0 < base -> digits_ok base (digs base n u).
Proof.
  intros Hb. revert u; induction n; intros u; simpl; [constructor|].
  apply Forall_app; split; [apply IHn|]. constructor; [|constructor]. apply Z.mod_pos_bound; lia.
Qed.

Lemma digs_value base n u : 0 < base -> value_of base (digs base n u) = u mod base ^ Z.of_nat n.
Proof.
  intros Hb. revert u; induction n; intros u.
  - simpl. rewrite Z.mod_1_r. reflexivity.
  - cbn [digs]. rewrite value_of_snoc, IHn, Nat2Z.inj_succ, Z.pow_succ_r by lia.
    rewrite (Z.rem_mul_r u base) by (try apply Z.pow_nonzero; try apply Z.pow_pos_nonneg; lia). lia.
Qed.

Lemma digs_app base n m u : 0 < base ->
  digs base (n + m) u = digs base n (u / base ^ Z.of_nat m) ++ digs base m u.
Proof.
  intros Hb. revert u; induction m; intros u.
  - rewrite Nat.add_0_r. simpl. rewrite Z.div_1_r, app_nil_r. reflexivity.
  - rewrite Nat.add_succ_r. cbn [digs]. rewrite IHm, app_assoc.
    rewrite Nat2Z.inj_succ, Z.pow_succ_r, Z.div_div by (try apply Z.pow_pos_nonneg; lia). reflexivity.
Qed.

Lemma digs_mod base n u : 0 < base -> digs base n (u mod base ^ Z.of_nat n) = digs base n u.
Proof.
  intros Hb. revert u; induction n; intros u; [reflexivity|].
  cbn [digs]. rewrite Nat2Z.inj_succ, Z.pow_succ_r by lia.
  assert (Hp : 0 < base ^ Z.of_nat n) by (apply Z.pow_pos_nonneg; lia).
  rewrite (Z.rem_mul_r u base) by lia.
  f_equal.
  - rewrite (Z.mul_comm base). rewrite Z.div_add by lia.
    rewrite (Z.div_small (u mod base)) by (apply Z.mod_pos_bound; lia). simpl. apply IHn.
  - f_equal. rewrite (Z.mul_comm base), Z.mod_add by lia. apply Z.mod_mod; lia.
Qed.

Lemma digs_mod_ge base n k u : 0 < base -> (n <= k)%nat ->
  digs base n (u mod base ^ Z.of_nat k) = digs base n u.
Proof.
  intros Hb Hk. rewrite <- digs_mod by lia. rewrite <- (digs_mod base n u) by lia. f_equal.
  replace k with (n + (k - n))%nat by lia. rewrite Nat2Z.inj_add, Z.pow_add_r by lia.
  assert (0 < base ^ Z.of_nat n) by (apply Z.pow_pos_nonneg; lia).
  assert (0 < base ^ Z.of_nat (k - n)) by (apply Z.pow_pos_nonneg; lia).
  rewrite Z.rem_mul_r by lia. rewrite (Z.mul_comm (base ^ Z.of_nat n)), Z.mod_add by lia.
  apply Z.mod_mod; lia.
Qed.

Lemma digs_head base k u : 0 < base -> base ^ Z.of_nat k <= u < base ^ Z.of_nat (S k) ->
  exists ds, digs base (S k) u = (u / base ^ Z.of_nat k) :: ds.
Proof.
  intros Hb Hu. change (S k) with (1 + k)%nat. rewrite digs_app by lia.
  exists (digs base k u). simpl. f_equal.
  apply Z.mod_small. split; [apply Z.div_pos; [|apply Z.pow_pos_nonneg]; lia|].
  apply Z.div_lt_upper_bound; [apply Z.pow_pos_nonneg; lia|].
  rewrite Nat2Z.inj_succ, Z.pow_succ_r in Hu by lia. lia.
Qed.

Lemma digs_no_leading_zero base k u : 0 < base ->
  (k = 0%nat \/ base ^ Z.of_nat k <= u) -> u < base ^ Z.of_nat (S k) ->
  no_leading_zero (digs base (S k) u).
Proof.
  intros Hb [->|Hl] Hu; [simpl; exact I|].
  destruct (digs_head base k u Hb (conj Hl Hu)) as [ds ->].
  assert (0 < base ^ Z.of_nat k) by (apply Z.pow_pos_nonneg; lia).
  destruct ds; simpl; [exact I|].
  assert (1 <= u / base ^ Z.of_nat k) by (apply Z.div_le_lower_bound; lia). lia.
Qed.

(** Canonical numerals are unique: two digit sequences without leading zeros
    denoting the same integer are equal. *)
Lemma digits_unique_len base ds es : 1 < base -> digits_ok base ds -> digits_ok base es ->
  length ds = length es -> value_of base ds = value_of base es -> ds = es.
Proof.
  intros Hb. revert es. induction ds as [|d ds IH] using rev_ind; intros es Hd He Hl Hv.
  - destruct es; [reflexivity|discriminate].
  - destruct es as [|e es _] using rev_ind; [rewrite app_length in Hl; simpl in Hl; lia|].
    rewrite !value_of_snoc in Hv. rewrite !app_length in Hl. simpl in Hl.
    apply Forall_app in Hd as [Hd1 Hd2]. apply Forall_app in He as [He1 He2].
    inversion Hd2; inversion He2; subst.
    assert (d = e) by (assert (value_of base ds = value_of base es) by nia; nia).
    subst. f_equal. apply IH; auto; [lia|nia].
Qed.

Lemma canonical_length base ds es : 1 < base -> digits_ok base ds -> digits_ok base es ->
  no_leading_zero ds -> no_leading_zero es -> value_of base ds = value_of base es ->
  (length ds <= length es)%nat.
Proof.
  intros Hb Hd He Nd Ne Hv. destruct (le_lt_dec (length ds) (length es)) as [|Hlt]; [assumption|exfalso].
  destruct ds as [|d ds]; [contradiction|]. destruct ds as [|d' ds].
  { destruct es; [contradiction|simpl in Hlt; lia]. }
  simpl in Nd. rewrite value_of_cons in Hv.
  inversion Hd as [|? ? Hd0 Hds]; subst.
  pose proof (value_of_bound base es ltac:(lia) He) as B1.
  pose proof (value_of_bound base (d' :: ds) ltac:(lia) Hds) as B2.
  assert (base ^ Z.of_nat (length es) <= base ^ Z.of_nat (length (d' :: ds))) by (apply Z.pow_le_mono_r; simpl in *; lia).
  nia.
Qed.

Lemma numeral_unique_digits base ds es : 1 < base -> digits_ok base ds -> digits_ok base es ->
  no_leading_zero ds -> no_leading_zero es -> value_of base ds = value_of base es -> ds = es.
Proof.
  intros. apply (digits_unique_len base); auto.
  apply Nat.le_antisymm; eapply canonical_length; eauto.
Qed.

Lemma numeral_unique base upper u t1 t2 : 1 < base ->
  is_numeral base upper u t1 -> is_numeral base upper u t2 -> t1 = t2.
Proof.
  intros Hb (ds & D1 & N1 & V1 & ->) (es & D2 & N2 & V2 & ->).
  f_equal. eapply numeral_unique_digits; eauto. congruence.
Qed.

Lemma digs_numeral base upper k u : 0 < base -> 0 <= u ->
  (k = 0%nat \/ base ^ Z.of_nat k <= u) -> u < base ^ Z.of_nat (S k) ->
  is_numeral base upper u (map (digit_char upper) (digs base (S k) u)).
Proof.
  intros Hb H0 Hl Hu. exists (digs base (S k) u). repeat split.
  - apply digs_ok; lia.
  - apply digs_no_leading_zero; auto.
  - rewrite digs_value by lia. apply Z.mod_small. lia.
Qed.
