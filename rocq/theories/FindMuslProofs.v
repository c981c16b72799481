From Verif Require Import Base CharModel CharSpec PropsChar FindModel FindSpec FindProofs.
Open Scope Z_scope.

Definition byte (b : Z) : Prop := 0 <= b < 256.

Lemma word_le_bound : forall l, Forall byte l -> 0 <= word_le l < 256 ^ Z.of_nat (length l).
Proof.
  induction l as [|b l IH]; intros H; [cbn; lia|].
  inversion H as [|? ? Hb Hl]; subst. specialize (IH Hl). unfold byte in Hb.
  cbn [word_le length]. rewrite Nat2Z.inj_succ, Z.pow_succ_r by lia. lia.
Qed.

Lemma word_le_app : forall a b,
  word_le (a ++ b) = word_le a + 256 ^ Z.of_nat (length a) * word_le b.
Proof.
  induction a as [|x a IH]; intros b; [cbn [app word_le length]; change (256 ^ Z.of_nat 0) with 1; lia|].
  cbn [app word_le length]. rewrite IH, Nat2Z.inj_succ, Z.pow_succ_r by lia. ring.
Qed.

Lemma word_le_repeat : forall a n, word_le (repeat a n) * 255 = a * (256 ^ Z.of_nat n - 1).
Proof.
  induction n as [|n IH]; [cbn; lia|].
  cbn [repeat word_le]. rewrite Nat2Z.inj_succ, Z.pow_succ_r by lia.
  set (p := 256 ^ Z.of_nat n) in *. nia.
Qed.

Lemma word_le_repeat_scale : forall a n, word_le (repeat a n) = word_le (repeat 1 n) * a.
Proof. induction n as [|n IH]; [reflexivity|]. cbn [repeat word_le]. rewrite IH. ring. Qed.

Lemma pow_word : forall c, 2 ^ word_bits c = 256 ^ Z.of_nat (f_word c).
Proof.
  intros c. unfold word_bits. rewrite Z.pow_mul_r by lia. reflexivity.
Qed.

Lemma musl_ones_eq : forall c, musl_ones c = word_le (repeat 1 (f_word c)).
Proof.
  intros c. unfold musl_ones. rewrite pow_word.
  rewrite <- (Z.div_mul (word_le (repeat 1 (f_word c))) 255) by lia.
  f_equal. rewrite word_le_repeat. lia.
Qed.

Lemma lxor_step : forall a0 b0 A B, byte a0 -> byte b0 ->
  Z.lxor (a0 + 256 * A) (b0 + 256 * B) = Z.lxor a0 b0 + 256 * Z.lxor A B.
Proof.
  intros a0 b0 A B Ha Hb. unfold byte in *.
  assert (X : forall r q, 0 <= r < 256 -> (r + 256 * q) mod 2 ^ 8 = r /\ (r + 256 * q) / 2 ^ 8 = q).
  { intros r q Hr. change (2 ^ 8) with 256. split.
    - symmetry. apply (Z.mod_unique _ _ q); lia.
    - symmetry. apply (Z.div_unique _ _ q r); lia. }
  assert (Hx : 0 <= Z.lxor a0 b0 < 256).
  { split; [apply Z.lxor_nonneg; lia|].
    destruct (Z.eq_dec (Z.lxor a0 b0) 0) as [->|N]; [lia|].
    assert (0 <= Z.lxor a0 b0) by (apply Z.lxor_nonneg; lia).
    apply Z.log2_lt_pow2 with (b := 8); [lia|].
    eapply Z.le_lt_trans; [apply Z.log2_lxor; lia|].
    apply Z.max_lub_lt.
    - destruct (Z.eq_dec a0 0) as [->|]; [cbn; lia|]. apply Z.log2_lt_pow2; [lia|]. cbn. lia.
    - destruct (Z.eq_dec b0 0) as [->|]; [cbn; lia|]. apply Z.log2_lt_pow2; [lia|]. cbn. lia. }
  assert (D : Z.lxor (a0 + 256 * A) (b0 + 256 * B) / 2 ^ 8 = Z.lxor A B).
  { rewrite <- !Z.shiftr_div_pow2 by lia. rewrite Z.shiftr_lxor.
    rewrite !Z.shiftr_div_pow2 by lia. destruct (X a0 A Ha) as [_ ->], (X b0 B Hb) as [_ ->]. reflexivity. }
  assert (M : Z.lxor (a0 + 256 * A) (b0 + 256 * B) mod 2 ^ 8 = Z.lxor a0 b0).
  { destruct (X a0 A Ha) as [Ea _], (X b0 B Hb) as [Eb _].
    rewrite <- Ea at 2. rewrite <- Eb at 2. apply Z.bits_inj'. intros i Hi.
    rewrite Z.lxor_spec.
    destruct (Z_lt_dec i 8).
    - rewrite !Z.mod_pow2_bits_low by lia. apply Z.lxor_spec.
    - rewrite !Z.mod_pow2_bits_high by lia. reflexivity. }
  rewrite (Z.div_mod (Z.lxor (a0 + 256 * A) (b0 + 256 * B)) (2 ^ 8)) by (cbn; lia).
  rewrite D, M. change (2 ^ 8) with 256. lia.
Qed.

Lemma word_le_lxor : forall l ch, Forall byte l -> byte ch ->
  Z.lxor (word_le l) (word_le (repeat ch (length l))) = word_le (map (fun b => Z.lxor b ch) l).
Proof.
  induction l as [|b l IH]; intros ch Hl Hch; [reflexivity|].
  inversion Hl; subst. cbn [length repeat word_le map].
  rewrite lxor_step by assumption. rewrite IH by assumption. reflexivity.
Qed.

Lemma bit7_of : forall y k, 0 <= k -> Z.testbit y (8 * k + 7) = (128 <=? (y / 256 ^ k) mod 256).
Proof.
  intros y k Hk. rewrite Z.testbit_eqb by lia.
  rewrite Z.pow_add_r, Z.pow_mul_r by lia. change (2 ^ 8) with 256. change (2 ^ 7) with 128.
  assert (P : 0 < 256 ^ k) by (apply Z.pow_pos_nonneg; lia).
  rewrite <- Z.div_div by lia.
  set (q := y / 256 ^ k). clearbody q.
  assert (E : q = 256 * (q / 256) + q mod 256) by (apply Z.div_mod; lia).
  assert (R := Z.mod_pos_bound q 256 ltac:(lia)).
  set (r := q mod 256) in *. set (t := q / 256) in *. clearbody r t. subst q.
  replace (256 * t + r) with (r + t * 2 * 128) by ring.
  rewrite Z.div_add by lia.
  destruct (128 <=? r) eqn:E1.
  - assert (r / 128 = 1) by (symmetry; apply (Z.div_unique r 128 1 (r - 128)); lia).
    rewrite H. rewrite Z.mod_add by lia. reflexivity.
  - assert (r / 128 = 0) by (apply Z.div_small; lia).
    rewrite H. rewrite Z.mod_add by lia. reflexivity.
Qed.

Lemma byte_part : forall L P c H, 0 <= L < P -> ((L + P * (c + 256 * H)) / P) mod 256 = c mod 256.
Proof.
  intros L P c H HL.
  replace (L + P * (c + 256 * H)) with (L + (c + 256 * H) * P) by ring.
  rewrite Z.div_add by lia. rewrite Z.div_small by lia. rewrite Z.add_0_l.
  replace (c + 256 * H) with (c + H * 256) by ring.
  rewrite Z.mod_add by lia. reflexivity.
Qed.

Lemma ones_app : forall k b m,
  word_le (repeat 1 (k + S m)) * b =
  word_le (repeat 1 k) * b + 256 ^ Z.of_nat k * (b + 256 * (word_le (repeat 1 m) * b)).
Proof.
  intros k b m. rewrite repeat_app, word_le_app, repeat_length. cbn [repeat word_le]. ring.
Qed.

Lemma word_ge_ones : forall l, Forall (fun b => 1 <= b) l -> word_le (repeat 1 (length l)) <= word_le l.
Proof.
  induction l as [|b l IH]; intros H; [cbn; lia|].
  inversion H; subst. cbn [length repeat word_le]. specialize (IH ltac:(assumption)). lia.
Qed.

Lemma repeat_byte : forall a n, byte a -> Forall byte (repeat a n).
Proof. intros a n H. apply Forall_forall. intros x Hx. apply repeat_spec in Hx. subst. exact H. Qed.

Section Bits.
Variables (c : fcfg) (lo hi : list Z) (b : Z).
Hypothesis Hlen : f_word c = (length lo + S (length hi))%nat.
Hypothesis Hlo : Forall byte lo.
Hypothesis Hhi : Forall byte hi.
Hypothesis Hb : byte b.
Hypothesis Hnz : Forall (fun x => 1 <= x) lo.

Let x := word_le (lo ++ b :: hi).
Let k := Z.of_nat (length lo).

Lemma pos_k : 0 < 256 ^ k.
Proof. apply Z.pow_pos_nonneg; unfold k; lia. Qed.

Lemma highs_bit : Z.testbit (musl_highs c) (8 * k + 7) = true.
Proof.
  unfold musl_highs. rewrite musl_ones_eq, Hlen, ones_app.
  rewrite bit7_of by (unfold k; lia). fold k.
  assert (B := word_le_bound (repeat 128 (length lo)) (repeat_byte 128 _ ltac:(unfold byte; lia))).
  rewrite repeat_length, word_le_repeat_scale in B. fold k in B.
  rewrite byte_part by exact B. reflexivity.
Qed.

Lemma not_bit : Z.testbit (2 ^ word_bits c - 1 - x) (8 * k + 7) = (b <? 128).
Proof.
  rewrite pow_word, Hlen. unfold x. rewrite word_le_app. cbn [word_le].
  rewrite bit7_of by (unfold k; lia). fold k.
  replace (256 ^ Z.of_nat (length lo + S (length hi)))
    with (256 ^ k * (256 * 256 ^ Z.of_nat (length hi)))
    by (unfold k; rewrite Nat2Z.inj_add, Nat2Z.inj_succ, Z.pow_add_r, Z.pow_succ_r by lia; ring).
  replace (256 ^ k * (256 * 256 ^ Z.of_nat (length hi)) - 1 - (word_le lo + 256 ^ k * (b + 256 * word_le hi)))
    with ((256 ^ k - 1 - word_le lo) + 256 ^ k * ((255 - b) + 256 * (256 ^ Z.of_nat (length hi) - 1 - word_le hi)))
    by ring.
  assert (B := word_le_bound lo Hlo). fold k in B.
  rewrite byte_part by lia. unfold byte in Hb. rewrite Z.mod_small by lia.
  destruct (b <? 128) eqn:E; [apply Z.leb_le|apply Z.leb_gt]; lia.
Qed.

Lemma sub_bit : Z.testbit ((x - musl_ones c) mod 2 ^ word_bits c) (8 * k + 7) =
  (128 <=? (b - 1) mod 256).
Proof.
  rewrite Z.mod_pow2_bits_low by (unfold word_bits, k; rewrite Hlen; lia).
  rewrite musl_ones_eq, Hlen.
  assert (E := ones_app (length lo) 1 (length hi)). rewrite !Z.mul_1_r in E. rewrite E. clear E.
  unfold x. rewrite word_le_app. cbn [word_le].
  rewrite bit7_of by (unfold k; lia). fold k.
  replace (word_le lo + 256 ^ k * (b + 256 * word_le hi) -
    (word_le (repeat 1 (length lo)) + 256 ^ k * (1 + 256 * word_le (repeat 1 (length hi)))))
  with ((word_le lo - word_le (repeat 1 (length lo))) +
    256 ^ k * ((b - 1) + 256 * (word_le hi - word_le (repeat 1 (length hi))))) by ring.
  assert (B := word_le_bound lo Hlo). fold k in B.
  assert (G := word_ge_ones lo Hnz).
  assert (B1 := word_le_bound (repeat 1 (length lo)) (repeat_byte 1 _ ltac:(unfold byte; lia))).
  rewrite byte_part by lia. reflexivity.
Qed.

Lemma musl_v_bit : Z.testbit (musl_v c x) (8 * k + 7) = (b =? 0).
Proof.
  unfold musl_v. rewrite !Z.land_spec, highs_bit, not_bit, sub_bit. rewrite andb_true_r.
  unfold byte in Hb. destruct (b =? 0) eqn:E.
  - apply Z.eqb_eq in E. rewrite E. reflexivity.
  - rewrite Z.mod_small by lia. destruct (128 <=? b - 1) eqn:E1, (b <? 128) eqn:E2; try reflexivity; lia.
Qed.
End Bits.

(** A word of which no flag is raised has no zero byte. *)
Lemma musl_v_zero : forall c l, length l = f_word c -> Forall byte l ->
  musl_v c (word_le l) = 0 -> Forall (fun b => b <> 0) l.
Proof.
  intros c l Hlen Hl Hv.
  (* the first zero byte *)
  assert (K : forall n lo hi, length hi = n -> l = lo ++ hi -> Forall (fun b => b <> 0) lo ->
    Forall (fun b => b <> 0) l).
  { induction n as [|n IH]; intros lo hi Hn El Hlo.
    - destruct hi; [|discriminate]. rewrite app_nil_r in El. subst. exact Hlo.
    - destruct hi as [|b hi]; [discriminate|]. cbn in Hn.
      apply (IH (lo ++ [b]) hi); [lia|rewrite <- app_assoc; exact El|].
      apply Forall_app. split; [exact Hlo|]. constructor; [|constructor].
      intros ->.
      assert (Hb : Forall byte lo /\ Forall byte (0 :: hi)) by (apply Forall_app; rewrite <- El; exact Hl).
      destruct Hb as [Hb1 Hb2]. inversion Hb2; subst.
      assert (B := musl_v_bit c lo hi 0).
      rewrite Hv, Z.bits_0 in B. cbn in B.
      discriminate B; try assumption.
      + rewrite app_length in Hlen. cbn in Hlen. lia.
      + rewrite Forall_forall in *. intros y Hy. specialize (Hlo _ Hy). specialize (Hb1 _ Hy).
        unfold byte in Hb1. lia. }
  apply (K (length l) [] l); auto.
Qed.

Lemma musl_v_highs : forall c b l, S (length l) = f_word c -> Forall byte (b :: l) -> b <> 0 ->
  musl_v c (word_le (b :: l)) <> musl_highs c.
Proof.
  intros c b l Hlen Hl Hnz E. inversion Hl; subst.
  assert (B := musl_v_bit c [] l b (eq_sym Hlen) (Forall_nil _) ltac:(assumption) (Forall_nil _)).
  assert (H := highs_bit c [] l b (eq_sym Hlen)).
  cbn [app] in B. rewrite E in B.
  rewrite B in H. apply Z.eqb_eq in H. contradiction.
Qed.

Lemma lxor_byte : forall a b, byte a -> byte b -> byte (Z.lxor a b).
Proof.
  intros a b Ha Hb. unfold byte in *.
  assert (E := lxor_step a b 0 0 Ha Hb). 
  split; [apply Z.lxor_nonneg; lia|].
  destruct (Z.eq_dec (Z.lxor a b) 0) as [->|N]; [lia|].
  assert (0 <= Z.lxor a b) by (apply Z.lxor_nonneg; lia).
  apply Z.log2_lt_pow2 with (b := 8); [lia|].
  eapply Z.le_lt_trans; [apply Z.log2_lxor; lia|].
  apply Z.max_lub_lt.
  - destruct (Z.eq_dec a 0) as [->|]; [cbn; lia|]. apply Z.log2_lt_pow2; [lia|]. cbn. lia.
  - destruct (Z.eq_dec b 0) as [->|]; [cbn; lia|]. apply Z.log2_lt_pow2; [lia|]. cbn. lia.
Qed.

Lemma musl_word : forall c ch v, length v = f_word c -> Forall byte v -> byte ch ->
  Z.lxor (load_word c v) (musl_ones c * ch) =
  word_le (map (fun b => Z.lxor b ch) (if f_big c then rev v else v)).
Proof.
  intros c ch v Hv Hb Hch. unfold load_word.
  rewrite musl_ones_eq, <- word_le_repeat_scale.
  assert (L : f_word c = length (if f_big c then rev v else v)).
  { destruct (f_big c); rewrite ?rev_length; congruence. }
  rewrite L. apply word_le_lxor; [|exact Hch].
  destruct (f_big c); [apply Forall_rev|]; exact Hb.
Qed.

Lemma musl_loop_passes : forall c ch, (0 < f_word c)%nat -> byte ch ->
  forall fuel s, Forall byte s ->
  (musl_loop c false ch fuel s <= length s)%nat /\
  Forall (fun x => pass_char false ch x = true) (firstn (musl_loop c false ch fuel s) s).
Proof.
  intros c ch Hw Hch. induction fuel as [|fuel IH]; intros s Hs; cbn [musl_loop].
  - split; [lia|constructor].
  - destruct (Nat.leb (f_word c) (length s)) eqn:E; [|split; [lia|constructor]].
    apply Nat.leb_le in E.
    assert (HQ1 : Forall byte (firstn (f_word c) s) /\ Forall byte (skipn (f_word c) s)).
    { rewrite <- (firstn_skipn (f_word c) s) in Hs. apply Forall_app in Hs. exact Hs. }
    destruct HQ1 as [HQ1 HQ2].
    assert (L : length (firstn (f_word c) s) = f_word c) by (rewrite firstn_length; lia).
    destruct (musl_v c (Z.lxor (load_word c (firstn (f_word c) s)) (musl_ones c * ch)) =? 0) eqn:E2;
      cbn [negb]; [|split; [lia|constructor]].
    apply Z.eqb_eq in E2.
    rewrite musl_word in E2 by assumption.
    specialize (IH _ HQ2). destruct IH as [I1 I2].
    set (k := musl_loop c false ch fuel (skipn (f_word c) s)) in *. clearbody k.
    rewrite skipn_length in I1. split; [lia|].
    rewrite <- (firstn_skipn (f_word c) s) at 1.
    rewrite firstn_app, firstn_firstn, L.
    replace (Nat.min (f_word c + k) (f_word c)) with (f_word c) by lia.
    replace (f_word c + k - f_word c)%nat with k by lia.
    apply Forall_app. split; [|exact I2].
    apply musl_v_zero in E2.
    + rewrite Forall_forall in E2. apply Forall_forall. intros y Hy. unfold pass_char.
      apply negb_true_iff, Z.eqb_neq. intros ->.
      apply (E2 (Z.lxor ch ch)); [|apply Z.lxor_nilpotent].
      apply (in_map (fun b => Z.lxor b ch)).
      destruct (f_big c); [apply -> in_rev|]; exact Hy.
    + rewrite map_length. destruct (f_big c); rewrite ?rev_length; exact L.
    + apply Forall_forall. intros y Hy. apply in_map_iff in Hy. destruct Hy as [z [<- Hz]].
      apply lxor_byte; [|exact Hch]. rewrite Forall_forall in HQ1. apply HQ1.
      destruct (f_big c); [apply <- in_rev in Hz|]; exact Hz.
Qed.

Lemma find_musl_ok : forall c findnot ch s, (0 < f_word c)%nat -> byte ch -> Forall byte s ->
  (findnot = true -> f_big c = false) ->
  find_musl c findnot ch s = skip_while (pass_char findnot ch) s.
Proof.
  intros c findnot ch s Hw Hch Hs Hbig. unfold find_musl.
  destruct s as [|x s']; [reflexivity|].
  destruct (x =? ch) eqn:E; [reflexivity|].
  apply Z.eqb_neq in E.
  destruct findnot.
  - (* the first word stops the loop *)
    cbn [length musl_loop].
    destruct (Nat.leb (f_word c) (S (length s'))) eqn:E1; [|reflexivity].
    apply Nat.leb_le in E1.
    destruct (f_word c) as [|n] eqn:En; [lia|]. cbn [firstn].
    inversion Hs; subst.
    assert (Hv : Forall byte (x :: firstn n s')).
    { constructor; [assumption|]. apply Forall_forall. intros y Hy.
      rewrite Forall_forall in H2. apply H2. rewrite <- (firstn_skipn n s'). apply in_or_app. left. exact Hy. }
    rewrite musl_word; [|cbn [length]; rewrite firstn_length; lia|exact Hv|exact Hch].
    rewrite Hbig by reflexivity. cbn [map].
    destruct (musl_v c (word_le (Z.lxor x ch :: map (fun b => Z.lxor b ch) (firstn n s'))) =? musl_highs c) eqn:E2;
      [|reflexivity].
    apply Z.eqb_eq in E2. exfalso. revert E2. apply musl_v_highs.
    + rewrite map_length, firstn_length. lia.
    + change (Forall byte (map (fun b => Z.lxor b ch) (x :: firstn n s'))).
      apply Forall_forall. intros y Hy. apply in_map_iff in Hy. destruct Hy as [z [<- Hz]].
      apply lxor_byte; [|exact Hch]. rewrite Forall_forall in Hv. apply Hv. exact Hz.
    + intros K. apply Z.lxor_eq in K. contradiction.
  - apply skip_while_resume; apply musl_loop_passes; assumption.
Qed.
