(** Proofs about integer printing. *)
From Coq Require Import String Ascii NArith.
From Verif Require Import Base NumSpec NumFacts IntPrintModel.

(** ** Digit characters and the two-digit table *)

Lemma charliteral_digit_char upper v : 0 <= v < 36 -> charliteralofnumber upper v = digit_char upper v.
Proof.
  intros Hv.
  assert (H : forallb (fun v => (charliteralofnumber upper v =? digit_char upper v)) (zseq 36) = true)
    by (destruct upper; vm_compute; reflexivity).
  rewrite forallb_forall in H. apply Z.eqb_eq, H.
  unfold zseq. apply in_map_iff. exists (Z.to_nat v). split; [lia|]. apply in_seq. lia.
Qed.

Lemma digit_char_small upper v : 0 <= v < 10 -> digit_char upper v = 48 + v.
Proof. intros Hv. rewrite <- charliteral_digit_char by lia. unfold charliteralofnumber. destruct (Z.ltb_spec v 10); lia. Qed.

Lemma digit_char_base10 upper v : 0 <= v < 10 -> digit_char upper v = digit_char false v.
Proof. intros; rewrite !digit_char_small by lia; reflexivity. Qed.

Lemma nth_error_flat_map_const (A B : Type) (f : A -> list B) (k : nat) l i j x :
  (forall y, length (f y) = k) -> nth_error l i = Some x -> (j < k)%nat ->
  nth_error (flat_map f l) (i * k + j) = nth_error (f x) j.
Proof.
  intros Hf. revert l. induction i as [|i IH]; intros l Hx Hj; destruct l as [|y l]; try discriminate.
  - simpl in *. injection Hx as ->. rewrite nth_error_app1; [reflexivity|]. rewrite Hf. lia.
  - simpl in *. rewrite nth_error_app2; rewrite Hf; [|lia].
    replace (k + i * k + j - k)%nat with (i * k + j)%nat by lia. apply IH; auto.
Qed.

Lemma nth_error_zseq n i : 0 <= i < n -> nth_error (zseq n) (Z.to_nat i) = Some i.
Proof.
  intros Hi. unfold zseq. rewrite nth_error_map.
  replace (nth_error (seq 0 (Z.to_nat n)) (Z.to_nat i)) with (Some (Z.to_nat i)).
  - simpl. f_equal. lia.
  - symmetry. rewrite (nth_error_nth' _ 0%nat) by (rewrite seq_length; lia). rewrite seq_nth by lia. reflexivity.
Qed.

Lemma zseq_length n : length (zseq n) = Z.to_nat n.
Proof. unfold zseq. rewrite map_length, seq_length. reflexivity. Qed.

Lemma flat_map_const_length (A B : Type) (f : A -> list B) k l :
  (forall y, length (f y) = k) -> length (flat_map f l) = (length l * k)%nat.
Proof. intros Hf. induction l; simpl; [reflexivity|]. rewrite app_length, Hf, IHl. reflexivity. Qed.

Lemma tb_read_spec base upper i j s : 2 <= base <= 36 -> 0 <= i < base -> 0 <= j < base -> 0 <= s < 2 ->
  tb_read base upper (2 * (i * base + j) + s) = Some (charliteralofnumber upper (if s =? 0 then i else j)).
Proof.
  intros Hb Hi Hj Hs. unfold tb_read. destruct (Z.ltb_spec (2 * (i * base + j) + s) 0) as [H|_]; [nia|].
  unfold digits_table.
  set (inner := fun i => flat_map (fun j => [charliteralofnumber upper i; charliteralofnumber upper j]) (zseq base)).
  assert (Hin : forall y, length (inner y) = Z.to_nat (2 * base)).
  { intros y. unfold inner. rewrite (flat_map_const_length _ _ _ 2%nat) by reflexivity.
    rewrite zseq_length. lia. }
  replace (Z.to_nat (2 * (i * base + j) + s)) with (Z.to_nat i * Z.to_nat (2 * base) + Z.to_nat (2 * j + s))%nat by nia.
  rewrite (nth_error_flat_map_const _ _ inner (Z.to_nat (2 * base)) (zseq base) _ _ i Hin);
    [|apply nth_error_zseq; lia|lia].
  unfold inner.
  replace (Z.to_nat (2 * j + s)) with (Z.to_nat j * 2 + Z.to_nat s)%nat by lia.
  rewrite (nth_error_flat_map_const _ _ _ 2%nat (zseq base) _ _ j); [|reflexivity|apply nth_error_zseq; lia|lia].
  assert (s = 0 \/ s = 1) as [-> | ->] by lia; reflexivity.
Qed.

Lemma tb_pair_spec base upper r : 2 <= base <= 36 -> 0 <= r < base * base ->
  tb_pair base upper r = Some (map (digit_char upper) [r / base; r mod base]).
Proof.
  intros Hb Hr. unfold tb_pair.
  pose proof (Z.div_mod r base ltac:(lia)) as E. pose proof (Z.mod_pos_bound r base ltac:(lia)) as Hm.
  assert (Hd : 0 <= r / base < base) by (split; [apply Z.div_pos|apply Z.div_lt_upper_bound]; lia).
  set (i := r / base) in *. set (j := r mod base) in *.
  replace (2 * r) with (2 * (i * base + j) + 0) by lia.
  rewrite tb_read_spec by lia.
  replace (2 * (i * base + j) + 0 + 1) with (2 * (i * base + j) + 1) by lia.
  rewrite tb_read_spec by lia. cbn [Z.eqb map]. rewrite !charliteral_digit_char by lia. reflexivity.
Qed.

Lemma two_digit_loop_spec base upper k t acc : 2 <= base <= 36 -> 0 <= t ->
  two_digit_loop base upper k t acc =
  Some (t / base ^ Z.of_nat (2 * k), map (digit_char upper) (digs base (2 * k) t) ++ acc).
Proof.
  intros Hb. revert t acc. induction k as [|k IH]; intros t acc Ht.
  - cbn [two_digit_loop Nat.mul digs map app]. rewrite Z.pow_0_r, Z.div_1_r. reflexivity.
  - cbn [two_digit_loop].
    rewrite tb_pair_spec by (try apply Z.mod_pos_bound; nia).
    rewrite IH by (apply Z.div_pos; nia). f_equal. f_equal.
    + rewrite Z.div_div by (try apply Z.pow_pos_nonneg; nia). f_equal.
      replace (Z.of_nat (2 * S k)) with (2 + Z.of_nat (2 * k)) by lia.
      rewrite Z.pow_add_r by lia. rewrite Z.pow_2_r. reflexivity.
    + replace (2 * S k)%nat with (2 * k + 2)%nat by lia.
      rewrite digs_app by lia. rewrite map_app, <- app_assoc.
      change (Z.of_nat 2) with 2. rewrite Z.pow_2_r. f_equal. f_equal.
      cbn [digs app].
      assert (E1 : t mod (base * base) / base = t / base mod base).
      { rewrite Z.rem_mul_r by lia. rewrite (Z.mul_comm base), Z.div_add by lia.
        rewrite (Z.div_small (t mod base)) by (apply Z.mod_pos_bound; lia). lia. }
      assert (E2 : t mod (base * base) mod base = t mod base).
      { rewrite Z.rem_mul_r by lia. rewrite (Z.mul_comm base), Z.mod_add by lia. apply Z.mod_mod; lia. }
      rewrite E1, E2. reflexivity.
Qed.

Lemma main_impl_word_spec base upper t len : 2 <= base <= 36 -> (base <= 10 -> upper = false) -> 0 <= len ->
  0 <= t < base ^ len ->
  main_impl_word base upper t len = Some (map (digit_char upper) (digs base (Z.to_nat len) t)).
Proof.
  intros Hb Hup Hl Ht. unfold main_impl_word. rewrite two_digit_loop_spec by lia.
  set (k := Z.to_nat (len / 2)).
  destruct (Z.odd len) eqn:Ho.
  - assert (Hlen : len = 1 + Z.of_nat (2 * k)).
    { pose proof (Z.div_mod len 2 ltac:(lia)). rewrite Zmod_odd, Ho in H. unfold k. lia. }
    assert (Hp : 0 < base ^ Z.of_nat (2 * k)) by (apply Z.pow_pos_nonneg; lia).
    assert (Ht' : 0 <= t / base ^ Z.of_nat (2 * k) < base).
    { split; [apply Z.div_pos; lia|]. apply Z.div_lt_upper_bound; [lia|].
      rewrite Hlen, Z.pow_add_r, Z.pow_1_r in Ht by lia. lia. }
    replace (Z.to_nat len) with (1 + 2 * k)%nat by lia.
    rewrite digs_app by lia. rewrite map_app, app_nil_r. cbn [digs app map].
    rewrite (Z.mod_small _ base Ht').
    destruct (Z.leb_spec base 10) as [H10|H10].
    + unfold char_literal_add0.
      destruct (Z.leb_spec 0 (t / base ^ Z.of_nat (2 * k))); [|lia].
      destruct (Z.ltb_spec (t / base ^ Z.of_nat (2 * k)) 10); [|lia]. cbn [andb].
      rewrite digit_char_small by lia. reflexivity.
    + replace (2 * (t / base ^ Z.of_nat (2 * k)) + 1) with (2 * (0 * base + t / base ^ Z.of_nat (2 * k)) + 1) by lia.
      rewrite tb_read_spec by lia. cbn [Z.eqb]. rewrite charliteral_digit_char by lia. reflexivity.
  - assert (Hlen : len = Z.of_nat (2 * k)).
    { pose proof (Z.div_mod len 2 ltac:(lia)). rewrite Zmod_odd, Ho in H. unfold k. lia. }
    replace (Z.to_nat len) with (2 * k)%nat by lia. rewrite app_nil_r. reflexivity.
Qed.

(** ** Lengths *)

(** [len] is the number of digits of [u] in [base]. *)
Definition digit_count (base u len : Z) : Prop :=
  1 <= len /\ u < base ^ len /\ (len = 1 \/ base ^ (len - 1) <= u).

Lemma digit_count_numeral base upper u len : 1 < base -> 0 <= u -> digit_count base u len ->
  is_numeral base upper u (map (digit_char upper) (digs base (Z.to_nat len) u)).
Proof.
  intros Hb Hu (H1 & H2 & H3). replace (Z.to_nat len) with (S (Z.to_nat (len - 1))) by lia.
  apply digs_numeral; try lia.
  - destruct H3; [left; lia|right]. rewrite Z2Nat.id by lia. lia.
  - rewrite Nat2Z.inj_succ, Z2Nat.id by lia. replace (Z.succ (len - 1)) with len by lia. lia.
Qed.

Lemma digit_count_unique base u l1 l2 : 1 < base -> 0 <= u -> digit_count base u l1 -> digit_count base u l2 -> l1 = l2.
Proof.
  assert (W : forall a b, 1 < base -> digit_count base u a -> digit_count base u b -> a <= b).
  { intros a b Hb (A1 & A2 & A3) (B1 & B2 & B3). destruct (Z.le_gt_cases a b); [assumption|].
    destruct A3 as [->|A3]; [lia|].
    assert (base ^ b <= base ^ (a - 1)) by (apply Z.pow_le_mono_r; lia). lia. }
  intros; apply Z.le_antisymm; apply W; auto.
Qed.

Lemma chars_len10_spec k value : 0 <= value < 10 ^ (Z.of_nat k + 1) ->
  digit_count 10 value (chars_len10_from k value).
Proof.
  induction k as [|k IH]; intros Hv.
  - cbn [chars_len10_from]. repeat split; try lia.
  - cbn [chars_len10_from]. destruct (Z.leb_spec (10 ^ Z.of_nat (S k)) value) as [H|H].
    + repeat split; [lia|lia|right]. replace (Z.of_nat (S k) + 1 - 1) with (Z.of_nat (S k)) by lia. lia.
    + apply IH. split; [lia|]. replace (Z.of_nat k + 1) with (Z.of_nat (S k)) by lia. lia.
Qed.

Lemma chars_len_pow2_spec l value : 1 <= l -> 0 <= value ->
  digit_count (2 ^ l) value (chars_len_pow2 l value).
Proof.
  intros Hl Hv. unfold chars_len_pow2. set (m := Z.lor value 1).
  assert (Hm : value <= m /\ 1 <= m /\ (value = 0 -> m = 1) /\ (1 <= value -> Z.log2 m = Z.log2 value)).
  { unfold m. assert (E : Z.lor value 1 = if Z.odd value then value else value + 1).
    { destruct (Z.odd value) eqn:Ho.
      - apply Z.bits_inj'. intros n Hn. rewrite Z.lor_spec.
        destruct (Z.eq_dec n 0) as [->|]; [rewrite Z.bit0_odd, Ho; reflexivity|].
        change 1 with (2 ^ 0). rewrite Z.pow2_bits_false by lia. rewrite orb_false_r. reflexivity.
      - assert (Z.land value 1 = 0).
        { apply Z.bits_inj'. intros n Hn. rewrite Z.land_spec, Z.bits_0.
          destruct (Z.eq_dec n 0) as [->|]; [rewrite Z.bit0_odd, Ho; reflexivity|].
          change 1 with (2 ^ 0). rewrite Z.pow2_bits_false by lia. apply andb_false_r. }
        rewrite <- Z.lxor_lor by assumption. rewrite <- Z.add_nocarry_lxor by assumption. reflexivity. }
    rewrite E. destruct (Z.odd value) eqn:Ho.
    - repeat split; try lia; [|intros; subst; discriminate].
      assert (value <> 0) by (intros ->; discriminate). lia.
    - repeat split; try lia; intros H.
      assert (value <> 1) by (intros ->; discriminate).
      apply Z.log2_unique; [apply Z.log2_nonneg|].
      pose proof (Z.log2_spec value ltac:(lia)) as [L1 L2].
      pose proof (Z.log2_nonneg value) as L0.
      assert (1 <= Z.log2 value) by (apply (Z.log2_le_mono 2 value); lia).
      assert (value + 1 <> 2 ^ Z.succ (Z.log2 value)).
      { intros C. assert (Ho2 : Z.odd (value + 1) = true) by (rewrite Z.odd_add, Ho; reflexivity).
        rewrite C, Z.pow_succ_r, Z.odd_mul in Ho2 by lia. simpl in Ho2. discriminate. }
      lia. }
  destruct Hm as (Hm1 & Hm2 & Hm3 & Hm4).
  replace (Z.log2 m + 1 - 1) with (Z.log2 m) by lia.
  pose proof (Z.log2_nonneg m) as L0.
  pose proof (Z.log2_spec m ltac:(lia)) as [L1 L2].
  pose proof (Z.div_mod (Z.log2 m) l ltac:(lia)) as E. pose proof (Z.mod_pos_bound (Z.log2 m) l ltac:(lia)) as Hr.
  assert (Hq : 0 <= Z.log2 m / l) by (apply Z.div_pos; lia).
  split; [lia|]. split.
  - rewrite <- Z.pow_mul_r by lia.
    assert (2 ^ Z.succ (Z.log2 m) <= 2 ^ (l * (Z.log2 m / l + 1))) by (apply Z.pow_le_mono_r; nia). lia.
  - destruct (Z.eq_dec value 0) as [->|Hnz].
    + left. rewrite Hm3 by reflexivity. change (Z.log2 1) with 0. rewrite Z.div_0_l by lia. lia.
    + destruct (Z.eq_dec (Z.log2 m / l) 0) as [->|]; [left; lia|right].
      replace (Z.log2 m / l + 1 - 1) with (Z.log2 m / l) by lia.
      rewrite <- Z.pow_mul_r by lia. rewrite Hm4 in * by lia.
      pose proof (Z.log2_spec value ltac:(lia)) as [V1 V2].
      assert (2 ^ (l * (Z.log2 value / l)) <= 2 ^ Z.log2 value) by (apply Z.pow_le_mono_r; nia). lia.
Qed.

Lemma chars_len_loop_spec fuel base : 2 <= base -> forall n value, 0 <= value < base ^ (4 * Z.of_nat fuel) -> 1 <= n ->
  fuel <> 0%nat ->
  exists len, digit_count base value len /\ chars_len_loop fuel base n value = n - 1 + len.
Proof.
  intros Hb. induction fuel as [|f IH]; intros n value Hv Hn Hf; [congruence|].
  cbn [chars_len_loop].
  assert (P1 : base ^ 1 = base) by apply Z.pow_1_r.
  destruct (Z.ltb_spec value base) as [H1|H1].
  { exists 1. split; [|lia]. repeat split; lia. }
  destruct (Z.ltb_spec value (base ^ 2)) as [H2|H2].
  { exists 2. split; [|lia]. repeat split; try lia. }
  destruct (Z.ltb_spec value (base ^ 3)) as [H3|H3].
  { exists 3. split; [|lia]. repeat split; try lia. }
  destruct (Z.ltb_spec value (base ^ 4)) as [H4|H4].
  { exists 4. split; [|lia]. repeat split; try lia. }
  assert (Hp4 : 0 < base ^ 4) by (apply Z.pow_pos_nonneg; lia).
  destruct (Nat.eq_dec f 0) as [->|Hf0].
  { change (4 * Z.of_nat 1) with 4 in Hv. lia. }
  destruct (IH (n + 4) (value / base ^ 4)) as (len & (L1 & L2 & L3) & E); [|lia|assumption|].
  { split; [apply Z.div_pos; lia|]. apply Z.div_lt_upper_bound; [lia|].
    rewrite <- Z.pow_add_r by lia. replace (4 + 4 * Z.of_nat f) with (4 * Z.of_nat (S f)) by lia. lia. }
  exists (len + 4). split; [|lia].
  pose proof (Z.div_mod value (base ^ 4) ltac:(lia)) as Ed. pose proof (Z.mod_pos_bound value (base ^ 4) Hp4) as Hm.
  repeat split; [lia| |right].
  - rewrite Z.pow_add_r by lia. nia.
  - destruct L3 as [->|L3].
    + change (1 + 4 - 1) with 4. lia.
    + replace (len + 4 - 1) with (len - 1 + 4) by lia. rewrite Z.pow_add_r by lia. nia.
Qed.

Lemma width_cases w : In w int_widths -> w = 8 \/ w = 16 \/ w = 32 \/ w = 64 \/ w = 128.
Proof. simpl. intuition. Qed.

Lemma chars_len_spec w base value : In w int_widths -> 2 <= base <= 36 -> 0 <= value < 2 ^ w ->
  digit_count base value (chars_len w base value).
Proof.
  intros Hw Hb Hv. unfold chars_len.
  destruct (Z.eqb_spec base 10) as [->|N10].
  { apply chars_len10_spec. split; [lia|]. eapply Z.lt_le_trans; [apply Hv|].
    apply width_cases in Hw as [-> |[-> |[-> |[-> | ->]]]]; vm_compute; discriminate. }
  destruct (Z.eqb_spec base 2) as [->|N2]; [cbn [orb]; apply (chars_len_pow2_spec 1); lia|].
  destruct (Z.eqb_spec base 4) as [->|N4]; [cbn [orb]; apply (chars_len_pow2_spec 2); lia|].
  destruct (Z.eqb_spec base 8) as [->|N8]; [cbn [orb]; apply (chars_len_pow2_spec 3); lia|].
  destruct (Z.eqb_spec base 16) as [->|N16]; [cbn [orb]; apply (chars_len_pow2_spec 4); lia|].
  destruct (Z.eqb_spec base 32) as [->|N32]; [cbn [orb]; apply (chars_len_pow2_spec 5); lia|].
  cbn [orb].
  destruct (chars_len_loop_spec 64 base ltac:(lia) 1 value) as (len & D & E); [|lia|discriminate|].
  { split; [lia|]. apply Z.lt_le_trans with (2 ^ 128).
    - eapply Z.lt_le_trans; [apply Hv|]. apply Z.pow_le_mono_r; [lia|].
      apply width_cases in Hw. lia.
    - apply Z.le_trans with (2 ^ (4 * Z.of_nat 64)); [vm_compute; discriminate|].
      apply Z.pow_le_mono_l. lia. }
  rewrite E. replace (1 - 1 + len) with len by lia. exact D.
Qed.

Lemma count_div_spec fuel base : 2 <= base -> forall n, 0 <= n < base ^ Z.of_nat fuel ->
  0 <= count_div fuel base n /\ n < base ^ count_div fuel base n
  /\ (n = 0 /\ count_div fuel base n = 0 \/ 1 <= count_div fuel base n /\ base ^ (count_div fuel base n - 1) <= n).
Proof.
  intros Hb. induction fuel as [|f IH]; intros n Hn.
  - simpl in *. lia.
  - cbn [count_div]. destruct (Z.eqb_spec n 0) as [->|Hnz].
    + simpl. lia.
    + destruct (IH (n / base)) as (A & B & C).
      { split; [apply Z.div_pos; lia|]. apply Z.div_lt_upper_bound; [lia|].
        rewrite Nat2Z.inj_succ, Z.pow_succ_r in Hn by lia. lia. }
      pose proof (Z.div_mod n base ltac:(lia)) as Ed. pose proof (Z.mod_pos_bound n base ltac:(lia)) as Hm.
      set (c := count_div f base (n / base)) in *.
      split; [lia|]. split.
      * replace (1 + c) with (Z.succ c) by lia. rewrite Z.pow_succ_r by lia. nia.
      * right. split; [lia|]. replace (1 + c - 1) with c by lia.
        destruct C as [[C1 C2]|[C1 C2]].
        -- rewrite C2. simpl. lia.
        -- replace c with (Z.succ (c - 1)) by lia. rewrite Z.pow_succ_r by lia. nia.
Qed.

Lemma cal_max_int_size_spec ty base : In (iw ty) int_widths -> 2 <= base ->
  digit_count base (int_max ty) (cal_max_int_size ty base).
Proof.
  intros Hw Hb. unfold cal_max_int_size.
  assert (Hm : 0 < int_max ty < 2 ^ 200).
  { unfold int_max. apply width_cases in Hw. destruct (isigned ty);
    destruct Hw as [-> |[-> |[-> |[-> | ->]]]]; vm_compute; auto. }
  destruct (count_div_spec 200 base Hb (int_max ty)) as (A & B & C).
  { split; [lia|]. eapply Z.lt_le_trans; [apply Hm|]. change (Z.of_nat 200) with 200. apply Z.pow_le_mono_l. lia. }
  destruct C as [C|C]; [lia|]. repeat split; try lia.
Qed.
