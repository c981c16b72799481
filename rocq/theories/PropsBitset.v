(** Printing std::bitset (include/fast_io_unit/bitset.h). *)
From Verif Require Import Base Outcome BitsetModel.
Local Open Scope nat_scope.

(** Bit [i] of the bitset stored in these words of [W] bits, and the text: the highest bit first, as to_string() has it. *)
Definition bit (W : nat) (words : list Z) (i : nat) : bool := Z.testbit (nth (i / W) words 0%Z) (Z.of_nat (i mod W)).
Definition one_or_zero (b : bool) : Z := if b then 49%Z else 48%Z.
Definition bits_text (f : nat -> bool) (n : nat) : list Z := map (fun i => one_or_zero (f i)) (rev (seq 0 n)).

(** * Supporting lemmas *)
Lemma low_bit p : (48 + Z.land p 1)%Z = one_or_zero (Z.testbit p 0).
Proof.
  rewrite Z.bit0_odd. change 1%Z with (Z.ones 1). rewrite Z.land_ones by lia. change (2 ^ 1)%Z with 2%Z.
  rewrite Zmod_odd. destruct (Z.odd p); reflexivity.
Qed.
Lemma pr_vs_iter_is n : forall p acc, pr_vs_iter n p acc = bits_text (fun i => Z.testbit p (Z.of_nat i)) n ++ acc.
Proof.
  induction n as [|n IH]; intros p acc; [reflexivity|]. cbn [pr_vs_iter]. rewrite IH, low_bit. unfold bits_text.
  cbn [seq rev]. rewrite map_app. cbn [map app]. rewrite <- app_assoc. cbn [app].
  f_equal. rewrite <- seq_shift, <- map_rev, map_map. apply map_ext. intros i.
  rewrite Z.shiftr_spec by lia. do 2 f_equal. lia.
Qed.
Lemma bits_text_app f n k : bits_text f (k + n) = bits_text (fun i => f (i + k)) n ++ bits_text f k.
Proof.
  unfold bits_text. rewrite seq_app, rev_app_distr, map_app. cbn [Nat.add]. f_equal.
  assert (G : forall s, map (fun i => one_or_zero (f i)) (rev (seq (s + k) n)) = map (fun i => one_or_zero (f (i + k))) (rev (seq s n))).
  { induction n as [|n IH]; intros s; [reflexivity|]. cbn [seq rev]. rewrite !map_app. cbn [map]. f_equal. apply (IH (S s)). }
  apply (G 0).
Qed.
Lemma bits_text_ext f g n : (forall i, i < n -> f i = g i) -> bits_text f n = bits_text g n.
Proof.
  intros H. unfold bits_text. apply map_ext_in. intros i Hi. rewrite <- in_rev, in_seq in Hi. rewrite H by lia. reflexivity.
Qed.
Lemma bit_of_word W words k i : i < W -> Z.testbit (nth k words 0%Z) (Z.of_nat i) = bit W words (i + k * W).
Proof. intros H. unfold bit. rewrite Nat.div_add, Nat.mod_add, Nat.div_small, Nat.mod_small by lia. reflexivity. Qed.
Lemma word_is words k : k < length words -> word words k = Done (nth k words 0%Z).
Proof. intros H. unfold word. rewrite (nth_error_nth' words 0%Z H). reflexivity. Qed.
Lemma whole_words_is W words k : k <= length words -> whole_words W words k = Done (bits_text (bit W words) (k * W)).
Proof.
  induction k as [|k IH]; intros H; [reflexivity|]. cbn [whole_words]. rewrite word_is, IH by lia. cbn [obind].
  replace (S k * W) with (k * W + W) by lia. rewrite bits_text_app, pr_vs_iter_is, app_nil_r. do 2 f_equal.
  apply bits_text_ext. intros i Hi. apply bit_of_word. exact Hi.
Qed.
Lemma bits_text_inj n : forall f g, bits_text f n = bits_text g n -> forall i, i < n -> f i = g i.
Proof.
  induction n as [|n IH]; intros f g H i Hi; [lia|]. replace (S n) with (n + 1) in H by lia. rewrite !bits_text_app in H.
  unfold bits_text at 1 3 in H. cbn [seq rev map app] in H. injection H as H1 H2.
  destruct (Nat.eq_dec i n) as [-> | N]; [|apply IH; [exact H2|lia]].
  cbn [Nat.add] in H1. destruct (f n), (g n); cbn in H1; congruence.
Qed.

(** * C160: a bitset prints as its bits, the highest first *)

(** It reads only the words that hold bits of the bitset, and takes the space the library reserves. *)
Theorem C160_bitset : forall W words n, 0 < W -> n <= length words * W ->
  print_bitset W words n = Done (bits_text (bit W words) n) /\ length (bits_text (bit W words) n) = print_bitset_size n.
Proof.
  intros W words n HW Hn. split.
  2:{ unfold bits_text, print_bitset_size. rewrite map_length, rev_length, seq_length. reflexivity. }
  unfold print_bitset. pose proof (Nat.div_mod n W ltac:(lia)) as D. pose proof (Nat.mod_upper_bound n W ltac:(lia)) as M.
  assert (K : n / W <= length words) by (apply Nat.div_le_upper_bound; lia).
  rewrite whole_words_is by assumption.
  destruct (Nat.eqb_spec (n mod W) 0) as [E|E].
  - cbn [obind app]. f_equal. f_equal. lia.
  - rewrite word_is by nia. cbn [obind]. rewrite pr_vs_iter_is, app_nil_r. f_equal.
    assert (G : bits_text (bit W words) n = bits_text (bit W words) (n / W * W + n mod W)) by (f_equal; lia).
    rewrite G, bits_text_app. f_equal.
    apply bits_text_ext. intros i Hi. apply bit_of_word. lia.
Qed.
Print Assumptions C160_bitset.

(** Two bitsets of the same size with the same text are equal, whatever their unused storage bits are. *)
Theorem C160_injective : forall W words words' n txt, 0 < W -> n <= length words * W -> n <= length words' * W ->
  print_bitset W words n = Done txt -> print_bitset W words' n = Done txt ->
  forall i, i < n -> bit W words i = bit W words' i.
Proof.
  intros W words words' n txt HW H H' E E'.
  rewrite (proj1 (C160_bitset W words n HW H)) in E. rewrite (proj1 (C160_bitset W words' n HW H')) in E'.
  apply bits_text_inj. congruence.
Qed.
Print Assumptions C160_injective.

(** 1010 from one word with a bit set beyond the size; ten bits of two words of eight *)
Example C160_example :
  print_bitset 64 [26%Z] 4 = Done [49; 48; 49; 48]%Z /\
  print_bitset 8 [5; 2]%Z 10 = Done [49; 48; 48; 48; 48; 48; 48; 49; 48; 49]%Z /\ print_bitset 8 [5; 2]%Z 0 = Done [].
Proof. repeat split. Qed.
