(** Printing is injective; the fast decimal path equals the division algorithm. *)
From Coq Require Import String Ascii NArith.
From Verif Require Import Base NumSpec NumFacts IntPrintModel IntPrintProofs JeaiiiProofs IntPrintCorrect.
Ltac Zify.zify_post_hook ::= idtac.

Lemma in_zseq n i : 0 <= i < n -> In i (zseq n).
Proof. intros. unfold zseq. apply in_map_iff. exists (Z.to_nat i). split; [lia|]. apply in_seq. lia. Qed.

Lemma digit_char_range up d : 0 <= d < 36 -> 48 <= digit_char up d <= 122.
Proof.
  intros H. rewrite <- charliteral_digit_char by lia. unfold charliteralofnumber.
  destruct (Z.ltb_spec d 10), up; lia.
Qed.

Lemma digit_char_inj up a b : 0 <= a < 36 -> 0 <= b < 36 -> digit_char up a = digit_char up b -> a = b.
Proof.
  intros Ha Hb. rewrite <- !charliteral_digit_char by lia. unfold charliteralofnumber.
  destruct (Z.ltb_spec a 10), (Z.ltb_spec b 10), up; lia.
Qed.

Lemma map_digit_char_inj base up ds es : base <= 36 -> digits_ok base ds -> digits_ok base es ->
  map (digit_char up) ds = map (digit_char up) es -> ds = es.
Proof.
  intros Hb. revert es. induction ds as [|d ds IH]; intros [|e es] Hd He E; try discriminate; [reflexivity|].
  inversion Hd; inversion He; subst. cbn [map] in E. injection E as E1 E2.
  f_equal; [eapply digit_char_inj; eauto; lia|apply IH; auto].
Qed.

Definition nonneg_start (l : list Z) : Prop := match l with [] => True | c :: _ => 48 <= c end.

Lemma base_prefix_start base up : nonneg_start (base_prefix base up).
Proof.
  unfold base_prefix.
  destruct (base =? 2); [destruct up; simpl; lia|]. destruct (base =? 3); [destruct up; simpl; lia|].
  destruct (base =? 8); [simpl; lia|]. destruct (base =? 10); [exact I|].
  destruct (base =? 16); [destruct up; simpl; lia|]. destruct (base <? 10); simpl; lia.
Qed.

Lemma digits_start base up ds : base <= 36 -> digits_ok base ds -> nonneg_start (map (digit_char up) ds).
Proof.
  intros Hb H. destruct ds as [|d ds]; [exact I|]. inversion H; subst. simpl.
  pose proof (digit_char_range up d ltac:(lia)). lia.
Qed.

Lemma start_app a b : nonneg_start a -> nonneg_start b -> nonneg_start (a ++ b).
Proof. destruct a; simpl; auto. Qed.

Lemma print_int_injective fl ty a b : In (iw ty) int_widths -> 2 <= pf_base fl <= 36 -> config_ok fl ty ->
  in_range ty a -> in_range ty b -> print_int fl ty a = print_int fl ty b -> a = b.
Proof.
  intros Hw Hb Hc Ha Hbb E.
  destruct (print_int_correct fl ty a Hw Hb Hc Ha) as (na & Ea & Na).
  destruct (print_int_correct fl ty b Hw Hb Hc Hbb) as (nb & Eb & Nb).
  rewrite Ea, Eb in E. injection E as E. set (pre := if pf_showbase fl then _ else _) in *.
  assert (Hpre : nonneg_start pre) by (unfold pre; destruct (pf_showbase fl); [apply base_prefix_start|exact I]).
  assert (Hds : exists ds es, digits_ok (pf_base fl) ds /\ digits_ok (pf_base fl) es
    /\ value_of (pf_base fl) ds = Z.abs a /\ value_of (pf_base fl) es = Z.abs b
    /\ na = map (digit_char (pf_upper fl)) ds /\ nb = map (digit_char (pf_upper fl)) es).
  { destruct (pf_full fl); destruct Na as (ds & D1 & D2 & D3 & D4); destruct Nb as (es & F1 & F2 & F3 & F4);
    exists ds, es; repeat split; assumption. }
  destruct Hds as (ds & es & D1 & F1 & D2 & F2 & -> & ->).
  pose proof (start_app _ _ Hpre (digits_start (pf_base fl) (pf_upper fl) ds ltac:(lia) D1)) as Sa.
  pose proof (start_app _ _ Hpre (digits_start (pf_base fl) (pf_upper fl) es ltac:(lia) F1)) as Sb.
  assert (Hsame : sign_text (pf_showpos fl) a = sign_text (pf_showpos fl) b /\ ((a <? 0) = (b <? 0))).
  { unfold sign_text in *. destruct (a <? 0), (b <? 0), (pf_showpos fl); cbn in E |- *; auto; try discriminate;
    set (x := pre ++ _) in *; set (y := pre ++ map _ es) in *; [destruct y|destruct x]; simpl in *; try discriminate;
    injection E as E0 E1; lia. }
  destruct Hsame as [Hs Hsgn]. rewrite Hs in E. apply app_inv_head in E. apply app_inv_head in E.
  apply (map_digit_char_inj (pf_base fl)) in E; auto; [|lia]. subst es.
  destruct (Z.ltb_spec a 0), (Z.ltb_spec b 0); try discriminate; lia.
Qed.

(** The fast decimal path computes what the two-digit division loop computes. *)
Lemma jeaiii_is_division w n : In w [8; 16; 32; 64] -> 0 <= n < 2 ^ w ->
  jeaiii_main w n = main_impl w 10 false n (chars_len w 10 n) /\ jeaiii_main w n <> None.
Proof.
  intros Hw Hn. assert (Hw' : In w int_widths) by (simpl in *; tauto).
  destruct (jeaiii_main_spec w n Hw' Hn) as (len & D & ->).
  pose proof (chars_len_spec w 10 n Hw' ltac:(lia) Hn) as L.
  rewrite (digit_count_unique 10 n len _ ltac:(lia) ltac:(lia) D L). destruct L as (L1 & L2 & _).
  rewrite main_impl_spec; auto; try lia; [split; [reflexivity|discriminate]|].
  intros ->. simpl in Hw. lia.
Qed.
