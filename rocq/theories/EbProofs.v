(** Proofs about the UTF-EBCDIC converter. *)
From Verif Require Import Base ByteSpec UtfSpec UtfModel UtfProofs UtfLoopProofs EbSpec EbModel.

(** ** The tables *)
Definition page (b : Z) : Z := tbl bm_i8_to_ebcdic b.
Definition unpage (b : Z) : Z := tbl bm_ebcdic_to_i8 b.
Definition shadow8 (b : Z) : Z := if b <? 0x20 then 0 else if b <? 0x7F then 1 else if b <? 0xA0 then 0 else if b <? 0xC0 then 9 else Z.of_nat (i8_length b).
Lemma page_byte b : is_byte b -> is_byte (page b).
Proof. intros H. assert (C : forall x, is_byte x -> rng 0 255 (page x) = true) by (apply forall_bytes; vm_compute; reflexivity). specialize (C b H). apply rng_spec in C. unfold is_byte. lia. Qed.
Lemma unpage_byte b : is_byte b -> is_byte (unpage b).
Proof. intros H. assert (C : forall x, is_byte x -> rng 0 255 (unpage x) = true) by (apply forall_bytes; vm_compute; reflexivity). specialize (C b H). apply rng_spec in C. unfold is_byte. lia. Qed.
Lemma unpage_page b : is_byte b -> unpage (page b) = b.
Proof. intros H. assert (C : forall x, is_byte x -> (unpage (page x) =? x) = true) by (apply forall_bytes; vm_compute; reflexivity). apply Z.eqb_eq, C, H. Qed.
Lemma page_unpage b : is_byte b -> page (unpage b) = b.
Proof. intros H. assert (C : forall x, is_byte x -> (page (unpage x) =? x) = true) by (apply forall_bytes; vm_compute; reflexivity). apply Z.eqb_eq, C, H. Qed.
Lemma shadow_page b : is_byte b -> tbl utfebcdic_shadow_flags (page b) = shadow8 b.
Proof. intros H. assert (C : forall x, is_byte x -> (tbl utfebcdic_shadow_flags (page x) =? shadow8 x) = true) by (apply forall_bytes; vm_compute; reflexivity). apply Z.eqb_eq, C, H. Qed.
Lemma page_ebcdic : ebcdic_page page.
Proof.
  assert (R : forall (P : Z -> bool) n, forallb P (map Z.of_nat (seq 0 n)) = true -> forall k, 0 <= k < Z.of_nat n -> P k = true).
  { intros P n H k Hk. rewrite forallb_forall in H. apply H. replace k with (Z.of_nat (Z.to_nat k)) by lia. apply in_map, in_seq. lia. }
  split; [exact page_byte|]. split; [intros b b' H H' E; rewrite <- (unpage_page b H), <- (unpage_page b' H'), E; reflexivity|]. split; [reflexivity|]. split; [|split].
  - intros k Hk. apply Z.eqb_eq. apply (R (fun k => page (0x30 + k) =? 0xF0 + k) 10%nat); [vm_compute; reflexivity|lia].
  - intros k Hk. pose proof (R (fun k => (page (0x41 + k) =? 0xC1 + k) && (page (0x4A + k) =? 0xD1 + k) && (page (0x61 + k) =? 0x81 + k) && (page (0x6A + k) =? 0x91 + k)) 9%nat ltac:(vm_compute; reflexivity) k ltac:(lia)) as Q.
    cbv beta in Q. rewrite !Bool.andb_true_iff, !Z.eqb_eq in Q. tauto.
  - intros k Hk. pose proof (R (fun k => (page (0x53 + k) =? 0xE2 + k) && (page (0x73 + k) =? 0xA2 + k)) 8%nat ltac:(vm_compute; reflexivity) k ltac:(lia)) as Q.
    cbv beta in Q. rewrite !Bool.andb_true_iff, !Z.eqb_eq in Q. tauto.
Qed.

(** ** Encoding *)
Lemma lor_a0 x : 0 <= x < 32 -> Z.lor 0xA0 x = 0xA0 + x. Proof. intros H. apply (lor_const 5 x 5); [lia|exact H]. Qed.
Lemma lor_c0 x : 0 <= x < 32 -> Z.lor 0xC0 x = 0xC0 + x. Proof. intros H. apply (lor_const 6 x 5); [lia|exact H]. Qed.
Lemma lor_e0 x : 0 <= x < 16 -> Z.lor 0xE0 x = 0xE0 + x. Proof. intros H. apply (lor_const 14 x 4); [lia|exact H]. Qed.
Lemma lor_f0 x : 0 <= x < 8 -> Z.lor 0xF0 x = 0xF0 + x. Proof. intros H. apply (lor_const 30 x 3); [lia|exact H]. Qed.
Lemma lor_f8 x : 0 <= x < 8 -> Z.lor 0xF8 x = 0xF8 + x. Proof. intros H. apply (lor_const 31 x 3); [lia|exact H]. Qed.
Lemma land31 x : Z.land x 0x1F = x mod 32. Proof. exact (land_mask x 5 31 ltac:(lia) eq_refl). Qed.
Lemma encode_i8 c : 0 <= c < 0x110000 -> eb_encode c = map page (i8 c).
Proof.
  intros H. unfold eb_encode, i8. cbv zeta. rewrite !land31. rewrite !Z.shiftr_0_r. rewrite (shr c 5 32), (shr c 10 1024), (shr c 15 32768), (shr c 20 1048576) by (lia || reflexivity).
  rewrite !lor_a0 by (apply Z.mod_pos_bound; lia).
  destruct (Z.ltb_spec c 0xA0); [reflexivity|]. destruct (Z.ltb_spec c 0x400); [rewrite lor_c0 by lia; reflexivity|]. destruct (Z.ltb_spec c 0x4000); [rewrite lor_e0 by lia; reflexivity|].
  destruct (Z.ltb_spec c 0x40000); [rewrite lor_f0 by lia; reflexivity|]. destruct (Z.ltb_spec c 0x110000); [|lia]. rewrite lor_f8 by lia. reflexivity.
Qed.
(** The form of a character. *)
Lemma i8_form c : 0 <= c < 0x110000 -> exists b fs, i8 c = b :: fs /\ is_byte b /\ Forall follows fs /\ length (b :: fs) = i8_length b /\
  ((b < 0xA0 /\ fs = [] /\ c = b) \/ (0xC0 <= b < 0xFC /\ c = i8_value b fs)).
Proof.
  intros H. unfold i8, follows, is_byte.
  Ltac form := eexists _, _; split; [reflexivity|]; split; [lia|]; split; [repeat constructor; lia|]; split;
    [unfold i8_length; cbn [length]; repeat match goal with |- context[?a <? ?b] => destruct (Z.ltb_spec a b); try lia end|
     right; split; [lia|]; unfold i8_value; cbn [fold_left]; repeat match goal with |- context[if ?a <? ?b then _ else _] => destruct (Z.ltb_spec a b); try lia end].
  destruct (Z.ltb_spec c 0xA0).
  { exists c, []. split; [reflexivity|]. split; [lia|]. split; [constructor|]. split; [|left; auto]. unfold i8_length. destruct (Z.ltb_spec c 0xA0); [reflexivity|lia]. }
  destruct (Z.ltb_spec c 0x400); [form|]. destruct (Z.ltb_spec c 0x4000); [form|]. destruct (Z.ltb_spec c 0x40000); form.
Qed.
