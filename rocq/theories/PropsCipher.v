(** C94-C96: ChaCha20, the AES key schedule, block padding. *)
From Verif Require Import Base ByteSpec HashSpec CipherSpec LebeModel HashModel HashProofs CipherModel CipherProofs AesProofs.
Local Open Scope nat_scope.

(** ** C94 *)
(** The portable routine computes the block function of RFC 8439, on either byte order. *)
Theorem C94_scalar host s : length s = 16 -> chacha_scalar host s = chacha20_block s.
Proof. apply chacha_scalar_ok. Qed.
Print Assumptions C94_scalar.

(** RFC 8439 2.3.2: the state and the key stream. *)
Definition rfc_state : list Z := [0x61707865; 0x3320646e; 0x79622d32; 0x6b206574; 0x03020100; 0x07060504; 0x0b0a0908; 0x0f0e0d0c;
  0x13121110; 0x17161514; 0x1b1a1918; 0x1f1e1d1c; 0x00000001; 0x09000000; 0x4a000000; 0x00000000]%Z.
Definition rfc_block : list Z := [0x10; 0xf1; 0xe7; 0xe4; 0xd1; 0x3b; 0x59; 0x15; 0x50; 0x0f; 0xdd; 0x1f; 0xa3; 0x20; 0x71; 0xc4;
  0xc7; 0xd1; 0xf4; 0xc7; 0x33; 0xc0; 0x68; 0x03; 0x04; 0x22; 0xaa; 0x9a; 0xc3; 0xd4; 0x6c; 0x4e;
  0xd2; 0x82; 0x64; 0x46; 0x07; 0x9f; 0xaa; 0x09; 0x14; 0xc2; 0xd7; 0x05; 0xd9; 0x8b; 0x02; 0xa2;
  0xb5; 0x12; 0x9c; 0xd1; 0xde; 0x16; 0x4e; 0xb9; 0xcb; 0xd0; 0x83; 0xe8; 0xa2; 0x50; 0x3c; 0x4e]%Z.
Example C94_rfc : chacha_scalar little rfc_state = rfc_block. Proof. vm_compute. reflexivity. Qed.
Example C94_rfc_spec : chacha20_block rfc_state = rfc_block. Proof. vm_compute. reflexivity. Qed.

(** The lanes 1 and 3 of each row of four words exchanged. *)
Definition exchanged (s : list Z) : list Z := map (fun i => nth i s 0%Z) [0; 3; 2; 1; 4; 7; 6; 5; 8; 11; 10; 9; 12; 15; 14; 13].
Lemma exchanged_mirror s : length s = 16 -> exchanged s = mirror s.
Proof. intros L. apply list16 in L as (a & b & c & d & e & f & g & h & i & j & k & l & m & n & o & p & ->). reflexivity. Qed.
(** The vector routine: it is RFC 8439 on a state whose lanes 1 and 3 are exchanged in every row before and after the rounds. *)
Theorem C94_simd_partial host s : length s = 16 -> Forall (word 32) s ->
  chacha_simd host s = concat (map (le_bytes 4) (sum_words 32 s (exchanged (Nat.iter 10 inner_block (exchanged s))))).
Proof.
  intros L F. rewrite chacha_simd_ok by (split; assumption). rewrite (exchanged_mirror s L). rewrite exchanged_mirror; [reflexivity|].
  change 10 with (S 9). match goal with |- length (Nat.iter (S ?k) ?f ?x) = _ => change (length (f (Nat.iter k f x)) = 16) end. apply inner_block_length.
Qed.
Print Assumptions C94_simd_partial.
(** The vector routine does not compute the block function: a state for which the two routines of the library differ. *)
Theorem C94_simd_refuted : exists s, length s = 16 /\ Forall (word 32) s /\
  chacha_simd little s <> chacha20_block s /\ chacha_simd little s <> chacha_scalar little s.
Proof.
  exists rfc_state. split; [reflexivity|]. split.
  { unfold rfc_state, word. repeat (constructor; [split; [discriminate|reflexivity]|]). constructor. }
  assert (H : nth 0 (chacha_simd little rfc_state) 0%Z <> 16%Z) by (vm_compute; discriminate).
  split; [rewrite C94_rfc_spec|rewrite C94_rfc]; intros E; apply H; rewrite E; reflexivity.
Qed.
Print Assumptions C94_simd_refuted.
(** States on which the mistake does not show: rows whose lanes 1 and 3 agree. *)
Theorem C94_simd_symmetric host s : length s = 16 -> Forall (word 32) s -> exchanged s = s ->
  chacha_simd host s = concat (map (le_bytes 4) (sum_words 32 s (exchanged (Nat.iter 10 inner_block s)))).
Proof. intros L F E. rewrite C94_simd_partial, E by assumption. reflexivity. Qed.
Print Assumptions C94_simd_symmetric.

(** ** C95 *)
(** FIPS 197, appendix A.1. *)
Definition fips_key : list Z := [0x2b; 0x7e; 0x15; 0x16; 0x28; 0xae; 0xd2; 0xa6; 0xab; 0xf7; 0x15; 0x88; 0x09; 0xcf; 0x4f; 0x3c]%Z.
Example C95_fips_spec : nth 43 (aes_schedule fips_key) [] = [0xb6; 0x63; 0x0c; 0xa6]%Z. Proof. vm_compute. reflexivity. Qed.
Definition key256 : list Z := [0x60; 0x3d; 0xeb; 0x10; 0x15; 0xca; 0x71; 0xbe; 0x2b; 0x73; 0xae; 0xf0; 0x85; 0x7d; 0x77; 0x81;
  0x1f; 0x35; 0x2c; 0x07; 0x3b; 0x61; 0x08; 0xd7; 0x2d; 0x98; 0x10; 0xa3; 0x09; 0x14; 0xdf; 0xf4]%Z.
Example C95_fips_spec256 : nth 59 (aes_schedule key256) [] = [0x70; 0x6c; 0x63; 0x1e]%Z. Proof. vm_compute. reflexivity. Qed.

Lemma words16 key : length key = 16 -> key_words key = load128 key 0. Proof. intros H. now rewrite (key_words_slices key 4) by lia. Qed.
Lemma words24 key : length key = 24 -> key_words key = load128 key 0 ++ [slice key 16 4; slice key 20 4].
Proof. intros H. now rewrite (key_words_slices key 6) by lia. Qed.
(** The round keys computed for a key of 16 or 24 bytes are those of FIPS 197, word for word... *)
Theorem C95_values_partial key : length key = 16 \/ length key = 24 -> concat (aes_values sub_word (length key) key) = aes_schedule key.
Proof.
  intros [H|H]; unfold aes_values, aes_schedule; rewrite H; cbn [Nat.eqb].
  - rewrite (schedule128 sub_word sub_word_w4 sub_word_rot) by exact H. rewrite words16 by exact H. reflexivity.
  - rewrite (schedule192 sub_word sub_word_w4 sub_word_rot) by exact H. rewrite words24 by exact H. reflexivity.
Qed.
Print Assumptions C95_values_partial.
Example C95_values_met : nth 43 (concat (aes_values sub_word 16 fips_key)) [] = [0xb6; 0x63; 0x0c; 0xa6]%Z. Proof. vm_compute. reflexivity. Qed.
(** ...but the array they are stored in is one element short: every construction stores outside of it. *)
Theorem C95_array_refuted key : length key = 16 \/ length key = 24 -> aes_construct sub_word (length key) key = None.
Proof. intros [H|H]; rewrite H; unfold aes_construct; reflexivity. Qed.
Print Assumptions C95_array_refuted.
(** A key of 32 bytes: the round keys are not those of FIPS 197. *)
Theorem C95_256_refuted : exists key v, length key = 32 /\ aes_construct sub_word (length key) key = Some v /\ concat v <> aes_schedule key.
Proof.
  exists key256. eexists. split; [reflexivity|]. split; [unfold aes_construct; reflexivity|].
  intros E. assert (H : nth 12 (concat (aes_values sub_word 32 key256)) [] <> nth 12 (aes_schedule key256) []) by (vm_compute; discriminate).
  apply H. now rewrite <- E.
Qed.
Print Assumptions C95_256_refuted.
(** Its first three round keys are. *)
Theorem C95_256_partial key : length key = 32 -> firstn 12 (concat (aes_values sub_word 32 key)) = expand sub_word 8 4 (key_words key).
Proof.
  intros H. assert (E : key_words key = load128 key 0 ++ load128 key 16) by (now rewrite (key_words_slices key 8) by lia). rewrite E.
  destruct (load128_words key 0 ltac:(lia)) as [L0 F0]. destruct (load128_words key 16 ltac:(lia)) as [L1 F1].
  rewrite (line256 sub_word sub_word_w4 sub_word_rot) by assumption. reflexivity.
Qed.
Print Assumptions C95_256_partial.
(** operator() leaves the output as it was, whatever the key and the input: it is no encryption. *)
Theorem C95_apply_refuted schedule from n out : aes_apply schedule from n out = out.
Proof. reflexivity. Qed.
Print Assumptions C95_apply_refuted.

(** ** C96 *)
(** Zero padding: the message and then zeros, a whole block; a message longer than the block is stored outside of it. *)
Theorem C96_zero n m r : length m <= n -> zero_padding n m r = Some (m ++ repeat 0%Z (n - length m)).
Proof. intros H. unfold zero_padding, copy_in. destruct (Nat.leb_spec (length m) n); [|lia]. now rewrite blit_zeros. Qed.
Print Assumptions C96_zero.
Example C96_zero_met : zero_padding 8 [1; 2; 3]%Z 5 = Some [1; 2; 3; 0; 0; 0; 0; 0]%Z. Proof. reflexivity. Qed.
(** PKCS #7 padding of a non-empty incomplete block of at most 255 bytes, told how many bytes are missing. *)
Theorem C96_pkcs7_partial w n m : (8 <= w)%Z -> 0 < length m < n -> n <= 255 ->
  pkcs7_padding w n m (n - length m) = Some (pkcs7_block n m).
Proof.
  intros Hw [Hm Hn] Hb. unfold pkcs7_padding, copy_in. destruct (Nat.leb_spec (length m) n); [|lia]. rewrite blit_zeros by lia.
  assert (HW : (256 <= 2 ^ w)%Z) by (change 256%Z with (2 ^ 8)%Z; apply Z.pow_le_mono_r; lia).
  replace (wrap w (Z.of_nat n - 1)) with (Z.of_nat (length m + (n - length m)) - 1)%Z by (unfold wrap; rewrite Z.mod_small; lia).
  replace (wrap w (Z.of_nat n - Z.of_nat (n - length m))) with (Z.of_nat (length m)) by (unfold wrap; rewrite Z.mod_small; lia).
  replace (Z.land (Z.of_nat (n - length m)) 255) with (Z.of_nat (n - length m)).
  2:{ change 255%Z with (Z.ones 8). rewrite Z.land_ones, Z.mod_small by lia. reflexivity. }
  pose proof (pad_loop_ok w (Z.of_nat (n - length m)) ltac:(lia) (n - length m) (n + 2) m (repeat 0%Z (n - length m)) []) as P.
  rewrite !app_nil_r in P. unfold pkcs7_block. apply P; [apply repeat_length|lia| |exact Hm]. cbn [length]. lia.
Qed.
Print Assumptions C96_pkcs7_partial.
Example C96_pkcs7_met : pkcs7_padding 64 8 [1; 2; 3]%Z 5 = Some [1; 2; 3; 5; 5; 5; 5; 5]%Z. Proof. reflexivity. Qed.
(** A complete block is left as it is (RFC 5652 appends a block of padding, a call the caller makes with an empty message)... *)
Theorem C96_full w n m : (8 <= w)%Z -> 0 < n <= 255 -> length m = n -> pkcs7_padding w n m 0 = Some m.
Proof.
  intros Hw Hn L. unfold pkcs7_padding, copy_in. destruct (Nat.leb_spec (length m) n); [|lia]. rewrite blit_zeros by lia.
  assert (HW : (256 <= 2 ^ w)%Z) by (change 256%Z with (2 ^ 8)%Z; apply Z.pow_le_mono_r; lia).
  replace (n - length m) with 0 by lia. cbn [repeat]. rewrite app_nil_r. rewrite Nat.add_comm. cbn [Nat.add pad_loop].
  unfold wrap. rewrite !Z.mod_small by lia. rewrite Z.geb_leb. destruct (Z.leb_spec (Z.of_nat n - Z.of_nat 0) (Z.of_nat n - 1)); [lia|]. reflexivity.
Qed.
Print Assumptions C96_full.
(** ...and that call, with nothing in the block, is the one that fails: the index goes below zero, wraps and the store is outside of the block. *)
Lemma pad_loop_wraps w pad : (8 <= w)%Z -> forall k fuel text, (Z.of_nat (length text) < 2 ^ w)%Z -> k < length text ->
  pad_loop w fuel text (Z.of_nat k) 0 pad = None.
Proof.
  intros Hw. assert (HW : (256 <= 2 ^ w)%Z) by (change 256%Z with (2 ^ 8)%Z; apply Z.pow_le_mono_r; lia).
  assert (U : forall l i, i < length l -> length (upd l i pad) = length l).
  { intros l i Hi. unfold upd. rewrite app_length. cbn [length]. rewrite firstn_length, skipn_length. lia. }
  induction k as [|k IH]; intros fuel text Ht Hk; (destruct fuel as [|fuel]; [reflexivity|]); cbn [pad_loop]; rewrite Z.geb_leb.
  - cbn [Z.of_nat Z.leb Z.compare]. destruct (Z.ltb_spec 0 (Z.of_nat (length text))); [|lia].
    replace (wrap w (0 - 1)) with (2 ^ w - 1)%Z. 2:{ unfold wrap. replace (0 - 1)%Z with (2 ^ w - 1 + (-1) * 2 ^ w)%Z by lia. rewrite Z.mod_add, Z.mod_small; lia. }
    destruct fuel as [|fuel]; [reflexivity|]. cbn [pad_loop]. rewrite Z.geb_leb. destruct (Z.leb_spec 0 (2 ^ w - 1)); [|lia].
    rewrite U by (cbn; lia). destruct (Z.ltb_spec (2 ^ w - 1) (Z.of_nat (length text))); [lia|reflexivity].
  - destruct (Z.leb_spec 0 (Z.of_nat (S k))); [|lia]. destruct (Z.ltb_spec (Z.of_nat (S k)) (Z.of_nat (length text))); [|lia].
    replace (wrap w (Z.of_nat (S k) - 1)) with (Z.of_nat k) by (unfold wrap; rewrite Z.mod_small; lia).
    rewrite IH; [reflexivity| |]; rewrite U by lia; lia.
Qed.
Theorem C96_empty_refuted w n : (8 <= w)%Z -> 0 < n -> (Z.of_nat n < 2 ^ w)%Z -> pkcs7_padding w n [] n = None.
Proof.
  intros Hw Hn HW. unfold pkcs7_padding, copy_in. destruct (Nat.leb_spec (length (@nil Z)) n); [|cbn in *; lia]. rewrite blit_zeros by (cbn; lia).
  cbn [length app]. rewrite Nat.sub_0_r.
  replace (wrap w (Z.of_nat n - 1)) with (Z.of_nat (n - 1)) by (unfold wrap; rewrite Z.mod_small; lia).
  replace (wrap w (Z.of_nat n - Z.of_nat n)) with 0%Z by (rewrite Z.sub_diag; unfold wrap; now rewrite Z.mod_0_l by lia).
  apply pad_loop_wraps; rewrite ?repeat_length; lia.
Qed.
Print Assumptions C96_empty_refuted.
