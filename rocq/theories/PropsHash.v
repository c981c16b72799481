(** Properties C20-C23, C41-C43: the hash functions.
    A message is given to [update] in pieces ([chunks]); [host] is the byte order of the machine, [buf0] the content of
    the context's buffer when it is constructed or reset, [junk] the content of uninitialised work arrays. *)
From Verif Require Import Base ByteSpec LebeModel ByteProofs HashSpec HashTables HashModel HashProofs HashSimdProofs HashCtxProofs HashRunProofs.

(** A hash offered by the library in the Merkle-Damgard style: block size, length field. *)
Definition md_sizes (H : hasher) : Prop := (h_bs H = 64 /\ h_cnt H = 8 \/ h_bs H = 128 /\ h_cnt H = 16)%nat.

(** C20.  Whatever the block function: two ways of cutting the same message give the same digest. *)
Theorem C20_chunking_irrelevant : forall H host n dsz iv bufa bufb chunksa chunksb, md_sizes H ->
  length bufa = h_bs H -> length bufb = h_bs H -> concat chunksa = concat chunksb ->
  hash_run H host n dsz iv bufa chunksa = hash_run H host n dsz iv bufb chunksb.
Proof.
  intros H host n dsz iv ba bb ca cb HS La Lb E.
  assert (0 < h_bs H)%nat by (destruct HS; lia). assert (In (h_cnt H) [8; 16]%nat) by (destruct HS as [[_ ->]|[_ ->]]; cbn; tauto).
  assert (h_cnt H < h_bs H)%nat by (destruct HS; lia).
  assert (I : forall b c, length b = h_bs H -> ctx_inv H iv (fold_left (ctx_update H) c (ctx_reset iv b)) (concat c)).
  { intros b c Hb. apply (ctx_updates_inv H) with (m := []); auto. apply ctx_inv_reset; auto. }
  unfold hash_run. f_equal. rewrite (do_final_ok H ltac:(auto) ltac:(auto) ltac:(auto) host iv _ _ (I ba ca La)).
  rewrite (do_final_ok H ltac:(auto) ltac:(auto) ltac:(auto) host iv _ _ (I bb cb Lb)). now rewrite E.
Qed.
Print Assumptions C20_chunking_irrelevant.
(** In particular one update with the whole message. *)
Theorem C20_single_update : forall H host n dsz iv buf chunks, md_sizes H -> length buf = h_bs H ->
  hash_run H host n dsz iv buf chunks = hash_run H host n dsz iv buf [concat chunks].
Proof. intros. apply C20_chunking_irrelevant; auto. cbn [concat]. now rewrite app_nil_r. Qed.
Print Assumptions C20_single_update.
Example C20_case : md_sizes (md5_hasher little 7) /\
  concat [[97]; []; repeat 98 70; [99]] = concat [97 :: repeat 98 62; repeat 98 8 ++ [99]].
Proof. split; [left; split; reflexivity|reflexivity]. Qed.

(** C21.  The digest is the block function folded over message, 0x80, zeros, length; the padded message is a whole
    number of blocks and the zeros are as few as possible. *)
Theorem C21_padding : forall H host iv buf chunks, md_sizes H -> length buf = h_bs H ->
  c_state (do_final H host (fold_left (ctx_update H) chunks (ctx_reset iv buf))) =
  fold_left (h_compress H) (blocks (h_bs H) (pad (h_en H) (Z.of_nat (h_bs H)) (Z.of_nat (h_cnt H)) (concat chunks))) iv.
Proof.
  intros H host iv b c HS Lb. apply do_final_ok.
  1, 3: destruct HS; lia.
  - destruct HS as [[_ ->]|[_ ->]]; cbn; tauto.
  - apply (ctx_updates_inv H) with (m := []); [destruct HS; lia|]. apply ctx_inv_reset; auto; destruct HS; lia.
Qed.
Print Assumptions C21_padding.
Theorem C21_pad_is_standard : forall en bs cnt m, 0 < cnt < bs ->
  exists z k, pad en bs cnt m = m ++ [128] ++ repeat 0 z ++ bytes_of en (Z.to_nat cnt) (8 * zlen m) /\
    zlen (pad en bs cnt m) = k * bs /\ Z.of_nat z < bs.
Proof.
  intros en bs cnt m H. destruct (pad_length en bs cnt m H) as (k & Hk & _). exists (pad_zeros bs cnt (zlen m)), k. split; [reflexivity|]. split; [exact Hk|].
  unfold pad_zeros. pose proof (Z.mod_pos_bound (bs - cnt - 1 - zlen m) bs ltac:(lia)). rewrite Z2Nat.id; lia.
Qed.
Print Assumptions C21_pad_is_standard.
(** The 128 bit length as two halves (compilers without __int128) writes the same sixteen bytes. *)
Theorem C21_two_halves_counter : forall host en ct lo, 0 <= fst ct < 2 ^ 64 -> 0 <= snd ct < 2 ^ 64 -> 0 <= lo < 2 ^ 64 ->
  pesudo_bytes host en (pesudo_x8 (pesudo_add ct lo 0)) = bytes_of en 16 (8 * (fst ct + 2 ^ 64 * snd ct + lo)).
Proof.
  intros host en ct lo H1 H2 H3. destruct (pesudo_add_ok ct lo 0) as [P1 E1]; [split; assumption|assumption|unfold word; lia|].
  destruct (pesudo_x8_ok _ P1) as [P2 E2]. rewrite pesudo_bytes_ok by assumption. rewrite E2, E1. unfold wrap, pval.
  change (2 ^ 128) with (256 ^ Z.of_nat 16). rewrite bytes_of_mod. rewrite <- bytes_of_mod. rewrite Z.mul_mod_idemp_r by (pose proof (p256_pos 16); lia).
  rewrite bytes_of_mod. f_equal. lia.
Qed.
Print Assumptions C21_two_halves_counter.
Example C21_case55 : zlen (pad big 64 8 (repeat 1 55)) = 64. Proof. reflexivity. Qed.
Example C21_case56 : zlen (pad big 64 8 (repeat 1 56)) = 128. Proof. reflexivity. Qed.

(** C22.  Every block function of SHA-256, on any number of blocks, is the FIPS 180-4 compression. *)
Theorem C22_sha256_blocks : forall i host junk st l k, (forall s b, (64 <= length (junk s b))%nat) ->
  length st = 8%nat -> Forall is_byte l -> length l = (64 * k)%nat ->
  update_blocks (sha256_hasher i host junk) st l = fold_left (sha2_compress sha2_32) (blocks 64 l) st.
Proof.
  intros i host junk st l k HJ Hst Hl Hk. unfold update_blocks. rewrite block_loop_fold. cbn [sha256_hasher h_bs h_compress]. fold (blocks 64 l).
  apply (fold_agree (fun s => length s = 8%nat)); auto. intros s b Hs Hin. apply (blocks_in is_byte) in Hin as [Hbl Hby]; auto; [|lia].
  split; [now apply sha256_block_ok|]. apply (sha2_compress_stok sha2_32 s b); auto. reflexivity.
Qed.
Print Assumptions C22_sha256_blocks.
Theorem C22_sha512_blocks : forall i host junk st l k, (forall s b, (80 <= length (junk s b))%nat) ->
  length st = 8%nat -> Forall is_byte l -> length l = (128 * k)%nat ->
  update_blocks (sha512_hasher i host junk) st l = fold_left (sha2_compress sha2_64) (blocks 128 l) st.
Proof.
  intros i host junk st l k HJ Hst Hl Hk. unfold update_blocks. rewrite block_loop_fold. cbn [sha512_hasher h_bs h_compress]. fold (blocks 128 l).
  apply (fold_agree (fun s => length s = 8%nat)); auto. intros s b Hs Hin. apply (blocks_in is_byte) in Hin as [Hbl Hby]; auto; [|lia].
  split; [now apply sha512_block_ok|]. apply (sha2_compress_stok sha2_64 s b); auto. reflexivity.
Qed.
Print Assumptions C22_sha512_blocks.
Definition some_junk : list Z -> list Z -> list Z := fun _ _ => repeat 3 80.
Example C22_case : (forall s b, (80 <= length (some_junk s b))%nat) /\ length K_sha256_iv = 8%nat /\ Forall is_byte (repeat 97 128) /\ length (repeat 97 128) = (64 * 2)%nat.
Proof. split; [intros; unfold some_junk; rewrite repeat_length; lia|]. split; [reflexivity|]. split; [|reflexivity]. apply Forall_forall. intros x Hx. apply repeat_spec in Hx. subst. unfold is_byte; lia. Qed.

(** C23.  CRC: any message, any chunks; [crc_spec] divides bit by bit. *)
Theorem C23_crc32 : forall chunks, Forall (Forall is_byte) chunks -> crc_digest_value (crc_run crc32_tb chunks) = crc_spec poly_crc32 (concat chunks).
Proof. intros. unfold crc_digest_value, wnot, crc_spec. now rewrite (crc_run_ok poly_crc32) by auto using crc32_table. Qed.
Print Assumptions C23_crc32.
Theorem C23_crc32c : forall chunks, Forall (Forall is_byte) chunks -> crc_digest_value (crc_run crc32c_tb chunks) = crc_spec poly_crc32c (concat chunks).
Proof. intros. unfold crc_digest_value, wnot, crc_spec. now rewrite (crc_run_ok poly_crc32c) by auto using crc32c_table. Qed.
Print Assumptions C23_crc32c.
(** And that is the remainder of the polynomial division. *)
Theorem C23_polynomial_division : forall P tb chunks, In (P, tb) [(poly_crc32, crc32_tb); (poly_crc32c, crc32c_tb)] -> Forall (Forall is_byte) chunks ->
  lsb 32 (crc_digest_value (crc_run tb chunks)) = crc_remainder P (concat chunks).
Proof.
  intros P tb chunks Hin Hc. assert (HB : Forall is_byte (concat chunks)) by (clear - Hc; induction Hc; cbn [concat]; [constructor|apply Forall_app; auto]).
  destruct Hin as [E|[E|[]]]; injection E as <- <-; rewrite ?C23_crc32, ?C23_crc32c by assumption; apply crc_is_division; auto;
    unfold word, poly_crc32, poly_crc32c; lia.
Qed.
Print Assumptions C23_polynomial_division.
(** The digest bytes are that value, most significant byte first, on either kind of host. *)
Theorem C23_digest_bytes : forall host P tb chunks, In (P, tb) [(poly_crc32, crc32_tb); (poly_crc32c, crc32c_tb)] -> Forall (Forall is_byte) chunks ->
  crc_digest_bytes host (crc_run tb chunks) = be_bytes 4 (crc_spec P (concat chunks)).
Proof.
  intros host P tb chunks Hin Hc.
  assert (HT : table_ok P tb /\ word 32 P).
  { destruct Hin as [E|[E|[]]]; injection E as <- <-; split; auto using crc32_table, crc32c_table; unfold word, poly_crc32, poly_crc32c; lia. }
  destruct HT as [HT HP]. unfold crc_digest_bytes. cbv zeta. rewrite (crc_run_ok P) by auto.
  rewrite (store_swapped host big 4); [reflexivity|cbn; tauto|]. change (256 ^ Z.of_nat 4) with (2 ^ 32). unfold wnot. apply xor_word; [|unfold word; lia].
  apply crc_fold_word; auto; [|unfold word; lia]. clear - Hc. induction Hc; cbn [concat]; [constructor|apply Forall_app; auto].
Qed.
Print Assumptions C23_digest_bytes.
(** "123456789", the check value of the CRC catalogues. *)
Example C23_case : crc_digest_value (crc_run crc32_tb [[49; 50; 51]; []; [52; 53; 54; 55; 56; 57]]) = 0xCBF43926 /\
  crc_digest_value (crc_run crc32c_tb [[49; 50; 51]; []; [52; 53; 54; 55; 56; 57]]) = 0xE3069283.
Proof. split; reflexivity. Qed.

(** C41.  The SHA-2 family: the digest of any message in any chunks is the one of FIPS 180-4. *)
Ltac sha2_goal L E := intros; unfold L; rewrite E; (apply sha256_run || apply sha512_run); auto; try lia; rewrite <- E; ivok.
Theorem C41_sha256 : forall i host junk buf chunks, (forall s b, (64 <= length (junk s b))%nat) -> length buf = 64%nat -> Forall (Forall is_byte) chunks ->
  sha256_digest i host junk buf chunks = sha256_spec (concat chunks).
Proof. sha2_goal sha256_digest iv256_eq. Qed.
Print Assumptions C41_sha256.
Theorem C41_sha224 : forall i host junk buf chunks, (forall s b, (64 <= length (junk s b))%nat) -> length buf = 64%nat -> Forall (Forall is_byte) chunks ->
  sha224_digest i host junk buf chunks = sha224_spec (concat chunks).
Proof. sha2_goal sha224_digest iv224_eq. Qed.
Print Assumptions C41_sha224.
Theorem C41_sha512 : forall i host junk buf chunks, (forall s b, (80 <= length (junk s b))%nat) -> length buf = 128%nat -> Forall (Forall is_byte) chunks ->
  sha512_digest i host junk buf chunks = sha512_spec (concat chunks).
Proof. sha2_goal sha512_digest iv512_eq. Qed.
Print Assumptions C41_sha512.
Theorem C41_sha384 : forall i host junk buf chunks, (forall s b, (80 <= length (junk s b))%nat) -> length buf = 128%nat -> Forall (Forall is_byte) chunks ->
  sha384_digest i host junk buf chunks = sha384_spec (concat chunks).
Proof. sha2_goal sha384_digest iv384_eq. Qed.
Print Assumptions C41_sha384.
Theorem C41_sha512_224 : forall i host junk buf chunks, (forall s b, (80 <= length (junk s b))%nat) -> length buf = 128%nat -> Forall (Forall is_byte) chunks ->
  sha512_224_digest i host junk buf chunks = sha512_224_spec (concat chunks).
Proof. sha2_goal sha512_224_digest iv512_224_eq. Qed.
Print Assumptions C41_sha512_224.
Theorem C41_sha512_256 : forall i host junk buf chunks, (forall s b, (80 <= length (junk s b))%nat) -> length buf = 128%nat -> Forall (Forall is_byte) chunks ->
  sha512_256_digest i host junk buf chunks = sha512_256_spec (concat chunks).
Proof. sha2_goal sha512_256_digest iv512_256_eq. Qed.
Print Assumptions C41_sha512_256.
(** "abc" in two chunks: the published digest ba7816bf.... *)
Example C41_case : sha256_digest Simd16 little some_junk (repeat 9 64) [[97]; [98; 99]] = be_bytes 32 0xba7816bf8f01cfea414140de5dae2223b00361a396177a9cb410ff61f20015ad.
Proof. vm_compute. reflexivity. Qed.

(** C42.  SHA-1 and MD5. *)
Theorem C42_sha1 : forall host buf chunks, length buf = 64%nat -> Forall (Forall is_byte) chunks -> sha1_digest host buf chunks = sha1_spec (concat chunks).
Proof. exact sha1_run. Qed.
Print Assumptions C42_sha1.
Theorem C42_md5 : forall host tmp0 buf chunks, length buf = 64%nat -> Forall (Forall is_byte) chunks -> md5_digest host tmp0 buf chunks = md5_spec (concat chunks).
Proof. exact md5_run. Qed.
Print Assumptions C42_md5.
Example C42_case : sha1_digest little (repeat 9 64) [[97]; [98; 99]] = be_bytes 20 0xa9993e364706816aba3e25717850c26c9cd0d89d /\
  md5_digest little 5 (repeat 9 64) [[97]; [98; 99]] = be_bytes 16 0x900150983cd24fb0d6963f7d28e17f72.
Proof. split; vm_compute; reflexivity. Qed.

(** C43.  In constant evaluation on a little endian machine the SHA-256 digest is not the SHA-256 digest (the swapped
    word is computed and dropped), and MD5 loses the top byte of every message word. *)
Theorem C43_consteval_sha256_refuted : exists chunks, Forall (Forall is_byte) chunks /\
  hash_run_consteval (sha256_hasher ConstEval little some_junk) little 4 32 K_sha256_iv (repeat 0 64) chunks <> sha256_spec (concat chunks).
Proof. exists [[97; 98; 99]]. split; [repeat (apply Forall_cons || apply Forall_nil); unfold is_byte; lia|]. vm_compute. discriminate. Qed.
Print Assumptions C43_consteval_sha256_refuted.
Theorem C43_consteval_md5_refuted : exists chunks, Forall (Forall is_byte) chunks /\
  hash_run_consteval (md5_hasher_consteval 0) little 4 16 K_md5_iv (repeat 0 64) chunks <> md5_spec (concat chunks).
Proof. exists [[97; 98; 99; 100]]. split; [repeat (apply Forall_cons || apply Forall_nil); unfold is_byte; lia|]. vm_compute. discriminate. Qed.
Print Assumptions C43_consteval_md5_refuted.
(** What holds: on a big endian machine constant evaluation writes the run time SHA-2 digest; on a little endian one
    the words are right and only their bytes are reversed. *)
Theorem C43_consteval_big_endian_partial : forall H n dsz iv buf chunks, h_en H = big ->
  hash_run_consteval H big n dsz iv buf chunks = hash_run H big n dsz iv buf chunks.
Proof. intros H n dsz iv buf chunks E. unfold hash_run_consteval, hash_run, digest_to_bytes, digest_words. rewrite E. reflexivity. Qed.
Print Assumptions C43_consteval_big_endian_partial.
Theorem C43_consteval_words_partial : forall host en n st, In n [4; 8]%nat -> Forall (fun v => 0 <= v < 256 ^ Z.of_nat n) st ->
  digest_to_bytes true host en n (length st * n) st = concat (map (bytes_of host n) st).
Proof.
  intros host en n st Hn Hst. unfold digest_to_bytes. assert (0 < n)%nat by (cbn in Hn; lia). rewrite Nat.div_mul, Nat.mod_mul by lia.
  rewrite firstn_all. cbn [Nat.eqb]. rewrite app_nil_r. reflexivity.
Qed.
Print Assumptions C43_consteval_words_partial.
