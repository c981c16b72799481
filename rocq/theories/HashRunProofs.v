(** From the block functions and the buffering context to the digests of the standards; CRC. *)
From Verif Require Import Base ByteSpec LebeModel ByteProofs HashSpec HashTables HashModel HashProofs HashSimdProofs HashCtxProofs.

(** ** The padded message. *)
Lemma pad_byte en bs cnt m : Forall is_byte m -> Forall is_byte (pad en bs cnt m).
Proof.
  intros. unfold pad. apply Forall_app; split; [auto|]. apply Forall_app; split; [apply Forall_cons; [unfold is_byte; lia|apply Forall_nil]|].
  apply Forall_app; split; [|apply bytes_of_byte]. apply Forall_forall. intros x Hx. apply repeat_spec in Hx. subst. unfold is_byte. lia.
Qed.
Lemma pad_length en bs cnt m : 0 < cnt < bs -> exists k, zlen (pad en bs cnt m) = k * bs /\ 0 < k.
Proof.
  intros H. unfold pad, zlen. rewrite !app_length, repeat_length, bytes_of_length. cbn [length]. unfold pad_zeros, zlen.
  pose proof (Z.mod_pos_bound (bs - cnt - 1 - Z.of_nat (length m)) bs ltac:(lia)).
  pose proof (Z.div_mod (bs - cnt - 1 - Z.of_nat (length m)) bs ltac:(lia)).
  set (q := (bs - cnt - 1 - Z.of_nat (length m)) / bs) in *. exists (1 - q). split; nia.
Qed.
Lemma pieces_in {A} (P : A -> Prop) n b : forall k l, (k * n <= length l)%nat -> Forall P l -> In b (pieces k n l) -> length b = n /\ Forall P b.
Proof.
  induction k as [|k IH]; intros l Hl HP Hb; cbn [pieces In] in Hb; [contradiction|]. cbn in Hl. destruct Hb as [<-|Hb].
  - split; [apply firstn_length_le; lia|now apply Forall_firstn].
  - apply (IH (skipn n l)); auto. rewrite skipn_length; lia. now apply Forall_skipn.
Qed.
Lemma blocks_in {A} (P : A -> Prop) n b l : (0 < n)%nat -> Forall P l -> In b (blocks n l) -> length b = n /\ Forall P b.
Proof. intros Hn HP. apply pieces_in; auto. pose proof (Nat.div_mod (length l) n ltac:(lia)). lia. Qed.

(** ** Folding two compression functions that agree on reachable states. *)
Lemma fold_agree (P : list Z -> Prop) (f g : list Z -> list Z -> list Z) bl :
  (forall st b, P st -> In b bl -> f st b = g st b /\ P (g st b)) -> forall st, P st -> fold_left f bl st = fold_left g bl st /\ P (fold_left g bl st).
Proof.
  induction bl as [|b bl IH]; intros Hs st Hst; cbn [fold_left]; auto.
  destruct (Hs st b Hst (or_introl eq_refl)) as [-> HP]. apply IH; auto. intros st' b' Hst' Hb'. apply Hs; auto. now right.
Qed.

Definition stok (w : Z) (n : nat) (st : list Z) : Prop := length st = n /\ Forall (word w) st.
Lemma sum_words_ok w n xs ys : 0 < w -> length xs = n -> length ys = n -> stok w n (sum_words w xs ys).
Proof.
  intros Hw Hx Hy. split; unfold sum_words. rewrite map_length, combine_length. lia.
  apply Forall_forall. intros x Hx'. apply in_map_iff in Hx' as (q & <- & _). apply Z.mod_pos_bound. lia.
Qed.
Lemma fold_length {A} (f : list Z -> A -> list Z) n l : (forall v x, length v = n -> length (f v x) = n) -> forall st, length st = n -> length (fold_left f l st) = n.
Proof. intros Hf. induction l; intros; cbn [fold_left]; auto. Qed.
Lemma sha2_compress_stok p st b : 0 < w2 p -> length st = 8%nat -> stok (w2 p) 8 (sha2_compress p st b).
Proof.
  intros Hw Hl. unfold sha2_compress. apply sum_words_ok; auto. apply fold_length; auto. intros v x Hv. unfold sha2_round.
  do 9 (destruct v as [|? v]; try discriminate Hv). reflexivity.
Qed.
Lemma sha1_compress_stok st b : length st = 5%nat -> stok 32 5 (sha1_compress st b).
Proof.
  intros Hl. unfold sha1_compress. apply sum_words_ok; auto; try lia. apply fold_length; auto. intros v x Hv. unfold sha1_round.
  do 6 (destruct v as [|? v]; try discriminate Hv). reflexivity.
Qed.
Lemma md5_compress_stok st b : length st = 4%nat -> stok 32 4 (md5_compress st b).
Proof.
  intros Hl. unfold md5_compress. apply sum_words_ok; auto; try lia. apply fold_length; auto. intros v x Hv. unfold md5_round.
  do 5 (destruct v as [|? v]; try discriminate Hv). reflexivity.
Qed.

Lemma run_spec H host n dsz iv buf0 chunks g L : (0 < h_bs H)%nat -> In (h_cnt H) [8; 16]%nat -> (h_cnt H < h_bs H)%nat -> length buf0 = h_bs H ->
  In n [4; 8]%nat -> (dsz <= n * L)%nat -> stok (8 * Z.of_nat n) L iv -> Forall (Forall is_byte) chunks ->
  (forall st b, stok (8 * Z.of_nat n) L st -> Forall is_byte b -> length b = h_bs H -> h_compress H st b = g st b /\ stok (8 * Z.of_nat n) L (g st b)) ->
  hash_run H host n dsz iv buf0 chunks = md_hash (h_en H) (Z.of_nat (h_bs H)) (Z.of_nat (h_cnt H)) n dsz g iv (concat chunks).
Proof.
  intros Hb Hc Hcb Hl Hn Hd Hiv Hch Hg.
  assert (HB : Forall is_byte (concat chunks)) by (clear - Hch; induction Hch; cbn [concat]; [constructor|apply Forall_app; auto]).
  pose proof (pad_byte (h_en H) (Z.of_nat (h_bs H)) (Z.of_nat (h_cnt H)) _ HB) as HP.
  destruct (fold_agree (stok (8 * Z.of_nat n) L) (h_compress H) g (blocks (h_bs H) (pad (h_en H) (Z.of_nat (h_bs H)) (Z.of_nat (h_cnt H)) (concat chunks)))) with (st := iv) as [E HS]; auto.
  { intros st b Hst Hin. apply (blocks_in is_byte) in Hin as [Hbl Hby]; auto. }
  rewrite hash_run_ok; auto.
  - unfold md_hash. rewrite Nat2Z.id. now rewrite E.
  - cbv zeta. rewrite E. destruct HS as [HL HF]. split; [|rewrite HL; auto].
    eapply Forall_impl; [|exact HF]. intros v Hv. unfold word in Hv. rewrite Z.pow_mul_r in Hv by lia. exact Hv.
Qed.

(** ** Constants. *)
Lemma K256_eq : K256 = K2 sha2_32. Proof. vm_compute. reflexivity. Qed.
Lemma K512_eq : K512 = K2 sha2_64. Proof. vm_compute. reflexivity. Qed.
Lemma lit256 i : (i < 16)%nat -> get K256_lit16 i = get K256 i.
Proof. intros. do 16 (destruct i as [|i]; [reflexivity|]). lia. Qed.
Lemma lit512 i : (i < 16)%nat -> get K512_lit16 i = get K512 i.
Proof. intros. do 16 (destruct i as [|i]; [reflexivity|]). lia. Qed.
Lemma K256_length : length K256 = 64%nat. Proof. reflexivity. Qed.
Lemma K512_length : length K512 = 80%nat. Proof. reflexivity. Qed.

Definition junk_ok (n : nat) (junk : list Z -> list Z -> list Z) : Prop := forall st b, (n <= length (junk st b))%nat.

Lemma sha256_block_ok i host junk st b : junk_ok 64 junk -> length st = 8%nat -> Forall is_byte b -> length b = 64%nat ->
  sha256_block i host junk st b = sha2_compress sha2_32 st b.
Proof.
  intros HJ Hst Hb Hl. specialize (HJ st b). destruct i; unfold sha256_block.
  - apply scalar_block_ok; auto using sha256_fns_ok, K256_eq, lit256; try (rewrite K256_length; (reflexivity || lia)). rewrite firstn_length_le; lia.
  - apply (simd_block_ok sha256_fns sha2_32 sha256_fns_ok K256 K256_eq) with (nt := 64%nat); auto; rewrite ?K256_length; auto; try lia;
      try (apply firstn_length_le; lia); apply comp256_ok; auto.
  - apply constexpr_block_ok; auto using sha256_fns_ok, K256_eq; try (rewrite K256_length; (reflexivity || lia)). rewrite firstn_length_le; lia.
Qed.
Lemma sha512_block_ok i host junk st b : junk_ok 80 junk -> length st = 8%nat -> Forall is_byte b -> length b = 128%nat ->
  sha512_block i host junk st b = sha2_compress sha2_64 st b.
Proof.
  intros HJ Hst Hb Hl. specialize (HJ st b). destruct i; unfold sha512_block.
  - apply scalar_block_ok; auto using sha512_fns_ok, K512_eq, lit512; try (rewrite K512_length; (reflexivity || lia)). rewrite firstn_length_le; lia.
  - apply (simd_block_ok sha512_fns sha2_64 sha512_fns_ok K512 K512_eq) with (nt := 4%nat); auto; rewrite ?K512_length; auto; try lia;
      try (apply firstn_length_le; lia); apply comp512_ok; auto.
  - apply constexpr_block_ok; auto using sha512_fns_ok, K512_eq; try (rewrite K512_length; (reflexivity || lia)). rewrite firstn_length_le; lia.
Qed.

Lemma iv256_eq : K_sha256_iv = iv_sha256. Proof. vm_compute. reflexivity. Qed.
Lemma iv224_eq : K_sha224_iv = iv_sha224. Proof. vm_compute. reflexivity. Qed.
Lemma iv512_eq : K_sha512_iv = iv_sha512. Proof. vm_compute. reflexivity. Qed.
Lemma iv384_eq : K_sha384_iv = iv_sha384. Proof. vm_compute. reflexivity. Qed.
Lemma iv512_224_eq : K_sha512_224_iv = iv_sha512_224. Proof. vm_compute. reflexivity. Qed.
Lemma iv512_256_eq : K_sha512_256_iv = iv_sha512_256. Proof. vm_compute. reflexivity. Qed.

Ltac ivok := split; [reflexivity|apply Forall_forall; intros x Hx; unfold word; repeat (destruct Hx as [<-|Hx]; [split; [discriminate|reflexivity]|]); contradiction].
Lemma sha256_run i host junk dsz iv buf0 chunks : junk_ok 64 junk -> stok 32 8 iv -> (dsz <= 32)%nat -> length buf0 = 64%nat -> Forall (Forall is_byte) chunks ->
  hash_run (sha256_hasher i host junk) host 4 dsz iv buf0 chunks = md_hash big 64 8 4 dsz (sha2_compress sha2_32) iv (concat chunks).
Proof.
  intros HJ Hiv Hd Hb Hc. refine (run_spec (sha256_hasher i host junk) host 4 dsz iv buf0 chunks _ 8 _ _ _ _ _ _ _ _ _); cbn [sha256_hasher h_bs h_cnt h_en h_compress]; auto; try lia; try (cbn; tauto).
  intros st b [Hs _] Hby Hbl. split; [apply sha256_block_ok; auto|]. apply (sha2_compress_stok sha2_32); auto. reflexivity.
Qed.
Lemma sha512_run i host junk dsz iv buf0 chunks : junk_ok 80 junk -> stok 64 8 iv -> (dsz <= 64)%nat -> length buf0 = 128%nat -> Forall (Forall is_byte) chunks ->
  hash_run (sha512_hasher i host junk) host 8 dsz iv buf0 chunks = md_hash big 128 16 8 dsz (sha2_compress sha2_64) iv (concat chunks).
Proof.
  intros HJ Hiv Hd Hb Hc. refine (run_spec (sha512_hasher i host junk) host 8 dsz iv buf0 chunks _ 8 _ _ _ _ _ _ _ _ _); cbn [sha512_hasher h_bs h_cnt h_en h_compress]; auto; try lia; try (cbn; tauto).
  intros st b [Hs _] Hby Hbl. split; [apply sha512_block_ok; auto|]. apply (sha2_compress_stok sha2_64); auto. reflexivity.
Qed.
Lemma sha1_run host buf0 chunks : length buf0 = 64%nat -> Forall (Forall is_byte) chunks -> sha1_digest host buf0 chunks = sha1_spec (concat chunks).
Proof.
  intros Hb Hc. refine (run_spec (sha1_hasher host) host 4 20 K_sha1_iv buf0 chunks _ 5 _ _ _ _ _ _ _ _ _); cbn [sha1_hasher h_bs h_cnt h_en h_compress]; auto; try lia; try (cbn; tauto); [ivok|].
  intros st b [Hs _] Hby Hbl. split; [apply sha1_block_ok; auto|]. now apply sha1_compress_stok.
Qed.
Lemma md5_run host tmp0 buf0 chunks : length buf0 = 64%nat -> Forall (Forall is_byte) chunks -> md5_digest host tmp0 buf0 chunks = md5_spec (concat chunks).
Proof.
  intros Hb Hc. refine (run_spec (md5_hasher host tmp0) host 4 16 K_md5_iv buf0 chunks _ 4 _ _ _ _ _ _ _ _ _); cbn [md5_hasher h_bs h_cnt h_en h_compress]; auto; try lia; try (cbn; tauto); [ivok|].
  intros st b [Hs Hw] Hby Hbl. split; [apply md5_block_ok; auto|]. now apply md5_compress_stok.
Qed.

(** ** CRC. *)
Lemma crc_bit_lxor P x y : crc_bit P (Z.lxor x y) = Z.lxor (crc_bit P x) (crc_bit P y).
Proof.
  unfold crc_bit. rewrite <- !Z.bit0_odd, Z.lxor_spec, Z.shiftr_lxor. destruct (Z.testbit x 0), (Z.testbit y 0); cbn [xorb].
  - rewrite (Z.lxor_comm (Z.shiftr y 1) P), Z.lxor_assoc, <- (Z.lxor_assoc P P), Z.lxor_nilpotent, Z.lxor_0_l. reflexivity.
  - rewrite !Z.lxor_assoc. f_equal. apply Z.lxor_comm.
  - now rewrite Z.lxor_assoc.
  - reflexivity.
Qed.
Lemma crc_iter_lxor P n x y : Nat.iter n (crc_bit P) (Z.lxor x y) = Z.lxor (Nat.iter n (crc_bit P) x) (Nat.iter n (crc_bit P) y).
Proof. induction n; cbn [Nat.iter nat_rect]; auto. unfold Nat.iter in *. cbn. rewrite IHn. apply crc_bit_lxor. Qed.
Lemma crc_iter_shift P n y : Nat.iter n (crc_bit P) (Z.shiftl y (Z.of_nat n)) = y.
Proof.
  revert y. induction n as [|n IH]; intros y; [apply Z.shiftl_0_r|].
  replace (Nat.iter (S n) (crc_bit P) (Z.shiftl y (Z.of_nat (S n)))) with (crc_bit P (Nat.iter n (crc_bit P) (Z.shiftl (Z.shiftl y 1) (Z.of_nat n)))).
  - rewrite IH. unfold crc_bit. rewrite <- Z.bit0_odd, Z.shiftl_spec_low by lia. rewrite Z.shiftr_shiftl_l, Z.shiftl_0_r by lia. reflexivity.
  - unfold Nat.iter. cbn [nat_rect]. rewrite Z.shiftl_shiftl by lia. f_equal. f_equal. f_equal. lia.
Qed.
Definition table_ok (P : Z) (tb : list Z) : Prop := forall i, (i < 256)%nat -> get tb i = Nat.iter 8 (crc_bit P) (Z.of_nat i).
Lemma table_check P tb : forallb (fun i => get tb i =? Nat.iter 8 (crc_bit P) (Z.of_nat i)) (seq 0 256) = true -> table_ok P tb.
Proof. intros H i Hi. rewrite forallb_forall in H. apply Z.eqb_eq. apply H. apply in_seq. lia. Qed.
Lemma crc32_table : table_ok poly_crc32 crc32_tb. Proof. apply table_check. vm_compute. reflexivity. Qed.
Lemma crc32c_table : table_ok poly_crc32c crc32c_tb. Proof. apply table_check. vm_compute. reflexivity. Qed.
Lemma crc_step P tb crc b : table_ok P tb -> is_byte b -> 
  Z.lxor (get tb (Z.to_nat (Z.land (Z.lxor b crc) 255))) (Z.shiftr crc 8) = crc_byte P crc b.
Proof.
  intros HT Hb. unfold crc_byte. set (v := Z.lxor b crc).
  assert (L : 0 <= Z.land v 255 < 256) by (change 255 with (Z.ones 8); rewrite Z.land_ones by lia; apply Z.mod_pos_bound; lia).
  rewrite HT by lia. rewrite Z2Nat.id by lia. rewrite (Z.lxor_comm crc b). fold v.
  assert (E : v = Z.lxor (Z.land v 255) (Z.shiftl (Z.shiftr crc 8) 8)).
  { apply Z.bits_inj'. intros n Hn. rewrite Z.lxor_spec, Z.land_spec. unfold v. rewrite !Z.lxor_spec.
    change 255 with (Z.ones 8). rewrite Z.testbit_ones by lia. destruct (Z.ltb_spec n 8).
    - rewrite Z.shiftl_spec_low by lia. destruct (Z.leb_spec 0 n); [|lia]. cbn [andb]. now rewrite xorb_false_r, andb_true_r.
    - rewrite Z.shiftl_spec, Z.shiftr_spec by lia. replace (n - 8 + 8) with n by lia. destruct (Z.leb_spec 0 n); [|lia]. cbn [andb].
      rewrite (testbit_high 8 b n) by (unfold is_byte in Hb; lia). rewrite andb_false_r. now rewrite !xorb_false_l. }
  rewrite E at 2. rewrite crc_iter_lxor. f_equal. symmetry. apply (crc_iter_shift P 8).
Qed.
Lemma crc_loop_ok P tb m : table_ok P tb -> Forall is_byte m -> forall c, crc_loop tb c m = fold_left (crc_byte P) m c.
Proof. intros HT Hm. induction Hm; intros c; cbn [crc_loop fold_left]; auto. unfold crc_loop in *. cbn [fold_left]. rewrite (crc_step P) by auto. apply IHHm. Qed.
Lemma crc_run_ok P tb chunks : table_ok P tb -> Forall (Forall is_byte) chunks -> crc_run tb chunks = fold_left (crc_byte P) (concat chunks) (2 ^ 32 - 1).
Proof.
  intros HT Hc. unfold crc_run. change 0xffffffff with (2 ^ 32 - 1). generalize (2 ^ 32 - 1). induction Hc; intros c; cbn [fold_left concat]; auto.
  rewrite fold_left_app, (crc_loop_ok P) by auto. apply IHHc.
Qed.
(** The register stays a 32 bit word. *)
Lemma crc_bit_word P c : word 32 P -> word 32 c -> word 32 (crc_bit P c).
Proof.
  unfold word, crc_bit. intros HP Hc. assert (HS : 0 <= Z.shiftr c 1 < 2 ^ 32) by (rewrite Z.shiftr_div_pow2 by lia; split; [apply Z.div_pos; lia|apply Z.div_lt_upper_bound; lia]).
  destruct (Z.odd c); auto. split; [apply Z.lxor_nonneg; lia|]. 
  destruct (Z.eq_dec (Z.lxor (Z.shiftr c 1) P) 0) as [->|N]; [lia|]. apply Z.log2_lt_cancel. rewrite Z.log2_pow2 by lia.
  assert (0 <= Z.lxor (Z.shiftr c 1) P) by (apply Z.lxor_nonneg; lia).
  eapply Z.le_lt_trans; [apply Z.log2_lxor; lia|]. apply Z.max_lub_lt.
  - destruct (Z.eq_dec (Z.shiftr c 1) 0) as [->|]; [cbn; lia|]. apply Z.log2_lt_pow2; lia.
  - destruct (Z.eq_dec P 0) as [->|]; [cbn; lia|]. apply Z.log2_lt_pow2; lia.
Qed.

(** ** The counter in two halves. *)
Definition pval (ct : Z * Z) : Z := fst ct + 2 ^ 64 * snd ct.
Definition pok (ct : Z * Z) : Prop := word 64 (fst ct) /\ word 64 (snd ct).
Lemma pesudo_add_ok ct lo hi : pok ct -> word 64 lo -> word 64 hi ->
  pok (pesudo_add ct lo hi) /\ pval (pesudo_add ct lo hi) = wrap 128 (pval ct + (lo + 2 ^ 64 * hi)).
Proof.
  destruct ct as [l h]. unfold pok, word. cbn [fst snd]. intros [Hl Hh] Hlo Hhi. unfold pesudo_add, add_carry64, pval. cbn [fst snd].
  set (B := 2 ^ 64) in *. assert (EB : 2 ^ 128 = B * B) by reflexivity. assert (HB : 0 < B) by reflexivity. unfold wrap. fold B. rewrite EB.
  pose proof (Z.div_mod (l + lo + 0) B ltac:(lia)) as D1. pose proof (Z.mod_pos_bound (l + lo + 0) B ltac:(lia)) as M1.
  set (c := (l + lo + 0) / B) in *. set (r := (l + lo + 0) mod B) in *.
  pose proof (Z.mod_pos_bound (h + hi + c) B ltac:(lia)) as M2. split; [split; lia|].
  replace (l + B * h + (lo + B * hi)) with (r + B * (h + hi + c)) by nia.
  rewrite Z.rem_mul_r by lia. rewrite (Z.mul_comm B (h + hi + c)), Z.mod_add, Z.div_add by lia. rewrite (Z.div_small r), (Z.mod_small r) by lia. reflexivity.
Qed.
Lemma pesudo_x8_ok ct : pok ct -> pok (pesudo_x8 ct) /\ pval (pesudo_x8 ct) = wrap 128 (8 * pval ct).
Proof.
  intros H. unfold pesudo_x8. cbv zeta.
  destruct (pesudo_add_ok ct (fst ct) (snd ct)) as [H1 E1]; try apply H; auto. set (c1 := pesudo_add ct (fst ct) (snd ct)) in *.
  destruct (pesudo_add_ok c1 (fst c1) (snd c1)) as [H2 E2]; try apply H1; auto. set (c2 := pesudo_add c1 (fst c1) (snd c1)) in *.
  destruct (pesudo_add_ok c2 (fst c2) (snd c2)) as [H3 E3]; try apply H2; auto. split; auto.
  rewrite E3. change (fst c2 + 2 ^ 64 * snd c2) with (pval c2). rewrite E2. change (fst c1 + 2 ^ 64 * snd c1) with (pval c1). rewrite E1.
  change (fst ct + 2 ^ 64 * snd ct) with (pval ct). unfold wrap. generalize (pval ct). intros v. rewrite <- Zplus_mod.
  replace ((v + v) mod 2 ^ 128 + (v + v) mod 2 ^ 128 + ((v + v) mod 2 ^ 128 + (v + v) mod 2 ^ 128)) with (4 * ((v + v) mod 2 ^ 128)) by ring.
  rewrite Z.mul_mod_idemp_r by lia. f_equal. ring.
Qed.
Lemma le_bytes_app n m x : le_bytes (n + m) x = le_bytes n x ++ le_bytes m (x / 256 ^ Z.of_nat n).
Proof.
  revert x. induction n as [|n IH]; intros x; cbn [Nat.add le_bytes app]. now rewrite Z.div_1_r.
  rewrite IH, p256_S. pose proof (p256_pos n). now rewrite Z.div_div by lia.
Qed.
Lemma pesudo_bytes_ok host en ct : pok ct -> pesudo_bytes host en ct = bytes_of en 16 (pval ct).
Proof.
  intros [Hl Hh]. assert (LE : le_bytes 16 (pval ct) = le_bytes 8 (fst ct) ++ le_bytes 8 (snd ct)).
  { rewrite (le_bytes_app 8 8). change (256 ^ Z.of_nat 8) with (2 ^ 64). unfold pval. unfold word in *.
    rewrite (Z.mul_comm (2 ^ 64)), Z.div_add, (Z.div_small (fst ct)), Z.add_0_l by lia. f_equal.
    rewrite <- le_bytes_mod. change (256 ^ Z.of_nat 8) with (2 ^ 64). rewrite Z.mod_add, Z.mod_small by lia. reflexivity. }
  unfold pesudo_bytes. cbv zeta. destruct host, en; cbn [endian_eqb fst snd].
  - symmetry. exact LE.
  - pose proof (store_swapped little big 8 (fst ct) ltac:(cbn; tauto) Hl) as S1. pose proof (store_swapped little big 8 (snd ct) ltac:(cbn; tauto) Hh) as S2.
    cbn [endian_eqb] in S1, S2. unfold bytes_of in *. rewrite S1, S2. unfold be_bytes. now rewrite LE, rev_app_distr.
  - pose proof (store_swapped big little 8 (fst ct) ltac:(cbn; tauto) Hl) as S1. pose proof (store_swapped big little 8 (snd ct) ltac:(cbn; tauto) Hh) as S2.
    cbn [endian_eqb] in S1, S2. unfold bytes_of in *. rewrite S1, S2. now rewrite LE.
  - unfold bytes_of, be_bytes. now rewrite LE, rev_app_distr.
Qed.

(** ** The bit by bit CRC is polynomial division. *)
Lemma lsb_length n x : length (lsb n x) = n. Proof. unfold lsb. now rewrite map_length, seq_length. Qed.
Lemma lsb_S n x : lsb (S n) x = Z.testbit x 0 :: lsb n (Z.shiftr x 1).
Proof.
  unfold lsb. cbn [seq map]. f_equal. rewrite <- seq_shift, map_map. apply map_ext. intros i. rewrite Z.shiftr_spec by lia. f_equal. lia.
Qed.
Lemma lsb_snoc n x : word (Z.of_nat n) x -> lsb (S n) x = lsb n x ++ [false].
Proof.
  intros Hx. unfold lsb. rewrite seq_S, map_app. cbn [map]. do 2 f_equal. apply (testbit_high (Z.of_nat n)); [exact Hx|lia].
Qed.
Lemma lsb_0 n : lsb n 0 = repeat false n.
Proof. induction n; [reflexivity|]. rewrite lsb_S, Z.shiftr_0_l, IHn. reflexivity. Qed.
Lemma xor_lsb n x y : forall d, xor_prefix (lsb n x) (xor_prefix (lsb n y) d) = xor_prefix (lsb n (Z.lxor x y)) d.
Proof.
  revert x y. induction n as [|n IH]; intros x y d; [reflexivity|]. rewrite !lsb_S. destruct d as [|b d]; [reflexivity|].
  cbn [xor_prefix]. rewrite IH, Z.lxor_spec, Z.shiftr_lxor, xorb_assoc. reflexivity.
Qed.
Lemma xor_prefix_snoc g d : xor_prefix (g ++ [false]) d = xor_prefix g d.
Proof. revert d. induction g as [|x g IH]; intros [|b d]; cbn [app xor_prefix]; auto; [now destruct b|now rewrite IH]. Qed.
(** Bits of a byte go into the register. *)
Lemma xor_absorb n k : forall x b d, (k <= n)%nat -> word (Z.of_nat k) b ->
  xor_prefix (lsb n x) (lsb k b ++ d) = xor_prefix (lsb n (Z.lxor x b)) (repeat false k ++ d).
Proof.
  revert k. induction n as [|n IH]; intros k x b d Hk Hb.
  - assert (k = 0)%nat by lia. subst. reflexivity.
  - destruct k as [|k].
    + cbn [lsb repeat app map seq]. unfold word in Hb. assert (b = 0) as -> by (cbn in Hb; lia). now rewrite Z.lxor_0_r.
    + rewrite !lsb_S. cbn [repeat app xor_prefix]. rewrite Z.lxor_spec, xorb_false_r. f_equal.
      rewrite Z.shiftr_lxor. apply IH; [lia|]. unfold word in *. rewrite Z.shiftr_div_pow2 by lia.
      rewrite Nat2Z.inj_succ, Z.pow_succ_r in Hb by lia. split; [apply Z.div_pos; lia|apply Z.div_lt_upper_bound; lia].
Qed.
(** One division step is [crc_bit]. *)
Lemma divide_step P v n d : word 32 v -> (32 <= length d)%nat ->
  divide (S n) (lsb 32 P) (xor_prefix (lsb 32 v) (false :: d)) = divide n (lsb 32 P) (xor_prefix (lsb 32 (crc_bit P v)) d).
Proof.
  intros Hv Hd. rewrite (lsb_S 31 v). cbn [xor_prefix]. rewrite xorb_false_r. cbn [divide].
  assert (HS : word (Z.of_nat 31) (Z.shiftr v 1)).
  { unfold word in *. rewrite Z.shiftr_div_pow2 by lia. split; [apply Z.div_pos; lia|apply Z.div_lt_upper_bound; lia]. }
  assert (E : xor_prefix (lsb 31 (Z.shiftr v 1)) d = xor_prefix (lsb 32 (Z.shiftr v 1)) d) by now rewrite (lsb_snoc 31), xor_prefix_snoc by exact HS.
  rewrite E. unfold crc_bit. rewrite <- Z.bit0_odd. destruct (Z.testbit v 0); [|reflexivity]. rewrite xor_lsb, Z.lxor_comm. reflexivity.
Qed.
Lemma divide_steps P k : forall v n d, word 32 P -> word 32 v -> (32 <= length d)%nat ->
  divide (k + n) (lsb 32 P) (xor_prefix (lsb 32 v) (repeat false k ++ d)) = divide n (lsb 32 P) (xor_prefix (lsb 32 (Nat.iter k (crc_bit P) v)) d).
Proof.
  induction k as [|k IH]; intros v n d HP Hv Hd; [reflexivity|]. cbn [repeat app Nat.add]. rewrite divide_step; auto.
  - rewrite IH; auto using crc_bit_word. f_equal. f_equal. f_equal. clear. unfold Nat.iter. induction k; cbn [nat_rect]; auto. now rewrite IHk.
  - rewrite app_length, repeat_length. lia.
Qed.
Lemma xor_word a b : word 32 a -> word 32 b -> word 32 (Z.lxor a b).
Proof.
  intros Ha Hb. assert (E : Z.lxor a b = wrap 32 (Z.lxor a b)).
  { apply Z.bits_inj'. intros n Hn. rewrite wrap_spec by lia. destruct (Z.ltb_spec n 32); [now rewrite andb_true_l|].
    rewrite Z.lxor_spec, (testbit_high 32 a), (testbit_high 32 b) by (auto; lia). reflexivity. }
  rewrite E. unfold word, wrap. apply Z.mod_pos_bound. lia.
Qed.
Lemma iter_word P n : word 32 P -> forall c, word 32 c -> word 32 (Nat.iter n (crc_bit P) c).
Proof. intros HP. induction n; intros c Hc; [exact Hc|]. unfold Nat.iter in *. cbn [nat_rect]. apply crc_bit_word; auto. Qed.
Lemma crc_byte_word P c b : word 32 P -> word 32 c -> is_byte b -> word 32 (crc_byte P c b).
Proof. intros HP Hc Hb. unfold crc_byte. apply iter_word; auto. apply xor_word; auto. unfold is_byte in Hb. unfold word. lia. Qed.
Lemma crc_fold_word P m : word 32 P -> Forall is_byte m -> forall c, word 32 c -> word 32 (fold_left (crc_byte P) m c).
Proof. intros HP Hm. induction Hm; intros c Hc; cbn [fold_left]; auto using crc_byte_word. Qed.
Lemma divide_crc P m : word 32 P -> Forall is_byte m -> forall c, word 32 c ->
  divide (8 * length m) (lsb 32 P) (xor_prefix (lsb 32 c) (flat_map (lsb 8) m ++ repeat false 32)) = lsb 32 (fold_left (crc_byte P) m c).
Proof.
  intros HP Hm. induction Hm as [|b m Hb Hm IH]; intros c Hc.
  - cbn [length Nat.mul flat_map app fold_left divide]. rewrite <- (lsb_0 32) at 1. cbn [divide].
    pose proof (xor_absorb 32 32 c 0 []) as X. rewrite !app_nil_r, Z.lxor_0_r in X.
    assert (Y : forall n x, xor_prefix (lsb n x) (repeat false n) = lsb n x).
    { induction n; intros x; [reflexivity|]. rewrite lsb_S. cbn [repeat xor_prefix]. now rewrite xorb_false_r, IHn. }
    rewrite lsb_0. rewrite Y. destruct (lsb 32 c); reflexivity.
  - cbn [length flat_map fold_left]. replace (8 * S (length m))%nat with (8 + 8 * length m)%nat by lia. rewrite <- app_assoc.
    rewrite xor_absorb; [|lia|exact Hb]. rewrite divide_steps; auto.
    + apply IH. now apply crc_byte_word.
    + apply xor_word; auto. unfold is_byte in Hb. unfold word. lia.
    + rewrite app_length, repeat_length. lia.
Qed.
Lemma lsb_neg n x : word (Z.of_nat n) x -> lsb n (Z.lxor x (2 ^ Z.of_nat n - 1)) = map negb (lsb n x).
Proof.
  intros Hx. unfold lsb. rewrite map_map. apply map_ext_in. intros i Hi. apply in_seq in Hi. rewrite Z.lxor_spec.
  replace (2 ^ Z.of_nat n - 1) with (Z.ones (Z.of_nat n)) by (rewrite Z.ones_equiv; lia). rewrite Z.testbit_ones by lia.
  destruct (Z.leb_spec 0 (Z.of_nat i)); [|lia]. destruct (Z.ltb_spec (Z.of_nat i) (Z.of_nat n)); [|lia]. cbn [andb]. apply xorb_true_r.
Qed.
Lemma crc_is_division P m : word 32 P -> Forall is_byte m -> lsb 32 (crc_spec P m) = crc_remainder P m.
Proof.
  intros HP Hm. unfold crc_spec, crc_remainder, crc_dividend. change (repeat true 32) with (lsb 32 (2 ^ 32 - 1)).
  rewrite divide_crc by (auto; unfold word; lia). apply (lsb_neg 32). apply crc_fold_word; auto. unfold word; lia.
Qed.
