(** The buffering context: chunk independence and padding, for any block function. *)
From Verif Require Import Base ByteSpec LebeModel ByteProofs HashSpec HashTables HashModel HashProofs.

Lemma block_loop_fold f k bs : forall st l, block_loop f k bs st l = fold_left f (pieces k bs l) st.
Proof. induction k; intros; cbn [block_loop pieces fold_left]; auto. Qed.
Lemma block_loop_app f bs j b : forall k st a, length a = (k * bs)%nat ->
  block_loop f (k + j) bs st (a ++ b) = block_loop f j bs (block_loop f k bs st a) b.
Proof.
  induction k as [|k IH]; intros st a Ha; cbn [block_loop Nat.add].
  - destruct a; [reflexivity|discriminate].
  - assert (bs <= length a)%nat by (cbn in Ha; lia). rewrite firstn_app, skipn_app.
    replace (bs - length a)%nat with 0%nat by lia. cbn [firstn skipn]. rewrite app_nil_r. apply IH. rewrite skipn_length. cbn in Ha. lia.
Qed.
Lemma update_blocks_mult H k st l : (0 < h_bs H)%nat -> length l = (k * h_bs H)%nat -> update_blocks H st l = block_loop (h_compress H) k (h_bs H) st l.
Proof. intros Hb Hl. unfold update_blocks. rewrite Hl, Nat.div_mul by lia. reflexivity. Qed.

Lemma le_bytes_mod n : forall x, le_bytes n (x mod 256 ^ Z.of_nat n) = le_bytes n x.
Proof.
  induction n as [|n IH]; intros x; cbn [le_bytes]; auto. rewrite p256_S. pose proof (p256_pos n).
  f_equal.
  - rewrite Z.rem_mul_r by lia. rewrite Z.mul_comm, Z.mod_add by lia. now rewrite Z.mod_mod by lia.
  - rewrite Z.rem_mul_r by lia. rewrite Z.add_comm, Z.mul_comm, Z.div_add_l by lia.
    rewrite (Z.div_small (x mod 256)) by (apply Z.mod_pos_bound; lia). rewrite Z.add_0_r. apply IH.
Qed.
Lemma bytes_of_mod e n x : bytes_of e n (x mod 256 ^ Z.of_nat n) = bytes_of e n x.
Proof. destruct e; cbn [bytes_of]; unfold be_bytes; now rewrite le_bytes_mod. Qed.

(** What is written for an integer stored in the byte order of the hash. *)
Lemma store_swapped host en n v : In n [1; 2; 4; 8; 16]%nat -> 0 <= v < 256 ^ Z.of_nat n ->
  bytes_of host n (if endian_eqb host en then v else byte_swap n v) = bytes_of en n v.
Proof.
  intros Hn Hv. destruct host, en; cbn [endian_eqb]; auto.
  all: rewrite byte_swap_spec by auto; cbn [bytes_of].
  - replace n with (length (be_bytes n v)) at 1 by apply be_bytes_length. rewrite le_bytes_of_le; auto.
    apply (bytes_of_byte big).
  - unfold be_bytes at 1. replace n with (length (be_bytes n v)) at 1 by apply be_bytes_length. rewrite le_bytes_of_le.
    unfold be_bytes. now rewrite rev_involutive. apply (bytes_of_byte big).
Qed.

Section Ctx.
Context (H : hasher) (Hbs : (0 < h_bs H)%nat).
Notation f := (h_compress H). Notation bs := (h_bs H).

Definition ctx_inv (iv : list Z) (c : ctx) (m : list Z) : Prop :=
  exists done rest k, m = done ++ rest /\ length done = (k * bs)%nat /\
    c_state c = block_loop f k bs iv done /\ c_counter c = wrap (cbits H) (zlen done) /\
    c_off c = length rest /\ (length rest < bs)%nat /\ length (c_buf c) = bs /\ firstn (length rest) (c_buf c) = rest.

Lemma ctx_inv_reset iv buf : length buf = bs -> ctx_inv iv (ctx_reset iv buf) [].
Proof.
  intros Hl. exists [], [], 0%nat. cbn [ctx_reset c_state c_counter c_off c_buf app length block_loop Nat.mul firstn].
  repeat split; auto. 
Qed.

Lemma firstn_blit0 buf l : (length l <= length buf)%nat -> firstn (length l) (blit buf 0 l) = l.
Proof. intros. unfold blit. cbn [firstn app]. rewrite firstn_app, firstn_all, Nat.sub_diag. cbn. apply app_nil_r. Qed.
Lemma firstn_app_exact {A} (a b : list A) : firstn (length a) (a ++ b) = a.
Proof. rewrite firstn_app, firstn_all, Nat.sub_diag. cbn. apply app_nil_r. Qed.
Lemma skipn_app_exact {A} (a b : list A) : skipn (length a) (a ++ b) = b.
Proof. rewrite skipn_app, skipn_all, Nat.sub_diag. reflexivity. Qed.
Lemma zlen_app {A} (a b : list A) : zlen (a ++ b) = zlen a + zlen b.
Proof. unfold zlen. rewrite app_length. lia. Qed.
Lemma wrap_add_l w x y : wrap w (wrap w x + y) = wrap w (x + y).
Proof. apply Zplus_mod_idemp_l. Qed.

(** A whole number of blocks, then a tail that stays in the buffer. *)
Lemma cold_tail iv c done k l : length done = (k * bs)%nat -> c_state c = block_loop f k bs iv done ->
  c_counter c = wrap (cbits H) (zlen done) -> length (c_buf c) = bs ->
  let bytes := (length l / bs * bs)%nat in
  let c1 := update_impl H c (firstn bytes l) in
  ctx_inv iv {| c_state := c_state c1; c_counter := c_counter c1; c_off := length (skipn bytes l); c_buf := blit (c_buf c1) 0 (skipn bytes l) |} (done ++ l).
Proof.
  intros Hd Hs Hc Hb. cbv zeta. set (j := (length l / bs)%nat). set (bytes := (j * bs)%nat).
  pose proof (Nat.div_mod (length l) bs ltac:(lia)) as DM. pose proof (Nat.mod_upper_bound (length l) bs ltac:(lia)) as MB. fold j in DM.
  assert (Lf : length (firstn bytes l) = (j * bs)%nat) by (unfold bytes; rewrite firstn_length_le; lia).
  assert (Ls : (length (skipn bytes l) < bs)%nat) by (rewrite skipn_length; unfold bytes; lia).
  exists (done ++ firstn bytes l), (skipn bytes l), (k + j)%nat.
  unfold update_impl. cbn [c_state c_counter c_off c_buf].
  split; [now rewrite <- app_assoc, firstn_skipn|]. split; [rewrite app_length, Lf; lia|].
  split; [rewrite (update_blocks_mult H j) by auto; rewrite Hs, block_loop_app by auto; reflexivity|].
  split; [rewrite Hc, wrap_add_l, zlen_app; reflexivity|].
  split; [reflexivity|]. split; [exact Ls|]. split; [rewrite blit_length; lia|]. apply firstn_blit0. lia.
Qed.

Lemma ctx_update_inv iv c m l : ctx_inv iv c m -> ctx_inv iv (ctx_update H c l) (m ++ l).
Proof.
  intros (done & rest & k & -> & Hd & Hs & Hc & Ho & Hr & Hb & Hf). unfold ctx_update.
  destruct (Nat.ltb_spec (length l) (bs - c_off c)).
  - exists done, (rest ++ l), k. cbn [c_state c_counter c_off c_buf]. rewrite app_length.
    split; [now rewrite app_assoc|]. split; [auto|]. split; [auto|]. split; [auto|]. split; [lia|]. split; [lia|].
    split; [rewrite blit_length; lia|]. rewrite <- app_length. unfold blit. rewrite Ho, Hf, app_assoc. apply firstn_app_exact.
  - unfold update_cold_impl. rewrite Ho. destruct (Nat.eqb_spec (bs - length rest) bs) as [E|E]; cbn [negb].
    + assert (rest = []) as -> by (destruct rest; [auto|cbn in *; lia]). rewrite app_nil_r. apply (cold_tail iv c done k); auto.
    + rewrite <- app_assoc. set (r := (bs - length rest)%nat).
      assert (Lb : length (firstn r l) = r) by (rewrite firstn_length_le; lia).
      assert (EB : blit (c_buf c) (length rest) (firstn r l) = rest ++ firstn r l).
      { unfold blit. rewrite Hf, skipn_all2, app_nil_r by lia. reflexivity. }
      assert (LB : length (rest ++ firstn r l) = (1 * bs)%nat) by (rewrite app_length; lia).
      replace (done ++ rest ++ l) with ((done ++ rest ++ firstn r l) ++ skipn r l) by now rewrite <- !app_assoc, firstn_skipn.
      apply (cold_tail iv _ (done ++ rest ++ firstn r l) (k + 1)).
      * rewrite app_length. lia.
      * unfold update_impl. cbn [c_state c_buf]. rewrite EB, (update_blocks_mult H 1) by auto. rewrite Hs, block_loop_app by auto. reflexivity.
      * unfold update_impl. cbn [c_counter c_buf]. rewrite EB, Hc, wrap_add_l, <- zlen_app. reflexivity.
      * unfold update_impl. cbn [c_buf]. rewrite EB. lia.
Qed.
Lemma ctx_updates_inv iv chunks : forall c m, ctx_inv iv c m -> ctx_inv iv (fold_left (ctx_update H) chunks c) (m ++ concat chunks).
Proof.
  induction chunks as [|l r IH]; intros c m Hi; cbn [fold_left concat]; [now rewrite app_nil_r|].
  rewrite app_assoc. apply IH. now apply ctx_update_inv.
Qed.

Context (Hcnt : In (h_cnt H) [8; 16]%nat) (Hcb : (h_cnt H < bs)%nat).

Lemma cnt_sizes : In (h_cnt H) [1; 2; 4; 8; 16]%nat. Proof. cbn in *; tauto. Qed.
Lemma wrap_cbits x : wrap (cbits H) x = x mod 256 ^ Z.of_nat (h_cnt H).
Proof. unfold wrap, cbits. rewrite Z.pow_mul_r by lia. reflexivity. Qed.

Lemma sentinal_ok host c n : length (c_buf c) = bs ->
  c_state (append_sentinal H host c n) =
  f (c_state c) (firstn (bs - h_cnt H) (c_buf c) ++ bytes_of (h_en H) (h_cnt H) (8 * (c_counter c + Z.of_nat n))).
Proof.
  intros Hb. unfold append_sentinal. cbn [c_state].
  rewrite store_swapped.
  - rewrite !wrap_cbits. rewrite bytes_of_mod. rewrite <- (bytes_of_mod _ _ (_ * 8)), Z.mul_mod_idemp_l by (pose proof (p256_pos (h_cnt H)); lia).
    rewrite bytes_of_mod. rewrite (Z.mul_comm _ 8).
    unfold blit. rewrite bytes_of_length. replace (bs - h_cnt H + h_cnt H)%nat with bs by lia.
    rewrite skipn_all2 by lia. rewrite app_nil_r.
    set (blk := _ ++ _). assert (LB : length blk = (1 * bs)%nat).
    { unfold blk. rewrite app_length, bytes_of_length, firstn_length. lia. }
    rewrite (update_blocks_mult H 1) by auto. cbn [block_loop]. rewrite firstn_all2 by lia. reflexivity.
  - apply cnt_sizes.
  - rewrite wrap_cbits. apply Z.mod_pos_bound. apply p256_pos.
Qed.

Lemma do_final_ok host iv c m : ctx_inv iv c m ->
  c_state (do_final H host c) = fold_left f (blocks bs (pad (h_en H) (Z.of_nat bs) (Z.of_nat (h_cnt H)) m)) iv.
Proof.
  intros (done & rest & k & -> & Hd & Hs & Hc & Ho & Hr & Hb & Hf).
  unfold do_final. rewrite Ho. set (sz := (bs - h_cnt H)%nat). set (o := length rest) in *.
  assert (HU : upd (c_buf c) o 128 = rest ++ 128 :: skipn (S o) (c_buf c)) by (unfold upd; now rewrite Hf).
  assert (LEN : bytes_of (h_en H) (h_cnt H) (8 * (c_counter c + Z.of_nat o)) = bytes_of (h_en H) (h_cnt H) (8 * zlen (done ++ rest))).
  { rewrite <- (bytes_of_mod _ _ (8 * (c_counter c + _))), Hc, wrap_cbits. pose proof (p256_pos (h_cnt H)).
    rewrite <- Z.mul_mod_idemp_r, Z.add_mod_idemp_l, Z.mul_mod_idemp_r by lia. rewrite bytes_of_mod, zlen_app. reflexivity. }
  assert (ZL : zlen (done ++ rest) = Z.of_nat k * Z.of_nat bs + Z.of_nat o) by (rewrite zlen_app; unfold zlen; rewrite Hd; lia).
  assert (BO : forall l j, length l = (j * bs)%nat -> fold_left f (blocks bs (done ++ l)) iv = block_loop f j bs (c_state c) l).
  { intros l j Hl. unfold blocks. rewrite app_length, Hd, Hl. replace (k * bs + j * bs)%nat with ((k + j) * bs)%nat by lia.
    rewrite Nat.div_mul by lia. rewrite <- block_loop_fold, block_loop_app by auto. now rewrite Hs. }
  unfold pad. rewrite Nat2Z.id. rewrite <- !app_assoc.
  destruct (Nat.leb_spec (S o) sz).
  - rewrite sentinal_ok.
    2:{ cbn [c_buf]. rewrite blit_length. rewrite upd_length; lia. rewrite repeat_length, upd_length by lia. lia. }
    cbn [c_state c_buf c_counter]. rewrite LEN.
    assert (PZ : pad_zeros (Z.of_nat bs) (Z.of_nat (h_cnt H)) (zlen (done ++ rest)) = (sz - S o)%nat).
    { unfold pad_zeros. rewrite ZL. replace (Z.of_nat bs - Z.of_nat (h_cnt H) - 1 - (Z.of_nat k * Z.of_nat bs + Z.of_nat o)) with
        (Z.of_nat (sz - S o) + (- Z.of_nat k) * Z.of_nat bs) by (unfold sz in *; lia).
      rewrite Z.mod_add by lia. rewrite Z.mod_small by lia. apply Nat2Z.id. }
    rewrite PZ.
    assert (FB : firstn (bs - h_cnt H) (blit (upd (c_buf c) o 128) (S o) (repeat 0 (sz - S o))) = rest ++ [128] ++ repeat 0 (sz - S o)).
    { unfold blit. rewrite HU. rewrite repeat_length. replace (S o + (sz - S o))%nat with sz by lia.
      replace (firstn (S o) (rest ++ 128 :: skipn (S o) (c_buf c))) with (rest ++ [128]).
      - rewrite !app_assoc. fold sz. rewrite firstn_app. replace (firstn sz _) with ((rest ++ [128]) ++ repeat 0 (sz - S o)).
        + rewrite !app_length, repeat_length. cbn [length]. fold o. replace (sz - (o + 1 + (sz - S o)))%nat with 0%nat by lia. cbn [firstn]. apply app_nil_r.
        + symmetry. apply firstn_all2. rewrite !app_length, repeat_length. cbn [length]. fold o. lia.
      - replace (S o) with (length (rest ++ [128])) at 1 by (rewrite app_length; cbn; fold o; lia).
        change (128 :: skipn (S o) (c_buf c)) with ([128] ++ skipn (S o) (c_buf c)). rewrite app_assoc. now rewrite firstn_app_exact. }
    rewrite FB, <- !app_assoc. rewrite (BO _ 1%nat).
    + cbn [block_loop]. rewrite firstn_all2; auto. rewrite !app_length, repeat_length, bytes_of_length. cbn [length]. fold o. unfold sz in *. lia.
    + rewrite !app_length, repeat_length, bytes_of_length. cbn [length]. fold o. unfold sz in *. lia.
  - assert (EB : blit (upd (c_buf c) o 128) (S o) (repeat 0 (bs - S o)) = rest ++ [128] ++ repeat 0 (bs - S o)).
    { unfold blit. rewrite HU, repeat_length. rewrite (skipn_all2 (n := (S o + (bs - S o))%nat)); [rewrite app_nil_r|rewrite app_length; cbn [length]; rewrite skipn_length; fold o; lia].
      rewrite app_assoc. f_equal. replace (S o) with (length (rest ++ [128])) at 1 by (rewrite app_length; cbn; fold o; lia).
      change (128 :: skipn (S o) (c_buf c)) with ([128] ++ skipn (S o) (c_buf c)). rewrite app_assoc. apply firstn_app_exact. }
    assert (LB : length (rest ++ [128] ++ repeat 0 (bs - S o)) = (1 * bs)%nat) by (rewrite !app_length, repeat_length; cbn [length]; fold o; lia).
    rewrite sentinal_ok.
    2:{ cbn [c_buf]. rewrite EB, blit_length; [lia|]. rewrite repeat_length. unfold sz. lia. }
    cbn [c_state c_buf c_counter]. rewrite LEN, EB, (update_blocks_mult H 1) by auto.
    assert (PZ : pad_zeros (Z.of_nat bs) (Z.of_nat (h_cnt H)) (zlen (done ++ rest)) = (bs - S o + sz)%nat).
    { unfold pad_zeros. rewrite ZL. replace (Z.of_nat bs - Z.of_nat (h_cnt H) - 1 - (Z.of_nat k * Z.of_nat bs + Z.of_nat o)) with
        (Z.of_nat (bs - S o + sz) + (- Z.of_nat k - 1) * Z.of_nat bs) by (unfold sz in *; lia).
      rewrite Z.mod_add by lia. rewrite Z.mod_small by (unfold sz in *; lia). apply Nat2Z.id. }
    rewrite PZ, repeat_app.
    replace (rest ++ [128] ++ (repeat 0 (bs - S o) ++ repeat 0 sz) ++ bytes_of (h_en H) (h_cnt H) (8 * zlen (done ++ rest)))
      with ((rest ++ [128] ++ repeat 0 (bs - S o)) ++ repeat 0 sz ++ bytes_of (h_en H) (h_cnt H) (8 * zlen (done ++ rest))) by now rewrite <- !app_assoc.
    assert (L2 : length (repeat 0 sz ++ bytes_of (h_en H) (h_cnt H) (8 * zlen (done ++ rest))) = bs) by (rewrite app_length, repeat_length, bytes_of_length; unfold sz; lia).
    rewrite (BO _ (1 + 1)%nat) by (rewrite app_length, LB, L2; lia).
    rewrite block_loop_app by auto. set (st := block_loop f 1 bs (c_state c) _). cbn [block_loop].
    rewrite (firstn_all2 (n := bs) (repeat 0 sz ++ _)) by lia. f_equal. f_equal. unfold blit. fold sz. cbn [firstn app].
    replace sz with (length (repeat 0 sz)) at 1 by apply repeat_length. apply firstn_app_exact.
Qed.
End Ctx.

(** ** Digest output. *)
Lemma digest_words_ok host en n d : In n [1; 2; 4; 8; 16]%nat -> Forall (fun v => 0 <= v < 256 ^ Z.of_nat n) d ->
  digest_words false host en n d = concat (map (bytes_of en n) d).
Proof.
  intros Hn Hd. unfold digest_words. f_equal. apply map_ext_in. intros v Hv. rewrite Forall_forall in Hd. apply store_swapped; auto.
Qed.
Lemma concat_bytes_length en n d : length (concat (map (bytes_of en n) d)) = (length d * n)%nat.
Proof. induction d; cbn [map concat length]; auto. rewrite app_length, bytes_of_length, IHd. lia. Qed.
Lemma digest_to_bytes_ok host en n dsz st : In n [4; 8]%nat -> Forall (fun v => 0 <= v < 256 ^ Z.of_nat n) st -> (dsz <= n * length st)%nat ->
  digest_to_bytes false host en n dsz st = firstn dsz (concat (map (bytes_of en n) st)).
Proof.
  intros Hn Hst Hd. assert (Hn' : In n [1; 2; 4; 8; 16]%nat) by (cbn in *; tauto). assert (0 < n)%nat by (cbn in Hn; lia).
  unfold digest_to_bytes. cbv zeta. set (sz := (dsz / n)%nat). pose proof (Nat.div_mod dsz n ltac:(lia)) as DM. fold sz in DM.
  pose proof (Nat.mod_upper_bound dsz n ltac:(lia)) as MB.
  assert (sz <= length st)%nat by nia.
  rewrite digest_words_ok by (auto; now apply Forall_firstn).
  assert (E : concat (map (bytes_of en n) st) = concat (map (bytes_of en n) (firstn sz st)) ++ concat (map (bytes_of en n) (skipn sz st)))
    by now rewrite <- concat_app, <- map_app, firstn_skipn.
  rewrite E; clear E. rewrite firstn_app, concat_bytes_length, firstn_length_le by lia.
  rewrite (firstn_all2 (n := dsz)) by (rewrite concat_bytes_length, firstn_length_le by lia; nia). f_equal.
  replace (dsz - sz * n)%nat with (dsz mod n)%nat by nia.
  destruct (Nat.eqb_spec (dsz mod n) 0) as [E|E].
  - rewrite E. reflexivity.
  - assert (sz < length st)%nat by nia.
    assert (SK : skipn sz st = get st sz :: skipn (S sz) st).
    { clear - H1. clearbody sz. unfold get. revert sz H1. induction st as [|a st IH]; intros [|sz] Hs; cbn in *; try lia; auto. apply IH. lia. }
    rewrite SK. cbn [map concat]. rewrite store_swapped.
    + rewrite firstn_app, bytes_of_length. replace (dsz mod n - n)%nat with 0%nat by lia. cbn [firstn]. now rewrite app_nil_r.
    + auto.
    + rewrite Forall_forall in Hst. apply Hst. apply nth_In. lia.
Qed.

(** The whole session. *)
Lemma hash_run_ok H host n dsz iv buf0 chunks : (0 < h_bs H)%nat -> In (h_cnt H) [8; 16]%nat -> (h_cnt H < h_bs H)%nat -> length buf0 = h_bs H ->
  In n [4; 8]%nat ->
  (let st := fold_left (h_compress H) (blocks (h_bs H) (pad (h_en H) (Z.of_nat (h_bs H)) (Z.of_nat (h_cnt H)) (concat chunks))) iv in
   Forall (fun v => 0 <= v < 256 ^ Z.of_nat n) st /\ (dsz <= n * length st)%nat) ->
  hash_run H host n dsz iv buf0 chunks =
    md_hash (h_en H) (Z.of_nat (h_bs H)) (Z.of_nat (h_cnt H)) n dsz (h_compress H) iv (concat chunks).
Proof.
  intros Hb Hc Hcb Hl Hn [Hw Hd]. unfold hash_run, md_hash. rewrite Nat2Z.id.
  assert (I : ctx_inv H iv (fold_left (ctx_update H) chunks (ctx_reset iv buf0)) (concat chunks)).
  { apply (ctx_updates_inv H Hb iv chunks _ []). apply ctx_inv_reset; auto. }
  rewrite (do_final_ok H Hb Hc Hcb host iv _ _ I). apply digest_to_bytes_ok; auto.
Qed.
