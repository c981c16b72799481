(** Proofs about the block functions. *)
From Verif Require Import Base ByteSpec LebeModel ByteProofs HashSpec HashTables HashModel.

(** ** Lists. *)
Lemma get_upd_same l i v : (i < length l)%nat -> get (upd l i v) i = v.
Proof. intros. unfold get, upd. rewrite app_nth2; rewrite firstn_length_le by lia; [|lia]. now rewrite Nat.sub_diag. Qed.
Lemma get_upd_other l i j v : (i < length l)%nat -> i <> j -> get (upd l i v) j = get l j.
Proof.
  intros Hi Hj. unfold get, upd. destruct (Nat.ltb_spec j i).
  - rewrite app_nth1 by (rewrite firstn_length_le; lia).
    rewrite <- (firstn_skipn i l) at 2. rewrite app_nth1 by (rewrite firstn_length_le; lia). reflexivity.
  - rewrite app_nth2; rewrite firstn_length_le by lia; [|lia].
    destruct (j - i)%nat as [|k] eqn:E; [lia|]. cbn [nth].
    rewrite <- (firstn_skipn (S i) l) at 2. rewrite app_nth2; rewrite firstn_length_le by lia; [|lia].
    f_equal. lia.
Qed.
Lemma upd_length l i v : (i < length l)%nat -> length (upd l i v) = length l.
Proof. intros. unfold upd. rewrite app_length. cbn [length]. rewrite firstn_length_le, skipn_length by lia. lia. Qed.
Lemma blit_length l i src : (i + length src <= length l)%nat -> length (blit l i src) = length l.
Proof. intros. unfold blit. rewrite !app_length, firstn_length_le, skipn_length by lia. lia. Qed.
Lemma get_blit l i src j : (i + length src <= length l)%nat ->
  get (blit l i src) j = if ((i <=? j) && (j <? i + length src))%nat then get src (j - i) else get l j.
Proof.
  intros H. unfold get, blit.
  destruct (Nat.leb_spec i j); cbn [andb].
  - rewrite app_nth2; rewrite firstn_length_le by lia; [|lia].
    destruct (Nat.ltb_spec j (i + length src)).
    + rewrite app_nth1 by lia. reflexivity.
    + rewrite app_nth2 by lia. rewrite <- (firstn_skipn (i + length src) l) at 2.
      rewrite app_nth2; rewrite firstn_length_le by lia; [|lia]. f_equal. lia.
  - rewrite app_nth1 by (rewrite firstn_length_le; lia).
    rewrite <- (firstn_skipn i l) at 2. rewrite app_nth1 by (rewrite firstn_length_le; lia). reflexivity.
Qed.
Lemma list_eq_get (l m : list Z) : length l = length m -> (forall i, (i < length l)%nat -> get l i = get m i) -> l = m.
Proof.
  revert m; induction l as [|a l IH]; intros [|b m] Hl H; try discriminate; auto.
  f_equal. apply (H 0%nat). cbn; lia. apply IH. cbn in Hl; lia. intros i Hi. apply (H (S i)). cbn; lia.
Qed.
Lemma get_slice l i n k : (k < n)%nat -> get (slice l i n) k = get l (i + k).
Proof.
  intros Hk. unfold slice, get. revert l; induction i as [|i IH]; intros l; cbn [skipn Nat.add].
  - rewrite <- (firstn_skipn n l) at 2. destruct (Nat.ltb_spec k (length l)).
    + rewrite app_nth1; [reflexivity|]. rewrite firstn_length. lia.
    + rewrite firstn_skipn. rewrite !nth_overflow; auto. rewrite firstn_length; lia.
  - destruct l as [|a l]; [|apply IH]. rewrite firstn_nil. cbn [skipn]. now destruct k.
Qed.
Lemma slice_length l i n : (i + n <= length l)%nat -> length (slice l i n) = n.
Proof. intros. unfold slice. rewrite firstn_length, skipn_length. lia. Qed.
Lemma get_lanes2 f xs ys k : (k < length xs)%nat -> length ys = length xs -> get (lanes2 f xs ys) k = f (get xs k) (get ys k).
Proof.
  revert ys k; induction xs as [|x xs IH]; intros [|y ys] k Hk Hl; cbn in Hk, Hl; try lia.
  destruct k as [|k]; [reflexivity|]. unfold lanes2. cbn [combine map]. unfold get. cbn [nth]. apply IH; lia.
Qed.
Lemma lanes2_length f xs ys : length ys = length xs -> length (lanes2 f xs ys) = length xs.
Proof. intros. unfold lanes2. rewrite map_length, combine_length. lia. Qed.
Lemma get_map_seq f a n k : (k < n)%nat -> get (map f (seq a n)) k = f (a + k)%nat.
Proof.
  intros. unfold get. rewrite nth_indep with (d' := f 0%nat) by (rewrite map_length, seq_length; lia).
  rewrite map_nth, seq_nth by lia. reflexivity.
Qed.

(** ** Bits. *)
Lemma wrap_spec w x n : 0 <= w -> 0 <= n -> Z.testbit (wrap w x) n = (n <? w) && Z.testbit x n.
Proof.
  intros Hw Hn. unfold wrap. destruct (Z.ltb_spec n w).
  - now rewrite Z.mod_pow2_bits_low.
  - now rewrite Z.mod_pow2_bits_high by lia.
Qed.
Ltac bits := apply Z.bits_inj'; let k := fresh "k" in let Hk := fresh "Hk" in intros k Hk;
  repeat first [rewrite Z.lxor_spec | rewrite Z.land_spec | rewrite Z.lor_spec | rewrite Z.ldiff_spec];
  repeat match goal with |- context [Z.testbit ?a ?n] => is_var a; destruct (Z.testbit a n) end; try reflexivity.

Lemma Ch_form1 x y z : Z.lxor (Z.land (Z.lxor y z) x) z = Ch x y z. Proof. unfold Ch; bits. Qed.
Lemma Ch_form2 x y z : Z.lxor (Z.land x (Z.lxor y z)) z = Ch x y z. Proof. unfold Ch; bits. Qed.
Lemma Maj_form1 a b c : Z.lxor (Z.land (Z.lxor a b) (Z.lxor b c)) b = Maj a b c. Proof. unfold Maj; bits. Qed.
Lemma Maj_form2 w x y : Z.lor (Z.land (Z.lor w x) y) (Z.land w x) = Maj w x y. Proof. unfold Maj; bits. Qed.
Lemma std_rotr_eq w x n : std_rotr w x n = rotr w n x. Proof. reflexivity. Qed.
Lemma std_rotl_eq w x n : std_rotl w x n = rotl w n x. Proof. reflexivity. Qed.

Lemma testbit_high w x n : 0 <= x < 2 ^ w -> 0 <= w <= n -> Z.testbit x n = false.
Proof.
  intros Hx Hn. destruct (Z.eq_dec x 0) as [->|]; [apply Z.bits_0|].
  apply Z.bits_above_log2; [lia|]. apply Z.log2_lt_pow2; [lia|].
  apply Z.lt_le_trans with (2 ^ w); [lia|]. apply Z.pow_le_mono_r; lia.
Qed.

(** Push everything down to bits of [s], then compare. *)
Ltac push_bits :=
  repeat (rewrite ?Z.lxor_spec, ?Z.lor_spec;
          first [ rewrite wrap_spec by lia | rewrite Z.shiftr_spec by lia | rewrite Z.shiftl_spec by lia ]).

Lemma rot_xor w s n : 0 < n < w -> 0 <= s < 2 ^ w -> Z.lxor (Z.shiftr s n) (wshl w s (w - n)) = rotr w n s.
Proof.
  intros Hn Hs. unfold rotr, wshl. fold (wrap w (Z.shiftl s (w - n))).
  apply Z.bits_inj'; intros k Hk. rewrite Z.lxor_spec, Z.lor_spec, wrap_spec, Z.shiftr_spec, Z.shiftl_spec by lia.
  destruct (Z.ltb_spec k w); cbn [andb]; [|now rewrite xorb_false_r, orb_false_r].
  destruct (Z.ltb_spec (k + n) w).
  - rewrite (Z.testbit_neg_r s (k - (w - n))) by lia. now rewrite xorb_false_r, orb_false_r.
  - rewrite (testbit_high w s (k + n)) by lia. now rewrite xorb_false_l.
Qed.
Lemma shr_lxor a b n : Z.shiftr (Z.lxor a b) n = Z.lxor (Z.shiftr a n) (Z.shiftr b n).
Proof. apply Z.shiftr_lxor. Qed.
Lemma wshl_lxor w a b n : 0 <= w -> wshl w (Z.lxor a b) n = Z.lxor (wshl w a n) (wshl w b n).
Proof. intros Hw. unfold wshl. rewrite Z.shiftl_lxor. apply Z.bits_inj'; intros k Hk. rewrite Z.lxor_spec, !wrap_spec, Z.lxor_spec by lia. now destruct (k <? w), (Z.testbit (Z.shiftl a n) k), (Z.testbit (Z.shiftl b n) k). Qed.
Lemma wshl_wshl w a m n : 0 <= m -> 0 <= n -> 0 <= w -> wshl w (wshl w a m) n = wshl w a (m + n).
Proof.
  intros. unfold wshl. apply Z.bits_inj'; intros k Hk. rewrite !wrap_spec, !Z.shiftl_spec by lia.
  destruct (Z.ltb_spec k w); cbn [andb]; auto.
  destruct (Z.ltb_spec k n).
  - rewrite Z.testbit_neg_r by lia. symmetry. apply Z.testbit_neg_r; lia.
  - rewrite wrap_spec, Z.shiftl_spec by lia. replace (k - n - m) with (k - (m + n)) by lia.
    destruct (Z.ltb_spec (k - n) w); [reflexivity|lia].
Qed.
Lemma lxor_acac a b c d e : Z.lxor (Z.lxor (Z.lxor (Z.lxor a b) c) d) e = Z.lxor (Z.lxor (Z.lxor a b) (Z.lxor c d)) e.
Proof. bits. Qed.

Definition word (w x : Z) : Prop := 0 <= x < 2 ^ w.

Lemma s1_256_a_eq s : word 32 s -> s1_256_a s = smallS1 sha2_32 s.
Proof. intros. unfold s1_256_a. rewrite lxor_acac. cbn [smallS1 sha2_32]. rewrite <- !rot_xor by (lia || assumption). reflexivity. Qed.
Lemma s0_256_a_eq s : word 32 s -> s0_256_a s = smallS0 sha2_32 s.
Proof. intros. unfold s0_256_a. rewrite lxor_acac. cbn [smallS0 sha2_32]. rewrite <- !rot_xor by (lia || assumption). reflexivity. Qed.
Lemma s1_256_b_eq s : word 32 s -> s1_256_b s = smallS1 sha2_32 s.
Proof.
  intros. unfold s1_256_b. cbn [smallS1 sha2_32]. rewrite <- !rot_xor by (lia || assumption).
  rewrite !shr_lxor, wshl_lxor, wshl_wshl, !Z.shiftr_shiftr by lia.
  change (7 + 10) with 17. change (2 + 17) with 19. change (2 + 13) with 15. change (32 - 17) with 15. change (32 - 19) with 13.
  bits. all: destruct (Z.testbit (Z.shiftr s 19) k), (Z.testbit (Z.shiftr s 17) k), (Z.testbit (Z.shiftr s 10) k), (Z.testbit (wshl 32 s 15) k), (Z.testbit (wshl 32 s 13) k); reflexivity.
Qed.
Lemma s1_512_eq s : word 64 s -> s1_512 s = smallS1 sha2_64 s.
Proof.
  intros. unfold s1_512. cbn [smallS1 sha2_64]. rewrite <- !rot_xor by (lia || assumption).
  rewrite !shr_lxor, wshl_lxor, wshl_wshl, !Z.shiftr_shiftr by lia.
  change (13 + 6) with 19. change (42 + 19) with 61. change (42 + 3) with 45. change (64 - 19) with 45. change (64 - 61) with 3.
  bits. all: destruct (Z.testbit (Z.shiftr s 19) k), (Z.testbit (Z.shiftr s 61) k), (Z.testbit (Z.shiftr s 6) k), (Z.testbit (wshl 64 s 45) k), (Z.testbit (wshl 64 s 3) k); reflexivity.
Qed.
Lemma s0_512_eq s : word 64 s -> s0_512 s = smallS0 sha2_64 s.
Proof.
  intros. unfold s0_512. cbn [smallS0 sha2_64]. rewrite <- !rot_xor by (lia || assumption).
  rewrite !shr_lxor, wshl_lxor, wshl_wshl, !Z.shiftr_shiftr by lia.
  change (6 + 1) with 7. change (1 + 7) with 8. change (7 + 56) with 63. change (64 - 1) with 63. change (64 - 8) with 56.
  bits. all: destruct (Z.testbit (Z.shiftr s 1) k), (Z.testbit (Z.shiftr s 8) k), (Z.testbit (Z.shiftr s 7) k), (Z.testbit (wshl 64 s 63) k), (Z.testbit (wshl 64 s 56) k); reflexivity.
Qed.

(** ** Sums modulo 2^w. *)
Ltac modnorm := repeat first
  [ progress rewrite ?Z.add_assoc, ?Zplus_mod_idemp_l, ?Zplus_mod_idemp_r
  | match goal with |- context [?A + ?X mod ?m + ?B] => replace (A + X mod m + B) with (A + B + X mod m) by lia end
  | match goal with |- context [?X mod ?m + ?A + ?B] => replace (X mod m + A + B) with (A + B + X mod m) by lia end ].
Ltac modsum := unfold wadd, add_w, wrap; modnorm; f_equal; lia.
Lemma mod_replace T S X m : T mod m = S mod m -> (T + X) mod m = (S + X) mod m.
Proof. intros H. rewrite <- (Zplus_mod_idemp_l T), H. apply Zplus_mod_idemp_l. Qed.
Lemma wadd_word w x y : 0 <= w -> word w (wadd w x y).
Proof. intros. apply Z.mod_pos_bound. apply Z.pow_pos_nonneg; lia. Qed.

(** ** Agreement of the word functions. *)
Record fns_ok (F : sha_fns) (p : sha2) : Prop := {
  ok_w : fw F = w2 p; ok_n : fn F = Z.to_nat (w2 p / 8); ok_pos : 0 <= w2 p; ok_size : In (fn F) [4; 8]%nat;
  ok_S0 : forall x, fS0 F x = bigS0 p x; ok_S1 : forall x, fS1 F x = bigS1 p x;
  ok_s0 : forall x, fs0 F x = smallS0 p x; ok_s1 : forall x, fs1 F x = smallS1 p x;
  ok_Ch : forall x y z, fCh F x y z = Ch x y z; ok_Maj : forall x y z, fMaj F x y z = Maj x y z }.
Lemma sha256_fns_ok : fns_ok sha256_fns sha2_32.
Proof. constructor; try reflexivity; try (cbn; lia). cbn. auto. intros; apply Ch_form1. Qed.
Lemma sha512_fns_ok : fns_ok sha512_fns sha2_64.
Proof. constructor; try reflexivity; try (cbn; lia). cbn. auto. intros; apply Ch_form2. Qed.

(** ** One round on rotated registers. *)
Definition view (r : nat) (regs : list Z) : list Z := map (fun k => get regs ((k + (8 - r)) mod 8)) (seq 0 8).

Lemma round_view F p r regs bpc T K W : fns_ok F p -> (r < 8)%nat -> length regs = 8%nat ->
  T mod 2 ^ w2 p = (K + W) mod 2 ^ w2 p ->
  bpc = Z.lxor (get (view r regs) 1) (get (view r regs) 2) ->
  let rb := scalar_round F T (nth r reg_pats []) (regs, bpc) in
  length (fst rb) = 8%nat /\ view (S r mod 8) (fst rb) = sha2_round p (view r regs) (K, W) /\
  snd rb = Z.lxor (get (view (S r mod 8) (fst rb)) 1) (get (view (S r mod 8) (fst rb)) 2).
Proof.
  intros OK Hr Hl HT Hb.
  destruct regs as [|a [|b [|c [|d [|e [|f [|g [|h [|? ?]]]]]]]]]; try discriminate Hl.
  assert (D : forall h e f g a x y, (wadd (fw F) (wadd (fw F) (fS0 F a) (Z.lxor (Z.land (Z.lxor a x) (Z.lxor x y)) x))
              (wadd (fw F) T (wadd (fw F) (wadd (fw F) h (fS1 F e)) (fCh F e f g)))) =
              (h + bigS1 p e + Ch e f g + K + W + (bigS0 p a + Maj a x y)) mod 2 ^ w2 p).
  { intros. rewrite (ok_w _ _ OK), (ok_S0 _ _ OK), (ok_S1 _ _ OK), (ok_Ch _ _ OK), Maj_form1. unfold wadd, wrap.
    replace (h0 + bigS1 p e0 + Ch e0 f0 g0 + K + W + (bigS0 p a0 + Maj a0 x y)) with
      (K + W + (h0 + bigS1 p e0 + Ch e0 f0 g0 + (bigS0 p a0 + Maj a0 x y))) by lia.
    rewrite <- (mod_replace _ _ _ _ HT).
    modnorm. f_equal; lia. }
  assert (E : forall h e f g d, wadd (fw F) d (wadd (fw F) T (wadd (fw F) (wadd (fw F) h (fS1 F e)) (fCh F e f g))) =
              (d + (h + bigS1 p e + Ch e f g + K + W)) mod 2 ^ w2 p).
  { intros. rewrite (ok_w _ _ OK), (ok_S1 _ _ OK), (ok_Ch _ _ OK). unfold wadd, wrap.
    replace (d0 + (h0 + bigS1 p e0 + Ch e0 f0 g0 + K + W)) with (K + W + (h0 + bigS1 p e0 + Ch e0 f0 g0 + d0)) by lia.
    rewrite <- (mod_replace _ _ _ _ HT).
    modnorm. f_equal; lia. }
  assert (Hr' : r = 0%nat \/ r = 1%nat \/ r = 2%nat \/ r = 3%nat \/ r = 4%nat \/ r = 5%nat \/ r = 6%nat \/ r = 7%nat) by lia.
  destruct Hr' as [->|[->|[->|[->|[->|[->|[->| ->]]]]]]].
  all: subst bpc; cbv zeta; cbn [nth reg_pats scalar_round get view map seq Nat.add Nat.sub Nat.modulo Nat.divmod fst snd upd firstn skipn app length sha2_round].
  all: rewrite D, E; auto.
Qed.

(** ** Schedules. *)
Lemma sha2_schedule_length p n M : length (sha2_schedule p n M) = (length M + n)%nat.
Proof. induction n; cbn [sha2_schedule]; [lia|]. rewrite app_length, IHn. cbn. lia. Qed.
Lemma sha2_schedule_low p n M t : (t < length M)%nat -> get (sha2_schedule p n M) t = get M t.
Proof.
  intros. induction n; cbn [sha2_schedule]; auto. unfold get. rewrite app_nth1. exact IHn.
  rewrite sha2_schedule_length. lia.
Qed.
Lemma sha2_schedule_rec p n M t : length M = 16%nat -> (16 <= t < 16 + n)%nat ->
  get (sha2_schedule p n M) t =
    (smallS1 p (get (sha2_schedule p n M) (t - 2)) + get (sha2_schedule p n M) (t - 7) +
     smallS0 p (get (sha2_schedule p n M) (t - 15)) + get (sha2_schedule p n M) (t - 16)) mod 2 ^ w2 p.
Proof.
  intros HM. induction n as [|n IH]; intros Ht; [lia|].
  cbn [sha2_schedule]. set (W := sha2_schedule p n M) in *.
  assert (HW : length W = (16 + n)%nat) by (unfold W; rewrite sha2_schedule_length; lia).
  unfold get in *. destruct (Nat.eq_dec t (16 + n)).
  - subst t. rewrite (app_nth2 W) by lia. rewrite HW, Nat.sub_diag. cbn [nth].
    rewrite !(app_nth1 W) by lia. reflexivity.
  - rewrite !(app_nth1 W) by lia. apply IH. lia.
Qed.

(** ** Loading words. *)
Lemma skipn_skipn {A} a b (l : list A) : skipn a (skipn b l) = skipn (b + a) l.
Proof. revert l; induction b as [|b IH]; intros l; cbn [Nat.add]; [reflexivity|]. destruct l; [now rewrite !skipn_nil|]. cbn [skipn]. apply IH. Qed.
Lemma pieces_nth {A} (k n i : nat) (l : list A) : (i < k)%nat -> nth i (pieces k n l) [] = firstn n (skipn (n * i) l).
Proof.
  revert i l; induction k as [|k IH]; intros i l Hi; [lia|]. cbn [pieces]. destruct i as [|i]; cbn [nth].
  - now rewrite Nat.mul_0_r.
  - rewrite IH by lia. rewrite skipn_skipn. do 2 f_equal. lia.
Qed.
Lemma pieces_length {A} k n (l : list A) : length (pieces k n l) = k.
Proof. revert l; induction k; intros; cbn; auto. Qed.
Lemma words_length e n l : length (words e n l) = (length l / n)%nat.
Proof. unfold words, blocks. now rewrite map_length, pieces_length. Qed.
Lemma words_get e n l i : (i < length l / n)%nat -> get (words e n l) i = of_bytes e (firstn n (skipn (n * i) l)).
Proof.
  intros. unfold words, get. rewrite nth_indep with (d' := of_bytes e []) by (rewrite map_length; unfold blocks; rewrite pieces_length; lia).
  rewrite map_nth. unfold blocks. now rewrite pieces_nth.
Qed.
Lemma Forall_firstn {A} (P : A -> Prop) n l : Forall P l -> Forall P (firstn n l).
Proof. intros H. rewrite <- (firstn_skipn n l) in H. now apply Forall_app in H. Qed.
Lemma Forall_skipn {A} (P : A -> Prop) n l : Forall P l -> Forall P (skipn n l).
Proof. intros H. rewrite <- (firstn_skipn n l) in H. now apply Forall_app in H. Qed.

Lemma swap_bytes n bs : In n [1; 2; 4; 8; 16]%nat -> Forall is_byte bs -> length bs = n ->
  byte_swap n (of_le bs) = of_le (rev bs).
Proof.
  intros Hn Hb Hl. pose proof (of_le_bound bs Hb) as B. rewrite Hl in B.
  rewrite byte_swap_spec by auto. unfold be_bytes. rewrite <- Hl, le_bytes_of_le by auto. reflexivity.
Qed.
Lemma load_word_spec host en n block i : In n [4; 8]%nat -> Forall is_byte block -> (n * i + n <= length block)%nat ->
  load_word host en n block i = of_bytes en (firstn n (skipn (n * i) block)).
Proof.
  intros Hn Hb Hl. unfold load_word. set (bs := firstn n (skipn (n * i) block)).
  assert (L : length bs = n) by (unfold bs; rewrite firstn_length, skipn_length; lia).
  assert (B : Forall is_byte bs) by (apply Forall_firstn, Forall_skipn, Hb).
  assert (N1 : Nat.eqb n 1 = false) by (destruct Hn as [<-|[<-|[]]]; reflexivity).
  assert (Hn' : In n [1; 2; 4; 8; 16]%nat) by (cbn in *; tauto).
  unfold to_big_endian, to_little_endian. rewrite N1. cbn [orb].
  destruct host, en; cbn [endian_eqb of_bytes]; auto.
  - apply swap_bytes; auto.
  - unfold of_be. rewrite swap_bytes; auto. now rewrite rev_involutive. now apply Forall_rev. now rewrite rev_length.
Qed.

(** ** The circular window. *)
Definition window (W : nat -> Z) (x : list Z) (t : nat) : Prop :=
  length x = 16%nat /\ forall u, (u < t)%nat -> (t <= u + 16)%nat -> get x (u mod 16) = W u.
Lemma window_step W x t v : window W x t -> v = W t -> window W (upd x (t mod 16) v) (S t).
Proof.
  intros [Hl Hw] ->. assert (Hm := Nat.mod_upper_bound t 16 ltac:(lia)). split; [rewrite upd_length; lia|].
  intros u Hu1 Hu2. destruct (Nat.eq_dec u t).
  - subst u. apply get_upd_same. lia.
  - rewrite get_upd_other; try lia. apply Hw; lia.
    intros E. assert (exists k, t = u + k /\ 0 < k < 16)%nat as (k & -> & Hk) by (exists (t - u)%nat; lia).
    pose proof (Nat.div_mod u 16 ltac:(lia)); pose proof (Nat.div_mod (u + k) 16 ltac:(lia)). lia.
Qed.
Lemma window_get W x t j : window W x t -> (16 <= t)%nat -> (1 <= j <= 16)%nat -> get x ((t mod 16 + (16 - j)) mod 16) = W (t - j)%nat.
Proof.
  intros [Hl Hw] Ht Hj. rewrite <- (Hw (t - j)%nat) by lia. f_equal.
  rewrite Nat.add_mod_idemp_l by lia. replace (t + (16 - j))%nat with ((t - j) + 1 * 16)%nat by lia. now rewrite Nat.mod_add by lia.
Qed.

Lemma x_lines_spec i : (i < 16)%nat -> nth i x_lines (0, 0, 0, 0)%nat = (i, (i + 1) mod 16, (i + 14) mod 16, (i + 9) mod 16)%nat.
Proof.
  intros H. do 16 (destruct i as [|i]; [reflexivity|]). lia.
Qed.

(** Folding over a sequence with an indexed invariant. *)
Lemma fold_seq_inv {S} (f : S -> nat -> S) (P : nat -> S -> Prop) n : forall a s,
  P a s -> (forall t s, (a <= t < a + n)%nat -> P t s -> P (Datatypes.S t) (f s t)) -> P (a + n)%nat (fold_left f (seq a n) s).
Proof.
  induction n as [|n IH]; intros a s H0 Hs; cbn [seq fold_left].
  - now rewrite Nat.add_0_r.
  - replace (a + Datatypes.S n)%nat with (Datatypes.S a + n)%nat by lia. apply IH.
    + apply Hs; [lia|auto].
    + intros t s' Ht. apply Hs. lia.
Qed.
Lemma firstn_S_snoc {A} n (l : list A) d : (n < length l)%nat -> firstn (S n) l = firstn n l ++ [nth n l d].
Proof.
  revert l; induction n as [|n IH]; intros [|a l] H; cbn in H; try lia; [reflexivity|].
  cbn [firstn nth app]. f_equal. apply IH; lia.
Qed.

Section Sha2Block.
Context (F : sha_fns) (p : sha2) (OK : fns_ok F p).
Context (K : list Z) (HK : K = K2 p) (HK16 : (16 <= length K)%nat) (HK8 : (length K mod 8 = 0)%nat).
Context (state block : list Z) (Hst : length state = 8%nat) (Hby : Forall is_byte block) (Hbl : length block = (16 * fn F)%nat).
Let M := words big (fn F) block.
Let Wl := sha2_schedule p (length K - 16) M.
Let W (t : nat) := get Wl t.
Let V (t : nat) := fold_left (sha2_round p) (firstn t (combine K Wl)) state.

Lemma fn_pos : (0 < fn F)%nat. Proof. destruct (ok_size _ _ OK) as [<-|[<-|[]]]; lia. Qed.
Lemma M_length : length M = 16%nat.
Proof. unfold M. rewrite words_length, Hbl. apply Nat.div_mul. pose proof fn_pos; lia. Qed.
Lemma Wl_length : length Wl = length K.
Proof. unfold Wl. rewrite sha2_schedule_length, M_length. lia. Qed.
Lemma W_low t : (t < 16)%nat -> W t = of_bytes big (firstn (fn F) (skipn (fn F * t) block)).
Proof.
  intros. unfold W, Wl. rewrite sha2_schedule_low by (rewrite M_length; lia). unfold M. apply words_get.
  rewrite <- (words_length big). fold M. rewrite M_length. lia.
Qed.
Lemma W_rec t : (16 <= t < length K)%nat -> W t = (smallS1 p (W (t - 2)) + W (t - 7) + smallS0 p (W (t - 15)) + W (t - 16)) mod 2 ^ w2 p.
Proof. intros. unfold W, Wl. apply sha2_schedule_rec. apply M_length. lia. Qed.
Lemma V_step t : (t < length K)%nat -> V (S t) = sha2_round p (V t) (get K t, W t).
Proof.
  intros. unfold V. rewrite (firstn_S_snoc t (combine K Wl) (0, 0)) by (rewrite combine_length, Wl_length; lia).
  rewrite fold_left_app. cbn [fold_left]. rewrite combine_nth by (symmetry; apply Wl_length). reflexivity.
Qed.
Lemma V_end : sum_words (w2 p) state (V (length K)) = sha2_compress p state block.
Proof.
  unfold sha2_compress. rewrite <- HK, <- (ok_n _ _ OK). fold M. fold Wl. unfold V.
  rewrite firstn_all2; auto. rewrite combine_length. lia.
Qed.
Lemma load_W host t : (t < 16)%nat -> load_word host big (fn F) block t = W t.
Proof.
  intros. rewrite W_low by lia. apply load_word_spec; auto. apply (ok_size _ _ OK). rewrite Hbl.
  assert (t + 1 <= 16)%nat by lia. nia.
Qed.

Definition reg_inv (t : nat) (rb : list Z * Z) : Prop :=
  length (fst rb) = 8%nat /\ view (t mod 8) (fst rb) = V t /\ snd rb = Z.lxor (get (V t) 1) (get (V t) 2).
Lemma view0 regs : length regs = 8%nat -> view 0 regs = regs.
Proof. intros H. destruct regs as [|a [|b [|c [|d [|e [|f [|g [|h [|? ?]]]]]]]]]; try discriminate H. reflexivity. Qed.
Lemma reg_inv_0 : reg_inv 0 (state, Z.lxor (get state 1) (get state 2)).
Proof. split; [auto|]. split; [|reflexivity]. cbn [fst]. change (0 mod 8)%nat with 0%nat. rewrite view0 by auto. reflexivity. Qed.
Lemma S_mod8 t : (S t mod 8 = S (t mod 8) mod 8)%nat.
Proof. rewrite <- (Nat.add_1_l (t mod 8)), <- (Nat.add_1_l t). now rewrite Nat.add_mod_idemp_r by lia. Qed.
Lemma reg_inv_step t T rb : (t < length K)%nat -> T mod 2 ^ w2 p = (get K t + W t) mod 2 ^ w2 p ->
  reg_inv t rb -> reg_inv (S t) (scalar_round F T (nth (t mod 8) reg_pats []) rb).
Proof.
  intros Ht HT (H1 & H2 & H3). destruct rb as [regs bpc]. cbn [fst snd] in *.
  pose proof (round_view F p (t mod 8) regs bpc T (get K t) (W t) OK (Nat.mod_upper_bound t 8 ltac:(lia)) H1 HT) as R.
  rewrite H2 in R. specialize (R H3). cbv zeta in R. rewrite <- S_mod8, <- V_step in R by auto.
  destruct R as (R1 & R2 & R3). split; [auto|]. split; [auto|]. now rewrite <- R2.
Qed.
Lemma reg_end rb : reg_inv (length K) rb -> add_state (fw F) state (fst rb) = sha2_compress p state block.
Proof.
  intros (H1 & H2 & _). rewrite HK8, view0 in H2 by auto. rewrite H2, <- V_end, (ok_w _ _ OK). reflexivity.
Qed.

Lemma next_value x t : (16 <= t < length K)%nat -> window W x t ->
  wadd (fw F) (get x (t mod 16)) (wadd (fw F) (wadd (fw F) (fs0 F (get x ((t mod 16 + 1) mod 16))) (fs1 F (get x ((t mod 16 + 14) mod 16))))
     (get x ((t mod 16 + 9) mod 16))) = W t.
Proof.
  intros Ht Hw. pose proof (window_get W x t 16 Hw ltac:(lia) ltac:(lia)) as G16.
  pose proof (window_get W x t 15 Hw ltac:(lia) ltac:(lia)) as G15. pose proof (window_get W x t 7 Hw ltac:(lia) ltac:(lia)) as G7.
  pose proof (window_get W x t 2 Hw ltac:(lia) ltac:(lia)) as G2. cbn [Nat.sub] in G16, G15, G7, G2.
  rewrite Nat.add_0_r, Nat.mod_mod in G16 by lia. rewrite G16, G15, G7, G2.
  rewrite (ok_w _ _ OK), (ok_s0 _ _ OK), (ok_s1 _ _ OK), (W_rec t) by lia. modsum.
Qed.

Lemma scalar_block_ok lits host x0 : length x0 = 16%nat -> (forall i, (i < 16)%nat -> get lits i = get K i) ->
  scalar_block F lits K host x0 state block = sha2_compress p state block.
Proof.
  intros Hx Hlits. unfold scalar_block. cbv zeta.
  pose (P := fun t (s : sstate) => window W (fst s) t /\ reg_inv t (snd s)).
  assert (P1 : P 16%nat (fold_left (scalar_first F lits host block) (seq 0 16) (x0, (state, Z.lxor (get state 1) (get state 2))))).
  { apply (fold_seq_inv _ P 16 0).
    - split; [split; [auto|intros; lia]|]. apply reg_inv_0.
    - intros t [x rb] Ht [Hw Hr]. cbn [fst snd] in Hw, Hr. unfold scalar_first. cbv zeta. cbn [fst snd].
      rewrite load_W by lia. split; cbn [fst snd].
      + replace t with (t mod 16)%nat at 1 by (apply Nat.mod_small; lia). apply window_step; auto.
      + rewrite get_upd_same by (destruct Hw; lia). apply reg_inv_step; auto; [lia|].
        rewrite Hlits by lia. unfold wadd, wrap. rewrite (ok_w _ _ OK), Zmod_mod. f_equal; lia. }
  set (s1 := fold_left _ (seq 0 16) _) in *.
  assert (P2 : P (16 + (length K - 16))%nat (fold_left (scalar_next F K) (seq 16 (length K - 16)) s1)).
  { apply (fold_seq_inv _ P); auto. intros t [x rb] Ht [Hw Hr]. cbn [fst snd] in Hw, Hr. unfold scalar_next. cbv zeta.
    rewrite x_lines_spec by (apply Nat.mod_upper_bound; lia). cbn [fst snd]. rewrite next_value by (auto; lia).
    split; cbn [fst snd]. apply window_step; auto.
    unfold pat_of. replace ((t mod 16) mod 8)%nat with (t mod 8)%nat.
    - apply reg_inv_step; auto; [lia|]. unfold wadd, wrap. rewrite (ok_w _ _ OK), Zmod_mod. f_equal; lia.
    - pose proof (Nat.div_mod t 16 ltac:(lia)) as E. rewrite E at 1. replace (16 * (t / 16))%nat with (8 * (2 * (t / 16)))%nat by lia.
      rewrite Nat.add_comm, Nat.mul_comm, Nat.mod_add by lia. reflexivity. }
  replace (16 + (length K - 16))%nat with (length K) in P2 by lia. apply reg_end. apply P2.
Qed.

Lemma shift_round_ok KX r k w : KX mod 2 ^ w2 p = (k + w) mod 2 ^ w2 p -> shift_round F KX r = sha2_round p r (k, w).
Proof.
  intros HT. unfold shift_round, sha2_round. destruct r as [|a [|b [|c [|d [|e [|f [|g [|h [|? ?]]]]]]]]]; auto.
  cbn [fst snd]. rewrite (ok_w _ _ OK), (ok_S0 _ _ OK), (ok_S1 _ _ OK), (ok_Ch _ _ OK), (ok_Maj _ _ OK). unfold wadd, wrap.
  f_equal; [|do 3 f_equal; f_equal].
  - replace (h + bigS1 p e + Ch e f g + k + w + (bigS0 p a + Maj a b c)) with (k + w + (h + bigS1 p e + Ch e f g + (bigS0 p a + Maj a b c))) by lia.
    rewrite <- (mod_replace _ _ _ _ HT).
    modnorm. f_equal; lia.
  - replace (d + (h + bigS1 p e + Ch e f g + k + w)) with (k + w + (h + bigS1 p e + Ch e f g + d)) by lia.
    rewrite <- (mod_replace _ _ _ _ HT).
    modnorm. f_equal; lia.
Qed.
Lemma land15 i : Nat.land i 15 = (i mod 16)%nat.
Proof. change 15%nat with (Nat.ones 4). now rewrite Nat.land_ones. Qed.
Lemma constexpr_block_ok x0 : length x0 = 16%nat -> constexpr_block F K x0 state block = sha2_compress p state block.
Proof.
  intros Hx. unfold constexpr_block. cbv zeta.
  pose (P := fun t (s : list Z * list Z) => window W (fst s) t /\ snd s = V t).
  assert (P1 : P 16%nat (fold_left (constexpr_first F K block) (seq 0 16) (x0, state))).
  { apply (fold_seq_inv _ P 16 0).
    - split; [split; [auto|intros; lia]|]. reflexivity.
    - intros t [x rb] Ht [Hw Hr]. cbn [fst snd] in Hw, Hr. unfold constexpr_first. cbv zeta. cbn [fst snd].
      rewrite <- W_low by lia. split; cbn [fst snd].
      + replace t with (t mod 16)%nat at 1 by (apply Nat.mod_small; lia). apply window_step; auto.
      + rewrite get_upd_same by (destruct Hw; lia). rewrite V_step by lia. rewrite Hr. apply shift_round_ok.
        unfold wadd, wrap. rewrite (ok_w _ _ OK), Zmod_mod. f_equal; lia. }
  set (s1 := fold_left _ (seq 0 16) _) in *.
  assert (P2 : P (16 + (length K - 16))%nat (fold_left (constexpr_next F K) (seq 16 (length K - 16)) s1)).
  { apply (fold_seq_inv _ P); auto. intros t [x rb] Ht [Hw Hr]. cbn [fst snd] in Hw, Hr. unfold constexpr_next. cbv zeta.
    rewrite !land15. cbn [fst snd]. rewrite Nat.add_0_r.
    pose proof (next_value x t ltac:(lia) Hw) as N. rewrite !Nat.add_mod_idemp_l in N by lia. rewrite N.
    split; cbn [fst snd]. apply window_step; auto.
    rewrite V_step, Hr by lia. apply shift_round_ok. unfold wadd, wrap. rewrite (ok_w _ _ OK), Zmod_mod. f_equal; lia. }
  replace (16 + (length K - 16))%nat with (length K) in P2 by lia.
  destruct P2 as [_ E]. rewrite E, (ok_w _ _ OK), <- V_end. reflexivity.
Qed.
End Sha2Block.
