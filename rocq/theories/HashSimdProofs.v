(** The 16 byte SIMD routines, SHA-1 and MD5 block functions. *)
From Verif Require Import Base ByteSpec LebeModel ByteProofs HashSpec HashTables HashModel HashProofs.

(** ** A checker for the straight line programs: how many message words have been computed, which schedule index each
    cell of wt holds, how many rounds have been done. *)
Record astate := { a_n : nat; a_tags : list (option nat); a_t : nat }.
Definition tag_blit (tags : list (option nat)) (dst r lanes : nat) : list (option nat) :=
  map (fun k => if ((dst <=? k) && (k <? dst + lanes))%nat then Some (r + (k - dst))%nat else nth k tags None) (seq 0 (length tags)).
Definition check (lanes N : nat) (a : option astate) (i : instr) : option astate :=
  match a with
  | None => None
  | Some a =>
      match i with
      | ILoad dst r =>
          if (Nat.eqb r (a_n a) && (r + lanes <=? 16) && (dst + lanes <=? length (a_tags a)))%nat
          then Some {| a_n := a_n a + lanes; a_tags := tag_blit (a_tags a) dst r lanes; a_t := a_t a |} else None
      | IComp dst r =>
          if (Nat.eqb r (a_n a) && (16 <=? r) && (r + lanes <=? N) && (dst + lanes <=? length (a_tags a)))%nat
          then Some {| a_n := a_n a + lanes; a_tags := tag_blit (a_tags a) dst r lanes; a_t := a_t a |} else None
      | IRound src pat =>
          if (match nth src (a_tags a) None with Some u => Nat.eqb u (a_t a) | None => false end && Nat.eqb pat (a_t a mod 8) && (a_t a <? N))%nat
          then Some {| a_n := a_n a; a_tags := a_tags a; a_t := S (a_t a) |} else None
      end
  end.
Definition check_prog (lanes N nt : nat) (prog : list instr) : bool :=
  match fold_left (check lanes N) prog (Some {| a_n := 0; a_tags := repeat None nt; a_t := 0 |}) with
  | Some a => Nat.eqb (a_t a) N | None => false end.
Lemma check_prog256 : check_prog 4 64 64 prog256 = true. Proof. vm_compute. reflexivity. Qed.
Lemma check_prog512 : check_prog 2 80 4 prog512 = true. Proof. vm_compute. reflexivity. Qed.

Lemma nth_map_seq {A} (f : nat -> A) n k d : (k < n)%nat -> nth k (map f (seq 0 n)) d = f k.
Proof. intros. rewrite nth_indep with (d' := f 0%nat) by (rewrite map_length, seq_length; lia). rewrite map_nth, seq_nth by lia. reflexivity. Qed.

Section Simd.
Context (F : sha_fns) (p : sha2) (OK : fns_ok F p).
Context (K : list Z) (HK : K = K2 p) (HK16 : (16 <= length K)%nat) (HK8 : (length K mod 8 = 0)%nat).
Context (state block : list Z) (Hst : length state = 8%nat) (Hby : Forall is_byte block) (Hbl : length block = (16 * fn F)%nat).
Context (lanes : nat) (comp : list Z -> list Z -> nat -> list Z) (host : endian).
Let M := words big (fn F) block.
Let Wl := sha2_schedule p (length K - 16) M.
Let W (t : nat) := get Wl t.
Context (comp_ok : forall w s1 r, (16 <= r)%nat -> (r + lanes <= length K)%nat -> length w = length K ->
  (forall u, (u < r)%nat -> get w u = W u) -> s1 = map W (seq (r - lanes) lanes) -> comp w s1 r = map W (seq r lanes)).

Definition mrel (nt : nat) (a : astate) (s : mstate) : Prop :=
  length (m_w s) = length K /\ length (m_wt s) = nt /\ length (a_tags a) = nt /\ (a_n a <= length K)%nat /\
  (forall u, (u < a_n a)%nat -> get (m_w s) u = W u) /\
  ((0 < a_n a)%nat -> (lanes <= a_n a)%nat /\ m_s1 s = map W (seq (a_n a - lanes) lanes)) /\
  (forall k u, (k < nt)%nat -> nth k (a_tags a) None = Some u -> get (m_wt s) k = wadd (fw F) (get K u) (W u)) /\
  reg_inv F p K state block (a_t a) (m_rb s).

Lemma mrel_message nt a s dst r s1 : mrel nt a s -> r = a_n a -> (r + lanes <= length K)%nat -> (dst + lanes <= nt)%nat -> (0 < lanes)%nat ->
  s1 = map W (seq r lanes) ->
  mrel nt {| a_n := a_n a + lanes; a_tags := tag_blit (a_tags a) dst r lanes; a_t := a_t a |}
    {| m_w := blit (m_w s) r s1; m_wt := blit (m_wt s) dst (lanes2 (wadd (fw F)) (slice K r lanes) s1); m_s1 := s1; m_rb := m_rb s |}.
Proof.
  intros (H1 & H2 & H3 & H4 & H5 & H6 & H7 & H8) Hr Hb Hd Hl Hs.
  assert (Ls : length s1 = lanes) by (subst s1; rewrite map_length, seq_length; auto).
  assert (Lk : length (slice K r lanes) = lanes) by (apply slice_length; lia).
  assert (Ll : length (lanes2 (wadd (fw F)) (slice K r lanes) s1) = lanes) by (rewrite lanes2_length; lia).
  unfold mrel. cbn [m_w m_wt m_s1 m_rb a_n a_tags a_t].
  split; [rewrite blit_length; lia|]. split; [rewrite blit_length; lia|].
  split; [unfold tag_blit; rewrite map_length, seq_length; auto|]. split; [lia|].
  split; [|split; [|split]].
  - intros u Hu. rewrite get_blit by lia. rewrite Ls.
    destruct (Nat.leb_spec r u); cbn [andb].
    + destruct (Nat.ltb_spec u (r + lanes)); [|lia]. rewrite Hs, get_map_seq by lia. f_equal. lia.
    + apply H5. lia.
  - intros _. split; [lia|]. replace (a_n a + lanes - lanes)%nat with r by lia. exact Hs.
  - intros k u Hk. unfold tag_blit. rewrite nth_map_seq by lia. rewrite get_blit by lia. rewrite Ll.
    destruct ((dst <=? k) && (k <? dst + lanes))%nat eqn:E.
    + intros [= <-]. apply andb_true_iff in E as [E1 E2]. apply Nat.leb_le in E1. apply Nat.ltb_lt in E2.
      rewrite get_lanes2 by lia. rewrite get_slice by lia. f_equal. rewrite Hs, get_map_seq by lia. reflexivity.
    + apply H7. lia.
  - exact H8.
Qed.

Lemma simd_step_ok nt a s i a' : (0 < lanes)%nat -> mrel nt a s -> check lanes (length K) (Some a) i = Some a' ->
  mrel nt a' (simd_step F lanes comp K host block s i).
Proof.
  intros Hl R Hc. pose proof R as (H1 & H2 & H3 & H4 & H5 & H6 & H7 & H8). destruct i as [dst r|dst r|src pat]; cbn [check simd_step] in *.
  - destruct (Nat.eqb_spec r (a_n a)); cbn [andb] in Hc; [|discriminate].
    destruct (Nat.leb_spec (r + lanes) 16); cbn [andb] in Hc; [|discriminate].
    destruct (Nat.leb_spec (dst + lanes) (length (a_tags a))); [|discriminate]. injection Hc as <-.
    apply mrel_message; auto; try lia. replace (seq r lanes) with (seq (r + 0) lanes) by (f_equal; lia).
    apply list_eq_get. now rewrite !map_length, !seq_length. rewrite map_length, seq_length. intros i Hi.
    rewrite !get_map_seq by lia. rewrite (load_W F p OK K HK16 HK8 state block Hst Hby Hbl) by lia. unfold W, Wl, M. f_equal. lia.
  - destruct (Nat.eqb_spec r (a_n a)); cbn [andb] in Hc; [|discriminate].
    destruct (Nat.leb_spec 16 r); cbn [andb] in Hc; [|discriminate].
    destruct (Nat.leb_spec (r + lanes) (length K)); cbn [andb] in Hc; [|discriminate].
    destruct (Nat.leb_spec (dst + lanes) (length (a_tags a))); [|discriminate]. injection Hc as <-.
    destruct H6 as [H6 H6']; [lia|].
    apply mrel_message; auto; try lia. apply comp_ok; auto. intros u Hu. apply H5; lia. subst r. exact H6'.
  - destruct (nth src (a_tags a) None) as [u|] eqn:Eu; cbn [andb] in Hc; [|discriminate].
    destruct (Nat.eqb_spec u (a_t a)); cbn [andb] in Hc; [|discriminate].
    destruct (Nat.eqb_spec pat (a_t a mod 8)); cbn [andb] in Hc; [|discriminate].
    destruct (Nat.ltb_spec (a_t a) (length K)); [|discriminate]. injection Hc as <-.
    assert (src < nt)%nat. { destruct (Nat.ltb_spec src nt); auto. rewrite nth_overflow in Eu by lia. discriminate. }
    unfold mrel. cbn [m_w m_wt m_s1 m_rb a_n a_tags a_t]. repeat (split; [assumption|]).
    subst u pat. apply (reg_inv_step F p OK K HK16 HK8 state block Hst Hbl); auto.
    rewrite (H7 src (a_t a)) by auto. unfold wadd, wrap. rewrite (ok_w _ _ OK), Zmod_mod. reflexivity.
Qed.

Lemma simd_run_ok nt prog : (0 < lanes)%nat -> forall a s a', mrel nt a s -> fold_left (check lanes (length K)) prog (Some a) = Some a' ->
  mrel nt a' (fold_left (simd_step F lanes comp K host block) prog s).
Proof.
  intros Hl. induction prog as [|i prog IH]; intros a s a' R Hc; cbn [fold_left] in *.
  - injection Hc as <-. exact R.
  - destruct (check lanes (length K) (Some a) i) as [b|] eqn:Eb.
    + eapply IH; [|exact Hc]. eapply simd_step_ok; eauto.
    + exfalso. clear - Hc. induction prog; cbn [fold_left check] in Hc; [discriminate|auto].
Qed.

Lemma simd_block_ok prog nt w0 wt0 s0 : (0 < lanes)%nat -> check_prog lanes (length K) nt prog = true ->
  length w0 = length K -> length wt0 = nt ->
  simd_block F lanes comp prog K host w0 wt0 s0 state block = sha2_compress p state block.
Proof.
  intros Hl Hc Hw Hwt. unfold simd_block. cbv zeta. unfold check_prog in Hc.
  destruct (fold_left (check lanes (length K)) prog _) as [a'|] eqn:E; [|discriminate].
  eapply (simd_run_ok nt) with (s := {| m_w := w0; m_wt := wt0; m_s1 := s0; m_rb := (state, Z.lxor (get state 1) (get state 2)) |}) in E; auto.
  - destruct E as (_ & _ & _ & _ & _ & _ & _ & E). apply Nat.eqb_eq in Hc. rewrite Hc in E.
    apply (reg_end F p OK K HK HK16 HK8 state block Hst Hbl). exact E.
  - unfold mrel. cbn [m_w m_wt m_s1 m_rb a_n a_tags a_t]. split; [auto|]. split; [auto|]. split; [apply repeat_length|].
    split; [lia|]. split; [intros; lia|]. split; [intros; lia|]. split.
    + intros k u Hk Hn. exfalso.
      assert (nth k (repeat (@None nat) nt) None = None). { clear. revert k; induction nt; intros [|k]; cbn; auto. } congruence.
    + apply (reg_inv_0 F); auto.
Qed.
End Simd.

Lemma W_word p n M t : 0 <= w2 p -> Forall (word (w2 p)) M -> length M = 16%nat -> (t < 16 + n)%nat -> word (w2 p) (get (sha2_schedule p n M) t).
Proof.
  intros Hw HM HL Ht. destruct (Nat.ltb_spec t 16).
  - rewrite sha2_schedule_low by lia. rewrite Forall_forall in HM. apply HM. apply nth_In. lia.
  - rewrite sha2_schedule_rec by lia. apply Z.mod_pos_bound. apply Z.pow_pos_nonneg; lia.
Qed.
Lemma words_word n block : Forall is_byte block -> Forall (word (8 * Z.of_nat n)) (words big n block).
Proof.
  intros Hb. unfold words. apply Forall_map. apply Forall_forall. intros l Hl.
  assert (Hl2 : Forall is_byte l /\ (length l <= n)%nat).
  { unfold blocks in Hl. revert Hl. generalize (length block / n)%nat. intros k. revert block Hb.
    induction k as [|k IH]; intros block Hb Hl; cbn [pieces] in Hl; [contradiction|]. destruct Hl as [<-|Hl].
    - split. now apply Forall_firstn. rewrite firstn_length. lia.
    - apply (IH (skipn n block)); auto. now apply Forall_skipn. }
  destruct Hl2 as [H1 H2]. pose proof (of_bytes_bound big l H1) as B. unfold word. split; [lia|].
  eapply Z.lt_le_trans; [apply B|]. change 256 with (2 ^ 8). rewrite <- Z.pow_mul_r by lia. apply Z.pow_le_mono_r; lia.
Qed.

Lemma comp256_core (Wl : list Z) w s1 r : (16 <= r)%nat -> (r + 4 <= 64)%nat -> length w = 64%nat ->
  (forall t, (t < 64)%nat -> word 32 (get Wl t)) ->
  (forall t, (16 <= t < 64)%nat -> get Wl t = (smallS1 sha2_32 (get Wl (t - 2)) + get Wl (t - 7) + smallS0 sha2_32 (get Wl (t - 15)) + get Wl (t - 16)) mod 2 ^ 32) ->
  (forall u, (u < r)%nat -> get w u = get Wl u) -> s1 = map (get Wl) (seq (r - 4) 4) -> comp256 w s1 r = map (get Wl) (seq r 4).
Proof.
  intros Hr1 Hr2 Hw WW R Hlow ->.
  assert (SL : forall j, (7 <= j <= 16)%nat -> slice w (r - j) 4 = map (get Wl) (seq (r - j) 4)).
  { intros j Hj. apply list_eq_get. rewrite slice_length, map_length, seq_length by lia. reflexivity.
    rewrite slice_length by lia. intros i Hi. rewrite get_slice, get_map_seq by lia. apply Hlow. lia. }
  unfold comp256. cbv zeta. rewrite !SL by lia. cbn [seq map get nth lanes2 combine fst snd].
  assert (Z1 : s1_256_b 0 = 0) by reflexivity. assert (Z2 : s1_256_a 0 = 0) by reflexivity. rewrite Z1, Z2.
  replace (S (S (r - 4))) with (r - 2)%nat by lia. replace (S (r - 2)) with (r - 1)%nat by lia.
  rewrite !s1_256_a_eq by (apply WW; lia). rewrite !s0_256_a_eq by (apply WW; lia).
  assert (E0 : wadd 32 (wadd 32 (wadd 32 (smallS1 sha2_32 (get Wl (r - 2))) (smallS0 sha2_32 (get Wl (r - 15)))) (get Wl (r - 16))) (get Wl (r - 7)) = get Wl r).
  { rewrite (R r) by lia. modsum. }
  assert (E1 : wadd 32 (wadd 32 (wadd 32 (smallS1 sha2_32 (get Wl (r - 1))) (smallS0 sha2_32 (get Wl (S (r - 15))))) (get Wl (S (r - 16)))) (get Wl (S (r - 7))) = get Wl (S r)).
  { rewrite (R (S r)) by lia. replace (S r - 2)%nat with (r - 1)%nat by lia. replace (S r - 15)%nat with (S (r - 15)) by lia.
    replace (S r - 16)%nat with (S (r - 16)) by lia. replace (S r - 7)%nat with (S (r - 7)) by lia. modsum. }
  unfold get in E0, E1 |- *. rewrite E0, E1.
  pose proof (WW r ltac:(lia)) as W0. pose proof (WW (S r) ltac:(lia)) as W1. unfold get in W0, W1.
  rewrite !s1_256_b_eq by assumption.
  assert (R' := R). unfold get in R'.
  f_equal; [|f_equal; [|f_equal; [|f_equal]]].
  - unfold wadd, wrap. rewrite Z.mod_small; [lia|exact W0].
  - unfold wadd, wrap. rewrite Z.mod_small; [lia|exact W1].
  - rewrite (R' (S (S r))) by lia. replace (S (S r) - 2)%nat with r by lia. replace (S (S r) - 15)%nat with (S (S (r - 15))) by lia.
    replace (S (S r) - 16)%nat with (S (S (r - 16))) by lia. replace (S (S r) - 7)%nat with (S (S (r - 7))) by lia. modsum.
  - rewrite (R' (S (S (S r)))) by lia. replace (S (S (S r)) - 2)%nat with (S r) by lia. replace (S (S (S r)) - 15)%nat with (S (S (S (r - 15)))) by lia.
    replace (S (S (S r)) - 16)%nat with (S (S (S (r - 16)))) by lia. replace (S (S (S r)) - 7)%nat with (S (S (S (r - 7)))) by lia. modsum.
Qed.

Lemma comp256_ok block : Forall is_byte block -> length block = 64%nat ->
  let Wl := sha2_schedule sha2_32 48 (words big 4 block) in
  forall w s1 r, (16 <= r)%nat -> (r + 4 <= 64)%nat -> length w = 64%nat ->
  (forall u, (u < r)%nat -> get w u = get Wl u) -> s1 = map (get Wl) (seq (r - 4) 4) -> comp256 w s1 r = map (get Wl) (seq r 4).
Proof.
  intros Hb HL Wl w s1 r Hr1 Hr2 Hw Hlow Hs.
  assert (LM : length (words big 4 block) = 16%nat) by (rewrite words_length, HL; reflexivity).
  apply comp256_core; auto.
  - intros t Ht. unfold Wl. change 32 with (w2 sha2_32). apply W_word; auto; [cbn [w2 sha2_32]; lia|].
    change (w2 sha2_32) with (8 * Z.of_nat 4). now apply words_word.
  - intros t Ht. unfold Wl. apply (sha2_schedule_rec sha2_32); auto.
Qed.

Lemma comp512_core (Wl : list Z) w s1 r : (16 <= r)%nat -> (r + 2 <= 80)%nat -> length w = 80%nat ->
  (forall t, (t < 80)%nat -> word 64 (get Wl t)) ->
  (forall t, (16 <= t < 80)%nat -> get Wl t = (smallS1 sha2_64 (get Wl (t - 2)) + get Wl (t - 7) + smallS0 sha2_64 (get Wl (t - 15)) + get Wl (t - 16)) mod 2 ^ 64) ->
  (forall u, (u < r)%nat -> get w u = get Wl u) -> s1 = map (get Wl) (seq (r - 2) 2) -> comp512 w s1 r = map (get Wl) (seq r 2).
Proof.
  intros Hr1 Hr2 Hw WW R Hlow ->.
  assert (SL : forall j, (7 <= j <= 16)%nat -> slice w (r - j) 2 = map (get Wl) (seq (r - j) 2)).
  { intros j Hj. apply list_eq_get. rewrite slice_length, map_length, seq_length by lia. reflexivity.
    rewrite slice_length by lia. intros i Hi. rewrite get_slice, get_map_seq by lia. apply Hlow. lia. }
  unfold comp512. cbv zeta. rewrite !SL by lia. cbn [seq map lanes2 combine fst snd].
  rewrite !s1_512_eq by (apply WW; lia). rewrite !s0_512_eq by (apply WW; lia).
  rewrite (R r), (R (S r)) by lia.
  replace (S r - 2)%nat with (S (r - 2)) by lia. replace (S r - 15)%nat with (S (r - 15)) by lia.
  replace (S r - 16)%nat with (S (r - 16)) by lia. replace (S r - 7)%nat with (S (r - 7)) by lia.
  f_equal; [|f_equal]; modsum.
Qed.

Lemma comp512_ok block : Forall is_byte block -> length block = 128%nat ->
  let Wl := sha2_schedule sha2_64 64 (words big 8 block) in
  forall w s1 r, (16 <= r)%nat -> (r + 2 <= 80)%nat -> length w = 80%nat ->
  (forall u, (u < r)%nat -> get w u = get Wl u) -> s1 = map (get Wl) (seq (r - 2) 2) -> comp512 w s1 r = map (get Wl) (seq r 2).
Proof.
  intros Hb HL Wl w s1 r Hr1 Hr2 Hw Hlow Hs.
  assert (LM : length (words big 8 block) = 16%nat) by (rewrite words_length, HL; reflexivity).
  apply comp512_core; auto.
  - intros t Ht. unfold Wl. change 64 with (w2 sha2_64). apply W_word; auto; [cbn [w2 sha2_64]; lia|].
    change (w2 sha2_64) with (8 * Z.of_nat 8). now apply words_word.
  - intros t Ht. unfold Wl. apply (sha2_schedule_rec sha2_64); auto.
Qed.

(** ** SHA-1. *)
Lemma sha1_schedule_length n M : length (sha1_schedule n M) = (length M + n)%nat.
Proof. induction n; cbn [sha1_schedule]; [lia|]. rewrite app_length, IHn. cbn. lia. Qed.
Lemma sha1_schedule_low n M t : (t < length M)%nat -> get (sha1_schedule n M) t = get M t.
Proof. intros. induction n; cbn [sha1_schedule]; auto. unfold get. rewrite app_nth1. exact IHn. rewrite sha1_schedule_length. lia. Qed.
Lemma sha1_schedule_rec n M t : length M = 16%nat -> (16 <= t < 16 + n)%nat ->
  get (sha1_schedule n M) t =
    rotl 32 1 (Z.lxor (Z.lxor (Z.lxor (get (sha1_schedule n M) (t - 3)) (get (sha1_schedule n M) (t - 8))) (get (sha1_schedule n M) (t - 14))) (get (sha1_schedule n M) (t - 16))).
Proof.
  intros HM. induction n as [|n IH]; intros Ht; [lia|].
  cbn [sha1_schedule]. set (W := sha1_schedule n M) in *.
  assert (HW : length W = (16 + n)%nat) by (unfold W; rewrite sha1_schedule_length; lia).
  unfold get in *. destruct (Nat.eq_dec t (16 + n)).
  - subst t. rewrite (app_nth2 W) by lia. rewrite HW, Nat.sub_diag. cbn [nth]. rewrite !(app_nth1 W) by lia. reflexivity.
  - rewrite !(app_nth1 W) by lia. apply IH. lia.
Qed.

Definition view5 (r : nat) (regs : list Z) : list Z := map (fun k => get regs ((k + (5 - r)) mod 5)) (seq 0 5).
Definition sha1_fk (kind : nat) (w x y : Z) : Z * Z :=
  match kind with
  | 0%nat | 1%nat => (Z.lxor (Z.land w (Z.lxor x y)) y, 0x5a827999)
  | 2%nat => (Z.lxor (Z.lxor w x) y, 0x6ed9eba1)
  | 3%nat => (Z.lor (Z.land (Z.lor w x) y) (Z.land w x), 0x8f1bbcdc)
  | _ => (Z.lxor (Z.lxor w x) y, 0xca62c1d6)
  end.
Lemma sha1_K_vals : map sha1_K [0; 20; 40; 60]%nat = [0x5a827999; 0x6ed9eba1; 0x8f1bbcdc; 0xca62c1d6].
Proof. vm_compute. reflexivity. Qed.
Lemma sha1_fk_ok t w x y : (t < 80)%nat -> sha1_fk (sha1_kind t) w x y = (sha1_f t w x y, sha1_K t).
Proof.
  intros Ht. pose proof sha1_K_vals as V. cbn [map] in V.
  assert (V0 : sha1_K 0 = 0x5a827999) by (vm_compute; reflexivity). assert (V1 : sha1_K 20 = 0x6ed9eba1) by (vm_compute; reflexivity).
  assert (V2 : sha1_K 40 = 0x8f1bbcdc) by (vm_compute; reflexivity). assert (V3 : sha1_K 60 = 0xca62c1d6) by (vm_compute; reflexivity).
  clear V. unfold sha1_kind, sha1_f.
  destruct (Nat.ltb_spec t 16). { destruct (Nat.ltb_spec t 20); [|lia]. cbn [sha1_fk]. f_equal. apply Ch_form2. rewrite <- V0. unfold sha1_K. destruct (Nat.ltb_spec t 20); [reflexivity|lia]. }
  destruct (Nat.ltb_spec t 20). { cbn [sha1_fk]. f_equal. apply Ch_form2. rewrite <- V0. unfold sha1_K. destruct (Nat.ltb_spec t 20); [reflexivity|lia]. }
  destruct (Nat.ltb_spec t 40). { cbn [sha1_fk]. f_equal. rewrite <- V1. unfold sha1_K. destruct (Nat.ltb_spec t 20); [lia|]. destruct (Nat.ltb_spec t 40); [reflexivity|lia]. }
  destruct (Nat.ltb_spec t 60). { cbn [sha1_fk]. f_equal. apply Maj_form2. rewrite <- V2. unfold sha1_K. destruct (Nat.ltb_spec t 20); [lia|]. destruct (Nat.ltb_spec t 40); [lia|]. destruct (Nat.ltb_spec t 60); [reflexivity|lia]. }
  cbn [sha1_fk]. f_equal. rewrite <- V3. unfold sha1_K. destruct (Nat.ltb_spec t 20); [lia|]. destruct (Nat.ltb_spec t 40); [lia|]. destruct (Nat.ltb_spec t 60); [lia|reflexivity].
Qed.
Lemma sha1_R_unfold kind pat i s : sha1_R kind pat i s =
  match pat with
  | [iv; iw; ix; iy; iz] =>
      let '(blk, r) := s in
      let blk := if Nat.eqb kind 0 then blk else upd blk i (sha1_blk blk i) in
      let fk := sha1_fk kind (get r iw) (get r ix) (get r iy) in
      (blk, upd (upd r iz (wadd 32 (get r iz) (wadd 32 (wadd 32 (wadd 32 (fst fk) (get blk i)) (snd fk)) (std_rotl 32 (get r iv) 5)))) iw (std_rotl 32 (get r iw) 30))
  | _ => s
  end.
Proof. destruct s as [blk r]. destruct pat as [|? [|? [|? [|? [|? [|? ?]]]]]]; reflexivity. Qed.

Lemma sha1_round_view t r blk regs W : (t < 80)%nat -> (r < 5)%nat -> length regs = 5%nat ->
  get (fst (sha1_R (sha1_kind t) (nth r sha1_pats []) (t mod 16) (blk, regs))) (t mod 16) = W ->
  let s := sha1_R (sha1_kind t) (nth r sha1_pats []) (t mod 16) (blk, regs) in
  length (snd s) = 5%nat /\ view5 (S r mod 5) (snd s) = sha1_round (view5 r regs) (t, W).
Proof.
  intros Ht Hr Hl. rewrite !sha1_R_unfold. cbv zeta.
  destruct regs as [|a [|b [|c [|d [|e [|? ?]]]]]]; try discriminate Hl.
  assert (D : forall w x y z v q, q = W -> wadd 32 z (wadd 32 (wadd 32 (wadd 32 (fst (sha1_fk (sha1_kind t) w x y)) q) (snd (sha1_fk (sha1_kind t) w x y))) (std_rotl 32 v 5))
              = (rotl 32 5 v + sha1_f t w x y + z + sha1_K t + W) mod 2 ^ 32).
  { intros w x y z v q ->. rewrite sha1_fk_ok by auto. cbn [fst snd]. rewrite std_rotl_eq. modsum. }
  assert (Hr' : r = 0%nat \/ r = 1%nat \/ r = 2%nat \/ r = 3%nat \/ r = 4%nat) by lia.
  destruct Hr' as [->|[->|[->|[->| ->]]]].
  all: cbn [nth sha1_pats fst snd].
  all: intros HW.
  all: cbn [get nth view5 map seq Nat.add Nat.sub Nat.modulo Nat.divmod fst snd upd firstn skipn app length sha1_round] in HW |- *.
  all: rewrite D by exact HW; rewrite ?std_rotl_eq; auto.
Qed.

Lemma S_mod5 t : (S t mod 5 = S (t mod 5) mod 5)%nat.
Proof. rewrite <- (Nat.add_1_l (t mod 5)), <- (Nat.add_1_l t). now rewrite Nat.add_mod_idemp_r by lia. Qed.

Lemma sha1_block_ok host state block : length state = 5%nat -> Forall is_byte block -> length block = 64%nat ->
  sha1_block host state block = sha1_compress state block.
Proof.
  intros Hst Hby Hbl. unfold sha1_block, sha1_compress. cbv zeta.
  set (M := words big 4 block). set (Wl := sha1_schedule 64 M). set (W := get Wl).
  assert (LM : length M = 16%nat) by (unfold M; rewrite words_length, Hbl; reflexivity).
  assert (LW : length Wl = 80%nat) by (unfold Wl; rewrite sha1_schedule_length, LM; reflexivity).
  assert (HX : map (load_word host big 4 block) (seq 0 16) = M).
  { apply list_eq_get. now rewrite map_length, seq_length, LM. rewrite map_length, seq_length. intros i Hi.
    rewrite get_map_seq by lia. cbn [Nat.add]. rewrite load_word_spec; auto; [|cbn; auto|lia].
    unfold M. rewrite words_get; auto. rewrite Hbl. exact Hi. }
  rewrite HX.
  set (V := fun t => fold_left sha1_round (firstn t (combine (seq 0 80) Wl)) state).
  assert (VS : forall t, (t < 80)%nat -> V (S t) = sha1_round (V t) (t, W t)).
  { intros t Ht. unfold V. rewrite (firstn_S_snoc t _ (0%nat, 0)) by (rewrite combine_length, seq_length, LW; lia).
    rewrite fold_left_app. cbn [fold_left]. rewrite combine_nth by (rewrite seq_length; auto). rewrite seq_nth by lia. cbn [Nat.add]. unfold W, get. reflexivity. }
  pose (P := fun t (s : list Z * list Z) => window W (fst s) (Nat.max t 16) /\ length (snd s) = 5%nat /\ view5 (t mod 5) (snd s) = V t).
  assert (P80 : P (0 + 80)%nat (fold_left (fun s n => sha1_R (sha1_kind n) (nth (n mod 5) sha1_pats []) (n mod 16) s) (seq 0 80) (M, state))).
  { apply (fold_seq_inv _ P).
    - split; [|split].
      + split; [auto|]. cbn [fst Nat.max]. intros u Hu _. rewrite Nat.mod_small by lia. unfold W, Wl. now rewrite sha1_schedule_low by lia.
      + exact Hst.
      + cbn [snd]. destruct state as [|a [|b [|c [|d [|e [|? ?]]]]]]; try discriminate Hst. reflexivity.
    - intros t [blk regs] Ht (Hw & Hl & Hv). cbn [fst snd] in Hw, Hl, Hv. cbn [Nat.add] in Ht.
      assert (Hp : exists i1 i2 i3 i4 i5, nth (t mod 5) sha1_pats [] = [i1; i2; i3; i4; i5]).
      { pose proof (Nat.mod_upper_bound t 5 ltac:(lia)) as Hm. revert Hm. generalize (t mod 5)%nat. intros r Hm.
        do 5 (destruct r as [|r]; [cbn; eauto 10|]). lia. }
      assert (Hwin : window W (fst (sha1_R (sha1_kind t) (nth (t mod 5) sha1_pats []) (t mod 16) (blk, regs))) (Nat.max (S t) 16) /\
                     get (fst (sha1_R (sha1_kind t) (nth (t mod 5) sha1_pats []) (t mod 16) (blk, regs))) (t mod 16) = W t).
      { rewrite sha1_R_unfold. destruct Hp as (i1 & i2 & i3 & i4 & i5 & ->). cbv zeta. cbn [fst].
        unfold sha1_kind. destruct (Nat.ltb_spec t 16).
        - cbn [Nat.eqb]. replace (Nat.max (S t) 16) with 16%nat by lia. replace (Nat.max t 16) with 16%nat in Hw by lia. split; [exact Hw|]. apply Hw; lia.
        - match goal with |- context [Nat.eqb ?k 0] => replace (Nat.eqb k 0) with false by (destruct (t <? 20)%nat, (t <? 40)%nat, (t <? 60)%nat; reflexivity) end.
          replace (Nat.max (S t) 16) with (S t) by lia. replace (Nat.max t 16) with t in Hw by lia.
          assert (EB : sha1_blk blk (t mod 16) = W t).
          { unfold sha1_blk. rewrite !land15.
            pose proof (window_get W blk t 16 Hw ltac:(lia) ltac:(lia)) as G16. pose proof (window_get W blk t 14 Hw ltac:(lia) ltac:(lia)) as G14.
            pose proof (window_get W blk t 8 Hw ltac:(lia) ltac:(lia)) as G8. pose proof (window_get W blk t 3 Hw ltac:(lia) ltac:(lia)) as G3.
            cbn [Nat.sub] in G16, G14, G8, G3. rewrite Nat.add_0_r, Nat.mod_mod in G16 by lia. rewrite G16, G14, G8, G3.
            unfold W, Wl. rewrite (sha1_schedule_rec 64 M t) by (auto; lia). rewrite std_rotl_eq. reflexivity. }
          rewrite EB. split; [apply window_step; auto|]. apply get_upd_same. destruct Hw as [-> _]. apply Nat.mod_upper_bound; lia. }
      destruct Hwin as [Hwin Hg].
      destruct (sha1_round_view t (t mod 5) blk regs (W t) ltac:(lia) (Nat.mod_upper_bound t 5 ltac:(lia)) Hl Hg) as [R1 R2].
      split; [exact Hwin|]. split; [exact R1|]. rewrite S_mod5, VS by lia. rewrite <- Hv. exact R2. }
  destruct P80 as (_ & L5 & E). cbn [Nat.add] in E, L5. set (s := fold_left _ (seq 0 80) _) in *.
  assert (E2 : snd s = V 80%nat). { rewrite <- E. clear - L5. destruct (snd s) as [|a [|b [|c [|d [|e [|? ?]]]]]]; try discriminate L5. reflexivity. }
  rewrite E2. unfold V. rewrite firstn_all2 by (rewrite combine_length, seq_length; lia). reflexivity.
Qed.

(** ** MD5. *)
Lemma wnot_spec w x n : 0 <= w -> 0 <= n -> Z.testbit (wnot w x) n = xorb (Z.testbit x n) (n <? w).
Proof.
  intros. unfold wnot. rewrite Z.lxor_spec. f_equal. replace (2 ^ w - 1) with (Z.ones w) by (rewrite Z.ones_equiv; lia).
  apply Z.testbit_ones_nonneg; lia.
Qed.
Lemma wnot_eq w x : 0 <= w -> word w x -> wnot w x = not_w w x.
Proof.
  intros Hw Hx. unfold wnot, not_w. 
  assert (E : Z.lxor x (2 ^ w - 1) + x = 2 ^ w - 1); [|lia].
  rewrite Z.add_nocarry_lxor.
  - rewrite Z.lxor_assoc, (Z.lxor_comm _ x), <- Z.lxor_assoc, Z.lxor_nilpotent. apply Z.lxor_0_l.
  - apply Z.bits_inj'; intros n Hn. fold (wnot w x). rewrite Z.land_spec, wnot_spec, Z.bits_0 by lia.
    destruct (Z.ltb_spec n w). now destruct (Z.testbit x n). now rewrite (testbit_high w x n) by (assumption || lia).
Qed.
Lemma md5_unit_ok op x y z : In op [0; 1; 2; 3] -> word 32 x -> word 32 y -> word 32 z ->
  md5_unit op x y z = md5_f (Z.to_nat op * 16) x y z.
Proof.
  intros Hop Hx Hy Hz. unfold md5_unit, md5_f. destruct Hop as [<-|[<-|[<-|[<-|[]]]]]; cbn [Z.eqb Z.to_nat Pos.to_nat Nat.mul Nat.add Nat.ltb Nat.leb Pos.iter_op Pos.eqb].
  - bits.
  - unfold wadd, wrap.
    assert (E : Z.land z x + Z.land (wnot 32 z) y = Z.lor (Z.land x z) (Z.ldiff y z)).
    { rewrite Z.add_nocarry_lxor.
      - apply Z.bits_inj'; intros n Hn. rewrite Z.lxor_spec, Z.lor_spec, !Z.land_spec, Z.ldiff_spec, wnot_spec by lia.
        destruct (Z.ltb_spec n 32). now destruct (Z.testbit x n), (Z.testbit y n), (Z.testbit z n).
        rewrite (testbit_high 32 x n), (testbit_high 32 y n), (testbit_high 32 z n) by (assumption || lia). reflexivity.
      - apply Z.bits_inj'; intros n Hn. rewrite !Z.land_spec, wnot_spec, Z.bits_0 by lia.
        destruct (Z.ltb_spec n 32). now destruct (Z.testbit x n), (Z.testbit y n), (Z.testbit z n).
        rewrite (testbit_high 32 z n) by (assumption || lia). reflexivity. }
    rewrite E. apply Z.mod_small.
    assert (G : 0 <= Z.lor (Z.land x z) (Z.ldiff y z)). { apply Z.lor_nonneg. split. apply Z.land_nonneg; left; apply Hx. apply Z.ldiff_nonneg. left; apply Hy. }
    split; [exact G|]. destruct (Z.eq_dec (Z.lor (Z.land x z) (Z.ldiff y z)) 0) as [->|NZ]; [reflexivity|].
    apply Z.log2_lt_pow2; [apply Z.le_neq; split; [exact G|intros Q; apply NZ; now rewrite Q]|]. destruct (Z.ltb_spec (Z.log2 (Z.lor (Z.land x z) (Z.ldiff y z))) 32); auto. exfalso.
    pose proof (Z.bit_log2 (Z.lor (Z.land x z) (Z.ldiff y z)) ltac:(apply Z.le_neq; split; [exact G|intros Q; apply NZ; now rewrite Q])) as B.
    rewrite Z.lor_spec, Z.land_spec, Z.ldiff_spec in B. rewrite (testbit_high 32 x), (testbit_high 32 y) in B by (assumption || lia).
    discriminate B.
  - reflexivity.
  - rewrite wnot_eq by (assumption || lia). reflexivity.
Qed.

Definition view4 (r : nat) (regs : list Z) : list Z := map (fun k => get regs ((k + (4 - r)) mod 4)) (seq 0 4).
Definition md5_row (i : nat) : Z * nat * Z * Z := (Z.of_nat (i / 16), md5_k i, md5_s i, get md5_T i).
Lemma md5_steps_spec : md5_steps = map md5_row (seq 0 64). Proof. vm_compute. reflexivity. Qed.

Lemma md5_round_view X Xl i regs tmp : (i < 64)%nat -> length regs = 4%nat -> Forall (word 32) regs -> (forall j, (j < 16)%nat -> X j = get Xl j) ->
  ((33 <= i < 48)%nat -> tmp = Z.lxor (get (view4 (i mod 4) regs) 2) (get (view4 (i mod 4) regs) 3)) ->
  let s := md5_step X (tmp, regs) (i, md5_row i) in
  length (snd s) = 4%nat /\ Forall (word 32) (snd s) /\
  view4 (S i mod 4) (snd s) = md5_round Xl (view4 (i mod 4) regs) i /\
  ((32 <= i < 47)%nat -> fst s = Z.lxor (get (view4 (S i mod 4) (snd s)) 2) (get (view4 (S i mod 4) (snd s)) 3)).
Proof.
  intros Hi Hl Hw HX Htmp.
  assert (Hf : forall x y z, word 32 x -> word 32 y -> word 32 z -> Z.of_nat (i / 16) <> 2 -> md5_unit (Z.of_nat (i / 16)) x y z = md5_f i x y z).
  { intros x y z Hx Hy Hz _. pose proof (Nat.div_mod i 16 ltac:(lia)). pose proof (Nat.mod_upper_bound i 16 ltac:(lia)).
    rewrite md5_unit_ok; auto.
    - unfold md5_f. rewrite Nat2Z.id. assert (i / 16 < 4)%nat by (apply Nat.div_lt_upper_bound; lia).
      destruct (i / 16)%nat as [|[|[|[|?]]]]; try lia;
      repeat match goal with |- context [(i <? ?n)%nat] => destruct (Nat.ltb_spec i n); try lia end; reflexivity.
    - assert (i / 16 < 4)%nat by (apply Nat.div_lt_upper_bound; lia). destruct (i / 16)%nat as [|[|[|[|?]]]]; try lia; cbn; auto. }
  assert (Hk : X (md5_k i) = get Xl (md5_k i)).
  { apply HX. unfold md5_k. destruct (Nat.ltb_spec i 16); [lia|]. destruct (i <? 32)%nat; [apply Nat.mod_upper_bound; lia|]. destruct (i <? 48)%nat; apply Nat.mod_upper_bound; lia. }
  unfold md5_row, md5_step. rewrite Hk. unfold md5_round. set (xv := get Xl (md5_k i)). fold (get Xl (md5_k i)). fold xv. fold (get md5_T i). set (ac := get md5_T i).
  destruct regs as [|a [|b [|c [|d [|? ?]]]]]; try discriminate Hl.
  rewrite !Forall_cons_iff in Hw. destruct Hw as (Wa & Wb & Wc & Wd & _).
  assert (D : forall a b f, wadd 32 (std_rotl 32 (wadd 32 (wadd 32 (wadd 32 xv ac) a) f) (md5_s i)) b = (b + rotl 32 (md5_s i) ((a + f + xv + ac) mod 2 ^ 32)) mod 2 ^ 32).
  { intros a' b' f. rewrite std_rotl_eq. unfold wadd at 1, wrap. f_equal. rewrite Z.add_comm. do 2 f_equal. modsum. }
  assert (WD : forall x, word 32 (x mod 2 ^ 32)) by (intros; apply Z.mod_pos_bound; reflexivity).
  assert (Hmod : (i mod 4 < 4)%nat) by (apply Nat.mod_upper_bound; lia).
  assert (Hs : (S i mod 4 = S (i mod 4) mod 4)%nat) by (rewrite <- (Nat.add_1_l (i mod 4)), <- (Nat.add_1_l i); now rewrite Nat.add_mod_idemp_r by lia).
  rewrite Hs. destruct (Z.eqb_spec (Z.of_nat (i / 16)) 2) as [E2|E2].
  - assert (Hi2 : (32 <= i < 48)%nat). { pose proof (Nat.div_mod i 16 ltac:(lia)). pose proof (Nat.mod_upper_bound i 16 ltac:(lia)). lia. }
    assert (EF : forall x y z, md5_f i x y z = Z.lxor (Z.lxor x y) z).
    { intros. unfold md5_f. repeat match goal with |- context [(i <? ?n)%nat] => destruct (Nat.ltb_spec i n); try lia end; reflexivity. }
    assert (Htmp' : (if Nat.eqb i 32 then Z.lxor c d else tmp) = Z.lxor (get (view4 (i mod 4) [a; b; c; d]) 2) (get (view4 (i mod 4) [a; b; c; d]) 3)).
    { destruct (Nat.eqb_spec i 32). subst i. reflexivity. apply Htmp. lia. }
    clear Htmp. assert (G2 : get [a; b; c; d] 2 = c) by reflexivity. assert (G3 : get [a; b; c; d] 3 = d) by reflexivity. rewrite G2, G3, Htmp'.
    assert (X1 : forall x y z, Z.lxor (Z.lxor y z) x = Z.lxor (Z.lxor x y) z) by (intros; bits).
    assert (X2 : forall x y z, Z.lxor (Z.lxor (Z.lxor x y) z) z = Z.lxor x y) by (intros; bits).
    destruct (i mod 4)%nat as [|[|[|[|?]]]]; try lia;
    cbn [nth md5_pats fst snd get view4 map seq Nat.add Nat.sub Nat.modulo Nat.divmod upd firstn skipn app length];
    rewrite D, X1, EF; (split; [reflexivity|split; [repeat (apply Forall_cons; [auto; apply WD|]); apply Forall_nil|split; [reflexivity|]]]); auto.
  - clear Htmp.
    assert (Q : ~ (32 <= i < 47)%nat). { intros Q. apply E2. pose proof (Nat.div_mod i 16 ltac:(lia)). pose proof (Nat.mod_upper_bound i 16 ltac:(lia)). lia. }
    destruct (i mod 4)%nat as [|[|[|[|?]]]]; try lia;
    cbn [nth md5_pats fst snd get view4 map seq Nat.add Nat.sub Nat.modulo Nat.divmod upd firstn skipn app length];
    rewrite D, Hf by auto; (split; [reflexivity|split; [repeat (apply Forall_cons; [auto; apply WD|]); apply Forall_nil|split; [reflexivity|]]]); tauto.
Qed.

Lemma combine_seq_map {A} (f : nat -> A) n : forall a, combine (seq a n) (map f (seq a n)) = map (fun i => (i, f i)) (seq a n).
Proof. induction n; intros; cbn; auto. now rewrite IHn. Qed.
Lemma fold_left_map {A B C} (f : A -> B -> A) (g : C -> B) l : forall a, fold_left f (map g l) a = fold_left (fun a c => f a (g c)) l a.
Proof. induction l; intros; cbn; auto. Qed.

Lemma md5_with_ok X Xl tmp state : length state = 4%nat -> Forall (word 32) state -> (forall j, (j < 16)%nat -> X j = get Xl j) ->
  md5_block_with X tmp state = sum_words 32 state (fold_left (md5_round Xl) (seq 0 64) state) /\
  Forall (word 32) (md5_block_with X tmp state) /\ length (md5_block_with X tmp state) = 4%nat.
Proof.
  intros Hl Hw HX. unfold md5_block_with. rewrite md5_steps_spec, combine_seq_map, fold_left_map.
  set (V := fun t => fold_left (md5_round Xl) (seq 0 t) state).
  assert (VS : forall t, V (S t) = md5_round Xl (V t) t). { intros. unfold V. rewrite seq_S, fold_left_app. reflexivity. }
  pose (P := fun t (s : Z * list Z) => length (snd s) = 4%nat /\ Forall (word 32) (snd s) /\ view4 (t mod 4) (snd s) = V t /\
     ((33 <= t < 48)%nat -> fst s = Z.lxor (get (view4 (t mod 4) (snd s)) 2) (get (view4 (t mod 4) (snd s)) 3))).
  assert (PE : P (0 + 64)%nat (fold_left (fun a c => md5_step X a (c, md5_row c)) (seq 0 64) (tmp, state))).
  { apply (fold_seq_inv _ P).
    - split; [exact Hl|]. split; [exact Hw|]. split; [|intros; lia]. cbn [snd].
      destruct state as [|a [|b [|c [|d [|? ?]]]]]; try discriminate Hl. reflexivity.
    - intros t [tm regs] Ht (H1 & H2 & H3 & H4). cbn [fst snd] in *.
      destruct (md5_round_view X Xl t regs tm ltac:(lia) H1 H2 HX H4) as (R1 & R2 & R3 & R4).
      split; [exact R1|]. split; [exact R2|]. split; [rewrite VS, <- H3; exact R3|]. intros. apply R4. lia. }
  destruct PE as (L & Wd & E & _). cbn [Nat.add] in E. set (s := fold_left _ _ _) in *.
  assert (E2 : snd s = V 64%nat). { rewrite <- E. clear - L. destruct (snd s) as [|a [|b [|c [|d [|? ?]]]]]; try discriminate L. reflexivity. }
  split; [unfold add_state, sum_words; rewrite E2; reflexivity|].
  split.
  - unfold add_state. apply Forall_map, Forall_forall. intros x _. apply wadd_word. lia.
  - unfold add_state. rewrite map_length, combine_length. lia.
Qed.
Lemma md5_block_ok host tmp state block : length state = 4%nat -> Forall (word 32) state -> Forall is_byte block -> length block = 64%nat ->
  md5_block host tmp state block = md5_compress state block.
Proof.
  intros. unfold md5_block, md5_compress.
  apply (md5_with_ok _ (words little 4 block)); auto.
  intros j Hj. rewrite load_word_spec by (cbn; auto; lia). rewrite words_get; auto. rewrite H2. exact Hj.
Qed.
