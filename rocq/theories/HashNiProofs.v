(** The SHA extension and AVX2 block routines compute the compression function. *)
From Verif Require Import Base ByteSpec LebeModel ByteProofs HashSpec HashTables HashModel HashProofs HashSimdProofs HashCtxProofs HashRunProofs HashNiModel.

(** ** A checker for the SHA extension programs.
    What a message register holds: [TW g] the words W(4g) .. W(4g+3); [TP g] their terms W(t-16)+s0(W(t-15));
    [TQ g] these plus W(t-7).  [k_msg]: the group of the words added to the constants in msg, and whether msg has been
    shuffled.  [k_t]: the rounds done. *)
Inductive tag := TW (g : nat) | TP (g : nat) | TQ (g : nat).
Record kstate := { k_tags : list (option tag); k_msg : option (nat * bool); k_t : nat }.
Definition set_tag (l : list (option tag)) (m : nat) (v : tag) : list (option tag) := firstn m l ++ Some v :: skipn (S m) l.
Definition list_eqb (a b : list Z) : bool := (Nat.eqb (length a) (length b) && forallb (fun p => fst p =? snd p) (combine a b))%bool.
Definition ncheck (k : option kstate) (i : ninstr) : option kstate :=
  match k with
  | None => None
  | Some k =>
    let tg m := nth m (k_tags k) None in
    let with_tag m v := Some {| k_tags := set_tag (k_tags k) m v; k_msg := k_msg k; k_t := k_t k |} in
    match i with
    | NLoad m j | NLoadB m j => if ((m <? 4) && (j <? 4))%nat then with_tag m (TW j) else None
    | NAddK m c =>
        match tg m with
        | Some (TW g) => if ((g <? 16)%nat && list_eqb (map (fun x => x mod 2 ^ 32) c) (slice K256 (4 * g) 4))%bool
                         then Some {| k_tags := k_tags k; k_msg := Some (g, false); k_t := k_t k |} else None
        | _ => None
        end
    | NShuf imm =>
        match k_msg k with
        | Some (g, false) => if imm =? 14 then Some {| k_tags := k_tags k; k_msg := Some (g, true); k_t := k_t k |} else None
        | _ => None
        end
    | NRnds1 =>
        match k_msg k with
        | Some (g, false) => if ((g <? 16) && Nat.eqb (k_t k) (4 * g))%nat then Some {| k_tags := k_tags k; k_msg := k_msg k; k_t := 4 * g + 2 |} else None
        | _ => None
        end
    | NRnds0 =>
        match k_msg k with
        | Some (g, true) => if ((g <? 16) && Nat.eqb (k_t k) (4 * g + 2))%nat then Some {| k_tags := k_tags k; k_msg := k_msg k; k_t := 4 * g + 4 |} else None
        | _ => None
        end
    | NMsg1 a b =>
        match tg a, tg b with
        | Some (TW g), Some (TW h) => if ((a <? 4) && Nat.eqb h (g + 1) && (g <? 12))%nat then with_tag a (TP (g + 4)%nat) else None
        | _, _ => None
        end
    | NAlign n p q =>
        match tg n, tg p, tg q with
        | Some (TP g), Some (TW h), Some (TW j) =>
            if ((n <? 4) && Nat.eqb (h + 1) g && Nat.eqb (j + 2) g && (4 <=? g) && (g <? 16))%nat then with_tag n (TQ g) else None
        | _, _, _ => None
        end
    | NMsg2 a b =>
        match tg a, tg b with
        | Some (TQ g), Some (TW h) => if ((a <? 4) && Nat.eqb (h + 1) g && (4 <=? g) && (g <? 16))%nat then with_tag a (TW g) else None
        | _, _ => None
        end
    end
  end.
Definition ncheck_prog (prog : list ninstr) : bool :=
  match fold_left ncheck prog (Some {| k_tags := repeat None 4; k_msg := None; k_t := 0 |}) with
  | Some k => Nat.eqb (k_t k) 64 | None => false end.
Lemma check_ni_prog : ncheck_prog ni_prog = true. Proof. vm_compute. reflexivity. Qed.
Lemma check_msvc_prog : ncheck_prog msvc_prog = true. Proof. vm_compute. reflexivity. Qed.

Lemma list_eqb_eq a b : list_eqb a b = true -> a = b.
Proof.
  unfold list_eqb. intros H. apply andb_true_iff in H as [H1 H2]. apply Nat.eqb_eq in H1. revert b H1 H2.
  induction a as [|x a IH]; intros [|y b] H1 H2; cbn in *; try discriminate; auto.
  apply andb_true_iff in H2 as [H2 H3]. apply Z.eqb_eq in H2. f_equal; auto.
Qed.
Lemma nth_set {A} (l : list A) m v d j : (m < length l)%nat -> nth j (firstn m l ++ v :: skipn (S m) l) d = if Nat.eqb j m then v else nth j l d.
Proof.
  intros Hm. destruct (Nat.eqb_spec j m) as [->|N].
  - rewrite app_nth2; rewrite firstn_length_le by lia; [|lia]. now rewrite Nat.sub_diag.
  - destruct (Nat.lt_ge_cases j m).
    + rewrite app_nth1 by (rewrite firstn_length_le; lia). rewrite <- (firstn_skipn m l) at 2. rewrite app_nth1 by (rewrite firstn_length_le; lia). reflexivity.
    + rewrite app_nth2; rewrite firstn_length_le by lia; [|lia]. destruct (j - m)%nat as [|x] eqn:E; [lia|]. cbn [nth].
      rewrite <- (firstn_skipn (S m) l) at 2. rewrite app_nth2; rewrite firstn_length_le by lia; [|lia]. f_equal. lia.
Qed.
Lemma set_length {A} (l : list A) m v : (m < length l)%nat -> length (firstn m l ++ v :: skipn (S m) l) = length l.
Proof. intros. rewrite app_length, firstn_length_le by lia. cbn [length]. rewrite skipn_length. lia. Qed.

(** ** The rounds. *)
Lemma intel_round_ok v wk k w : wk mod 2 ^ 32 = (k + w) mod 2 ^ 32 -> intel_round v wk = sha2_round sha2_32 v (k, w).
Proof.
  intros HT. pose proof sha256_fns_ok as OK. unfold intel_round, sha2_round. cbv zeta. destruct v as [|a [|b [|c [|d [|e [|f [|g [|h [|? ?]]]]]]]]]; auto.
  cbn [fst snd]. rewrite (ok_S0 _ _ OK), (ok_S1 _ _ OK), (ok_Ch _ _ OK), (ok_Maj _ _ OK). change (w2 sha2_32) with 32. unfold wadd, wrap.
  f_equal; [|do 3 f_equal; f_equal].
  - replace (h + bigS1 sha2_32 e + Ch e f g + k + w + (bigS0 sha2_32 a + Maj a b c)) with (k + w + (h + bigS1 sha2_32 e + Ch e f g + (bigS0 sha2_32 a + Maj a b c))) by lia.
    rewrite <- (mod_replace _ _ _ _ HT). modnorm. f_equal; lia.
  - replace (d + (h + bigS1 sha2_32 e + Ch e f g + k + w)) with (k + w + (h + bigS1 sha2_32 e + Ch e f g + d)) by lia.
    rewrite <- (mod_replace _ _ _ _ HT). modnorm. f_equal; lia.
Qed.
(** The two registers of a state. *)
Definition abef (v : list Z) : list Z := [get v 5; get v 4; get v 1; get v 0].
Definition cdgh (v : list Z) : list Z := [get v 7; get v 6; get v 3; get v 2].
Lemma rnds2_ok v wk k0 w0 k1 w1 : length v = 8%nat -> get wk 0 mod 2 ^ 32 = (k0 + w0) mod 2 ^ 32 -> get wk 1 mod 2 ^ 32 = (k1 + w1) mod 2 ^ 32 ->
  let v2 := sha2_round sha2_32 (sha2_round sha2_32 v (k0, w0)) (k1, w1) in
  sha256rnds2 (cdgh v) (abef v) wk = abef v2 /\ cdgh v2 = abef v /\ length v2 = 8%nat.
Proof.
  intros Hv H0 H1. unfold sha256rnds2. cbv zeta.
  destruct v as [|a [|b [|c [|d [|e [|f [|g [|h [|? ?]]]]]]]]]; try discriminate Hv.
  unfold abef, cdgh. cbn [get nth]. fold (get wk 0). fold (get wk 1).
  rewrite (intel_round_ok _ _ k0 w0 H0), (intel_round_ok _ _ k1 w1 H1).
  cbn [sha2_round fst snd get nth length]. repeat split; reflexivity.
Qed.

Section Ni.
Context (block : list Z) (Hby : Forall is_byte block) (Hbl : length block = 64%nat) (W : nat -> Z) (V : nat -> list Z).
Context (W_load : forall t, (t < 16)%nat -> W t = of_bytes big (firstn 4 (skipn (4 * t) block))).
Context (W_rec : forall t, (16 <= t < 64)%nat -> W t = (smallS1 sha2_32 (W (t - 2)) + W (t - 7) + smallS0 sha2_32 (W (t - 15)) + W (t - 16)) mod 2 ^ 32).
Context (V_step : forall t, (t < 64)%nat -> V (S t) = sha2_round sha2_32 (V t) (get K256 t, W t)).
Context (V_len : forall t, length (V t) = 8%nat).

Definition term (t : nat) : Z := wadd 32 (W (t - 16)) (smallS0 sha2_32 (W (t - 15))).
Definition holds (tg : tag) (v : list Z) : Prop :=
  match tg with
  | TW g => v = map W (seq (4 * g) 4)
  | TP g => v = map term (seq (4 * g) 4)
  | TQ g => v = map (fun t => wadd 32 (term t) (W (t - 7))) (seq (4 * g) 4)
  end.
Definition nrel (k : kstate) (s : nstate) : Prop :=
  length (n_msgs s) = 4%nat /\ length (k_tags k) = 4%nat /\
  (forall m tg, nth m (k_tags k) None = Some tg -> holds tg (msg_at s m)) /\
  (forall g sh, k_msg k = Some (g, sh) -> forall i, (i < 2)%nat ->
     get (n_msg s) i mod 2 ^ 32 = (get K256 (4 * g + (if sh then 2 else 0) + i) + W (4 * g + (if sh then 2 else 0) + i)) mod 2 ^ 32 /\
     (sh = false -> get (n_msg s) (2 + i) mod 2 ^ 32 = (get K256 (4 * g + 2 + i) + W (4 * g + 2 + i)) mod 2 ^ 32)) /\
  (exists g, (k_t k = 4 * g)%nat /\ n_s0 s = abef (V (k_t k)) /\ n_s1 s = cdgh (V (k_t k)) \/
             (k_t k = 4 * g + 2)%nat /\ n_s1 s = abef (V (k_t k)) /\ n_s0 s = cdgh (V (k_t k))).

Lemma nrel_tag k s m tg v : nrel k s -> (m < 4)%nat -> holds tg v ->
  nrel {| k_tags := set_tag (k_tags k) m tg; k_msg := k_msg k; k_t := k_t k |}
       {| n_msgs := set_msg (n_msgs s) m v; n_msg := n_msg s; n_s0 := n_s0 s; n_s1 := n_s1 s |}.
Proof.
  intros (H1 & H2 & H3 & H4 & H5) Hm Hv. unfold nrel. cbn [n_msgs n_msg n_s0 n_s1 k_tags k_msg k_t].
  split; [unfold set_msg; rewrite set_length; lia|]. split; [unfold set_tag; rewrite set_length; lia|]. split; [|split; assumption].
  intros j tg'. unfold msg_at, set_tag, set_msg. cbn [n_msgs]. rewrite !nth_set by lia. destruct (Nat.eqb_spec j m).
  - intros [= <-]. exact Hv.
  - apply H3.
Qed.
Lemma s0eq x : fs0 sha256_fns x = smallS0 sha2_32 x. Proof. reflexivity. Qed.
Lemma s1eq x : fs1 sha256_fns x = smallS1 sha2_32 x. Proof. reflexivity. Qed.
Lemma lane_value t : (16 <= t < 64)%nat -> wadd 32 (wadd 32 (term t) (W (t - 7))) (smallS1 sha2_32 (W (t - 2))) = W t.
Proof. intros Ht. rewrite (W_rec t) by lia. unfold term. modsum. Qed.

Lemma load_lanes k : (k < 4)%nat -> map (fun j => load_word little big 4 block (4 * k + j)) (seq 0 4) = map W (seq (4 * k) 4).
Proof.
  intros Hk. apply list_eq_get; [reflexivity|]. rewrite map_length, seq_length. intros i Hi. rewrite !get_map_seq by lia. cbn [Nat.add].
  rewrite W_load by lia. apply load_word_spec; auto. cbn; tauto. rewrite Hbl. lia.
Qed.
Lemma pshufb_lanes b : length b = 16%nat ->
  map (fun j => of_bytes little (firstn 4 (skipn (4 * j) (pshufb b ni_mask)))) (seq 0 4) = map (fun j => of_bytes big (firstn 4 (skipn (4 * j) b))) (seq 0 4).
Proof.
  intros Hb. do 17 (destruct b as [|? b]; try discriminate Hb).
  change ni_mask with [3; 2; 1; 0; 7; 6; 5; 4; 11; 10; 9; 8; 15; 14; 13; 12].
  reflexivity.
Qed.
Lemma loadb_lanes k : (k < 4)%nat ->
  map (fun j => of_bytes little (firstn 4 (skipn (4 * j) (pshufb (firstn 16 (skipn (16 * k) block)) ni_mask)))) (seq 0 4) = map W (seq (4 * k) 4).
Proof.
  intros Hk. rewrite pshufb_lanes by (rewrite firstn_length_le; [reflexivity|rewrite skipn_length; lia]).
  apply list_eq_get; [reflexivity|]. rewrite map_length, seq_length. intros i Hi. rewrite !get_map_seq by lia. cbn [Nat.add].
  rewrite W_load by lia. f_equal. rewrite skipn_firstn_comm, firstn_firstn, skipn_skipn. f_equal; [lia|]. f_equal. lia.
Qed.

Lemma list4 (a b c d a' b' c' d' : Z) : a = a' -> b = b' -> c = c' -> d = d' -> [a; b; c; d] = [a'; b'; c'; d'].
Proof. congruence. Qed.
Ltac four g := replace (S (S (S (4 * g)))) with (4 * g + 3)%nat by lia; replace (S (S (4 * g))) with (4 * g + 2)%nat by lia; replace (S (4 * g)) with (4 * g + 1)%nat by lia.
Lemma ni_step_ok k s i k' : nrel k s -> ncheck (Some k) i = Some k' -> nrel k' (ni_step block s i).
Proof.
  intros R Hc. pose proof R as (H1 & H2 & H3 & H4 & H5). destruct i; cbn [ncheck ni_step] in *.
  - destruct (Nat.ltb_spec m 4); cbn [andb] in Hc; [|discriminate]. destruct (Nat.ltb_spec k0 4); [|discriminate].
    assert (k' = {| k_tags := set_tag (k_tags k) m (TW k0); k_msg := k_msg k; k_t := k_t k |}) as -> by congruence.
    rewrite load_lanes by lia. apply nrel_tag; auto. reflexivity.
  - destruct (Nat.ltb_spec m 4); cbn [andb] in Hc; [|discriminate]. destruct (Nat.ltb_spec k0 4); [|discriminate].
    assert (k' = {| k_tags := set_tag (k_tags k) m (TW k0); k_msg := k_msg k; k_t := k_t k |}) as -> by congruence.
    rewrite loadb_lanes by lia. apply nrel_tag; auto. reflexivity.
  - (* NAddK *)
    destruct (nth m (k_tags k) None) as [[g|g|g]|] eqn:Et; try discriminate.
    destruct (Nat.ltb_spec g 16); cbn [andb] in Hc; [|discriminate].
    destruct (list_eqb _ _) eqn:El in Hc; [|discriminate]. apply list_eqb_eq in El.
    assert (k' = {| k_tags := k_tags k; k_msg := Some (g, false); k_t := k_t k |}) as -> by congruence. clear Hc.
    pose proof (H3 m _ Et) as Hm. cbn [holds] in Hm.
    assert (Lc : length c = 4%nat). { apply (f_equal (@length Z)) in El. rewrite map_length, slice_length in El by (rewrite K256_length; lia). exact El. }
    assert (Hl : forall i, (i < 4)%nat -> get (lanes2 (wadd 32) (msg_at s m) c) i mod 2 ^ 32 = (get K256 (4 * g + i) + W (4 * g + i)) mod 2 ^ 32).
    { intros i Hi. rewrite get_lanes2 by (rewrite Hm, ?map_length, ?seq_length; lia).
      assert (Ec : get c i mod 2 ^ 32 = get K256 (4 * g + i)).
      { rewrite <- (get_slice K256 (4 * g) 4 i) by (rewrite ?K256_length; lia). rewrite <- El. exact (eq_sym (map_nth (fun x => x mod 2 ^ 32) c 0 i)). }
      rewrite Hm, get_map_seq by lia. rewrite <- Ec. unfold wadd, wrap. rewrite Zmod_mod, Zplus_mod_idemp_l. f_equal. lia. }
    unfold nrel. cbn [n_msgs n_msg n_s0 n_s1 k_tags k_msg k_t]. split; [exact H1|]. split; [exact H2|]. split; [exact H3|]. split; [|exact H5].
    intros g' sh E i Hi. assert (g' = g /\ sh = false) as [-> ->] by (split; congruence). split.
    + rewrite Nat.add_0_r. apply Hl. lia.
    + intros _. replace (4 * g + 2 + i)%nat with (4 * g + (2 + i))%nat by lia. apply Hl. lia.
  - (* NShuf *)
    destruct (k_msg k) as [[g [|]]|] eqn:Em; try discriminate. destruct (Z.eqb_spec imm 14) as [->|]; [|discriminate].
    assert (k' = {| k_tags := k_tags k; k_msg := Some (g, true); k_t := k_t k |}) as -> by congruence. clear Hc.
    unfold nrel. cbn [n_msgs n_msg n_s0 n_s1 k_tags k_msg k_t]. split; [exact H1|]. split; [exact H2|]. split; [exact H3|]. split; [|exact H5].
    intros g' sh E i Hi. assert (g' = g /\ sh = true) as [-> ->] by (split; congruence). split; [|discriminate].
    destruct (H4 g false eq_refl i Hi) as [_ Q]. rewrite <- (Q eq_refl). f_equal. destruct i as [|[|?]]; [reflexivity|reflexivity|lia].
  - (* NRnds1 *)
    destruct (k_msg k) as [[g [|]]|] eqn:Em; try discriminate. destruct (Nat.ltb_spec g 16); cbn [andb] in Hc; [|discriminate].
    destruct (Nat.eqb_spec (k_t k) (4 * g)) as [Et|]; [|discriminate].
    assert (k' = {| k_tags := k_tags k; k_msg := Some (g, false); k_t := (4 * g + 2)%nat |}) as -> by congruence. clear Hc.
    unfold nrel. cbn [n_msgs n_msg n_s0 n_s1 k_tags k_msg k_t]. split; [exact H1|]. split; [exact H2|]. split; [exact H3|]. split; [exact H4|].
    destruct H5 as (g0 & [(E0 & A & C)|(E0 & _)]); [|lia]. exists g. right. split; [reflexivity|]. rewrite A, C, Et.
    destruct (H4 g false eq_refl 0%nat ltac:(lia)) as [Q0 _]. destruct (H4 g false eq_refl 1%nat ltac:(lia)) as [Q1 _].
    rewrite Nat.add_0_r in Q0, Q1. rewrite Nat.add_0_r in Q0.
    destruct (rnds2_ok (V (4 * g)) (n_msg s) _ _ _ _ (V_len _) Q0 Q1) as (R1 & R2 & _). cbv zeta in R1, R2.
    rewrite Nat.add_1_r in R1, R2.
    rewrite <- !V_step in R1, R2 by lia. replace (4 * g + 2)%nat with (S (S (4 * g))) by lia. split; [exact R1|symmetry; exact R2].
  - (* NRnds0 *)
    destruct (k_msg k) as [[g [|]]|] eqn:Em; try discriminate. destruct (Nat.ltb_spec g 16); cbn [andb] in Hc; [|discriminate].
    destruct (Nat.eqb_spec (k_t k) (4 * g + 2)) as [Et|]; [|discriminate].
    assert (k' = {| k_tags := k_tags k; k_msg := Some (g, true); k_t := (4 * g + 4)%nat |}) as -> by congruence. clear Hc.
    unfold nrel. cbn [n_msgs n_msg n_s0 n_s1 k_tags k_msg k_t]. split; [exact H1|]. split; [exact H2|]. split; [exact H3|]. split; [exact H4|].
    destruct H5 as (g0 & [(E0 & _)|(E0 & A & C)]); [lia|]. exists (S g). left. split; [lia|]. rewrite A, C, Et.
    destruct (H4 g true eq_refl 0%nat ltac:(lia)) as [Q0 _]. destruct (H4 g true eq_refl 1%nat ltac:(lia)) as [Q1 _].
    rewrite Nat.add_0_r in Q0.
    destruct (rnds2_ok (V (4 * g + 2)) (n_msg s) _ _ _ _ (V_len _) Q0 Q1) as (R1 & R2 & _). cbv zeta in R1, R2.
    rewrite Nat.add_1_r in R1, R2.
    rewrite <- !V_step in R1, R2 by lia. replace (4 * g + 4)%nat with (S (S (4 * g + 2))) by lia. split; [exact R1|symmetry; exact R2].
  - (* NMsg1 *)
    destruct (nth a (k_tags k) None) as [[g|g|g]|] eqn:Ea; try discriminate. destruct (nth b (k_tags k) None) as [[h|h|h]|] eqn:Eb; try discriminate.
    destruct (Nat.ltb_spec a 4); cbn [andb] in Hc; [|discriminate]. destruct (Nat.eqb_spec h (g + 1)) as [->|]; cbn [andb] in Hc; [|discriminate].
    destruct (Nat.ltb_spec g 12); [|discriminate].
    assert (k' = {| k_tags := set_tag (k_tags k) a (TP (g + 4)); k_msg := k_msg k; k_t := k_t k |}) as -> by congruence. clear Hc.
    apply nrel_tag; auto. cbn [holds]. pose proof (H3 a _ Ea) as Ha. pose proof (H3 b _ Eb) as Hb'. cbn [holds] in Ha, Hb'.
    unfold sha256msg1. cbv zeta. rewrite Ha, Hb', !get_map_seq by lia. rewrite !s0eq. unfold term.
    cbn [seq map].
    assert (T : forall x x' y y', x = x' -> y = y' -> wadd 32 (W x) (smallS0 sha2_32 (W y)) = wadd 32 (W x') (smallS0 sha2_32 (W y'))) by (intros; congruence).
    f_equal; [apply T; lia|]. f_equal; [apply T; lia|]. f_equal; [apply T; lia|]. f_equal; apply T; lia.
  - (* NMsg2 *)
    destruct (nth a (k_tags k) None) as [[g|g|g]|] eqn:Ea; try discriminate. destruct (nth b (k_tags k) None) as [[h|h|h]|] eqn:Eb; try discriminate.
    destruct (Nat.ltb_spec a 4); cbn [andb] in Hc; [|discriminate]. destruct (Nat.eqb_spec (h + 1) g) as [Eh|]; cbn [andb] in Hc; [|discriminate].
    destruct (Nat.leb_spec 4 g); cbn [andb] in Hc; [|discriminate]. destruct (Nat.ltb_spec g 16); [|discriminate].
    assert (k' = {| k_tags := set_tag (k_tags k) a (TW g); k_msg := k_msg k; k_t := k_t k |}) as -> by congruence. clear Hc.
    apply nrel_tag; auto. cbn [holds]. pose proof (H3 a _ Ea) as Ha. pose proof (H3 b _ Eb) as Hb'. cbn [holds] in Ha, Hb'.
    unfold sha256msg2. cbv zeta. rewrite Ha, Hb', !get_map_seq by lia. rewrite !s1eq.
    assert (E0 : wadd 32 (wadd 32 (term (4 * g + 0)) (W (4 * g + 0 - 7))) (smallS1 sha2_32 (W (4 * h + 2))) = W (4 * g)).
    { rewrite Nat.add_0_r. rewrite <- (lane_value (4 * g)) by lia. do 3 f_equal. lia. }
    assert (E1 : wadd 32 (wadd 32 (term (4 * g + 1)) (W (4 * g + 1 - 7))) (smallS1 sha2_32 (W (4 * h + 3))) = W (4 * g + 1)).
    { rewrite <- (lane_value (4 * g + 1)) by lia. do 3 f_equal. lia. }
    rewrite E0, E1. cbn [seq map]. four g. apply list4; try reflexivity.
    + rewrite <- (lane_value (4 * g + 2)) by lia. do 3 f_equal. lia.
    + rewrite <- (lane_value (4 * g + 3)) by lia. do 3 f_equal. lia.
  - (* NAlign *)
    destruct (nth n (k_tags k) None) as [[g|g|g]|] eqn:En; try discriminate. destruct (nth p (k_tags k) None) as [[h|h|h]|] eqn:Ep; try discriminate.
    destruct (nth q (k_tags k) None) as [[j|j|j]|] eqn:Eq; try discriminate.
    destruct (Nat.ltb_spec n 4); cbn [andb] in Hc; [|discriminate]. destruct (Nat.eqb_spec (h + 1) g) as [Eh|]; cbn [andb] in Hc; [|discriminate].
    destruct (Nat.eqb_spec (j + 2) g) as [Ej|]; cbn [andb] in Hc; [|discriminate].
    destruct (Nat.leb_spec 4 g); cbn [andb] in Hc; [|discriminate]. destruct (Nat.ltb_spec g 16); [|discriminate].
    assert (k' = {| k_tags := set_tag (k_tags k) n (TQ g); k_msg := k_msg k; k_t := k_t k |}) as -> by congruence. clear Hc.
    apply nrel_tag; auto. cbn [holds]. pose proof (H3 n _ En) as Hn. pose proof (H3 p _ Ep) as Hp. pose proof (H3 q _ Eq) as Hq. cbn [holds] in Hn, Hp, Hq.
    rewrite Hn, Hp, Hq. unfold palignr, lanes2. cbn [seq map app skipn firstn combine fst snd].
    assert (T : forall x y y', y = y' -> wadd 32 x (W y) = wadd 32 x (W y')) by (intros; congruence). apply list4; apply T; lia.
Qed.

Lemma ni_run_ok prog : forall k s k', nrel k s -> fold_left ncheck prog (Some k) = Some k' -> nrel k' (fold_left (ni_step block) prog s).
Proof.
  induction prog as [|i prog IH]; intros k s k' R Hc; cbn [fold_left] in *.
  - assert (k' = k) as -> by congruence. exact R.
  - destruct (ncheck (Some k) i) as [b|] eqn:Eb.
    + eapply IH; [|exact Hc]. eapply ni_step_ok; eauto.
    + exfalso. clear - Hc. induction prog; cbn [fold_left ncheck] in Hc; [discriminate|auto].
Qed.
Lemma ni_iter_core prog junk : ncheck_prog prog = true -> length (fst junk) = 4%nat ->
  ni_iter prog junk (abef (V 0), cdgh (V 0)) block =
  (lanes2 (wadd 32) (abef (V 0)) (abef (V 64)), lanes2 (wadd 32) (cdgh (V 0)) (cdgh (V 64))).
Proof.
  intros Hp Hj. unfold ncheck_prog in Hp. destruct (fold_left ncheck prog _) as [k'|] eqn:E; [|discriminate]. apply Nat.eqb_eq in Hp.
  unfold ni_iter. cbn [fst snd].
  assert (R : nrel k' (fold_left (ni_step block) prog {| n_msgs := fst junk; n_msg := snd junk; n_s0 := abef (V 0); n_s1 := cdgh (V 0) |})).
  { eapply ni_run_ok; [|exact E]. unfold nrel. cbn [n_msgs n_msg n_s0 n_s1 k_tags k_msg k_t].
    split; [exact Hj|]. split; [reflexivity|]. split; [|split; [intros; discriminate|exists 0%nat; left; auto]].
    intros m tg Hm. do 5 (destruct m as [|m]; try discriminate Hm). }
  destruct R as (_ & _ & _ & _ & g & [(Eg & A & C)|(Eg & _)]); [|lia]. cbv zeta. rewrite A, C, Hp. reflexivity.
Qed.
End Ni.

Lemma lanes_abef s v : length s = 8%nat -> length v = 8%nat -> lanes2 (wadd 32) (abef s) (abef v) = abef (sum_words 32 s v) /\ lanes2 (wadd 32) (cdgh s) (cdgh v) = cdgh (sum_words 32 s v).
Proof.
  intros Hs Hv. do 9 (destruct s as [|? s]; try discriminate Hs). do 9 (destruct v as [|? v]; try discriminate Hv). split; reflexivity.
Qed.
Lemma round_length v x : length v = 8%nat -> length (sha2_round sha2_32 v x) = 8%nat.
Proof. intros Hv. do 9 (destruct v as [|? v]; try discriminate Hv). reflexivity. Qed.
Lemma ni_iter_ok prog junk st b : ncheck_prog prog = true -> length (fst junk) = 4%nat -> length st = 8%nat -> Forall is_byte b -> length b = 64%nat ->
  ni_iter prog junk (abef st, cdgh st) b = (abef (sha2_compress sha2_32 st b), cdgh (sha2_compress sha2_32 st b)).
Proof.
  intros Hp Hj Hst Hby Hbl.
  set (Wl := sha2_schedule sha2_32 48 (words big 4 b)).
  set (V := fun t => fold_left (sha2_round sha2_32) (firstn t (combine K256 Wl)) st).
  assert (HV0 : V 0%nat = st) by reflexivity.
  assert (VL : forall t, length (V t) = 8%nat). { intros t. unfold V. apply fold_length; auto. intros; now apply round_length. }
  pose proof (ni_iter_core b Hby Hbl (get Wl) V) as C.
  rewrite <- HV0 at 1 2. rewrite C; auto.
  - destruct (lanes_abef (V 0%nat) (V 64%nat) (VL _) (VL _)) as [-> ->]. rewrite HV0.
    assert (E : sum_words 32 st (V 64%nat) = sha2_compress sha2_32 st b); [|now rewrite E].
    apply (V_end sha256_fns sha2_32 sha256_fns_ok K256 K256_eq); auto; rewrite K256_length; (lia || reflexivity).
  - intros t Ht. apply (W_low sha256_fns sha2_32 sha256_fns_ok K256) with (state := st); auto; rewrite ?K256_length; (lia || reflexivity).
  - intros t Ht. apply (W_rec sha256_fns sha2_32 sha256_fns_ok K256) with (state := st); auto; rewrite ?K256_length; (lia || reflexivity).
  - intros t Ht. apply (V_step sha256_fns sha2_32 sha256_fns_ok K256); auto; rewrite ?K256_length; (lia || reflexivity).
Qed.

Lemma ni_loop_ok prog k : ncheck_prog prog = true -> forall junk st l, (forall i, length (fst (junk i)) = 4%nat) -> length st = 8%nat -> Forall is_byte l -> (64 * k <= length l)%nat ->
  let st' := fold_left (sha2_compress sha2_32) (pieces k 64 l) st in
  ni_loop prog junk k (abef st, cdgh st) l = (abef st', cdgh st') /\ length st' = 8%nat.
Proof.
  intros Hp. induction k as [|k IH]; intros junk st l Hj Hst Hby Hl; cbn [ni_loop pieces fold_left]; [split; auto|].
  rewrite ni_iter_ok; auto; [|now apply Forall_firstn|apply firstn_length_le; lia].
  apply IH; auto.
  - apply (sha2_compress_stok sha2_32 st (firstn 64 l)); auto. reflexivity.
  - now apply Forall_skipn.
  - rewrite skipn_length. lia.
Qed.
Lemma ni_routine_ok v junk st l : (forall i, length (fst (junk i)) = 4%nat) -> length st = 8%nat -> Forall is_byte l ->
  ni_run v junk st l = fold_left (sha2_compress sha2_32) (blocks 64 l) st.
Proof.
  intros Hj Hst Hby. pose proof (Nat.div_mod (length l) 64 ltac:(lia)) as D. unfold blocks. destruct v; unfold ni_run.
  - unfold ni_routine. change [get st 5; get st 4; get st 1; get st 0] with (abef st). change [get st 7; get st 6; get st 3; get st 2] with (cdgh st).
    destruct (ni_loop_ok ni_prog (length l / 64) check_ni_prog junk st l Hj Hst Hby ltac:(lia)) as [-> L].
    set (s := fold_left _ _ st) in *. clearbody s. do 9 (destruct s as [|? s]; try discriminate L). reflexivity.
  - unfold msvc_routine. cbv zeta.
    assert (E : (palignr (pshufd (firstn 4 st) 0xB1) (pshufd (firstn 4 (skipn 4 st)) 0x1B) 2, pblend (pshufd (firstn 4 (skipn 4 st)) 0x1B) (pshufd (firstn 4 st) 0xB1) 0xF0)
                = (abef st, cdgh st)).
    { do 9 (destruct st as [|? st]; try discriminate Hst). reflexivity. }
    rewrite E.
    destruct (ni_loop_ok msvc_prog (length l / 64) check_msvc_prog junk st l Hj Hst Hby ltac:(lia)) as [-> L].
    set (s := fold_left _ _ st) in *. clearbody s. do 9 (destruct s as [|? s]; try discriminate L). reflexivity.
Qed.

Lemma blocks_one b n : (0 < n)%nat -> length b = n -> blocks n b = [b] :> list (list Z).
Proof. intros Hn Hb. unfold blocks. rewrite Hb, Nat.div_same by lia. cbn [pieces]. now rewrite firstn_all2 by lia. Qed.
Lemma ni_digest_ok v junk dsz iv buf0 chunks : (forall s b i, length (fst (junk s b i)) = 4%nat) -> stok 32 8 iv -> (dsz <= 32)%nat -> length buf0 = 64%nat -> Forall (Forall is_byte) chunks ->
  hash_run (ni_hasher v junk) little 4 dsz iv buf0 chunks = md_hash big 64 8 4 dsz (sha2_compress sha2_32) iv (concat chunks).
Proof.
  intros HJ Hiv Hd Hb Hc. refine (run_spec (ni_hasher v junk) little 4 dsz iv buf0 chunks _ 8 _ _ _ _ _ _ _ _ _); cbn [ni_hasher h_bs h_cnt h_en h_compress]; auto; try lia; try (cbn; tauto).
  intros st b [Hs _] Hby Hbl. split.
  - rewrite ni_routine_ok by auto. now rewrite blocks_one by (auto; lia).
  - apply (sha2_compress_stok sha2_32); auto. reflexivity.
Qed.

(** ** AVX2. *)
Lemma s1_512_terms_eq s : word 64 s -> s1_512_terms s = smallS1 sha2_64 s.
Proof. intros. unfold s1_512_terms. rewrite lxor_acac. cbn [smallS1 sha2_64]. rewrite <- !rot_xor by (lia || assumption). reflexivity. Qed.
Lemma s0_512_terms_eq s : word 64 s -> s0_512_terms s = smallS0 sha2_64 s.
Proof. intros. unfold s0_512_terms. rewrite lxor_acac. cbn [smallS0 sha2_64]. rewrite <- !rot_xor by (lia || assumption). reflexivity. Qed.

Lemma comp512x4_core (Wl : list Z) w s1 r : (16 <= r)%nat -> (r + 4 <= 80)%nat -> length w = 80%nat ->
  (forall t, (t < 80)%nat -> word 64 (get Wl t)) ->
  (forall t, (16 <= t < 80)%nat -> get Wl t = (smallS1 sha2_64 (get Wl (t - 2)) + get Wl (t - 7) + smallS0 sha2_64 (get Wl (t - 15)) + get Wl (t - 16)) mod 2 ^ 64) ->
  (forall u, (u < r)%nat -> get w u = get Wl u) -> s1 = map (get Wl) (seq (r - 4) 4) -> comp512x4 w s1 r = map (get Wl) (seq r 4).
Proof.
  intros Hr1 Hr2 Hw WW R Hlow ->.
  assert (SL : forall j, (7 <= j <= 16)%nat -> slice w (r - j) 4 = map (get Wl) (seq (r - j) 4)).
  { intros j Hj. apply list_eq_get. rewrite slice_length, map_length, seq_length by lia. reflexivity.
    rewrite slice_length by lia. intros i Hi. rewrite get_slice, get_map_seq by lia. apply Hlow. lia. }
  unfold comp512x4. cbv zeta. rewrite !SL by lia. rewrite !(get_map_seq (get Wl)) by lia.
  replace (r - 4 + 2)%nat with (r - 2)%nat by lia. replace (r - 4 + 3)%nat with (r - 1)%nat by lia.
  cbn [seq map lanes2 combine fst snd].
  rewrite !s0_512_terms_eq by (apply WW; lia). rewrite !s1_512_terms_eq by (apply WW; lia).
  cbn [get nth map app].
  assert (E0 : wadd 64 (wadd 64 (wadd 64 (get Wl (r - 16)) (smallS0 sha2_64 (get Wl (r - 15)))) (get Wl (r - 7))) (smallS1 sha2_64 (get Wl (r - 2))) = get Wl r).
  { rewrite (R r) by lia. modsum. }
  assert (E1 : wadd 64 (wadd 64 (wadd 64 (get Wl (S (r - 16))) (smallS0 sha2_64 (get Wl (S (r - 15))))) (get Wl (S (r - 7)))) (smallS1 sha2_64 (get Wl (r - 1))) = get Wl (S r)).
  { rewrite (R (S r)) by lia. replace (S r - 2)%nat with (r - 1)%nat by lia. replace (S r - 15)%nat with (S (r - 15)) by lia.
    replace (S r - 16)%nat with (S (r - 16)) by lia. replace (S r - 7)%nat with (S (r - 7)) by lia. modsum. }
  unfold get in E0, E1 |- *. rewrite E0, E1.
  pose proof (WW r ltac:(lia)) as W0. pose proof (WW (S r) ltac:(lia)) as W1. unfold get in W0, W1.
  rewrite !s1_512_terms_eq by assumption. assert (R' := R). unfold get in R'.
  do 2 f_equal. f_equal; [|f_equal].
  - rewrite (R' (S (S r))) by lia. replace (S (S r) - 2)%nat with r by lia. replace (S (S r) - 15)%nat with (S (S (r - 15))) by lia.
    replace (S (S r) - 16)%nat with (S (S (r - 16))) by lia. replace (S (S r) - 7)%nat with (S (S (r - 7))) by lia. modsum.
  - rewrite (R' (S (S (S r)))) by lia. replace (S (S (S r)) - 2)%nat with (S r) by lia. replace (S (S (S r)) - 15)%nat with (S (S (S (r - 15)))) by lia.
    replace (S (S (S r)) - 16)%nat with (S (S (S (r - 16)))) by lia. replace (S (S (S r)) - 7)%nat with (S (S (S (r - 7)))) by lia. modsum.
Qed.
Lemma comp512x4_ok block : Forall is_byte block -> length block = 128%nat ->
  let Wl := sha2_schedule sha2_64 64 (words big 8 block) in
  forall w s1 r, (16 <= r)%nat -> (r + 4 <= 80)%nat -> length w = 80%nat ->
  (forall u, (u < r)%nat -> get w u = get Wl u) -> s1 = map (get Wl) (seq (r - 4) 4) -> comp512x4 w s1 r = map (get Wl) (seq r 4).
Proof.
  intros Hb HL Wl w s1 r Hr1 Hr2 Hw Hlow Hs.
  assert (LM : length (words big 8 block) = 16%nat) by (rewrite words_length, HL; reflexivity).
  apply comp512x4_core; auto.
  - intros t Ht. unfold Wl. change 64 with (w2 sha2_64). apply W_word; auto; [cbn [w2 sha2_64]; lia|].
    change (w2 sha2_64) with (8 * Z.of_nat 8). now apply words_word.
  - intros t Ht. unfold Wl. apply (sha2_schedule_rec sha2_64); auto.
Qed.

(** The inlined rounds are the rounds. *)
Lemma inline_round_eq wt pat rb : inline_round sha512_fns wt pat rb = scalar_round sha512_fns wt pat rb.
Proof.
  unfold inline_round, scalar_round. destruct rb as [r bpc]. do 8 (destruct pat as [|? pat]; try reflexivity). cbv zeta.
  assert (E : forall h s c, wadd (fw sha512_fns) (wadd (fw sha512_fns) (wadd (fw sha512_fns) h wt) s) c = wadd (fw sha512_fns) wt (wadd (fw sha512_fns) (wadd (fw sha512_fns) h s) c)).
  { intros. modsum. }
  rewrite E. cbn [fCh sha512_fns]. rewrite (Z.land_comm (get r n2)). reflexivity.
Qed.
Definition erase (i : xinstr) : instr := match i with XI i => i | XRound src pat => IRound src pat end.
Lemma x_step_erase host block s i : x_step host block s i = simd_step sha512_fns 4 comp512x4 K512 host block s (erase i).
Proof. destruct i; cbn [x_step erase simd_step]; auto. now rewrite inline_round_eq. Qed.
Lemma x_run_erase host block prog : forall s, fold_left (x_step host block) prog s = fold_left (simd_step sha512_fns 4 comp512x4 K512 host block) (map erase prog) s.
Proof. induction prog; intros; cbn [fold_left map]; auto. now rewrite x_step_erase. Qed.
Lemma check_prog512x4 : check_prog 4 80 8 (map erase prog512x4) = true. Proof. vm_compute. reflexivity. Qed.
Lemma avx2_block_ok host w0 wt0 s0 st b : length w0 = 80%nat -> length wt0 = 8%nat -> length st = 8%nat -> Forall is_byte b -> length b = 128%nat ->
  avx2_block host w0 wt0 s0 st b = sha2_compress sha2_64 st b.
Proof.
  intros Hw Hwt Hst Hb Hl. unfold avx2_block. cbv zeta. rewrite x_run_erase.
  apply (simd_block_ok sha512_fns sha2_64 sha512_fns_ok K512 K512_eq) with (nt := 8%nat); auto; rewrite ?K512_length; auto; try lia;
    try (apply firstn_length_le; lia); try apply check_prog512x4; apply comp512x4_ok; auto.
Qed.
Lemma avx2_digest_ok host junk dsz iv buf0 chunks : junk_ok 80 junk -> stok 64 8 iv -> (dsz <= 64)%nat -> length buf0 = 128%nat -> Forall (Forall is_byte) chunks ->
  hash_run (avx2_hasher host junk) host 8 dsz iv buf0 chunks = md_hash big 128 16 8 dsz (sha2_compress sha2_64) iv (concat chunks).
Proof.
  intros HJ Hiv Hd Hb Hc. refine (run_spec (avx2_hasher host junk) host 8 dsz iv buf0 chunks _ 8 _ _ _ _ _ _ _ _ _); cbn [avx2_hasher h_bs h_cnt h_en h_compress]; auto; try lia; try (cbn; tauto).
  intros st b [Hs _] Hby Hbl. specialize (HJ st b). split; [apply avx2_block_ok; auto; apply firstn_length_le; lia|]. apply (sha2_compress_stok sha2_64); auto. reflexivity.
Qed.
