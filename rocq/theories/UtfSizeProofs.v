(** Output sizes, UTF-16 chunking, well-formedness of the output. *)
From Verif Require Import Base ByteSpec LebeModel UtfTables UtfSpec UtfModel IntPrintModel IntPrintProofs IntScanModel IntScanProofs Leb128Model Leb128Proofs ByteProofs UtfProofs UtfLoopProofs.
Ltac Zify.zify_post_hook ::= Z.div_mod_to_equations.

Definition fac (dcw : Z) : nat := if dcw =? 32 then 1 else if dcw =? 16 then 2 else 8.
Definition width (cw : Z) : Prop := In cw [8; 16; 32].

Lemma units_len cw nat c : width cw -> (1 <= length (get_utf_code_units cw nat c) <= fac cw)%nat.
Proof.
  intros [<-|[<-|[<-|[]]]]; unfold get_utf_code_units, fac; cbn [Z.eqb Pos.eqb]; [|destruct (c <? 65536); cbn [length]; lia|cbn [length]; lia].
  destruct (c <=? 127), (c <=? 2047), (c <=? 65535), (c <=? 1114111); cbn [length utf8_invalid]; lia.
Qed.
Lemma invalid_len cw nat : width cw -> (1 <= length (invalid_units cw nat) <= fac cw)%nat.
Proof. intros [<-|[<-|[<-|[]]]]; cbn; lia. Qed.
Lemma fac_pos cw : (1 <= fac cw)%nat. Proof. unfold fac. destruct (cw =? 32), (cw =? 16); lia. Qed.

Lemma advance_len s c r : utf8_advance s = Some (c, r) -> (length r < length s)%nat.
Proof. intros H. apply advance_local in H as (p & N & -> & _). rewrite app_length. destruct p; [contradiction|]. cbn [length]. lia. Qed.

Lemma u8_loop_len cw nat : width cw -> forall f s o r, u8_loop f cw nat s = (o, r) -> (length r <= length s /\ length o + fac cw * length r <= fac cw * length s)%nat.
Proof.
  intros Hcw. pose proof (fac_pos cw) as Hm. induction f as [|f IH]; intros s o r H; cbn [u8_loop] in H; [injection H as <- <-; cbn; lia|].
  destruct s as [|b s]; [injection H as <- <-; cbn; lia|]. destruct (b <? 128).
  - destruct (u8_loop f cw nat s) as [o1 r1] eqn:E. injection H as <- <-. apply IH in E. cbn [length]. rewrite Nat.mul_succ_r. lia.
  - destruct (utf8_advance (b :: s)) as [[c s2]|] eqn:A; [|injection H as <- <-; cbn [length]; lia].
    destruct (u8_loop f cw nat s2) as [o1 r1] eqn:E. injection H as <- <-. apply IH in E. apply advance_len in A. rewrite app_length.
    assert (Hl : (length (if Z.eqb cw 32 then [sw nat 32 c] else get_utf_code_units cw nat c) <= fac cw)%nat).
    { pose proof (units_len cw nat c Hcw). destruct (cw =? 32); [cbn [length]; lia|lia]. }
    assert (fac cw * (S (length s2)) <= fac cw * length (b :: s))%nat by (apply Nat.mul_le_mono_l; lia). rewrite Nat.mul_succ_r in *. lia.
Qed.

Lemma u8_sse_len cw nat : width cw -> forall f s o r, u8_sse_loop f cw nat s = (o, r) -> (length r <= length s /\ length o + fac cw * length r <= fac cw * length s)%nat.
Proof.
  intros Hcw. pose proof (fac_pos cw) as Hm. induction f as [|f IH]; intros s o r H; cbn [u8_sse_loop] in H; [injection H as <- <-; cbn; lia|].
  destruct (16 <? zlen s); [|injection H as <- <-; cbn; lia]. destruct s as [|b s]; [injection H as <- <-; cbn; lia|]. destruct (b <? 128).
  - cbv zeta in H. set (k := ascii_run 16 (b :: s)) in *. pose proof (ascii_run_le 16 (b :: s)) as Hk. fold k in Hk.
    destruct (u8_sse_loop f cw nat (skipn k (b :: s))) as [o1 r1] eqn:E. injection H as <- <-. apply IH in E. rewrite skipn_length in E. rewrite app_length, firstn_length.
    rewrite Nat.mul_sub_distr_l in E. assert (fac cw * k <= fac cw * length (b :: s))%nat by (apply Nat.mul_le_mono_l; lia).
    assert (k <= fac cw * k)%nat by (rewrite <- (Nat.mul_1_l k) at 1; apply Nat.mul_le_mono_r; lia). lia.
  - destruct (utf8_advance (b :: s)) as [[c s2]|] eqn:A; [|injection H as <- <-; cbn [length]; lia].
    destruct (u8_sse_loop f cw nat s2) as [o1 r1] eqn:E. injection H as <- <-. apply IH in E. apply advance_len in A. rewrite app_length.
    assert (Hl : (length (if Z.eqb cw 32 then [c] else get_utf_code_units cw nat c) <= fac cw)%nat).
    { pose proof (units_len cw nat c Hcw). destruct (cw =? 32); [cbn [length]; lia|lia]. }
    assert (fac cw * (S (length s2)) <= fac cw * length (b :: s))%nat by (apply Nat.mul_le_mono_l; lia). rewrite Nat.mul_succ_r in *. lia.
Qed.

Lemma cvt8_len sse cw nat s o r : width cw -> cvt8 sse cw nat s = (o, r) -> (length r <= length s /\ length o + fac cw * length r <= fac cw * length s)%nat.
Proof.
  intros Hcw H. unfold cvt8 in H. destruct (if sse then _ else _) as [o1 s1] eqn:E1. destruct (u8_loop (length s1) cw nat s1) as [o2 s2] eqn:E2. injection H as <- <-.
  apply (u8_loop_len cw nat Hcw) in E2. rewrite app_length. destruct sse; [apply (u8_sse_len cw nat Hcw) in E1; lia|injection E1 as <- <-; cbn [length]; lia].
Qed.

Lemma cvt16_len snat cw dnat : width cw -> forall s o r, cvt16 snat cw dnat s = (o, r) -> (length r <= length s /\ length o + fac cw * length r <= fac cw * length s)%nat.
Proof.
  intros Hcw s. pose proof (fac_pos cw) as Hm. remember (length s) as n eqn:En. revert s En. induction n as [n IH] using lt_wf_ind. intros s -> o r H.
  destruct s as [|c s1]; [injection H as <- <-; cbn; lia|]. cbn [cvt16] in H. cbn [length]. rewrite Nat.mul_succ_r.
  pose proof (invalid_len cw dnat Hcw) as HI.
  destruct (is_surrogate (sw snat 16 c)); [destruct (is_high (sw snat 16 c))|].
  - destruct s1 as [|c1 s2]; [injection H as <- <-; cbn [length]; lia|]. destruct (cvt16 snat cw dnat s2) as [o2 r2] eqn:E.
    apply (IH (length s2)) in E; [|cbn [length]; lia|reflexivity]. cbn [length]. rewrite Nat.mul_succ_r. destruct (is_low (sw snat 16 c1)).
    + injection H as <- <-. rewrite app_length. pose proof (units_len cw dnat (surrogate_to_utf32 (sw snat 16 c) (sw snat 16 c1)) Hcw). destruct (cw =? 32); cbn [length] in *; lia.
    + injection H as <- <-. rewrite app_length. lia.
  - destruct (cvt16 snat cw dnat s1) as [o2 r2] eqn:E. apply (IH (length s1)) in E; [|cbn [length]; lia|reflexivity]. injection H as <- <-. rewrite app_length. lia.
  - destruct (cvt16 snat cw dnat s1) as [o2 r2] eqn:E. apply (IH (length s1)) in E; [|cbn [length]; lia|reflexivity]. injection H as <- <-. rewrite app_length.
    pose proof (units_len cw dnat (sw snat 16 c) Hcw). destruct (cw =? 32); cbn [length] in *; lia.
Qed.

Lemma code_cvt_len sse scw snat dcw dnat s o r : width scw -> width dcw -> code_cvt sse scw snat dcw dnat s = (o, r) ->
  (length r <= length s /\ length o + fac dcw * length r <= fac dcw * length s)%nat.
Proof.
  intros Hs Hd H. pose proof (fac_pos dcw) as Hm. unfold code_cvt in H.
  destruct ((scw =? dcw) && (Bool.eqb snat dnat || (scw =? 8))).
  { injection H as <- <-. cbn [length]. assert (length s <= fac dcw * length s)%nat by (rewrite <- (Nat.mul_1_l (length s)) at 1; apply Nat.mul_le_mono_r; lia). lia. }
  destruct (scw =? dcw); [injection H as <- <-; cbn [length]; lia|]. destruct (scw =? 32).
  { unfold cvt32 in H. injection H as <- <-. split; [cbn; lia|]. rewrite Nat.mul_0_r, Nat.add_0_r. induction s as [|c s IH]; [cbn; lia|].
    cbn [flat_map length]. rewrite app_length, Nat.mul_succ_r. pose proof (units_len dcw dnat c Hd). lia. }
  destruct (scw =? 16); [apply (cvt16_len snat dcw dnat Hd _ _ _ H)|apply (cvt8_len sse dcw dnat _ _ _ Hd H)].
Qed.

Lemma full_reserve_fac scw dcw (s : list Z) : width dcw -> full_reserve scw dcw (zlen s) = Z.of_nat (fac dcw * length s).
Proof. intros [<-|[<-|[<-|[]]]]; unfold full_reserve, fac, zlen; cbn [Z.eqb Pos.eqb]; lia. Qed.

Lemma sse_end_bound cw nat : In cw [16; 32] -> forall f p s, 0 <= p -> u8_sse_end f cw nat p s <= p + Z.of_nat (fac cw * length s).
Proof.
  intros Hcw. assert (Hw : width cw) by (destruct Hcw as [<-|[<-|[]]]; cbn; auto). pose proof (fac_pos cw) as Hm.
  induction f as [|f IH]; intros p s Hp; cbn [u8_sse_end]; [lia|]. destruct (16 <? zlen s) eqn:E; [|lia]. zbool. unfold zlen in E.
  destruct s as [|b s]; [lia|]. destruct (b <? 128).
  - cbv zeta. set (k := ascii_run 16 (b :: s)). pose proof (ascii_run_le 16 (b :: s)) as Hk. fold k in Hk.
    specialize (IH (p + Z.of_nat k) (skipn k (b :: s)) ltac:(lia)). rewrite skipn_length in IH.
    assert (length (b :: s) <= fac cw * length (b :: s))%nat by (rewrite <- (Nat.mul_1_l (length (b :: s))) at 1; apply Nat.mul_le_mono_r; lia).
    rewrite Nat.mul_sub_distr_l in IH. assert (fac cw * k <= fac cw * length (b :: s))%nat by (apply Nat.mul_le_mono_l; lia).
    assert (k <= fac cw * k)%nat by (rewrite <- (Nat.mul_1_l k) at 1; apply Nat.mul_le_mono_r; lia). lia.
  - destruct (utf8_advance (b :: s)) as [[c s2]|] eqn:A; [|lia]. apply advance_len in A.
    set (l := if cw =? 32 then [c] else get_utf_code_units cw nat c). assert (Hl : (length l <= fac cw)%nat).
    { unfold l. pose proof (units_len cw nat c Hw). destruct (cw =? 32); [cbn [length]; lia|lia]. }
    specialize (IH (p + zlen l) s2). unfold zlen in *. assert (fac cw * (S (length s2)) <= fac cw * length (b :: s))%nat by (apply Nat.mul_le_mono_l; lia). rewrite Nat.mul_succ_r in *. lia.
Qed.

(** ** State calls *)
Lemma state8_len sse cw nat st s o r : width cw -> (length st <= 7)%nat -> cvt8_state sse cw nat st s = (o, r) ->
  (length o <= fac cw * length s + fac cw * 7)%nat.
Proof.
  intros Hcw Hst H. unfold cvt8_state in H. pose proof (fac_pos cw) as Hm. destruct st as [|b st].
  { destruct (cvt8 sse cw nat s) as [o1 r1] eqn:E. injection H as <- <-. apply cvt8_len in E; [|exact Hcw]. lia. }
  destruct s as [|u s]; [injection H as <- <-; cbn [length]; lia|]. cbv zeta in H.
  match type of H with match ?x with _ => _ end = _ => destruct x as [[c rest]|] eqn:A end; [|injection H as <- <-; cbn [length]; lia].
  match type of H with context [cvt8 sse cw nat ?x] => set (t := x) in * ; assert (Ht : (length t <= length (u :: s))%nat) by (unfold t; rewrite skipn_length; lia) end.
  destruct (cvt8 sse cw nat t) as [o1 r1] eqn:E. injection H as <- <-. apply cvt8_len in E; [|exact Hcw]. rewrite app_length.
  pose proof (units_len cw nat c Hcw). assert (fac cw * length t <= fac cw * length (u :: s))%nat by (apply Nat.mul_le_mono_l; exact Ht).
  destruct (cw =? 32); cbn [length] in *; lia.
Qed.
Lemma state16_len snat cw dnat st s o r : width cw -> cvt16_state snat cw dnat st s = (o, r) -> (length o <= fac cw * length s + fac cw * 1)%nat.
Proof.
  intros Hcw H. unfold cvt16_state in H. pose proof (fac_pos cw) as Hm. destruct st as [|h st]; [apply cvt16_len in H; [lia|exact Hcw]|].
  destruct s as [|v s]; [injection H as <- <-; cbn [length]; lia|]. pose proof (invalid_len cw dnat Hcw) as HI.
  destruct (is_low (sw snat 16 v)).
  - destruct (cvt16 snat cw dnat s) as [o1 r1] eqn:E. injection H as <- <-. apply cvt16_len in E; [|exact Hcw]. rewrite app_length. cbn [length]. rewrite Nat.mul_succ_r.
    match goal with |- (length (if _ then _ else get_utf_code_units _ _ ?c) + _ <= _)%nat => pose proof (units_len cw dnat c Hcw) end. destruct (cw =? 32); cbn [length] in *; lia.
  - destruct (cvt16 snat cw dnat (v :: s)) as [o1 r1] eqn:E. injection H as <- <-. apply cvt16_len in E; [|exact Hcw]. rewrite app_length. lia.
Qed.

(** ** UTF-16 chunks *)
Lemma paired_suffix p s : paired16 (p ++ s) -> paired16 s.
Proof. intros H a h l q ->. apply (H (p ++ a) h l q). rewrite <- app_assoc. reflexivity. Qed.

Lemma cvt16_app cw : In cw [8; 32] -> forall s t, Forall is_u16 s -> Forall is_u16 t ->
  cvt16 true cw true (s ++ t) = let '(o, r) := cvt16 true cw true s in let '(o2, r2) := cvt16 true cw true (r ++ t) in (o ++ o2, r2).
Proof.
  intros Hcw s t Hs Ht. remember (length s) as n eqn:En. revert s En Hs. induction n as [n IH] using lt_wf_ind. intros s -> Hs.
  destruct (step16_total s Hs) as [->|[(h & Hh & ->)|(c & s' & St & L & Hs')]].
  - cbn [app cvt16]. destruct (cvt16 true cw true t); reflexivity.
  - replace (cvt16 true cw true [h]) with (@nil Z, [h]); [destruct (cvt16 true cw true ([h] ++ t)); reflexivity|].
    cbn [cvt16 sw]. rewrite surr_true by (unfold hi_unit in Hh; lia). rewrite high_true by exact Hh. reflexivity.
  - destruct (cvt16_step cw s c s' Hcw Hs St) as [_ E]. rewrite E.
    assert (St' : step16 (s ++ t) c (s' ++ t)) by (destruct St; cbn [app]; constructor; assumption).
    destruct (cvt16_step cw (s ++ t) c (s' ++ t) Hcw (proj2 (Forall_app _ _ _) (conj Hs Ht)) St') as [_ E']. rewrite E'.
    rewrite (IH (length s') L s' eq_refl Hs'). destruct (cvt16 true cw true s') as [o r]. destruct (cvt16 true cw true (r ++ t)). rewrite app_assoc. reflexivity.
Qed.
Lemma cvt16_left cw : In cw [8; 32] -> forall s o r, Forall is_u16 s -> cvt16 true cw true s = (o, r) ->
  (r = [] \/ exists h, hi_unit h /\ r = [h]) /\ exists p, s = p ++ r.
Proof.
  intros Hcw s. remember (length s) as n eqn:En. revert s En. induction n as [n IH] using lt_wf_ind. intros s -> o r Hs H.
  destruct (step16_total s Hs) as [->|[(h & Hh & ->)|(c & s' & St & L & Hs')]].
  - injection H as <- <-. split; [auto|]. exists []. reflexivity.
  - cbn [cvt16 sw] in H. rewrite surr_true in H by (unfold hi_unit in Hh; lia). rewrite high_true in H by exact Hh. injection H as <- <-. split; [right; eauto|]. exists []. reflexivity.
  - destruct (cvt16_step cw s c s' Hcw Hs St) as [_ E]. rewrite E in H. destruct (cvt16 true cw true s') as [o' r'] eqn:D. injection H as <- <-.
    destruct (IH _ L s' eq_refl _ _ Hs' D) as [Q (p & Ep)]. split; [exact Q|]. destruct St as [u s| h l s|h l s|l s]; subst; [exists (u :: p)|exists (h :: l :: p)|exists (h :: l :: p)|exists (l :: p)]; reflexivity.
Qed.

Lemma state16_step cw st s : In cw [8; 32] -> (st = [] \/ exists h, hi_unit h /\ st = [h]) -> Forall is_u16 s -> paired16 (st ++ s) ->
  cvt16_state true cw true st s = cvt16 true cw true (st ++ s).
Proof.
  intros Hcw [->|(h & Hh & ->)] Hs HP; [reflexivity|]. destruct s as [|v s].
  - cbn [app cvt16_state cvt16 sw]. rewrite surr_true by (unfold hi_unit in Hh; lia). rewrite high_true by exact Hh. reflexivity.
  - assert (Hv : lo_unit v) by (apply (HP [] h v s eq_refl Hh)). cbn [cvt16_state app cvt16 sw]. rewrite low_true by exact Hv.
    rewrite surr_true by (unfold hi_unit in Hh; lia). rewrite high_true by exact Hh. destruct (cvt16 true cw true s). reflexivity.
Qed.

Lemma run16 cw : In cw [8; 32] -> forall chunks st, (st = [] \/ exists h, hi_unit h /\ st = [h]) -> Forall (Forall is_u16) chunks -> paired16 (st ++ concat chunks) ->
  run_chunks (cvt16_state true cw true) st chunks = cvt16 true cw true (st ++ concat chunks).
Proof.
  intros Hcw. induction chunks as [|c cs IH]; intros st Hst Hc HP; cbn [run_chunks concat] in *.
  - rewrite app_nil_r. destruct Hst as [->|(h & Hh & ->)]; [reflexivity|]. cbn [cvt16 sw]. rewrite surr_true by (unfold hi_unit in Hh; lia). rewrite high_true by exact Hh. reflexivity.
  - inversion Hc as [|? ? Hc1 Hcs]; subst. assert (HCs : Forall is_u16 (concat cs)) by (clear - Hcs; induction Hcs; cbn [concat]; [constructor|apply Forall_app; auto]).
    assert (HB : Forall is_u16 (st ++ c)) by (apply Forall_app; split; [|exact Hc1]; destruct Hst as [->|(h & Hh & ->)]; repeat constructor; unfold hi_unit in *; lia).
    rewrite state16_step; [|exact Hcw|exact Hst|exact Hc1|].
    2:{ intros p h l q E. apply (HP p h l (q ++ concat cs)). rewrite app_assoc, E, <- app_assoc. reflexivity. }
    rewrite app_assoc in HP |- *. rewrite (cvt16_app cw Hcw (st ++ c) (concat cs)) by assumption.
    destruct (cvt16 true cw true (st ++ c)) as [o r] eqn:E. destruct (cvt16_left cw Hcw _ _ _ HB E) as [Hr (p & Ep)].
    rewrite IH; [reflexivity|exact Hr|exact Hcs|]. apply (paired_suffix p). rewrite app_assoc, <- Ep. exact HP.
Qed.

(** ** Output well-formedness *)
Lemma text_wf8 cs : Forall scalar cs -> wf8 (utf_text 8 cs).
Proof. intros H. induction H as [|c cs Hc Hcs IH]; [constructor|]. unfold utf_text. cbn [flat_map]. apply wf8_app; [apply utf8_wf, Hc|exact IH]. Qed.
Lemma wf8_text s : wf8 s -> exists cs, Forall scalar cs /\ s = utf_text 8 cs.
Proof.
  intros H. induction H as [|s t Hs Ht (cs & Hcs & ->)]; [exists []; split; [constructor|reflexivity]|].
  apply wf8_seq_utf8 in Hs as (c & Hc & ->). exists (c :: cs). split; [constructor; assumption|reflexivity].
Qed.

(** What one decodes from arbitrary bytes: a sequence of scalars. *)
Lemma dec8_scalars cw s : In cw [16; 32] -> Forall is_byte s -> exists cs, Forall scalar cs /\ (length cs <= length s)%nat /\ fst (dec8 cw true s) = utf_text cw cs.
Proof.
  intros Hcw. revert s. apply (dec8_ind (fun s => exists cs, Forall scalar cs /\ (length cs <= length s)%nat /\ fst (dec8 cw true s) = utf_text cw cs)).
  - intros s Hs A. rewrite dec8_step by assumption. rewrite A. exists []. repeat split; [constructor|cbn; lia].
  - intros s c r Hs A (cs & Hcs & L & E). rewrite dec8_step by assumption. rewrite A. destruct (dec8 cw true r) as [o r']. cbn [fst] in *.
    pose proof (advance_scalar s c r Hs A) as Sc. exists (c :: cs). split; [constructor; assumption|]. apply advance_len in A. split; [cbn [length]; lia|].
    unfold utf_text in *. cbn [flat_map]. rewrite E. f_equal. apply units_spec; [destruct Hcw as [<-|[<-|[]]]; cbn; auto|apply Sc].
Qed.

Lemma dec8_decodes cw s : In cw [16; 32] -> Forall is_byte s ->
  exists cs, decodes s cs (snd (dec8 cw true s)) /\ fst (dec8 cw true s) = utf_text cw cs.
Proof.
  intros Hcw. revert s. apply (dec8_ind (fun s => exists cs, decodes s cs (snd (dec8 cw true s)) /\ fst (dec8 cw true s) = utf_text cw cs)).
  - intros s Hs A. rewrite dec8_step by assumption. rewrite A. exists []. split; [|reflexivity]. cbn [snd].
    destruct s as [|b s]; [apply dec_end|apply dec_unfinished, none_prefix; [exact Hs|discriminate|exact A]].
  - intros s c r Hs A (cs & D & E). rewrite dec8_step by assumption. rewrite A. pose proof (advance_scalar s c r Hs A) as Sc.
    destruct (dec8 cw true r) as [o r']. cbn [fst snd] in *. exists (c :: cs). split.
    + apply advance_sound in A as [[_ ->]|[-> (bad & -> & B)]]; [apply dec_char; assumption|apply dec_bad; assumption|exact Hs].
    + unfold utf_text in *. cbn [flat_map]. rewrite E. f_equal. apply units_spec; [destruct Hcw as [<-|[<-|[]]]; cbn; auto|apply Sc].
Qed.

Lemma text_wf16 cs : Forall scalar cs -> wf16 (utf_text 16 cs).
Proof.
  intros H. induction H as [|c cs [Hc Hn] Hcs IH]; [constructor|]. unfold utf_text. cbn [flat_map]. change (utf_units 16 c) with (utf16 c). unfold utf16.
  destruct (c <? 65536) eqn:E; zbool; cbn [app]; [apply wf16_bmp|apply wf16_pair]; unfold hi_unit, lo_unit; try lia; exact IH.
Qed.
Lemma text_u16 cs : Forall scalar cs -> Forall is_u16 (utf_text 16 cs).
Proof.
  intros H. apply Forall_flat_map. eapply Forall_impl; [|exact H]. intros a [Ha _]. change (utf_units 16 a) with (utf16 a).
  unfold utf16. destruct (a <? 65536) eqn:E; zbool; repeat constructor; unfold is_u16; lia.
Qed.
Lemma text_bytes cs : Forall scalar cs -> Forall is_byte (utf_text 8 cs).
Proof. intros H. apply Forall_flat_map. eapply Forall_impl; [|exact H]. intros a Ha. apply utf8_bytes, Ha. Qed.
Lemma text_units cw cs : width cw -> Forall scalar cs -> flat_map (get_utf_code_units cw true) cs = utf_text cw cs.
Proof.
  intros Hcw H. induction H as [|c cs Hc Hcs IH]; [reflexivity|]. unfold utf_text in *. cbn [flat_map]. rewrite IH. f_equal. apply units_spec; [exact Hcw|apply Hc].
Qed.
Lemma text32 cs : utf_text 32 cs = cs.
Proof. induction cs as [|c cs IH]; [reflexivity|]. unfold utf_text in *. cbn [flat_map]. rewrite IH. reflexivity. Qed.

Lemma code_cvt_text sse a b cs : width a -> width b -> Forall scalar cs -> code_cvt sse a true b true (utf_text a cs) = (utf_text b cs, []).
Proof.
  intros Ha Hb H. unfold code_cvt. cbn [Bool.eqb orb]. rewrite andb_true_r. destruct (Z.eqb_spec a b) as [->|N]; [reflexivity|].
  destruct Ha as [<-|[<-|[<-|[]]]]; cbn [Z.eqb Pos.eqb].
  - assert (Hb' : In b [16; 32]) by (destruct Hb as [<-|[<-|[<-|[]]]]; cbn; auto; contradiction).
    rewrite cvt8_dec by (try apply text_bytes; assumption). rewrite <- (app_nil_r (utf_text 8 cs)), dec8_text by (auto; constructor).
    rewrite text_units by assumption. cbn [dec8 length u8_loop]. unfold dec8. cbn [length u8_loop]. rewrite app_nil_r. reflexivity.
  - assert (Hb' : In b [8; 32]) by (destruct Hb as [<-|[<-|[<-|[]]]]; cbn; auto; contradiction).
    rewrite <- (app_nil_r (utf_text 16 cs)), cvt16_text by (auto; constructor). cbn [cvt16]. rewrite app_nil_r. reflexivity.
  - unfold cvt32. rewrite text32, text_units by assumption. reflexivity.
Qed.
