(** Proofs about the scan driver: an IPv4 address. *)
From Coq Require Import String List.
From Verif Require Import Base NumSpec ScanSpec ByteSpec IntPrintModel IntPrintProofs IntPrintCorrect IntScanModel IntScanProofs IntSseProofs IntRoundProofs IntCtxProofs
  TimeTextModel TimeTextProofs IpSpec IpModel IpProofs IpScanProofs IpCtxModel IpCtxProofs PropsIp LineModel LineSpec ScanDrvModel ScanDrvProofs.

Section Ctx.
Variable cw : Z.
Variable sse : bool.
Hypothesis Hcw : In cw char_widths.

Lemma inv_nonneg todo int vs T k B : inv cw todo int vs T k B -> 0 <= k.
Proof.
  intros H. inversion H as [? ? ? ? ? ? _ _ F|? w ? ? v vs' pre cs t k' ? Hw Hv N Hpre Hint Hn F|]; subst; try lia.
  - exact (fits_nonneg cw _ _ _ _ F).
  - pose proof (fits_nonneg cw _ _ _ _ F). pose proof (zlen_nonneg cs). lia.
Qed.
Lemma inv_short todo int vs T k B : inv cw todo int vs T k B -> k <= zlen T.
Proof.
  assert (FS : forall todo vs t k, fits cw todo vs t k -> k <= zlen t).
  { induction 1; rewrite ?zlen_app, ?zlen_cons; try lia. apply zlen_nonneg. }
  intros H. inversion H as [? ? ? ? ? ? _ _ F|? w ? ? v vs' pre cs t k' ? Hw Hv N Hpre Hint Hn F|]; subst; rewrite ?zlen_app.
  - exact (FS _ _ _ _ F).
  - pose proof (FS _ _ _ _ F). lia.
  - apply zlen_nonneg.
Qed.

Lemma ip_ctx : forall src buf st vs k B, inv cw (ip_todo st) (ip_int st) vs (buf ++ concat src) k B -> ip_todo st <> [] -> todo_ok (ip_todo st) ->
  (forall s1 s2, src = s1 ++ s2 -> concat s2 <> [] -> zlen (buf ++ concat s1) <= k -> ~ cut_after_zero (B ++ buf ++ concat s1)) ->
  Forall (fun c => c <> []) src ->
  gives (ctx_scan (ip_define cw sse) (ip_at_eof cw sse) st buf src) (fun x => ip_vals x = ip_vals st ++ vs) (skipn (Z.to_nat k) (buf ++ concat src)).
Proof.
  induction src as [|c src IH]; intros buf st vs k B HI Hne Hok Hcut Hs; pose proof (inv_nonneg _ _ _ _ _ _ HI) as Hk; pose proof (inv_short _ _ _ _ _ _ HI) as Hk2.
  - cbn [concat] in *. rewrite app_nil_r in *.
    destruct (feed_ok cw sse Hcw (ip_todo st) (ip_int st) (ip_vals st) 0 buf [] vs k B) as (st' & ec & u & E & G).
    { rewrite app_nil_r. exact HI. } { exact Hok. } { intros N; contradiction. }
    cbn [ctx_scan]. unfold ip_define. rewrite E. destruct G as [(-> & Eu & Ht & Ho & vs' & Ev & HI')|(-> & Eu & Ev & Lu)].
    + rewrite (proj2 (Nat.ltb_ge _ _)) by (unfold zlen in Eu; lia).
      assert (R : ip_run cw sse st' 0 [] = Some (pc_ok, 0 + (k - zlen buf), ip_vals st' ++ vs')).
      { apply (run_ok cw sse Hcw [] st' 0 vs' (k - zlen buf) (B ++ buf)); auto. intros [|? ?] cs2 E2; [|discriminate]. cbn in E2. subst cs2. intros N; contradiction. }
      cbn [ip_run] in R. unfold at_eof, ip_at_eof. destruct (ip_eof cw sse st') as [[code vals]|]; [|discriminate]. injection R as -> Hz ->.
      eexists _, _, _. split; [reflexivity|]. split; [exact Ev|]. split; [|constructor]. cbn. replace (Z.to_nat k) with (length buf) by (unfold zlen in *; lia).
      apply skipn_all.
    + rewrite (proj2 (Nat.ltb_ge _ _)) by (unfold zlen in *; lia). eexists _, _, _. split; [reflexivity|]. split; [exact Ev|].
      split; [|constructor]. rewrite Eu. cbn [concat]. rewrite app_nil_r. reflexivity.
  - destruct (feed_ok cw sse Hcw (ip_todo st) (ip_int st) (ip_vals st) 0 buf (concat (c :: src)) vs k B HI Hok) as (st' & ec & u & E & G).
    { intros N L. pose proof (Hcut [] (c :: src) eq_refl N) as H. cbn [concat] in H. rewrite app_nil_r in H. apply H. exact L. }
    cbn [ctx_scan]. unfold ip_define at 1. rewrite E. destruct G as [(-> & Eu & Ht & Ho & vs' & Ev & HI')|(-> & Eu & Ev & Lu)].
    + rewrite (proj2 (Nat.ltb_ge _ _)) by (unfold zlen in Eu; lia).
      pose proof (Forall_inv Hs) as H1; pose proof (Forall_inv_tail Hs) as H2. destruct c as [|x c]; [contradiction|].
      pose proof (inv_nonneg _ _ _ _ _ _ HI') as Hge.
      specialize (IH (x :: c) st' vs' (k - zlen buf) (B ++ buf) HI' Ht Ho). rewrite Ev in IH.
      rewrite skipn_app, skipn_all2 by (unfold zlen in Hge; lia). cbn [app].
      replace (Z.to_nat k - length buf)%nat with (Z.to_nat (k - zlen buf)) by (unfold zlen; lia). apply IH; [|exact H2].
      intros s1 s2 Es N L. pose proof (Hcut ((x :: c) :: s1) s2) as H. cbn [concat] in H. rewrite <- app_assoc. apply H; [rewrite Es; reflexivity|exact N|].
      rewrite zlen_app. lia.
    + rewrite (proj2 (Nat.ltb_ge _ _)) by (unfold zlen in *; lia). eexists _, _, _. split; [reflexivity|]. split; [exact Ev|].
      split; [|exact Hs]. rewrite Eu, skipn_app. replace (Z.to_nat k - length buf)%nat with O by (unfold zlen in *; lia). reflexivity.
Qed.
End Ctx.

(** An address in the text, with its port. *)
Definition ip_text (port : bool) (a b c d p : Z) (t : list Z) : Prop :=
  exists v4 pt, v4_text a b c d v4 /\ is_numeral 10 false p pt /\ t = v4 ++ (if port then 58 :: pt else []).

Lemma ip_fits port cw a b c d p t ws rest : In cw char_widths -> octet a -> octet b -> octet c -> octet d -> 0 <= p < 65536 ->
  ip_text port a b c d p t -> Forall c_space ws -> units cw rest -> no_digit_first 10 rest ->
  fits cw (ip_items port) ([a; b; c; d] ++ (if port then [p] else [])) (ws ++ t ++ rest) (zlen (ws ++ t)).
Proof.
  intros Hcw Ha Hb Hc Hd Hp (v4 & pt & T & NP & ->) Hws Hr Hn. destruct port; cbn [ip_items].
  - assert (Fp : fits cw [ISep 58; IField false 16] [p] (58 :: pt ++ rest) (zlen pt + 0 + 1)).
    { constructor; [apply cw_ascii; auto; lia|rewrite is_digit10; lia|].
      apply (fits_field cw false 16 [] p [] [] pt rest 0); auto; [right; left; auto|]. constructor; auto. }
    pose proof (v4_fits cw Hcw a b c d v4 ws (58 :: pt ++ rest) [p] (zlen pt + 0 + 1) [ISep 58; IField false 16] Ha Hb Hc Hd T Hws) as V.
    rewrite <- (app_assoc v4). cbn [app].
    replace (zlen (ws ++ v4 ++ 58 :: pt)) with (zlen ws + zlen v4 + (zlen pt + 0 + 1)) by (rewrite !zlen_app, zlen_cons; lia).
    apply V; [cbn; rewrite is_digit10; lia|exact Fp].
  - rewrite !app_nil_r. pose proof (v4_fits cw Hcw a b c d v4 ws rest [] 0 [] Ha Hb Hc Hd T Hws Hn) as V. rewrite app_nil_r in V.
    replace (zlen (ws ++ v4)) with (zlen ws + zlen v4 + 0) by (rewrite zlen_app; lia). apply V. constructor; auto.
Qed.
Lemma ip_scan port cw sse a b c d p t rest : In cw char_widths -> octet a -> octet b -> octet c -> octet d -> 0 <= p < 65536 ->
  ip_text port a b c d p t -> units cw rest -> no_digit_first 10 rest ->
  scan_ipv4 port cw sse (t ++ rest) = SGo ([a; b; c; d], if port then p else 0, rest).
Proof.
  intros Hcw Ha Hb Hc Hd Hp (v4 & pt & T & NP & ->) Hr Hn. unfold scan_ipv4. rewrite <- app_assoc. destruct port.
  - rewrite (scan_v4_ok cw sse a b c d v4); auto.
    + cbn [sbind app]. rewrite (scan_port_ok cw sse p) by auto. reflexivity.
    + cbn [app]. constructor; [apply cw_ascii; auto; lia|]. apply units_app; auto. eapply numeral_units; eauto.
    + cbn. rewrite is_digit10. lia.
  - cbn [app]. rewrite (scan_v4_ok cw sse a b c d v4); auto.
Qed.

Lemma ip_piece port cw sse a b c d p t rest : In cw char_widths -> octet a -> octet b -> octet c -> octet d -> 0 <= p < 65536 ->
  ip_text port a b c d p t -> units cw rest -> no_digit_first 10 rest ->
  forall src buf, Forall (fun c => c <> []) src -> buf ++ concat src = t ++ rest ->
  (forall n, (0 < n <= length t)%nat -> ~ cut_at buf src n) ->
  gives (both_scan (ip_contig port cw sse) (ip_define cw sse) (ip_at_eof cw sse) (ip_init port) buf src)
    (fun x => ip_vals x = [a; b; c; d] ++ (if port then [p] else [])) rest.
Proof.
  intros Hcw Ha Hb Hc Hd Hp Ht Hr Hn src buf Hs HT Hcut.
  assert (Hctx : gives (ctx_scan (ip_define cw sse) (ip_at_eof cw sse) (ip_init port) buf src) (fun x => ip_vals x = [a; b; c; d] ++ (if port then [p] else [])) rest).
  { pose proof (ip_fits port cw a b c d p t [] rest Hcw Ha Hb Hc Hd Hp Ht (Forall_nil _) Hr Hn) as F. cbn [app] in F. rewrite <- HT in F.
    assert (HI : inv cw (ip_todo (ip_init port)) (ip_int (ip_init port)) ([a; b; c; d] ++ (if port then [p] else [])) (buf ++ concat src) (zlen t) []).
    { apply inv_start; [reflexivity|destruct port; exact eq_refl|exact F|]. destruct port; intros q x Ex; destruct q; discriminate. }
    pose proof (ip_ctx cw sse Hcw src buf (ip_init port) _ _ _ HI) as G. rewrite HT in G. unfold zlen in G. rewrite Nat2Z.id, skipn_app, skipn_all, Nat.sub_diag in G.
    cbn [app skipn] in G. apply G.
    - destruct port; discriminate.
    - destruct port; cbn; repeat split; auto.
    - intros s1 s2 E N L (pre & Ep & _). apply (Hcut (length (buf ++ concat s1))).
      + assert (length (buf ++ concat s1) <> 0)%nat; [|lia]. intros Z0. apply length_zero_iff_nil in Z0. rewrite Z0 in Ep. cbn in Ep. destruct pre; discriminate.
      + exists s1, s2. repeat split; auto. intros ->. apply N. reflexivity.
    - exact Hs. }
  unfold both_scan. destruct (app_split _ _ _ _ HT) as [(t2 & E1 & E2)|(r1 & Nr & E1 & E2)].
  - destruct t2 as [|y t2].
    + rewrite app_nil_r in E1. unfold ip_contig. pose proof (ip_scan port cw sse a b c d p t [] Hcw Ha Hb Hc Hd Hp Ht (Forall_nil _) I) as S. rewrite app_nil_r, E1 in S. rewrite S.
      cbn [length]. rewrite Nat.sub_0_r, Nat.eqb_refl. exact Hctx.
    + destruct buf as [|x buf].
      * assert (S : exists st code, ip_contig port cw sse [] = Some (st, 0%nat, code)) by (unfold ip_contig, scan_ipv4; cbn; eexists _, _; reflexivity).
        destruct S as (st & code & ->). exact Hctx.
      * exfalso. destruct src as [|ch src]; [discriminate E2|]. apply (Hcut (length (x :: buf))); [rewrite E1, app_length; cbn [length]; lia|].
        exists [], (ch :: src). repeat split; [discriminate|]. cbn [concat]. rewrite app_nil_r. reflexivity.
  - assert (Hr1 : units cw r1) by (rewrite E2 in Hr; apply Forall_app in Hr; apply Hr).
    assert (Hn1 : no_digit_first 10 r1) by (destruct r1; [contradiction|]; rewrite E2 in Hn; exact Hn).
    unfold ip_contig. rewrite E1, (ip_scan port cw sse a b c d p t r1) by assumption. rewrite app_length.
    replace (length t + length r1 - length r1)%nat with (length t) by lia.
    assert (Lr : (length r1 <> 0)%nat) by (destruct r1; [contradiction|cbn; lia]).
    rewrite (proj2 (Nat.eqb_neq _ _)) by lia. rewrite (proj2 (Nat.ltb_ge _ _)) by lia. rewrite skipn_app, skipn_all, Nat.sub_diag. cbn [app skipn].
    eexists _, _, _. split; [reflexivity|]. split; [|split; [exact E2|exact Hs]]. cbn [ip_vals]. destruct port; reflexivity.
Qed.
Lemma ip_nothing port cw sse : exists st, both_scan (ip_contig port cw sse) (ip_define cw sse) (ip_at_eof cw sse) (ip_init port) [] [] = Scanned false st [] [].
Proof. destruct port; eexists; reflexivity. Qed.
