(** Properties C134 and C135: scanning a unix timestamp, or one with another epoch, from a stream. *)
From Coq Require Import String.
From Coq Require Import List.
From Verif Require Import Base NumSpec NumFacts IntPrintModel IntPrintProofs IntScanModel ScanSpec
  IntScanProofs IpAcceptProofs TimeSpec TimeModel TimeTextSpec TimeTextModel TimeTextProofs TimeScanProofs TimeCtxModel TimeCtxProofs
  UnixCtxSpec UnixCtxModel UnixCtxProofs.
Import ListNotations.

Section GRAMMAR.
  Context (cw : Z) (Hw : In cw char_widths).
  Notation tk := (take_dec cw). Notation dr := (drop_dec cw).
  Lemma after_dec c r : units cw (c :: r) -> (is_dec cw c = false <-> after_number (c :: r)).
  Proof.
    intros U. pose proof (is_dec_iff cw Hw c (Forall_inv U)) as D. unfold dec_char in D. cbn [after_number].
    destruct (is_dec cw c); split; intros H; try congruence; try tauto. intros K. apply D in K. discriminate.
  Qed.
  Lemma run_at d r : Forall dec_char d -> units cw r -> after_number r -> tk (d ++ r) = d /\ dr (d ++ r) = r.
  Proof.
    intros Hd U A. assert (Hd' : Forall (fun c => is_dec cw c = true) d) by (eapply Forall_impl; [|exact Hd]; intros c; apply dec_is; exact Hw).
    rewrite take_app, drop_app by exact Hd'. destruct r as [|c r]; cbn [take_dec drop_dec]; [now rewrite app_nil_r|].
    apply after_dec in A; [|exact U]. rewrite A, app_nil_r. auto.
  Qed.
  Lemma after_run s : units cw s -> after_number (dr s).
  Proof.
    intros U. destruct (dr s) as [|c r] eqn:E; [exact I|]. apply after_dec.
    - rewrite <- (take_drop cw s), E in U. apply Forall_app in U. tauto.
    - exact (drop_head cw s c r E).
  Qed.
  Lemma run_decs s : units cw s -> Forall dec_char (tk s).
  Proof. intros U. apply (decs cw Hw); [|apply take_all]. rewrite <- (take_drop cw s) in U. apply Forall_app in U. tauto. Qed.
  Lemma zeros_split s : exists k, s = repeat 48 k ++ skip_zeros s.
  Proof.
    induction s as [|c s (k & IH)]; cbn [skip_zeros]; [now exists O|]. destruct (Z.eqb_spec c 48) as [->|N]; [|now exists O].
    exists (Datatypes.S k). cbn [repeat app]. now rewrite <- IH.
  Qed.
  Lemma zeros_at k s : (match s with c :: _ => c <> 48 | [] => True end) -> skip_zeros (repeat 48 k ++ s) = s.
  Proof.
    intros H. induction k as [|k IH]; cbn [repeat app skip_zeros Z.eqb]; [|exact IH]. destruct s as [|c s]; [reflexivity|].
    cbn [skip_zeros]. now destruct (Z.eqb_spec c 48).
  Qed.
  Lemma range64 v : in_rangeb int64_ty v = true <-> - 2 ^ 63 <= v < 2 ^ 63.
  Proof. rewrite in_rangeb_spec. unfold in_range. change (int_min int64_ty) with (- 2 ^ 63). change (int_max int64_ty) with (2 ^ 63 - 1). lia. Qed.
  Lemma units_small_app a b : units cw (a ++ b) -> units cw a /\ units cw b. Proof. apply Forall_app. Qed.

  (** From the first digit on. *)
  Definition body (neg : bool) (sec sub : Z) (txt : list Z) : Prop :=
    exists zeros ds fs, digits_ok 10 ds /\ digits_ok 10 fs /\ 1 <= zlen fs <= 19 /\
    (zeros = O -> ds <> []) /\ hd 1 ds <> 0 /\ zlen ds <= (if neg then 18 else 19) /\
    txt = repeat 48 zeros ++ map (digit_char false) ds ++ text "." ++ map (digit_char false) fs /\
    sec = (if neg then - value_of 10 ds else value_of 10 ds) /\ sec < 2 ^ 63 /\
    sub = value_of 10 fs * 10 ^ (19 - zlen fs).
  Lemma body_iff neg T sec sub rest : units cw T -> no_long_fraction T ->
    (m_zero cw neg T = Some (mk_stamp sec sub, rest) <-> exists txt, T = txt ++ rest /\ body neg sec sub txt /\ after_number rest).
  Proof.
    intros U NL. split.
    - destruct T as [|c T0]; [discriminate|]. cbn [m_zero]. destruct (is_dec cw c) eqn:ED; [|discriminate].
      set (T := c :: T0) in *. assert (HT : tk T <> []) by (cbn [T take_dec]; rewrite ED; discriminate).
      clearbody T. clear T0 c ED. unfold m_zeros. destruct (zeros_split T) as (k & E).
      set (q := skip_zeros T) in *. assert (Q0 : match q with c :: _ => c <> 48 | [] => True end).
      { destruct q as [|c q'] eqn:EQ; [exact I|]. exact (skip_zeros_head T c q' EQ). }
      clearbody q. assert (Uq : units cw q) by (rewrite E in U; apply Forall_app in U; tauto).
      unfold m_num. destruct (Z.ltb_spec (zlen (sgn neg ++ tk q)) 20) as [L|]; [|discriminate].
      destruct (in_rangeb int64_ty (signed neg (value_of 10 (dval (tk q))))) eqn:IR; [|discriminate].
      unfold m_marker. destruct (dr q) as [|p T2] eqn:EDq; [discriminate|]. destruct (Z.eqb_spec p 46) as [->|]; [|discriminate].
      unfold m_frac. destruct (tk T2) as [|f0 f] eqn:EF; [discriminate|]. rewrite <- EF. intros H.
      assert (E1 : sec = signed neg (value_of 10 (dval (tk q)))) by congruence.
      assert (E2 : sub = frac_val (tk T2)) by congruence. assert (E3 : rest = dr T2) by congruence. clear H.
      pose proof (take_drop cw q) as TDq. rewrite EDq in TDq. assert (UT2 : units cw T2).
      { rewrite <- TDq in Uq. apply Forall_app in Uq as [_ Uq]. exact (Forall_inv_tail Uq). }
      pose proof (run_decs q Uq) as Dq. pose proof (run_decs T2 UT2) as D2.
      assert (LF : zlen (tk T2) <= 19).
      { apply (short_frac (repeat 48 k ++ tk q) (tk T2) (dr T2)); [|exact D2].
        rewrite E, <- TDq, <- (take_drop cw T2) in NL. rewrite <- app_assoc. exact NL. }
      exists (repeat 48 k ++ tk q ++ 46 :: tk T2). split.
      { rewrite E, <- TDq at 1. rewrite <- (take_drop cw T2) at 1. rewrite E3, <- !app_assoc. reflexivity. }
      split; [|rewrite E3; now apply after_run].
      exists k, (dval (tk q)), (dval (tk T2)). split; [now apply dval_ok|]. split; [now apply dval_ok|].
      rewrite !dval_len, !dval_text by assumption. split; [split; [rewrite EF; unfold zlen; cbn [length]; lia|exact LF]|].
      split. { intros ->. cbn [repeat app] in E. rewrite E in HT. destruct (tk q); [contradiction|discriminate]. }
      split. { rewrite <- TDq in Q0. destruct (tk q) as [|c l]; cbn [dval map hd]; [lia|]. cbn [app] in Q0. lia. }
      split. { rewrite zlen_app in L. assert (SL : zlen (sgn neg) = if neg then 1 else 0) by now destruct neg. destruct neg; lia. }
      split; [reflexivity|]. unfold signed in E1. split; [exact E1|]. split; [|exact E2].
      apply range64 in IR. unfold signed in IR. rewrite <- E1 in IR. lia.
    - intros (txt & E & (k & ds & fs & Hds & Hfs & Lf & Hk & H0 & Ld & Et & Es & Hr & Eb) & A).
      destruct (text_dec ds Hds) as (Dd & Vd). destruct (text_dec fs Hfs) as (Df & Vf).
      set (dc := map (digit_char false) ds) in *. set (fc := map (digit_char false) fs) in *.
      assert (E' : T = repeat 48 k ++ dc ++ 46 :: fc ++ rest) by (rewrite E, Et, <- !app_assoc; reflexivity).
      assert (U2 : units cw (46 :: fc ++ rest)) by (rewrite E' in U; apply Forall_app in U as [_ U]; apply Forall_app in U; tauto).
      assert (Q0 : match dc ++ 46 :: fc ++ rest with c :: _ => c <> 48 | [] => True end).
      { rewrite <- Vd in H0. destruct dc as [|c l]; cbn [app]; [lia|]. cbn [dval map hd] in H0. lia. }
      assert (Z1 : m_zero cw neg T = m_zeros cw neg T).
      { assert (G : exists c t, T = c :: t /\ dec_char c).
        { rewrite E'. destruct k as [|k].
          - destruct dc as [|c l] eqn:Edc; [exfalso; apply (Hk eq_refl); rewrite <- Vd; reflexivity|]. exists c, (l ++ 46 :: fc ++ rest). split; [reflexivity|exact (Forall_inv Dd)].
          - exists 48, (repeat 48 k ++ dc ++ 46 :: fc ++ rest). split; [reflexivity|unfold dec_char; lia]. }
        destruct G as (c & t & -> & Dc). cbn [m_zero]. now rewrite (dec_is cw Hw c Dc). }
      rewrite Z1. unfold m_zeros. rewrite E', zeros_at by exact Q0.
      destruct (run_at dc (46 :: fc ++ rest) Dd U2) as (-> & ->); [cbn; lia|].
      assert (V : signed neg (value_of 10 (dval dc)) = sec) by (rewrite Vd, Es; reflexivity).
      assert (LD : zlen dc = zlen ds) by (unfold dc, zlen; now rewrite map_length).
      unfold m_num. rewrite V. destruct (Z.ltb_spec (zlen (sgn neg ++ dc)) 20) as [_|K].
      2:{ exfalso. rewrite zlen_app, LD in K. assert (SL : zlen (sgn neg) = if neg then 1 else 0) by now destruct neg. destruct neg; lia. }
      assert (IR : in_rangeb int64_ty sec = true).
      { apply range64. split; [|exact Hr]. pose proof (value_of_bound 10 ds ltac:(lia) Hds) as B. fold (zlen ds) in B.
        rewrite Es. destruct neg; [|lia]. assert (10 ^ zlen ds <= 10 ^ 18) by (apply Z.pow_le_mono_r; lia). lia. }
      rewrite IR. unfold m_marker. rewrite Z.eqb_refl.
      destruct (run_at fc rest Df ltac:(apply Forall_inv_tail, Forall_app in U2; tauto) A) as (-> & ->).
      unfold m_frac. destruct fc as [|f0 f] eqn:EF; [exfalso; destruct fs; [unfold zlen in Lf; cbn in Lf; lia|discriminate]|]. rewrite <- EF in *.
      unfold frac_val. replace (zlen fc) with (zlen fs) by (unfold zlen, fc; now rewrite map_length).
      rewrite Eb, Vf. reflexivity.
  Qed.

  Lemma reads_body sec sub txt : unix_reads sec sub txt <-> exists neg b, txt = sgn neg ++ b /\ body neg sec sub b.
  Proof.
    split.
    - intros (neg & k & ds & fs & H1 & H2 & H3 & H4 & H5 & H6 & -> & H8). exists neg, (repeat 48 k ++ map (digit_char false) ds ++ text "." ++ map (digit_char false) fs).
      split; [destruct neg; reflexivity|]. exists k, ds, fs. auto 10.
    - intros (neg & b & -> & (k & ds & fs & H1 & H2 & H3 & H4 & H5 & H6 & -> & H8)). exists neg, k, ds, fs.
      do 6 (split; [assumption|]). split; [destruct neg; reflexivity|exact H8].
  Qed.
  Lemma body_head neg sec sub b : body neg sec sub b -> exists c t, b = c :: t /\ dec_char c.
  Proof.
    intros (k & ds & fs & Hds & _ & _ & Hk & _ & _ & -> & _). destruct (text_dec ds Hds) as (Dd & _). destruct k as [|k].
    - specialize (Hk eq_refl). destruct ds as [|d l]; [contradiction|]. cbn [repeat app map] in *. exists (digit_char false d). eexists. split; [reflexivity|exact (Forall_inv Dd)].
    - exists 48. eexists. split; [reflexivity|unfold dec_char; lia].
  Qed.
  Lemma sign_iff T sec sub rest : units cw T -> no_long_fraction T ->
    (m_sign cw T = Some (mk_stamp sec sub, rest) <-> exists txt, T = txt ++ rest /\ unix_reads sec sub txt /\ after_number rest).
  Proof.
    intros U NL. split.
    - destruct T as [|c T]; [discriminate|]. cbn [m_sign]. destruct (Z.eqb_spec c 45) as [->|N]; intros H.
      + apply body_iff in H; [|exact (Forall_inv_tail U)|exact (nlf_suffix [45] T NL)]. destruct H as (b & -> & B & A). exists (45 :: b). split; [reflexivity|].
        split; [|exact A]. apply reads_body. exists true, b. auto.
      + apply body_iff in H; [|exact U|exact NL]. destruct H as (b & E & B & A). exists b. split; [exact E|]. split; [|exact A]. apply reads_body. exists false, b. auto.
    - intros (txt & -> & R & A). apply reads_body in R as (neg & b & -> & B). destruct (body_head _ _ _ _ B) as (c & t & Eb & Dc). destruct neg; cbn [sgn app] in *.
      + cbn [m_sign]. rewrite Z.eqb_refl. apply body_iff; [exact (Forall_inv_tail U)|exact (nlf_suffix [45] _ NL)|]. exists b. auto.
      + rewrite Eb in *. cbn [app m_sign] in *. unfold dec_char in Dc. destruct (Z.eqb_spec c 45); [lia|]. apply body_iff; [exact U|exact NL|]. exists (c :: t). auto.
  Qed.
  Lemma space_iff T sec sub rest : units cw T -> no_long_fraction T ->
    (m_space cw T = Some (mk_stamp sec sub, rest) <->
     exists ws txt, T = ws ++ txt ++ rest /\ Forall c_space ws /\ unix_reads sec sub txt /\ after_number rest).
  Proof.
    intros U NL. unfold m_space. split.
    - destruct (skip_space_inv cw Hw T U) as (ws & E & F). set (q := skip_space cw T) in *. clearbody q. intros H. rewrite E in U, NL. apply Forall_app in U as [_ U].
      apply sign_iff in H; [|exact U|exact (nlf_suffix ws q NL)]. destruct H as (txt & -> & R & A). exists ws, txt. auto.
    - intros (ws & txt & E & F & R & A). pose proof R as R'. apply reads_body in R' as (neg & b & Et & B). destruct (body_head _ _ _ _ B) as (c & t & Eb & Dc).
      assert (SK : skip_space cw T = txt ++ rest).
      { rewrite E. apply skip_space_spec; auto. pose proof (cw_pow cw Hw). unfold dec_char in Dc. rewrite Et, Eb. destruct neg; cbn [sgn app]; (split; [lia|unfold c_space; simpl; lia]). }
      rewrite SK. rewrite E in U, NL. apply Forall_app in U as [_ U]. apply sign_iff; [exact U|exact (nlf_suffix ws _ NL)|]. exists txt. auto.
  Qed.
End GRAMMAR.

(** Only the first chunk may be empty (the buffer of the stream when the scan begins). *)
Definition filled (chunks : list (list Z)) : Prop := Forall (fun s => s <> []) (tl chunks).

Lemma scan_final off cw sse t chunks : In cw char_widths -> filled chunks -> units cw (concat chunks) -> no_long_fraction (concat chunks) ->
  final off (m_space cw (concat chunks)) (stamp_scan_chunks off cw sse t chunks).
Proof.
  intros Hw F U NL. unfold stamp_scan_chunks. change (m_space cw (concat chunks)) with (mean cw (mk_ts [] P_year ph_space t) (concat chunks)).
  apply run_final; auto; [reflexivity|discriminate].
Qed.

(** ** C134 *)

(** For every input with at most nineteen digits after a point, and every way it arrives in chunks, a scan of a timestamp counted from
    [off] seconds after 1970 gives the second [sec] with the fraction [sub] and leaves [rest] exactly when the input is white space,
    a text of the unix second [sec + off] with that fraction, and [rest], which does not go on with a digit. *)
Theorem C134_accepted : forall off cw sse t chunks sec sub rest, In cw char_widths -> filled chunks -> units cw (concat chunks) ->
  no_long_fraction (concat chunks) -> (off = 0 \/ - 2 ^ 63 <= sec < 2 ^ 63) ->
  (stamp_scan_chunks off cw sse t chunks = Some (Read (mk_stamp sec sub) rest) <->
   exists ws txt, concat chunks = ws ++ txt ++ rest /\ Forall c_space ws /\ unix_reads (sec + off) sub txt /\ after_number rest).
Proof.
  intros off cw sse t chunks sec sub rest Hw F U NL HO. pose proof (scan_final off cw sse t chunks Hw F U NL) as H.
  rewrite <- (space_iff cw Hw (concat chunks) (sec + off) sub rest U NL). destruct (m_space cw (concat chunks)) as [[[s b] r]|]; cbn [final ts_sec ts_sub] in H.
  - destruct ((off =? 0) || ((- 2 ^ 63 <=? s - off) && (s - off <? 2 ^ 63))) eqn:E; rewrite H.
    + split; intros Q.
      * assert (E1 : s - off = sec) by congruence. assert (E2 : b = sub) by congruence. assert (E3 : r = rest) by congruence. rewrite <- E1, E2, E3. do 3 f_equal. lia.
      * assert (E1 : s = sec + off) by congruence. assert (E2 : b = sub) by congruence. assert (E3 : r = rest) by congruence. rewrite E1, E2, E3. do 3 f_equal. lia.
    + split; [discriminate|]. intros Q. exfalso. assert (E1 : s = sec + off) by congruence.
      apply orb_false_iff in E as [E E']. apply Z.eqb_neq in E. destruct HO as [HO|HO]; [contradiction|]. subst s.
      replace (sec + off - off) with sec in E' by lia. apply andb_false_iff in E'. rewrite Z.leb_gt, Z.ltb_ge in E'. lia.
  - destruct H as (c & ->). split; discriminate.
Qed.
Print Assumptions C134_accepted.

(** Nothing undefined happens when counting from 1970, nor with another epoch unless the second of that epoch leaves int64. *)
Theorem C134_defined : forall off cw sse t chunks, In cw char_widths -> filled chunks -> units cw (concat chunks) ->
  no_long_fraction (concat chunks) ->
  (exists answer, stamp_scan_chunks off cw sse t chunks = Some answer) \/
  off <> 0 /\ exists ws txt rest sec sub, concat chunks = ws ++ txt ++ rest /\ Forall c_space ws /\ unix_reads sec sub txt /\ after_number rest /\
    ~ - 2 ^ 63 <= sec - off < 2 ^ 63.
Proof.
  intros off cw sse t chunks Hw F U NL. pose proof (scan_final off cw sse t chunks Hw F U NL) as H.
  destruct (m_space cw (concat chunks)) as [[[s b] r]|] eqn:M; cbn [final ts_sec ts_sub] in H.
  - destruct ((off =? 0) || ((- 2 ^ 63 <=? s - off) && (s - off <? 2 ^ 63))) eqn:E; [left; eexists; exact H|]. right.
    apply orb_false_iff in E as [E E']. apply Z.eqb_neq in E. split; [exact E|]. apply (space_iff cw Hw _ _ _ _ U NL) in M as (ws & txt & E1 & E2 & E3 & E4).
    exists ws, txt, r, s, b. do 4 (split; [assumption|]). apply andb_false_iff in E'. rewrite Z.leb_gt, Z.ltb_ge in E'. lia.
  - destruct H as (c & ->). left. eexists. reflexivity.
Qed.
Print Assumptions C134_defined.

(** Where the input is cut does not matter, nor what the object held before. *)
Theorem C134_cuts : forall off cw sse t t' a b v rest, In cw char_widths -> filled a -> filled b -> units cw (concat a) -> no_long_fraction (concat a) ->
  concat a = concat b -> stamp_scan_chunks off cw sse t a = Some (Read v rest) -> stamp_scan_chunks off cw sse t' b = Some (Read v rest).
Proof.
  intros off cw sse t t' a b v rest Hw Fa Fb U NL E. pose proof (scan_final off cw sse t a Hw Fa U NL) as A.
  rewrite E in *. pose proof (scan_final off cw sse t' b Hw Fb U NL) as B.
  destruct (m_space cw (concat b)) as [[[s u] r]|]; cbn [final ts_sec ts_sub] in A, B.
  - destruct ((off =? 0) || _); rewrite A, B; auto.
  - destruct A as (c & ->). discriminate.
Qed.
Print Assumptions C134_cuts.
Example C134_case : filled [text " -0"; text "012."; text "25"; text "0 x"] /\
  stamp_scan_chunks 0 8 true (mk_stamp 7 7) [text " -0"; text "012."; text "25"; text "0 x"] = Some (Read (mk_stamp (-12) (per_second / 4)) (text " x")) /\
  stamp_scan_chunks off_win32 8 true (mk_stamp 7 7) [[]; text "12.5"] = Some (Read (mk_stamp (12 + 11644473600) (per_second / 2)) []) /\
  unix_reads (-12) (per_second / 4) (text "-0012.250").
Proof.
  split; [repeat constructor; discriminate|]. split; [vm_compute; reflexivity|]. split; [vm_compute; reflexivity|].
  exists true, 2%nat, [1; 2], [2; 5; 0]. split; [repeat constructor; lia|]. split; [repeat constructor; lia|]. split; [vm_compute; split; discriminate|].
  split; [discriminate|]. split; [cbn; lia|]. split; [vm_compute; discriminate|]. split; [reflexivity|]. split; [reflexivity|]. split; [reflexivity|]. reflexivity.
Qed.

(** The bound of nineteen digits cannot be dropped: a longer fraction is rounded when it arrives in one chunk and loses its later digits when it arrives in two. *)
Theorem C134_long_fraction_refuted : exists a b v v', concat a = concat b /\ filled a /\ filled b /\
  stamp_scan_chunks 0 8 false (mk_stamp 0 0) a = Some (Read v [32]) /\ scan_unix 8 false (concat a) = SGo (v, [32]) /\
  stamp_scan_chunks 0 8 false (mk_stamp 0 0) b = Some (Read v' [32]) /\ ts_sub v = 1234567890123456790 /\ ts_sub v' = 1234567890000000000.
Proof.
  exists [text "5.12345678901234567895000 "], [text "5.1234567890"; text "1234567895000 "].
  exists (mk_stamp 5 1234567890123456790), (mk_stamp 5 1234567890000000000).
  split; [vm_compute; reflexivity|]. split; [constructor|]. split; [repeat constructor; discriminate|].
  split; [vm_compute; reflexivity|]. split; [vm_compute; reflexivity|]. split; [vm_compute; reflexivity|]. auto.
Qed.
Print Assumptions C134_long_fraction_refuted.
(** A long fraction at the end of a chunk whose twentieth digit is a five followed by zeros: the stream waits for more, and a following
    end of the input or other character rounds to even, whichever comes. *)
Example C134_five_case :
  stamp_scan_chunks 0 8 false (mk_stamp 0 0) [text "5.12345678901234567895000"; text "00 "] = Some (Read (mk_stamp 5 1234567890123456790) [32]) /\
  stamp_scan_chunks 0 8 false (mk_stamp 0 0) [text "5.12345678901234567885000"; text "00 "] = Some (Read (mk_stamp 5 1234567890123456788) [32]) /\
  stamp_scan_chunks 0 8 false (mk_stamp 0 0) [text "5.12345678901234567885000"; text "01 "] = Some (Read (mk_stamp 5 1234567890123456789) [32]) /\
  stamp_scan_chunks 0 8 false (mk_stamp 0 0) [text "5.12345678901234567895000"] = Some (Read (mk_stamp 5 1234567890123456790) []).
Proof. repeat split; vm_compute; reflexivity. Qed.
(** An empty chunk after a zero makes the scan forget it. *)
Theorem C134_empty_chunk_refuted : 
  stamp_scan_chunks 0 8 false (mk_stamp 0 0) [text "0"; text ".5 "] = Some (Read (mk_stamp 0 (per_second / 2)) [32]) /\
  stamp_scan_chunks 0 8 false (mk_stamp 0 0) [text "0"; []; text ".5 "] = Some (NotRead pc_invalid).
Proof. split; vm_compute; reflexivity. Qed.
Print Assumptions C134_empty_chunk_refuted.

(** ** C135 *)
Lemma unix_text_reads t txt : valid_stamp t -> - 10 ^ 18 < ts_sec t -> ts_sub t <> 0 -> unix_text t txt -> unix_reads (ts_sec t) (ts_sub t) txt.
Proof.
  intros (Hs & Hf) HY H0 (num & fs & N & FT & ->). unfold fraction_text in FT. destruct (Z.eqb_spec (ts_sub t) 0) as [|NE0]; [contradiction|].
  destruct FT as (ds' & d & Hd & Hl & _ & Hv & ->). set (fd := ds' ++ [d]) in *.
  assert (L1 : 1 <= zlen fd) by (unfold fd; rewrite zlen_app; change (zlen [d]) with 1; pose proof (zlen_nonneg ds'); lia). clearbody fd.
  destruct N as (ds & Hds & Hlead & Hv' & ->).
  assert (Hne : ds <> []) by (intros ->; exact Hlead).
  destruct (Z.eqb_spec (ts_sec t) 0) as [Z0|NZ].
  - (* 0 is a leading zero *)
    assert (ds = [0]).
    { rewrite Z0 in Hv'. change (Z.abs 0) with 0 in Hv'. destruct ds as [|x l]; [contradiction|]. destruct l as [|y l].
      - unfold value_of in Hv'. cbn in Hv'. f_equal. lia.
      - exfalso. pose proof (value_lower_bound 10 (x :: y :: l) ltac:(lia) Hds Hlead ltac:(cbn [length]; lia)) as B.
        assert (0 < 10 ^ (zlen (x :: y :: l) - 1)) by (apply Z.pow_pos_nonneg; [lia|unfold zlen; cbn [length]; lia]). unfold zlen in *. lia. }
    subst ds. exists false, 1%nat, [], fd. rewrite Z0. split; [constructor|]. split; [exact Hd|]. split; [lia|]. split; [discriminate|]. split; [cbn; lia|].
    split; [change (zlen (@nil Z)) with 0; lia|]. split; [reflexivity|]. split; [reflexivity|]. split; [reflexivity|]. symmetry; exact Hv.
  - assert (D0 : hd 1 ds <> 0).
    { destruct ds as [|x [|y l]]; [contradiction| |exact Hlead]. unfold value_of in Hv'. cbn in Hv'. cbn [hd]. lia. }
    exists (ts_sec t <? 0), O, ds, fd. split; [exact Hds|]. split; [exact Hd|]. split; [lia|]. split; [intros _; exact Hne|]. split; [exact D0|].
    split; [|split; [reflexivity|split; [destruct (Z.ltb_spec (ts_sec t) 0); lia|split; [lia|symmetry; exact Hv]]]].
    assert (K : forall n, 1 <= n -> Z.abs (ts_sec t) < 10 ^ n -> zlen ds <= n).
    { intros n Hn Hy. destruct (Z.leb_spec (zlen ds) n) as [Q|Q]; [exact Q|]. exfalso.
      pose proof (value_lower_bound 10 ds ltac:(lia) Hds Hlead ltac:(unfold zlen in *; lia)) as B. rewrite Hv' in B.
      assert (10 ^ n <= 10 ^ (zlen ds - 1)) by (apply Z.pow_le_mono_r; lia). unfold zlen in *. lia. }
    destruct (Z.ltb_spec (ts_sec t) 0); [apply (K 18); lia|]. apply (K 19); [lia|]. change (10 ^ 19) with 10000000000000000000. lia.
Qed.

(** A printed time with a fraction is read back, however it arrives, for seconds after -10^18. *)
Theorem C135_round_trip_partial : forall cw sse t0 t txt ws rest chunks, In cw char_widths -> valid_stamp t -> - 10 ^ 18 < ts_sec t -> ts_sub t <> 0 ->
  print_stamp t = Some txt -> Forall c_space ws -> units cw rest -> no_long_fraction rest -> after_number rest ->
  filled chunks -> concat chunks = ws ++ txt ++ rest ->
  stamp_scan_chunks 0 cw sse t0 chunks = Some (Read t rest).
Proof.
  intros cw sse t0 t txt ws rest chunks Hw Ht HY H0 HP Hws Hr NL HA F E.
  destruct (print_stamp_ok t Ht) as (txt' & E' & T). rewrite HP in E'. injection E' as <-.
  pose proof (unix_text_reads t txt Ht HY H0 T) as R.
  assert (G : stamp_scan_chunks 0 cw sse t0 chunks = Some (Read (mk_stamp (ts_sec t) (ts_sub t)) rest)); [|now destruct t].
  assert (SM : Forall (fun c => 0 <= c < 128) txt /\ no_long_fraction (ws ++ txt ++ rest)).
  { destruct R as (neg & k & ds & fs & Hds & Hfs & Lf & _ & _ & _ & -> & _).
    destruct (text_dec ds Hds) as (Dd & _). destruct (text_dec fs Hfs) as (Df & _).
    set (dc := map (digit_char false) ds) in *. assert (LF : zlen (map (digit_char false) fs) <= 19) by (unfold zlen in *; rewrite map_length; lia).
    set (fc := map (digit_char false) fs) in *. clearbody dc fc. change (text "-") with [45] in *. change (text ".") with [46] in *.
    assert (DS : forall l, Forall dec_char l -> Forall (fun c => 0 <= c < 128) l).
    { intros l Hl. eapply Forall_impl; [|exact Hl]. unfold dec_char. intros; lia. }
    assert (R0 : Forall dec_char (repeat 48 k)) by (apply Forall_forall; intros x Hx; apply repeat_spec in Hx; subst x; unfold dec_char; lia).
    split.
    - apply Forall_app. split; [destruct neg; repeat constructor; lia|]. apply Forall_app. split; [apply DS, R0|]. apply Forall_app. split; [now apply DS|].
      constructor; [lia|now apply DS].
    - (* the only point before the rest is followed by the fraction *)
      assert (NP : forall a b, Forall (fun c => c <> 46) a -> no_long_fraction b -> no_long_fraction (a ++ b)).
      { intros a b Ha Hb. induction Ha as [|x a Hx _ IH]; [exact Hb|]. intros p d q Eq Hd. cbn [app] in Eq. destruct p as [|y p].
        - cbn [app text] in Eq. injection Eq as Ex _. vm_compute in Ex. congruence.
        - cbn [app] in Eq. injection Eq as _ Eq. exact (IH p d q Eq Hd). }
      assert (PT : no_long_fraction (46 :: fc ++ rest)).
      { intros p d q Eq Hd. destruct p as [|y p].
        - change (46 :: fc ++ rest = 46 :: d ++ q) in Eq. injection Eq as Eq.
          assert (Q : zlen d <= zlen fc); [|lia]. clear - Eq Hd HA. revert fc Eq. induction d as [|x d IH]; intros fc Eq; [apply zlen_nonneg|].
          destruct fc as [|y fc].
          + exfalso. cbn [app] in Eq. rewrite Eq in HA. cbn [after_number] in HA. exact (HA (Forall_inv Hd)).
          + cbn [app] in Eq. injection Eq as _ Eq. specialize (IH (Forall_inv_tail Hd) fc Eq). unfold zlen in *. cbn [length]. lia.
        - cbn [app] in Eq. injection Eq as _ Eq. revert p d q Eq Hd. apply NP; [|exact NL].
          eapply Forall_impl; [|exact Df]. unfold dec_char. intros; lia. }
      assert (D46 : forall l, Forall dec_char l -> Forall (fun c => c <> 46) l) by (intros l Hl; eapply Forall_impl; [|exact Hl]; unfold dec_char; intros; lia).
      apply NP. { eapply Forall_impl; [|exact Hws]. intros c Hc. unfold c_space in Hc. simpl in Hc. lia. }
      rewrite <- !app_assoc. apply NP; [destruct neg; repeat constructor; lia|]. apply NP; [now apply D46|]. apply NP; [now apply D46|]. exact PT. }
  destruct SM as (SM & NL'). rewrite <- E in NL'.
  assert (U : units cw (concat chunks)).
  { rewrite E. apply units_app; [|apply units_app; [|exact Hr]]; apply units_small; auto. eapply Forall_impl; [|exact Hws]. intros x Hx. unfold c_space in Hx. cbn in Hx. lia. }
  apply C134_accepted; auto. exists ws, txt. rewrite Z.add_0_r. auto.
Qed.
Print Assumptions C135_round_trip_partial.
Example C135_case : valid_stamp (mk_stamp (-1) 1) /\ print_stamp (mk_stamp (-1) 1) = Some (text "-1.0000000000000000001") /\
  stamp_scan_chunks 0 8 true (mk_stamp 0 0) [text "-"; text "1.000000000000"; text "0000001"] = Some (Read (mk_stamp (-1) 1) []).
Proof. split; [split; vm_compute; split; congruence|]. split; vm_compute; reflexivity. Qed.

(** A printed whole second is never read back from a stream, wherever it is cut, though it is from memory. *)
Theorem C135_whole_seconds_refuted :
  (forall cw sse t0 t txt chunks v rest, In cw char_widths -> valid_stamp t -> ts_sub t = 0 -> print_stamp t = Some txt -> filled chunks ->
    concat chunks = txt -> stamp_scan_chunks 0 cw sse t0 chunks <> Some (Read v rest)) /\
  print_stamp (mk_stamp 12 0) = Some (text "12") /\ scan_unix 8 false (text "12") = SGo (mk_stamp 12 0, []) /\
  stamp_scan_chunks 0 8 false (mk_stamp 0 0) [text "12"] = Some (NotRead pc_end_of_file).
Proof.
  split; [|repeat split; vm_compute; reflexivity].
  intros cw sse t0 t txt chunks [sec sub] rest Hw Ht H0 HP F E H.
  destruct (print_stamp_ok t Ht) as (txt' & E' & T). rewrite HP in E'. injection E' as <-.
  destruct T as (num & fs & (ds & Hds & _ & _ & ->) & FT & ET). unfold fraction_text in FT. rewrite H0 in FT. cbn [Z.eqb] in FT. subst fs. rewrite app_nil_r in ET.
  destruct (text_dec ds Hds) as (Dd & _).
  assert (P : Forall (fun c => 0 <= c < 128 /\ c <> 46) txt).
  { rewrite ET. apply Forall_app. split; [destruct (ts_sec t <? 0); [constructor; [vm_compute; intuition congruence|constructor]|constructor]|]. eapply Forall_impl; [|exact Dd]. unfold dec_char. intros; lia. }
  assert (N : ~ In 46 txt) by (intros Q; rewrite Forall_forall in P; destruct (P _ Q); congruence).
  apply C134_accepted in H; [|exact Hw|exact F|rewrite E; apply units_small; [exact Hw|eapply Forall_impl; [|exact P]; cbv beta; tauto]| |now left].
  - destruct H as (ws & u & Eu & _ & (neg & k & ds' & fs & _ & _ & _ & _ & _ & _ & -> & _) & _). apply N. rewrite <- E, Eu. apply in_app_iff. right. apply in_app_iff. left.
    apply in_app_iff. right. apply in_app_iff. right. apply in_app_iff. right. apply in_app_iff. left. left. reflexivity.
  - intros p d q Eq _. exfalso. apply N. rewrite <- E, Eq. apply in_app_iff. right. left. reflexivity.
Qed.
Print Assumptions C135_whole_seconds_refuted.
(** Seconds from -10^18 down are refused from a stream though read from memory; leading zeros are read from a stream and refused in memory. *)
Theorem C135_negative_refuted : exists t txt, valid_stamp t /\ ts_sub t <> 0 /\ print_stamp t = Some txt /\
  scan_unix 8 false txt = SGo (t, []) /\ stamp_scan_chunks 0 8 false (mk_stamp 0 0) [txt] = Some (NotRead pc_overflow).
Proof.
  exists (mk_stamp (- 2 ^ 63) (per_second / 2)), (text "-9223372036854775808.5").
  split; [split; vm_compute; split; congruence|]. split; [vm_compute; discriminate|]. repeat split; vm_compute; reflexivity.
Qed.
Print Assumptions C135_negative_refuted.
Theorem C135_leading_zeros_refuted : stamp_scan_chunks 0 8 false (mk_stamp 0 0) [text "007.5"] = Some (Read (mk_stamp 7 (per_second / 2)) []) /\
  scan_unix 8 false (text "007.5") = SFail pc_invalid (text "07.5").
Proof. split; vm_compute; reflexivity. Qed.
Print Assumptions C135_leading_zeros_refuted.
