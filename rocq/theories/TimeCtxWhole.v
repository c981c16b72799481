(** The chunked scanner of ISO 8601 timestamps: the whole text in one chunk. *)
From Coq Require Import String.
From Coq Require Import List.
From Verif Require Import Base NumSpec NumFacts IntPrintModel IntPrintProofs IntScanModel ScanSpec
  IntScanProofs IntSseProofs TimeSpec TimeModel TimeTextSpec TimeTextModel TimeTextProofs TimeScanProofs TimeCtxModel TimeCtxProofs
  TimeCtxSpec TimeCtxOne TimeCtxGrammar IpAcceptProofs.
Import ListNotations.

Section WHOLE.
  Context (cw : Z) (sse : bool) (Hw : In cw char_widths).

  (** A year's digits. *)
  Definition year_digs (neg : bool) (y : Z) (d : list Z) : Prop :=
    Forall dec_char d /\ (zlen d = 4 \/ 4 < zlen d /\ hd 0 d <> 48) /\ y = signed neg (value_of 10 (dval d)) /\
    - 2 ^ 63 <= y < 2 ^ 63 /\ zlen (sgn neg ++ d) <= 19.
  Definition ended (r : list Z) : Prop := exists c r', r = c :: r' /\ is_dec cw c = false.

  Lemma run_split w d r : Forall dec_char d -> ended r -> w = d ++ r -> take_dec cw w = d /\ drop_dec cw w = r.
  Proof.
    intros Hd (c & r' & -> & Hc) ->.
    assert (Hd' : Forall (fun c => is_dec cw c = true) d) by (eapply Forall_impl; [|exact Hd]; intros x; apply dec_is; exact Hw).
    rewrite take_app, drop_app by exact Hd'. cbn [take_dec drop_dec]. rewrite Hc, app_nil_r. auto.
  Qed.
  Lemma four_value c0 c1 c2 c3 t : four (c0 :: c1 :: c2 :: c3 :: t) = Some (value_of 10 (dval [c0; c1; c2; c3])).
  Proof. unfold four, dval, value_of. cbn [map fold_left]. f_equal. lia. Qed.
  Lemma value_bound d : Forall dec_char d -> 0 <= value_of 10 (dval d) < 10 ^ zlen d.
  Proof. intros H. pose proof (value_of_bound 10 (dval d) ltac:(lia) (dval_ok d H)) as B. unfold zlen. replace (length d) with (length (dval d)) by apply map_length. exact B. Qed.

  Lemma range64 v : in_rangeb int64_ty v = true <-> - 2 ^ 63 <= v < 2 ^ 63.
  Proof. rewrite in_rangeb_spec. unfold in_range. change (int_min int64_ty) with (- 2 ^ 63). change (int_max int64_ty) with (2 ^ 63 - 1). lia. Qed.
  Lemma yzero_iff neg w y r : units cw w ->
    (yzero_canon cw neg w = Some (YDone y r) <-> exists d, w = d ++ r /\ year_digs neg y d /\ ended r).
  Proof.
    intros U. unfold yzero_canon. split.
    - destruct (Z.ltb_spec (zlen w) 5); [destruct (forallb _ _); discriminate|].
      destruct (forallb (is_dec cw) (firstn 4 w)) eqn:F4; [|discriminate].
      assert (D4 : Forall dec_char (firstn 4 w)).
      { apply (forallb_decs cw); [exact Hw| |exact F4]. rewrite <- (firstn_skipn 4 w) in U. apply Forall_app in U. tauto. }
      destruct (skipn 4 w) as [|c r'] eqn:E4; [discriminate|]. destruct (is_dec cw c) eqn:Ec.
      + unfold ydigits_canon. destruct (drop_dec cw w) as [|x q] eqn:ED; [destruct (_ <? _); discriminate|].
        destruct (Z.ltb_spec (zlen (sgn neg ++ take_dec cw w)) 20) as [L|L]; [|discriminate].
        unfold year_of. destruct (match take_dec cw w with c :: _ :: _ => c =? 48 | _ => false end) eqn:EZ; [discriminate|].
        destruct (in_rangeb int64_ty _) eqn:ER; [|discriminate]. intros Q. injection Q as <- <-.
        exists (take_dec cw w). pose proof (take_drop cw w) as TD. rewrite ED in TD. split; [now symmetry|].
        assert (L5 : 5 <= zlen (take_dec cw w)).
        { destruct w as [|c0 [|c1 [|c2 [|c3 w]]]]; try discriminate. cbn [skipn] in E4. subst w.
          cbn [firstn forallb] in F4. rewrite !andb_true_iff in F4. destruct F4 as (K0 & K1 & K2 & K3 & _).
          cbn [take_dec]. rewrite K0, K1, K2, K3, Ec. rewrite !zlen_cons. pose proof (zlen_nonneg (take_dec cw r')). lia. }
        split; [|exists x, q; split; [reflexivity|exact (drop_head cw _ _ _ ED)]]. split.
        { apply (decs cw Hw); [|apply take_all]. rewrite <- TD in U. apply Forall_app in U. tauto. }
        split; [right; split; [lia|]; destruct (take_dec cw w) as [|z [|z1 t]]; [cbn; lia|cbn in L5; lia|cbn [hd]; now apply Z.eqb_neq]|].
        split; [reflexivity|]. split; [|lia]. now apply range64 in ER.
      + destruct w as [|c0 [|c1 [|c2 [|c3 w]]]]; try discriminate. cbn [skipn] in *. rewrite four_value. cbn [option_map firstn] in *.
        intros Q. assert (Qy : y = signed neg (value_of 10 (dval [c0; c1; c2; c3]))) by congruence. assert (Qr : r = w) by congruence. subst y r.
        exists [c0; c1; c2; c3]. split; [reflexivity|]. split; [|exists c, r'; auto].
        pose proof (value_bound _ D4) as VB. change (10 ^ zlen [c0; c1; c2; c3]) with 10000 in VB.
        split; [exact D4|]. split; [now left|]. split; [reflexivity|]. split; [destruct neg; cbn [signed]; lia|].
        destruct neg; cbn; lia.
    - intros (d & E & (Hd & HL & Hy & HR & HS) & HE). destruct (run_split w d r Hd HE E) as [ET ED]. destruct HE as (c & r' & Er & Hc).
      assert (Lw : zlen w = zlen d + zlen r) by (rewrite E; apply zlen_app). pose proof (zlen_nonneg r').
      assert (Lr : zlen r = 1 + zlen r') by (rewrite Er; apply zlen_cons).
      destruct (Z.ltb_spec (zlen w) 5); [lia|].
      destruct d as [|c0 [|c1 [|c2 [|c3 d]]]]; try (unfold zlen in HL; cbn [length] in HL; lia).
      assert (F4 : forallb (is_dec cw) (firstn 4 w) = true).
      { apply (forallb_dec cw _ Hw). rewrite E. cbn [app firstn].
        inversion Hd as [|? ? K0 Hd1]; subst. inversion Hd1 as [|? ? K1 Hd2]; subst. inversion Hd2 as [|? ? K2 Hd3]; subst. inversion Hd3 as [|? ? K3 Hd4]; subst.
        constructor; [exact K0|]. constructor; [exact K1|]. constructor; [exact K2|]. constructor; [exact K3|constructor]. }
      rewrite F4. destruct HL as [HL|[HL HZ]].
      + assert (d = []) by (destruct d; [reflexivity|unfold zlen in HL; cbn [length] in HL; lia]). subst d.
        rewrite E. cbn [app skipn]. rewrite Er at 1. rewrite Hc, four_value. cbn [option_map]. now rewrite Hy.
      + destruct d as [|c4 d]; [unfold zlen in HL; cbn [length] in HL; lia|].
        assert (E5 : skipn 4 w = c4 :: d ++ r) by (rewrite E; reflexivity). rewrite E5.
        assert (K4 : is_dec cw c4 = true).
        { apply dec_is; [exact Hw|]. rewrite Forall_forall in Hd. apply Hd. cbn; auto 6. }
        rewrite K4. unfold ydigits_canon. rewrite ED, ET, Er. rewrite <- Er at 1.
        destruct (Z.ltb_spec (zlen (sgn neg ++ c0 :: c1 :: c2 :: c3 :: c4 :: d)) 20); [|lia].
        unfold year_of. cbn [hd] in HZ. rewrite (proj2 (Z.eqb_neq c0 48) HZ). rewrite <- Hy.
        replace (in_rangeb int64_ty y) with true; [now rewrite Er|]. symmetry. now apply range64.
  Qed.

  Lemma norm_done_iff o v r : ynorm o = Some (YDone v r) <-> o = Some (YDone v r).
  Proof.
    split; [|apply norm_done]. destruct o as [[b ip|y q|e q]|]; cbn [ynorm]; auto; try discriminate.
    - destruct ip; discriminate.
    - destruct e; discriminate.
  Qed.
  Lemma digs_head neg y d : year_digs neg y d -> exists x t, d = x :: t /\ dec_char x.
  Proof.
    intros (Hd & HL & _). destruct d as [|x t]; [unfold zlen in HL; cbn in HL; lia|]. exists x, t. split; [reflexivity|]. exact (Forall_inv Hd).
  Qed.
  Lemma year_sign_iff w y r : units cw w ->
    (year_sign cw sse [] w = Some (YDone y r) <-> exists neg d, w = sgn neg ++ d ++ r /\ year_digs neg y d /\ ended r).
  Proof.
    intros U. unfold year_sign. destruct w as [|c s].
    { split; [discriminate|]. intros (neg & d & E & D & _). destruct (digs_head _ _ _ D) as (x & t & -> & _). destruct neg; discriminate. }
    pose proof (Forall_inv_tail U) as Us. destruct (Z.eqb_spec c 45).
    - subst c. destruct s as [|c s].
      + split; [discriminate|]. intros (neg & d & E & D & _). destruct (digs_head _ _ _ D) as (x & t & -> & X).
        destruct neg; [discriminate|]. injection E as <- _. unfold dec_char in X. lia.
      + rewrite <- norm_done_iff. pose proof (year_zero_canon cw sse true [] (c :: s) Hw) as C. cbn [sgn app] in C.
        rewrite C by (auto; try discriminate; cbn; lia). rewrite yzero_iff by exact Us. split.
        * intros (d & E & D & HE). exists true, d. rewrite E. auto.
        * intros (neg & d & E & D & HE). destruct (digs_head _ _ _ D) as (x & t & -> & X). destruct neg.
          -- exists (x :: t). split; [cbn [sgn app] in *; congruence|]. auto.
          -- injection E as <- _. unfold dec_char in X. lia.
    - rewrite <- norm_done_iff. pose proof (year_zero_canon cw sse false [] (c :: s) Hw) as C. cbn [sgn app] in C.
      rewrite C by (auto; try discriminate; cbn; lia). rewrite yzero_iff by exact U. split.
      + intros (d & E & D & HE). exists false, d. auto.
      + intros (neg & d & E & D & HE). destruct neg; [injection E as E _; contradiction|]. exists d. auto.
  Qed.
  Lemma digs_reads y ys : (exists neg d, ys = sgn neg ++ d /\ year_digs neg y d) <-> year_reads y ys /\ zlen ys <= 19.
  Proof.
    split.
    - intros (neg & d & -> & Hd & HL & Hy & HR & HS). split; [|exact HS]. exists neg, (dval d). split; [now apply dval_ok|].
      rewrite dval_len. split.
      + destruct HL as [HL|[HL HZ]]; [now left|]. right. split; [exact HL|]. destruct d as [|x d]; [cbn in HL; lia|]. cbn [dval map hd] in *. lia.
      + rewrite dval_text by exact Hd. split; [destruct neg; reflexivity|]. split; [exact Hy|exact HR].
    - intros [(neg & ds & Hd & HL & -> & -> & HR) HS]. destruct (text_dec ds Hd) as [T1 T2].
      exists neg, (map (digit_char false) ds). split; [destruct neg; reflexivity|]. split; [exact T1|].
      assert (LM : zlen (map (digit_char false) ds) = zlen ds) by (unfold zlen; now rewrite map_length). rewrite LM. split.
      + destruct HL as [HL|[HL HZ]]; [now left|]. right. split; [exact HL|]. destruct ds as [|x d]; [cbn in HL; lia|].
        cbn [map hd] in *. pose proof (Forall_inv Hd) as Hx. cbv beta in Hx. rewrite digit_char_small by lia. lia.
      + rewrite T2. split; [destruct neg; reflexivity|]. split; [exact HR|]. destruct neg; exact HS.
  Qed.
  Lemma dec_not_space x : dec_char x -> 0 <= x < 2 ^ cw /\ ~ c_space x.
  Proof. unfold dec_char, c_space. intros H. pose proof (cw_pow cw Hw). split; [lia|]. simpl. lia. Qed.
  Lemma year_space_iff T y r : units cw T ->
    (year_phase cw sse ph_space [] T = Some (YDone y r) <->
     exists ws ys, T = ws ++ ys ++ r /\ Forall c_space ws /\ year_reads y ys /\ zlen ys <= 19 /\ ended r).
  Proof.
    intros U. cbn [year_phase]. split.
    - destruct (skip_space_inv cw Hw T U) as (ws & E & F). set (q := skip_space cw T) in *. clearbody q.
      destruct q as [|c q]; [discriminate|]. intros H. rewrite year_sign_iff in H.
      + destruct H as (neg & d & E1 & D & HE). exists ws, (sgn neg ++ d). split; [rewrite <- app_assoc, <- E1; exact E|]. split; [exact F|].
        assert (R : year_reads y (sgn neg ++ d) /\ zlen (sgn neg ++ d) <= 19) by (apply digs_reads; eauto). tauto.
      + rewrite E in U. apply Forall_app in U. tauto.
    - intros (ws & ys & E & F & R & L & HE). destruct (proj2 (digs_reads y ys) (conj R L)) as (neg & d & -> & D).
      assert (Uq : units cw ((sgn neg ++ d) ++ r)) by (rewrite E in U; apply Forall_app in U; tauto).
      assert (SK : skip_space cw T = (sgn neg ++ d) ++ r).
      { rewrite E. apply skip_space_spec; auto. destruct (digs_head _ _ _ D) as (x & t & -> & X). destruct neg; cbn [sgn app].
        - pose proof (cw_pow cw Hw). split; [lia|]. unfold c_space. simpl. lia.
        - now apply dec_not_space. }
      rewrite SK. assert (Q : year_sign cw sse [] ((sgn neg ++ d) ++ r) = Some (YDone y r)).
      { apply year_sign_iff; [exact Uq|]. exists neg, d. rewrite <- app_assoc. auto. }
      destruct ((sgn neg ++ d) ++ r) as [|x t] eqn:EN; [|exact Q].
      destruct (digs_head _ _ _ D) as (x & t & -> & X). destruct neg; discriminate.
  Qed.

  Notation oks k st s c rest := (cls_of (k st s) = COk c rest).
  Lemma year_iff t T c rest : units cw T ->
    (oks (iso_feed cw sse) (iso_init t) T c rest <-> exists ws ys y r, T = ws ++ ys ++ 45 :: r /\ Forall c_space ws /\ year_reads y ys /\ zlen ys <= 19 /\
      oks (f_month cw sse) (mk_ts [] P_month ph_space (set_year y civil0)) r c rest).
  Proof.
    intros U. cbn [iso_feed iso_init t_phase]. unfold f_year. change (t_int (iso_init t)) with ph_space. change (t_buf (iso_init t)) with (@nil Z).
    pose proof (year_honest cw sse ph_space [] T Hw eq_refl U) as HO. split.
    - destruct (year_phase cw sse ph_space [] T) as [[b ip|y r|e r]|] eqn:E.
      + intros Q. discriminate Q.
      + apply year_space_iff in E as (ws & ys & E & F & R & L & HE); [|exact U]. intros H. unfold f_after_year in H.
        apply token_iff in H as (s' & -> & H). exists ws, ys, y, s'. auto.
      + cbn [honest] in HO. rewrite cls_bad by exact HO. discriminate.
      + discriminate.
    - intros (ws & ys & y & r & E & F & R & L & H).
      assert (Q : year_phase cw sse ph_space [] T = Some (YDone y (45 :: r))).
      { apply year_space_iff; [exact U|]. exists ws, ys. repeat (split; [assumption|]). exists 45, r. split; [reflexivity|].
        rewrite is_dec_spec; [reflexivity|exact Hw|pose proof (cw_pow cw Hw); lia]. }
      rewrite Q. unfold f_after_year. apply token_iff. exists r. auto.
  Qed.
  Lemma date_iff y s c rest : units cw s -> short_runs cw s ->
    (oks (f_month cw sse) (mk_ts [] P_month ph_space (set_year y civil0)) s c rest <->
     cv_year c = y /\ 1 <= cv_month c <= 12 /\ 1 <= cv_day c <= 31 /\ 0 <= cv_hours c <= 23 /\ 0 <= cv_minutes c <= 59 /\ 0 <= cv_seconds c <= 59 /\
     exists fs zs, fraction_reads (cv_sub c) fs /\ zone_reads (cv_tz c) zs /\
       s = pad2 (cv_month c) ++ 45 :: pad2 (cv_day c) ++ 84 :: pad2 (cv_hours c) ++ 58 :: pad2 (cv_minutes c) ++ 58 :: pad2 (cv_seconds c) ++ fs ++ zs ++ rest).
  Proof.
    intros U S. unfold f_month. rewrite field_iff by (auto; lia). cbn [t_phase phase_next t_int t_val].
    split.
    - intros (mo & s1 & Hmo & -> & H). apply units_pad2 in U. apply short_suffix in S.
      unfold f_after_month in H. apply token_iff in H as (s2 & -> & H). cbn [t_buf t_phase phase_next t_int t_val] in H.
      apply units_tail in U. apply (short_suffix cw [45]) in S.
      unfold f_day in H. apply field_iff in H as (d & s3 & Hd & -> & H); auto; try lia. cbn [t_buf t_phase phase_next t_int t_val] in H.
      apply units_pad2 in U. apply short_suffix in S.
      unfold f_after_day in H. apply token_iff in H as (s4 & -> & H). cbn [t_buf t_phase phase_next t_int t_val] in H.
      apply units_tail in U. apply (short_suffix cw [84]) in S.
      unfold f_hours in H. apply field_iff in H as (h & s5 & Hh & -> & H); auto; try lia. cbn [t_buf t_phase phase_next t_int t_val] in H.
      apply units_pad2 in U. apply short_suffix in S.
      unfold f_after_hours in H. apply token_iff in H as (s6 & -> & H). cbn [t_buf t_phase phase_next t_int t_val] in H.
      apply units_tail in U. apply (short_suffix cw [58]) in S.
      unfold f_minutes in H. apply field_iff in H as (mi & s7 & Hmi & -> & H); auto; try lia. cbn [t_buf t_phase phase_next t_int t_val] in H.
      apply units_pad2 in U. apply short_suffix in S.
      unfold f_after_minutes in H. apply token_iff in H as (s8 & -> & H). cbn [t_buf t_phase phase_next t_int t_val] in H.
      apply units_tail in U. apply (short_suffix cw [58]) in S.
      unfold f_seconds in H. apply field_iff in H as (se & s9 & Hse & -> & H); auto; try lia. cbn [t_buf t_phase phase_next t_int t_val] in H.
      apply units_pad2 in U. apply short_suffix in S.
      apply timezone_marker_iff in H as (sub & tz & fs & zs & FR & ZR & -> & ->); auto.
      cbn [t_val set_tz set_sub set_seconds set_minutes set_hours set_day set_month set_year civil0 cv_year cv_month cv_day cv_hours cv_minutes cv_seconds cv_sub cv_tz].
      repeat (split; [assumption || reflexivity|]). exists fs, zs. auto.
    - intros (<- & Hmo & Hd & Hh & Hmi & Hse & fs & zs & FR & ZR & ->).
      eexists _, _. split; [exact Hmo|]. split; [reflexivity|]. apply units_pad2 in U. apply short_suffix in S.
      unfold f_after_month. apply token_iff. eexists. split; [reflexivity|]. cbn [t_buf t_phase phase_next t_int t_val].
      apply units_tail in U. apply (short_suffix cw [45]) in S.
      unfold f_day. apply field_iff; auto; try lia. eexists _, _. split; [exact Hd|]. split; [reflexivity|]. cbn [t_buf t_phase phase_next t_int t_val].
      apply units_pad2 in U. apply short_suffix in S.
      unfold f_after_day. apply token_iff. eexists. split; [reflexivity|]. cbn [t_buf t_phase phase_next t_int t_val].
      apply units_tail in U. apply (short_suffix cw [84]) in S.
      unfold f_hours. apply field_iff; auto; try lia. eexists _, _. split; [exact Hh|]. split; [reflexivity|]. cbn [t_buf t_phase phase_next t_int t_val].
      apply units_pad2 in U. apply short_suffix in S.
      unfold f_after_hours. apply token_iff. eexists. split; [reflexivity|]. cbn [t_buf t_phase phase_next t_int t_val].
      apply units_tail in U. apply (short_suffix cw [58]) in S.
      unfold f_minutes. apply field_iff; auto; try lia. eexists _, _. split; [exact Hmi|]. split; [reflexivity|]. cbn [t_buf t_phase phase_next t_int t_val].
      apply units_pad2 in U. apply short_suffix in S.
      unfold f_after_minutes. apply token_iff. eexists. split; [reflexivity|]. cbn [t_buf t_phase phase_next t_int t_val].
      apply units_tail in U. apply (short_suffix cw [58]) in S.
      unfold f_seconds. apply field_iff; auto; try lia. eexists _, _. split; [exact Hse|]. split; [reflexivity|]. cbn [t_buf t_phase phase_next t_int t_val].
      apply units_pad2 in U. apply short_suffix in S.
      apply timezone_marker_iff; auto. exists (cv_sub c), (cv_tz c), fs, zs. split; [exact FR|]. split; [exact ZR|]. split; [reflexivity|].
      destruct c. reflexivity.
  Qed.
  Lemma whole_iff t T c rest : units cw T -> short_runs cw T ->
    (oks (iso_feed cw sse) (iso_init t) T c rest <->
     exists ws ys txt, T = ws ++ txt ++ rest /\ Forall c_space ws /\ iso_reads c ys txt /\ zlen ys <= 19).
  Proof.
    intros U S. rewrite year_iff by exact U. split.
    - intros (ws & ys & y & r & -> & F & R & L & H).
      assert (U' : units cw r) by (apply Forall_app in U as [_ U]; apply Forall_app in U as [_ U]; exact (units_tail _ _ _ U)).
      assert (S' : short_runs cw r) by (apply short_suffix in S; apply short_suffix in S; exact (short_suffix cw [45] _ S)).
      apply date_iff in H as (<- & Hmo & Hd & Hh & Hmi & Hse & fs & zs & FR & ZR & ->); auto.
      exists ws, ys. eexists. split; [|split; [exact F|]; split; [|exact L]; exists fs, zs; repeat (split; [assumption|]); reflexivity].
      f_equal. rewrite <- !app_assoc. reflexivity.
    - intros (ws & ys & txt & -> & F & (fs & zs & R & FR & ZR & Hmo & Hd & Hh & Hmi & Hse & ->) & L).
      rewrite <- !app_assoc in *. cbn [text] in *. 
      exists ws, ys, (cv_year c). eexists. split; [reflexivity|]. split; [exact F|]. split; [exact R|]. split; [exact L|].
      apply date_iff.
      + apply Forall_app in U as [_ U]; apply Forall_app in U as [_ U]; exact (units_tail _ _ _ U).
      + apply short_suffix in S; apply short_suffix in S; exact (short_suffix cw [45] _ S).
      + repeat (split; [assumption || reflexivity|]). exists fs, zs. auto.
  Qed.

  (** Nothing undefined happens. *)
  Definition safe (k : istate -> list Z -> reply civil) : Prop :=
    forall st s, t_buf st = [] -> units cw s -> short_runs cw s -> cls_of (k st s) <> CUb.
  Lemma two_safe s : two_phase cw [] s <> None /\ forall v r, two_phase cw [] s = Some (DDone v r) -> exists a b, s = a :: b :: r.
  Proof.
    unfold two_phase. destruct s as [|a [|b s]]; try (split; [discriminate|discriminate]).
    unfold scan_two. destruct (is_dec cw a); cbn [negb]; [|split; [discriminate|discriminate]].
    destruct (is_dec cw b); cbn [negb]; (split; [discriminate|]); [|discriminate].
    intros v r H. exists a, b. congruence.
  Qed.
  Lemma field_safe lo hi set k : safe k -> safe (field_phase cw lo hi set k).
  Proof.
    intros K st s HB U S. unfold field_phase. rewrite HB. destruct (two_safe s) as [N D].
    destruct (two_phase cw [] s) as [[b|v r|r]|]; [discriminate| |discriminate|contradiction].
    destruct (D v r eq_refl) as (a & b & ->). destruct (_ || _); [discriminate|].
    apply K; [reflexivity| |]; [exact (Forall_inv_tail (Forall_inv_tail U))|exact (short_suffix cw [a; b] _ S)].
  Qed.
  Lemma token_safe tok k : safe k -> safe (token_phase tok k).
  Proof.
    intros K st s HB U S. unfold token_phase. destruct s as [|c s]; [discriminate|]. destruct (c =? tok); [|discriminate].
    apply K; [exact HB|exact (Forall_inv_tail U)|exact (short_suffix cw [c] _ S)].
  Qed.
  Lemma tz_minutes_safe : safe (f_tz_minutes cw).
  Proof.
    intros st s HB U S. unfold f_tz_minutes. rewrite HB. destruct (two_safe s) as [N D].
    destruct (two_phase cw [] s) as [[b|v r|r]|]; [discriminate| |discriminate|contradiction].
    destruct (_ <? _); discriminate.
  Qed.
  Lemma tz_hours_safe : safe (f_tz_hours cw).
  Proof. apply field_safe, token_safe, tz_minutes_safe. Qed.
  Lemma marker_safe point : (forall st s, t_buf st = [] -> units cw (46 :: s) -> short_runs cw (46 :: s) -> cls_of (point st (46 :: s)) <> CUb) ->
    safe (f_marker cw point).
  Proof.
    intros P st s HB U S. unfold f_marker. destruct s as [|c s]; [discriminate|]. destruct (c =? 90); [discriminate|].
    pose proof (Forall_inv_tail U) as U'. pose proof (short_suffix cw [c] _ S) as S'.
    destruct (c =? 43); [now apply tz_hours_safe|]. destruct (c =? 45); [now apply tz_hours_safe|].
    destruct (Z.eqb_spec c 46); [subst c; now apply P|discriminate].
  Qed.
  Lemma after_sub_safe st s : units cw s -> short_runs cw s -> cls_of (f_after_subseconds cw st s) <> CUb.
  Proof.
    intros U S. unfold f_after_subseconds, f_marker. destruct s as [|c s]; [discriminate|]. destruct (c =? 90); [discriminate|].
    pose proof (Forall_inv_tail U) as U'. pose proof (short_suffix cw [c] _ S) as S'.
    destruct (c =? 43); [now apply tz_hours_safe|]. destruct (c =? 45); [now apply tz_hours_safe|].
    destruct (c =? 46); discriminate.
  Qed.
  Lemma sub_safe : safe (f_subseconds cw sse).
  Proof.
    intros st s HB U S. unfold f_subseconds. rewrite HB. destruct s as [|x s0] eqn:Es; [discriminate|]. rewrite <- Es in *.
    rewrite frac_chunk_canon; auto; [|rewrite Es; discriminate|cbn [app]; now apply short_take].
    unfold frac_canon. pose proof (take_drop cw s) as TD. destruct (drop_dec cw s) as [|y r]; [discriminate|].
    destruct ([] ++ take_dec cw s) as [|z q]; [discriminate|].
    apply after_sub_safe.
    - rewrite <- TD in U. apply Forall_app in U. tauto.
    - rewrite <- TD in S. exact (short_suffix cw _ _ S).
  Qed.
  Lemma month_safe : safe (f_month cw sse).
  Proof.
    apply field_safe, token_safe, field_safe, token_safe, field_safe, token_safe, field_safe, token_safe, field_safe.
    apply marker_safe. intros st s HB U S. cbn [skipn]. apply sub_safe; [exact HB|exact (Forall_inv_tail U)|exact (short_suffix cw [46] _ S)].
  Qed.
  Lemma yzero_safe neg w : yzero_canon cw neg w <> None.
  Proof.
    unfold yzero_canon. destruct (Z.ltb_spec (zlen w) 5); [destruct (forallb _ _); discriminate|].
    destruct (forallb _ _); [|discriminate]. destruct w as [|c0 [|c1 [|c2 [|c3 [|c4 w]]]]]; try (cbn in H; lia).
    cbn [skipn]. destruct (is_dec cw c4); [|discriminate]. unfold ydigits_canon. destruct (drop_dec _ _); discriminate.
  Qed.
  Lemma norm_none o : ynorm o <> None -> o <> None. Proof. destruct o; cbn; congruence. Qed.
  Lemma year_safe T : units cw T -> year_phase cw sse ph_space [] T <> None.
  Proof.
    intros U. cbn [year_phase]. destruct (skip_space_suffix cw T) as [q Eq]. destruct (skip_space cw T) as [|c t]; [discriminate|].
    assert (Ut : units cw (c :: t)) by (rewrite Eq in U; apply Forall_app in U; tauto).
    unfold year_sign. destruct (c =? 45).
    - destruct t as [|d t]; [discriminate|]. apply norm_none. pose proof (year_zero_canon cw sse true [] (d :: t) Hw) as C. cbn [sgn app] in C.
      rewrite C; [apply yzero_safe|discriminate|constructor|cbn; lia|exact (Forall_inv_tail Ut)].
    - apply norm_none. pose proof (year_zero_canon cw sse false [] (c :: t) Hw) as C. cbn [sgn app] in C.
      rewrite C; [apply yzero_safe|discriminate|constructor|cbn; lia|exact Ut].
  Qed.
  Lemma whole_safe t T : units cw T -> short_runs cw T -> cls_of (iso_feed cw sse (iso_init t) T) <> CUb.
  Proof.
    intros U S. cbn [iso_feed iso_init t_phase]. unfold f_year.
    change (t_int (iso_init t)) with ph_space. change (t_buf (iso_init t)) with (@nil Z).
    pose proof (year_honest cw sse ph_space [] T Hw eq_refl U) as HO. pose proof (year_safe T U) as N.
    destruct (year_phase cw sse ph_space [] T) as [[b ip|y r|e r]|] eqn:E; [discriminate| | |contradiction].
    - apply year_space_iff in E as (ws & ys & -> & _); [|exact U]. apply token_safe; [exact month_safe|reflexivity| |].
      + rewrite app_assoc in U. apply Forall_app in U. tauto.
      + rewrite app_assoc in S. exact (short_suffix cw _ _ S).
    - cbn [honest] in HO. rewrite cls_bad by exact HO. discriminate.
  Qed.
  Lemma ready_init t T : units cw T -> short_runs cw T -> ready cw (iso_init t) T.
  Proof. intros U S. split; [reflexivity|]. split; [exact U|exact S]. Qed.

  (** All chunks. *)
  Lemma chunks_iff t chunks c rest : units cw (concat chunks) -> short_runs cw (concat chunks) ->
    (iso_scan_chunks cw sse t chunks = Some (Read c rest) <->
     exists ws ys txt, concat chunks = ws ++ txt ++ rest /\ Forall c_space ws /\ iso_reads c ys txt /\ zlen ys <= 19).
  Proof.
    intros U S. rewrite <- (whole_iff t _ _ _ U S). unfold iso_scan_chunks.
    pose proof (run_single cw sse Hw chunks (iso_init t) (ready_init t _ U S)) as R.
    destruct (cls_of _) as [st|v r| |]; cbn [ends] in R.
    - rewrite R. split; discriminate.
    - rewrite R. split; intros Q; injection Q as -> ->; reflexivity.
    - destruct R as (e & -> & _). split; discriminate.
    - rewrite R. split; discriminate.
  Qed.
  Lemma chunks_safe t chunks : units cw (concat chunks) -> short_runs cw (concat chunks) ->
    exists a, iso_scan_chunks cw sse t chunks = Some a.
  Proof.
    intros U S. unfold iso_scan_chunks. pose proof (run_single cw sse Hw chunks (iso_init t) (ready_init t _ U S)) as R.
    pose proof (whole_safe t _ U S) as N. destruct (cls_of _) as [st|v r| |]; cbn [ends] in R; [eauto|eauto| |contradiction].
    destruct R as (e & -> & _). eauto.
  Qed.
  Lemma no_long_short s : units cw s -> no_long_number s -> short_runs cw s.
  Proof.
    intros U H p d q -> Hd. apply (H p d q eq_refl). apply (decs cw Hw); [|exact Hd].
    apply Forall_app in U as [_ U]. apply Forall_app in U. tauto.
  Qed.
End WHOLE.
