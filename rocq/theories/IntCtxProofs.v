(** Chunked integer scanning against contiguous scanning. *)
From Verif Require Import Base NumSpec NumFacts IntPrintModel IntPrintProofs IntInjProofs IntSizeProofs ScanSpec IntScanModel IntScanProofs IntSseProofs.

Lemma app_split (s R cs rest : list Z) : s ++ R = cs ++ rest ->
  (exists cs2, cs = s ++ cs2 /\ R = cs2 ++ rest) \/ (exists r1, r1 <> [] /\ s = cs ++ r1 /\ rest = r1 ++ R).
Proof.
  revert cs. induction s as [|x s IH]; intros cs H.
  - left. exists cs. split; [reflexivity|exact H].
  - destruct cs as [|y cs].
    + right. exists (x :: s). repeat split; [discriminate|]. symmetry; exact H.
    + cbn [app] in H. injection H as -> H. destruct (IH cs H) as [(cs2 & -> & ->)|(r1 & N & -> & ->)].
      * left. exists cs2. split; reflexivity.
      * right. exists r1. repeat split. exact N.
Qed.

Lemma safe_first_app base cw r R : r <> [] -> safe_first base cw (r ++ R) -> safe_first base cw r.
Proof. destruct r; [contradiction|]. auto. Qed.
Lemma no_digit_first_app base r R : r <> [] -> no_digit_first base (r ++ R) -> no_digit_first base r.
Proof. destruct r; [contradiction|]. auto. Qed.

Lemma digit_string_app_inv base a b ds : digit_string base (a ++ b) ds ->
  exists d1 d2, ds = d1 ++ d2 /\ digit_string base a d1 /\ digit_string base b d2.
Proof. intros H. apply Forall2_app_inv_l in H as (d1 & d2 & A & B & ->). exists d1, d2. auto. Qed.

Lemma ctx_buf_small cfg : good_cfg cfg -> sc_base cfg = 10 -> iw (sc_ty cfg) <= 64 -> ctx_buf_size cfg <= 31.
Proof.
  intros (_ & _ & Hw) Hb H64. unfold ctx_buf_size. rewrite Hb.
  destruct (isigned (sc_ty cfg)); apply width_cases in Hw as [E|[E|[E|[E|E]]]]; rewrite E in *; try lia; vm_compute; discriminate.
Qed.

Section CTX.
  Variable cfg : scfg.
  Hypothesis Hcfg : good_cfg cfg.
  Hypothesis Hshbase : sc_shbase cfg = false.
  Variable sign : bool.
  Hypothesis Hsign : isigned (sc_ty cfg) = false -> sign = false.

  Let B := sc_base cfg.
  Let CW := sc_cw cfg.
  Let inner := mk_scfg (sc_base cfg) false false false (sc_ty cfg) (sc_cw cfg) (sc_sse cfg).

  Lemma inner_no_sse s : zlen s < ctx_buf_size cfg -> no_sse inner s.
  Proof.
    intros H. unfold no_sse. cbn [inner sc_sse sc_base sc_cw sc_ty].
    destruct (sc_sse cfg && (sc_base cfg =? 10) && (sc_cw cfg =? 8) && (iw (sc_ty cfg) <=? 64)) eqn:E; [|reflexivity].
    apply andb_true_iff in E as [E E1]. apply andb_true_iff in E as [E E2]. apply andb_true_iff in E as [E E3].
    apply Z.eqb_eq in E3. apply Z.leb_le in E1. pose proof (ctx_buf_small cfg Hcfg E3 E1).
    cbn [andb]. apply Z.leb_gt. lia.
  Qed.

  (** Answer of one call: final answer [V] at distance [k], or partial with everything consumed. *)
  Definition step_ok (Inv : sstate -> list Z -> Z -> Prop) (V : Z) (used0 k : Z) (s R : list Z) (res : ctx_res) : Prop :=
    exists st' r, res = Some (st', r) /\
      ((p_code r = pc_partial /\ p_used r = used0 + zlen s /\ Inv st' R (k - zlen s)) \/ (r = outcome (sc_ty cfg) V (used0 + k) /\ k <= zlen s)).

  Definition digit_inv (V : Z) (st : sstate) (T : list Z) (k : Z) : Prop :=
    exists pre dpre cs ds rest, st_phase st = ph_digit /\ T = cs ++ rest /\ k = zlen cs /\
      st_buf st = sign_chars sign ++ pre /\ st_size st = zlen (st_buf st) /\
      digit_string B pre dpre /\ digit_string B cs ds /\ no_leading_zero (dpre ++ ds) /\ pre <> [] /\
      V = signed_value sign (value_of B (dpre ++ ds)) /\
      zlen (sign_chars sign) + zlen pre + zlen cs < ctx_buf_size cfg /\
      safe_first B CW rest /\ no_digit_first B rest.

  Lemma ctx_digit_phase_ok V st used0 s R cs rest pre dpre ds :
    s ++ R = cs ++ rest -> st_buf st = sign_chars sign ++ pre -> st_size st = zlen (st_buf st) ->
    digit_string B pre dpre -> digit_string B cs ds -> no_leading_zero (dpre ++ ds) -> (pre <> [] \/ s <> [] /\ cs <> []) ->
    V = signed_value sign (value_of B (dpre ++ ds)) ->
    zlen (sign_chars sign) + zlen pre + zlen cs < ctx_buf_size cfg ->
    safe_first B CW rest -> no_digit_first B rest ->
    step_ok (digit_inv V) V used0 (zlen cs) s R (ctx_digit_phase cfg st used0 s).
  Proof.
    intros HT Hbuf Hsize Hpre Hcs Hlead Hne HV Hfit Hs Hn. pose proof Hcfg as (Hb & Hcw & Hw).
    unfold ctx_digit_phase. fold B CW.
    assert (Eb : st_buf st = firstn (Z.to_nat (st_size st)) (st_buf st)).
    { rewrite Hsize. unfold zlen. rewrite Nat2Z.id. symmetry; apply firstn_all. }
    assert (Elen : zlen (st_buf st) = zlen (sign_chars sign) + zlen pre) by (rewrite Hbuf, zlen_app; reflexivity).
    destruct (app_split _ _ _ _ HT) as [(cs2 & -> & ->)|(r1 & Nr & -> & ->)].
    - (* the chunk ends inside the digits *)
      destruct (digit_string_app_inv _ _ _ _ Hcs) as (d1 & d2 & -> & Hd1 & Hd2).
      pose proof (skip_digits_spec B CW s d1 [] Hb Hcw Hd1 I I) as SK. rewrite app_nil_r in SK. rewrite SK.
      rewrite zlen_nil, Z.sub_0_r. rewrite zlen_app in Hfit.
      pose proof (zlen_nonneg cs2).
      destruct (Z.ltb_spec (zlen s) (ctx_buf_size cfg - st_size st)); [|lia].
      eexists _, _. split; [reflexivity|]. left. cbn [p_code p_used]. repeat split.
      exists (pre ++ s), (dpre ++ d1), cs2, d2, rest. cbn [st_phase st_buf st_size].
      rewrite <- Eb. replace (firstn (Z.to_nat (zlen s)) s) with s by (unfold zlen; rewrite Nat2Z.id; symmetry; apply firstn_all).
      rewrite zlen_app. repeat split.
      + lia.
      + rewrite Hbuf, app_assoc. reflexivity.
      + rewrite zlen_app. lia.
      + apply Forall2_app; assumption.
      + assumption.
      + rewrite <- app_assoc. exact Hlead.
      + destruct Hne as [Hne|[Hne _]]; [destruct pre; [contradiction|discriminate]|]. destruct pre; [exact Hne|discriminate].
      + rewrite HV, <- app_assoc. reflexivity.
      + rewrite zlen_app. lia.
      + assumption.
      + assumption.
    - (* the digits end inside the chunk *)
      pose proof (safe_first_app _ _ _ _ Nr Hs) as Hs1. pose proof (no_digit_first_app _ _ _ Nr Hn) as Hn1.
      rewrite (skip_digits_spec B CW cs ds r1) by auto.
      replace (zlen (cs ++ r1) - zlen r1) with (zlen cs) by (rewrite zlen_app; lia).
      destruct (Z.ltb_spec (zlen cs) (ctx_buf_size cfg - st_size st)); [|lia].
      destruct r1 as [|c1 r1']; [contradiction|].
      assert (Hnz : 0 < st_size st + zlen cs).
      { assert (0 < zlen pre + zlen cs).
        { unfold zlen. destruct Hne as [Hne|[_ Hne]]; [destruct pre|destruct cs]; try contradiction; cbn [length]; lia. }
        pose proof (zlen_nonneg (sign_chars sign)). lia. }
      destruct (Z.eqb_spec (st_size st + zlen cs) 0); [lia|].
      rewrite <- Eb. replace (firstn (Z.to_nat (zlen cs)) (cs ++ c1 :: r1')) with cs
        by (unfold zlen; rewrite Nat2Z.id, firstn_app, Nat.sub_diag, firstn_all, firstn_O, app_nil_r; reflexivity).
      change (mk_scfg B false false false (sc_ty cfg) CW (sc_sse cfg)) with inner.
      assert (Hin : scan_none_space inner false 0 (st_buf st ++ cs) =
        Some (outcome (sc_ty cfg) V (zlen (st_buf st) + zlen cs))).
      { pose proof (scan_none_space_spec inner 0 sign (pre ++ cs) (dpre ++ ds) []) as SP. rewrite !app_nil_r in SP.
        rewrite Hbuf, <- app_assoc. rewrite SP; auto.
        - cbn [inner sc_ty sc_base]. fold B. rewrite <- HV. do 2 f_equal. rewrite !zlen_app. lia.
        - apply inner_no_sse. rewrite zlen_app. pose proof (zlen_nonneg (sign_chars sign)). lia.
        - apply Forall2_app; assumption.
        - intros E. rewrite E in Hlead. exact Hlead.
        - exact I.
        - exact I. }
      rewrite Hin. eexists _, _. split; [reflexivity|]. right. split; [|rewrite zlen_app; pose proof (zlen_nonneg (c1 :: r1')); lia].
      unfold outcome. rewrite Hsize. destruct (in_rangeb (sc_ty cfg) V); cbn [p_code p_used p_val]; f_equal; lia.
  Qed.

  (** After the sign: zeros and digits still to come; [zs]: zeros have been skipped already. *)
  Definition zero_body (zs : bool) (V : Z) (st : sstate) (T : list Z) (k : Z) : Prop :=
    exists cs ds rest, T = cs ++ rest /\ k = zlen cs /\
      st_buf st = sign_chars sign /\ st_size st = zlen (sign_chars sign) /\
      digit_string B cs ds /\
      V = signed_value sign (value_of B ds) /\
      zlen (sign_chars sign) + zlen (strip_zeros ds) < ctx_buf_size cfg /\
      safe_first B CW rest /\ no_digit_first B rest /\
      (if zs then sc_skipzero cfg = true
       else ds <> [] /\ (sc_skipzero cfg = false -> no_leading_zero ds /\ value_of B ds <> 0)).
  Definition zero_inv (V : Z) (st : sstate) (T : list Z) (k : Z) : Prop :=
    exists zs, zero_body zs V st T k /\ st_phase st = if zs then ph_zero_skip else ph_zero.

  Definition ctx_inv (V : Z) (st : sstate) (T : list Z) (k : Z) : Prop := digit_inv V st T k \/ zero_inv V st T k.

  Lemma step_ok_mono (I1 I2 : sstate -> list Z -> Z -> Prop) V used0 k s R res :
    (forall st T j, I1 st T j -> I2 st T j) -> step_ok I1 V used0 k s R res -> step_ok I2 V used0 k s R res.
  Proof. intros H (st' & r & E & [(A & C & D)|D]); exists st', r; split; auto. Qed.

  Lemma digit_string_zlen cs ds : digit_string B cs ds -> zlen cs = zlen ds.
  Proof. intros H. unfold zlen. rewrite (Forall2_length _ _ _ H). reflexivity. Qed.

  Lemma all_zero_value ds : strip_zeros ds = [] -> value_of B ds = 0.
  Proof. intros H. rewrite <- strip_zeros_value, H. reflexivity. Qed.

  (** The part of a digit string consumed by skipping zeros, split over a chunk. *)
  Lemma skip_zeros_chunk s R cs ds rest : s ++ R = cs ++ rest -> digit_string B cs ds -> no_digit_first B rest ->
    exists n cs' ds' , cs = repeat 48 n ++ cs' /\ ds = repeat 0 n ++ ds' /\ digit_string B cs' ds' /\
      ((s = repeat 48 n /\ skip_zeros s = [] /\ R = cs' ++ rest) \/
       (exists s2, s = repeat 48 n ++ s2 /\ s2 <> [] /\ skip_zeros s = s2 /\ s2 ++ R = cs' ++ rest /\ ds' = strip_zeros ds)).
  Proof.
    pose proof Hcfg as (Hb & _).
    intros HT Hcs Hn. revert cs ds Hcs HT. induction s as [|c s IH]; intros cs ds Hcs HT.
    - exists 0%nat, cs, ds. cbn. repeat split; auto.
    - destruct Hcs as [|c' d cs ds Hd Hcs].
      + cbn [app] in HT. exists 0%nat, [], []. cbn [repeat app]. repeat split; [constructor|]. right. exists (c :: s).
        repeat split; [discriminate| |exact HT]. cbn [skip_zeros]. destruct (Z.eqb_spec c 48) as [->|]; [|reflexivity].
        exfalso. rewrite <- HT in Hn. apply Hn. exists 0. apply (denotes_small B 0); [exact Hb|unfold B; lia|lia].
      + cbn [app] in HT. injection HT as <- HT. pose proof (denotes_zero B c Hb d Hd) as Hz.
        cbn [skip_zeros strip_zeros]. destruct (Z.eqb_spec c 48) as [->|E].
        * assert (d = 0) by tauto. subst d. destruct (IH cs ds Hcs HT) as (n & cs' & ds' & -> & -> & Hds & Hc).
          exists (S n), cs', ds'. cbn [repeat app]. repeat split; auto.
          destruct Hc as [(-> & E1 & E2)|(s2 & -> & N & E1 & E2 & E3)]; [left|right].
          -- repeat split; auto.
          -- exists s2. repeat split; auto.
        * exists 0%nat, (c :: cs), (d :: ds). cbn [repeat app]. repeat split; [constructor; auto|]. right.
          exists (c :: s). repeat split; [discriminate|cbn [app]; congruence|].
          destruct (Z.eqb_spec d 0); [tauto|reflexivity].
  Qed.

  Lemma zlen_repeat {A} (x : A) n : zlen (repeat x n) = Z.of_nat n.
  Proof. unfold zlen. rewrite repeat_length. reflexivity. Qed.

  Lemma strip_repeat n ds : strip_zeros (repeat 0 n ++ ds) = strip_zeros ds.
  Proof. induction n; cbn [repeat app strip_zeros]; auto. Qed.

  Lemma ctx_zero_phase_ok V zs phase0 st used0 s R k : s <> [] -> zero_body zs V st (s ++ R) k ->
    (phase0 = ph_zero_skip <-> zs = true) ->
    step_ok (ctx_inv V) V used0 k s R (ctx_zero_phase cfg phase0 st used0 s).
  Proof.
    intros Hsne (cs & ds & rest & HT & -> & Hbuf & Hsize & Hcs & HV & Hfit & Hs & Hn & Hph) Hp0.
    pose proof Hcfg as (Hb & Hcw & Hw).
    destruct s as [|c s]; [contradiction|]. unfold ctx_zero_phase. fold B CW.
    destruct Hcs as [|c' d cs ds Hd Hcs].
    - (* only zeros were seen; the text ends here *)
      destruct zs; [|destruct Hph as [Hne _]; contradiction]. cbn [app] in HT.
      assert (Esome : char_digit B CW c = Some None).
      { apply char_digit_none; auto; rewrite <- HT in Hs, Hn; simpl in Hs, Hn; assumption. }
      rewrite Esome, Hph. rewrite (proj2 Hp0 eq_refl). eexists _, _. split; [reflexivity|]. right. split; [|apply zlen_nonneg].
      rewrite HV. change (value_of B []) with 0. rewrite zero_in_range by exact Hw. f_equal. unfold zlen; cbn [length Z.of_nat]; lia.
    - cbn [app] in HT. injection HT as <- HT.
      rewrite (char_digit_some B CW c d) by auto. pose proof (denotes_zero B c Hb d Hd) as Hz.
      destruct (Z.eqb_spec c 48) as [E|E].
      + assert (d = 0) by tauto. subst d c.
        assert (Hsk : sc_skipzero cfg = true).
        { destruct (sc_skipzero cfg); [reflexivity|]. destruct zs; [discriminate|]. destruct Hph as [_ Hl].
          destruct (Hl eq_refl) as [Hl1 Hl2]. destruct ds as [|d2 ds]; [exfalso; apply Hl2; reflexivity|]. simpl in Hl1. lia. }
        rewrite Hsk.
        destruct (skip_zeros_chunk s R cs ds rest HT Hcs Hn) as (n & cs' & ds' & -> & -> & Hds & Hc).
        assert (Hval : value_of B (0 :: repeat 0 n ++ ds') = value_of B ds').
        { rewrite value_of_cons, value_of_zeros. lia. }
        cbn [strip_zeros Z.eqb] in Hfit. rewrite strip_repeat in Hfit.
        destruct Hc as [(-> & -> & ->)|(s2 & -> & Hs2 & -> & HT2 & E3)].
        * eexists _, _. split; [reflexivity|]. left. cbn [p_code p_used].
          rewrite zlen_nil, Z.sub_0_r. repeat split. right. exists true. split; [|reflexivity]. exists cs', ds', rest. cbn [st_buf st_size st_phase].
          rewrite Hval in HV. rewrite !zlen_cons, zlen_app, zlen_repeat.
          repeat split; auto; lia.
        * rewrite strip_repeat in E3.
          assert (Hused : used0 + (zlen (48 :: repeat 48 n ++ s2) - zlen s2) = used0 + 1 + Z.of_nat n)
            by (rewrite zlen_cons, zlen_app, zlen_repeat; lia).
          rewrite Hused. rewrite zlen_cons, zlen_app, zlen_repeat.
          destruct s2 as [|c2 s2]; [contradiction|].
          destruct Hds as [|c3 d3 cs' ds' Hd3 Hds].
          -- cbn [app] in HT2. rewrite <- HT2 in Hs, Hn. simpl in Hs, Hn. rewrite char_digit_none by auto.
             eexists _, _. split; [reflexivity|]. right. split; [|rewrite ?zlen_nil, ?zlen_cons, ?zlen_app, ?zlen_repeat, ?zlen_cons; pose proof (zlen_nonneg s2); lia]. rewrite HV, Hval. change (value_of B []) with 0.
             rewrite zero_in_range by exact Hw. f_equal. unfold zlen; cbn [length Z.of_nat]; lia.
          -- cbn [app] in HT2. injection HT2 as <- HT2. rewrite (char_digit_some B CW c2 d3) by auto.
             assert (Hd30 : d3 <> 0).
             { intros ->. cbn [strip_zeros Z.eqb] in E3. pose proof (strip_zeros_lead ds') as [L|L]; rewrite <- E3 in L; [discriminate|].
               destruct ds' as [|? ds'']; [discriminate|]. simpl in L. lia. }
             assert (Hlead : no_leading_zero (d3 :: ds')) by (destruct ds'; simpl; auto).
             apply (step_ok_mono (digit_inv V)); [left; assumption|].
             rewrite Hval in HV.
             replace (Z.of_nat n + zlen (c2 :: cs') + 1) with (zlen (c2 :: cs') + (1 + Z.of_nat n)) by lia.
             assert (step_ok (digit_inv V) V (used0 + 1 + Z.of_nat n) (zlen (c2 :: cs')) (c2 :: s2) R
                       (ctx_digit_phase cfg st (used0 + 1 + Z.of_nat n) (c2 :: s2))) as SO.
             { eapply ctx_digit_phase_ok with (pre := []) (dpre := []) (ds := d3 :: ds') (rest := rest); auto.
               - cbn [app]. rewrite HT2. reflexivity.
               - rewrite Hbuf, app_nil_r. reflexivity.
               - rewrite Hsize, Hbuf. reflexivity.
               - constructor.
               - constructor; auto.
               - right. split; discriminate.
               - rewrite zlen_nil. rewrite <- E3 in Hfit.
                 rewrite (digit_string_zlen (c2 :: cs') (d3 :: ds')) by (constructor; auto). lia. }
             destruct SO as (st' & r & E1 & [(A1 & A2 & A3)|A]); exists st', r; split; auto; [left|right].
             ++ split; [exact A1|]. split; [rewrite A2, !zlen_cons, zlen_app, zlen_repeat, zlen_cons; lia|].
                replace (zlen (c2 :: cs') + (1 + Z.of_nat n) - zlen (48 :: repeat 48 n ++ c2 :: s2)) with (zlen (c2 :: cs') - zlen (c2 :: s2));
                  [exact A3|]. rewrite !zlen_cons, zlen_app, zlen_repeat, zlen_cons. lia.
             ++ destruct A as [A A']. split; [rewrite A; f_equal; lia|]. rewrite !zlen_cons in *. rewrite ?zlen_app, ?zlen_repeat, ?zlen_cons in *. lia.
      + assert (Hd0 : d <> 0) by tauto.
        assert (Hlead : no_leading_zero (d :: ds)) by (destruct ds; simpl; auto).
        apply (step_ok_mono (digit_inv V)); [left; assumption|].
        eapply ctx_digit_phase_ok with (pre := []) (dpre := []) (ds := d :: ds) (rest := rest); auto.
        * cbn [app]. rewrite HT. reflexivity.
        * rewrite Hbuf, app_nil_r. reflexivity.
        * rewrite Hsize, Hbuf. reflexivity.
        * constructor.
        * constructor; auto.
        * right. split; discriminate.
        * rewrite zlen_nil. assert (Est : strip_zeros (d :: ds) = d :: ds) by (cbn [strip_zeros]; destruct (Z.eqb_spec d 0); [contradiction|reflexivity]). rewrite Est in Hfit.
          rewrite (digit_string_zlen (c :: cs) (d :: ds)) by (constructor; auto). lia.
  Qed.

  Lemma ctx_run_inv V : forall chunks st used k, Forall (fun c => c <> []) chunks ->
    ctx_inv V st (concat chunks) k -> ctx_run cfg st used chunks = Some (outcome (sc_ty cfg) V (used + k)).
  Proof.
    pose proof Hcfg as (Hb & Hcw & Hw).
    induction chunks as [|s chunks IH]; intros st used k Hne HI.
    - cbn [ctx_run concat] in *. unfold ctx_eof. destruct HI as [HI|HI].
      + destruct HI as (pre & dpre & cs & ds & rest & Hp & HT & -> & Hbuf & Hsize & Hpre & Hcs & Hlead & Hpne & HV & Hfit & _).
        symmetry in HT. apply app_eq_nil in HT as [-> ->]. inversion Hcs; subst ds. rewrite app_nil_r in *.
        rewrite Hp. fold inner. rewrite Hbuf.
        pose proof (scan_none_space_spec inner 0 sign pre dpre []) as SP. rewrite app_nil_r in SP. rewrite SP; auto.
        * cbn [inner sc_ty sc_base option_map]. fold B. rewrite <- HV.
          unfold outcome. destruct (in_rangeb _ V); cbn [p_code p_val fst snd]; do 2 f_equal; try change (zlen (@nil Z)) with 0; lia.
        * apply inner_no_sse. change (zlen (@nil Z)) with 0 in Hfit. pose proof (zlen_nonneg (sign_chars sign)). lia.
        * intros E. rewrite E in Hlead. exact Hlead.
        * exact I.
        * exact I.
      + destruct HI as (zs & (cs & ds & rest & HT & -> & Hbuf & Hsize & Hcs & HV & Hfit & _ & _ & Hph) & Hp).
        symmetry in HT. apply app_eq_nil in HT as [-> ->]. inversion Hcs; subst ds.
        destruct zs; [|destruct Hph as [Hx _]; contradiction]. rewrite Hp. cbn [option_map fst snd].
        rewrite HV. change (value_of B []) with 0. rewrite zero_in_range by exact Hw. do 2 f_equal. unfold zlen; cbn [length Z.of_nat]; lia.
    - inversion Hne; subst. cbn [ctx_run concat] in *.
      assert (SO : step_ok (ctx_inv V) V 0 k s (concat chunks) (ctx_feed cfg st s)).
      { destruct HI as [HI|HI].
        - destruct HI as (pre & dpre & cs & ds & rest & Hp & HT & -> & Hbuf & Hsize & Hpre & Hcs & Hlead & Hpne & HV & Hfit & Hs & Hn).
          unfold ctx_feed. rewrite Hp. apply (step_ok_mono (digit_inv V)); [left; assumption|].
          eapply ctx_digit_phase_ok; eauto.
        - destruct HI as (zs & HI & Hp). unfold ctx_feed.
          destruct zs; rewrite Hp; eapply ctx_zero_phase_ok; eauto; split; congruence. }
      destruct SO as (st' & r & -> & [(A1 & A2 & A3)|A]).
      + rewrite A1. rewrite (IH st' (used + p_used r) (k - zlen s)); auto. rewrite A2. do 2 f_equal. lia.
      + destruct A as [A _]. rewrite A. cbn [Z.add]. unfold outcome. destruct (in_rangeb _ V); cbn [p_code p_used p_val]; reflexivity.
  Qed.

  (** The sign, with the digits to follow. *)
  Lemma ctx_sign_phase_ok V st phase0 used0 s R cs ds rest : st_buf st = [] -> st_size st = 0 -> phase0 <> ph_zero_skip -> s <> [] ->
    s ++ R = sign_chars sign ++ cs ++ rest -> digit_string B cs ds -> ds <> [] ->
    (sc_skipzero cfg = false -> no_leading_zero ds /\ value_of B ds <> 0) ->
    V = signed_value sign (value_of B ds) ->
    zlen (sign_chars sign) + zlen (strip_zeros ds) < ctx_buf_size cfg ->
    safe_first B CW rest -> no_digit_first B rest ->
    step_ok (ctx_inv V) V used0 (zlen (sign_chars sign) + zlen cs) s R (ctx_sign_phase cfg phase0 st used0 s).
  Proof.
    intros Hb0 Hs0 Hp0 Hsne HT Hcs Hne Hlead HV Hfit Hs Hn. pose proof Hcfg as (Hb & Hcw & Hw).
    unfold ctx_sign_phase, ctx_prefix_phase. rewrite Hshbase. cbn [andb].
    assert (Hz : forall st' u s', st_buf st' = sign_chars sign -> st_size st' = zlen (sign_chars sign) -> s' ++ R = cs ++ rest ->
      step_ok (ctx_inv V) V u (zlen cs) s' R (ctx_zero_phase cfg phase0 st' u s')).
    { intros st' u s' E1 E2 ET.
      assert (ZB : zero_body false V st' (s' ++ R) (zlen cs)).
      { exists cs, ds, rest. repeat split; auto; apply Hlead; auto. }
      destruct s' as [|c s'].
      - cbn [ctx_zero_phase]. eexists _, _. split; [reflexivity|]. left. cbn [p_code p_used]. change (zlen (@nil Z)) with 0; rewrite Z.add_0_r, Z.sub_0_r.
        repeat split. right. exists false. split; [exact ZB|reflexivity].
      - eapply ctx_zero_phase_ok; eauto; [discriminate|split; [intros X; contradiction|discriminate]]. }
    assert (Hsgn : sign = false -> match s with [] => False | c :: _ => c <> 45 end).
    { intros Es. rewrite Es in HT. destruct s as [|c s]; [contradiction|]. cbn [sign_chars app] in HT.
      destruct Hcs as [|c' d cs ds Hd Hcs]; [contradiction|]. cbn [app] in HT. injection HT as <- _. intros ->.
      eapply minus_not_digit; [exact Hb|exact Hd]. }
    destruct sign eqn:Es.
    - destruct (isigned (sc_ty cfg)); [|discriminate (Hsign eq_refl)].
      destruct s as [|c s]; [contradiction|]. cbn [sign_chars app] in HT. injection HT as -> HT. rewrite Z.eqb_refl.
      destruct (Hz (mk_st [45] 1 (st_phase st)) (used0 + 1) s eq_refl eq_refl HT) as (st' & r & E & G).
      exists st', r. split; [exact E|]. change (zlen (sign_chars true)) with 1.
      destruct G as [(A1 & A2 & A3)|A]; [left|right].
      + split; [exact A1|]. split; [rewrite A2, zlen_cons; lia|]. rewrite zlen_cons.
        replace (1 + zlen cs - (zlen s + 1)) with (zlen cs - zlen s) by lia. exact A3.
      + destruct A as [A A']. split; [rewrite A; f_equal; lia|]. rewrite zlen_cons. lia.
    - specialize (Hsgn eq_refl). destruct s as [|c s]; [contradiction|]. cbn [sign_chars app] in HT. change (zlen (sign_chars false)) with 0.
      rewrite Z.add_0_l. destruct (isigned (sc_ty cfg)); [destruct (Z.eqb_spec c 45); [contradiction|]|]; apply Hz; auto.
  Qed.

  Lemma outcome_shift V a b r : r = outcome (sc_ty cfg) V a -> mk_pres (p_code r) (b + p_used r) (p_val r) = outcome (sc_ty cfg) V (b + a).
  Proof. intros ->. unfold outcome. destruct (in_rangeb _ V); reflexivity. Qed.

  Lemma outcome_not_partial V a : p_code (outcome (sc_ty cfg) V a) <> pc_partial.
  Proof. unfold outcome. destruct (in_rangeb _ V); discriminate. Qed.

  (** Any cutting of the text into nonempty chunks gives the answer of the contiguous scan. *)
  Lemma scan_chunks_spec ws cs ds rest : Forall c_space ws -> (sc_noskipws cfg = true -> ws = []) ->
    digit_string B cs ds -> ds <> [] -> (sc_skipzero cfg = false -> no_leading_zero ds /\ value_of B ds <> 0) ->
    zlen (sign_chars sign) + zlen (strip_zeros ds) < ctx_buf_size cfg ->
    safe_first B CW rest -> no_digit_first B rest ->
    forall chunks used, Forall (fun c => c <> []) chunks -> concat chunks = ws ++ sign_chars sign ++ cs ++ rest ->
    ctx_run cfg st_init used chunks =
      Some (outcome (sc_ty cfg) (signed_value sign (value_of B ds)) (used + (zlen ws + zlen (sign_chars sign) + zlen cs))).
  Proof.
    intros Hws Hnows Hcs Hne Hlead Hfit Hs Hn chunks. revert ws Hws Hnows.
    set (V := signed_value sign (value_of B ds)). pose proof Hcfg as (Hb & Hcw & Hw).
    assert (Hbody : exists c b, sign_chars sign ++ cs ++ rest = c :: b /\ 0 <= c < 2 ^ CW /\ ~ c_space c).
    { pose proof (cw_pow _ Hcw). unfold CW. destruct sign; cbn [sign_chars app].
      - exists 45, (cs ++ rest). repeat split; try lia. unfold c_space; simpl; lia.
      - clear - Hcs Hne Hb H. destruct Hcs as [|c d cs ds Hd Hds]; [contradiction|]. cbn [app]. exists c, (cs ++ rest).
        pose proof (denotes_cases _ _ _ Hb Hd). repeat split; try lia. eapply digit_not_space; eauto. }
    destruct Hbody as (c0 & b0 & Eb & Hc0 & Hns).
    induction chunks as [|s chunks IH]; intros ws Hws Hnows used Hcne HT.
    { cbn [concat] in HT. symmetry in HT. apply app_eq_nil in HT as [_ HT]. rewrite Eb in HT. discriminate. }
    inversion Hcne as [|? ? Hsne Hcne']; subst. cbn [concat] in HT. cbn [ctx_run]. unfold ctx_feed. cbn [st_phase st_init].
    (* the call that meets the sign or the digits *)
    assert (Hmain : forall pre s', s' <> [] -> s' ++ concat chunks = sign_chars sign ++ cs ++ rest ->
       s = pre ++ s' -> ws = pre ->
       match ctx_sign_phase cfg ph_space st_init (zlen s - zlen s') s' with
       | None => None
       | Some (st', r) => match p_code r with
                          | pc_partial => ctx_run cfg st' (used + p_used r) chunks
                          | _ => Some (mk_pres (p_code r) (used + p_used r) (p_val r)) end
       end = Some (outcome (sc_ty cfg) V (used + (zlen ws + zlen (sign_chars sign) + zlen cs)))).
    { intros pre s' Hs' HT' -> ->.
      destruct (ctx_sign_phase_ok V st_init ph_space (zlen (pre ++ s') - zlen s') s' (concat chunks) cs ds rest eq_refl eq_refl ltac:(discriminate) Hs' HT' Hcs Hne Hlead eq_refl Hfit Hs Hn)
        as (st' & r & -> & [(A1 & A2 & A3)|[A _]]).
      - rewrite A1. rewrite (ctx_run_inv V _ _ _ _ Hcne' A3). rewrite A2. do 2 f_equal. rewrite zlen_app. lia.
      - pose proof (outcome_not_partial V (zlen (pre ++ s') - zlen s' + (zlen (sign_chars sign) + zlen cs))) as NP. rewrite <- A in NP.
        assert (E : match p_code r with
                    | pc_partial => ctx_run cfg st' (used + p_used r) chunks
                    | _ => Some (mk_pres (p_code r) (used + p_used r) (p_val r)) end = Some (mk_pres (p_code r) (used + p_used r) (p_val r)))
          by (destruct (p_code r); congruence).
        rewrite E, (outcome_shift V _ used r A). do 2 f_equal. rewrite zlen_app. lia. }
    destruct (sc_noskipws cfg) eqn:Enw.
    - specialize (Hnows eq_refl). subst ws. specialize (Hmain [] s Hsne HT eq_refl eq_refl).
      replace (zlen s - zlen s) with 0 in Hmain by lia. exact Hmain.
    - destruct (app_split _ _ _ _ HT) as [(ws2 & -> & HT2)|(r1 & Nr & -> & HT2)].
      + (* the chunk is all white space *)
        apply Forall_app in Hws as [Hw1 Hw2].
        pose proof (skip_space_spec (sc_cw cfg) s [] Hcw Hw1 I) as SK. rewrite app_nil_r in SK. rewrite SK.
        cbn [p_code p_used]. rewrite (IH ws2 Hw2 ltac:(discriminate) _ Hcne' HT2). do 2 f_equal. rewrite zlen_app. lia.
      + assert (SK : skip_space (sc_cw cfg) (ws ++ r1) = r1).
        { apply skip_space_spec; auto. destruct r1 as [|x r1]; [contradiction|]. rewrite Eb in HT2. cbn [app] in HT2. injection HT2 as -> _.
          split; [exact Hc0|exact Hns]. }
        rewrite SK. destruct r1 as [|x r1]; [contradiction|].
        apply (Hmain ws); auto.
  Qed.
End CTX.
