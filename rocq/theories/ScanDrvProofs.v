(** Proofs about the scan driver (ScanDrvModel). *)
From Verif Require Import Base NumSpec NumFacts ScanSpec IntPrintModel IntPrintProofs IntInjProofs IntSizeProofs IntScanModel IntScanProofs IntSseProofs IntCtxProofs IntRoundProofs
  LineModel LineSpec ScanDrvModel.

(** The answer: the object, and the text left in the stream. *)
Definition gives {S} (r : scanned S) (P : S -> Prop) (rest : list Z) : Prop :=
  exists st buf src, r = Scanned true st buf src /\ P st /\ stream_text buf src rest.
(** A buffer boundary after [n] characters with more text to come. *)
Definition cut_at (buf : list Z) (src : list (list Z)) (n : nat) : Prop :=
  exists s1 s2, src = s1 ++ s2 /\ s2 <> [] /\ n = length (buf ++ concat s1).

Lemma stream_skip buf src (s t : list Z) : Forall (fun c => c <> []) src -> s ++ t = buf ++ concat src -> (length s <= length buf)%nat ->
  stream_text (skipn (length s) buf) src t.
Proof.
  intros Hs E L. destruct (app_split _ _ _ _ E) as [(b2 & -> & ->)|(r1 & N & -> & _)].
  - rewrite skipn_app, skipn_all, Nat.sub_diag. split; [reflexivity|exact Hs].
  - rewrite app_length in L. destruct r1; [contradiction|cbn in L; lia].
Qed.

(** ** Integers *)
Section INT.
  Variable cfg : scfg.
  Hypothesis Hcfg : good_cfg cfg.
  Hypothesis Hshbase : sc_shbase cfg = false.
  Variable sign : bool.
  Hypothesis Hsign : isigned (sc_ty cfg) = false -> sign = false.
  Let B := sc_base cfg.
  Let CW := sc_cw cfg.
  Let scan := ctx_scan (int_define cfg) (int_eof cfg).

  Lemma int_step V st o buf src (k : Z) st' r : in_rangeb (sc_ty cfg) V = true -> Forall (fun c => c <> []) src ->
    ctx_feed cfg st buf = Some (st', r) ->
    (r = outcome (sc_ty cfg) V k /\ 0 <= k <= zlen buf ->
       gives (scan (st, o) buf src) (fun x => snd x = [V]) (skipn (Z.to_nat k) (buf ++ concat src))) /\
    (p_code r = pc_partial -> p_used r = zlen buf ->
       forall c src', src = c :: src' -> exists o', scan (st, o) buf src = scan (st', o') c src').
  Proof.
    intros HV Hs E. split.
    - intros [-> Hk]. unfold outcome in E. rewrite HV in E. exists (st', [V]), (skipn (Z.to_nat k) buf), src.
      assert (L : (Z.to_nat k <= length buf)%nat) by (unfold zlen in Hk; lia). split; [|split; [reflexivity|split; [|exact Hs]]].
      + unfold scan. destruct src; cbn [ctx_scan]; unfold int_define; cbn [fst]; rewrite E; cbn [p_code p_used p_val];
          rewrite (proj2 (Nat.ltb_ge _ _)) by exact L; reflexivity.
      + rewrite skipn_app. replace (Z.to_nat k - length buf)%nat with O by lia. reflexivity.
    - intros Ec Eu c src' ->. inversion Hs; subst. exists (match p_val r with Some v => [v] | None => o end).
      unfold scan. cbn [ctx_scan]. unfold int_define at 1. cbn [fst snd]. rewrite E, Ec, Eu.
      rewrite (proj2 (Nat.ltb_ge _ _)) by (unfold zlen; lia). destruct c; [contradiction|reflexivity].
  Qed.
  Lemma int_last V st o buf k st' r code v : ctx_feed cfg st buf = Some (st', r) -> p_code r = pc_partial -> p_used r = zlen buf ->
    k = zlen buf -> ctx_eof cfg st' = Some (code, v) -> code = pc_ok -> v = Some V ->
    gives (scan (st, o) buf []) (fun x => snd x = [V]) (skipn (Z.to_nat k) buf).
  Proof.
    intros E Ec Eu -> Ee -> ->. exists (st', [V]), [], []. split; [|split; [reflexivity|split; [|constructor]]].
    - unfold scan. cbn [ctx_scan]. unfold int_define. cbn [fst snd]. rewrite E, Ec, Eu.
      rewrite (proj2 (Nat.ltb_ge _ _)) by (unfold zlen; lia). unfold at_eof, int_eof. cbn [fst]. rewrite Ee. reflexivity.
    - cbn. unfold zlen. rewrite Nat2Z.id, skipn_all. reflexivity.
  Qed.

  (** The end of the input in the digits or zeros. *)
  Lemma inv_eof V st k : ctx_inv cfg sign V st [] k -> in_rangeb (sc_ty cfg) V = true -> k = 0 /\ ctx_eof cfg st = Some (pc_ok, Some V).
  Proof.
    intros HI HV. pose proof (ctx_run_inv cfg Hcfg sign Hsign V [] st 0 k (Forall_nil _) HI) as R.
    cbn [ctx_run] in R. destruct (ctx_eof cfg st) as [[code v]|]; [|discriminate]. cbn [option_map fst snd] in R. unfold outcome in R. rewrite HV in R.
    injection R as -> <- ->. auto.
  Qed.

  Lemma scan_inv V : in_rangeb (sc_ty cfg) V = true -> forall src buf st o k, Forall (fun c => c <> []) src ->
    buf <> [] -> ctx_inv cfg sign V st (buf ++ concat src) k ->
    gives (scan (st, o) buf src) (fun x => snd x = [V]) (skipn (Z.to_nat k) (buf ++ concat src)).
  Proof.
    intros HV. pose proof Hcfg as (Hb & Hcw & Hw).
    induction src as [|c src IH]; intros buf st o k Hs Hne HI.
    all: assert (Hk : 0 <= k) by (destruct HI as [(? & ? & cs & ? & ? & ? & ? & -> & _)|(? & (cs & ? & ? & ? & -> & _) & _)]; apply zlen_nonneg).
    - cbn [concat] in *.
      assert (SO1 : step_ok cfg (ctx_inv cfg sign V) V 0 k buf [] (ctx_feed cfg st buf)).
      { destruct HI as [HI|HI].
        - destruct HI as (pre & dpre & cs & ds & rest & Hp & HT & -> & Hbuf & Hsize & Hpre & Hcs & Hlead & Hpne & HV' & Hfit & Hsf & Hn).
          unfold ctx_feed. rewrite Hp. apply (step_ok_mono cfg (digit_inv cfg sign V)); [left; assumption|].
          eapply ctx_digit_phase_ok; eauto.
        - destruct HI as (zs & HI & Hp). unfold ctx_feed.
          destruct zs; rewrite Hp; eapply ctx_zero_phase_ok; eauto; split; congruence. }
      destruct SO1 as (st' & r & E & [(A1 & A2 & A3)|[A A']]).
      + rewrite Z.add_0_l in A2. destruct (inv_eof V st' _ A3 HV) as [K Ee]. rewrite app_nil_r.
        eapply int_last; eauto; lia.
      + rewrite Z.add_0_l in A. apply (proj1 (int_step V st o buf [] k st' r HV Hs E)). auto.
    - assert (SO1 : step_ok cfg (ctx_inv cfg sign V) V 0 k buf (concat (c :: src)) (ctx_feed cfg st buf)).
      { destruct HI as [HI|HI].
        - destruct HI as (pre & dpre & cs & ds & rest & Hp & HT & -> & Hbuf & Hsize & Hpre & Hcs & Hlead & Hpne & HV' & Hfit & Hsf & Hn).
          unfold ctx_feed. rewrite Hp. apply (step_ok_mono cfg (digit_inv cfg sign V)); [left; assumption|].
          eapply ctx_digit_phase_ok; eauto.
        - destruct HI as (zs & HI & Hp). unfold ctx_feed.
          destruct zs; rewrite Hp; eapply ctx_zero_phase_ok; eauto; split; congruence. }
      destruct SO1 as (st' & r & E & [(A1 & A2 & A3)|[A A']]).
      + rewrite Z.add_0_l in A2. destruct (proj2 (int_step V st o buf (c :: src) k st' r HV Hs E) A1 A2 c src eq_refl) as (o' & ->).
        inversion Hs; subst. cbn [concat] in A3.
        assert (Hk2 : 0 <= k - zlen buf) by (destruct A3 as [(? & ? & cs & ? & ? & ? & ? & -> & _)|(? & (cs & ? & ? & ? & -> & _) & _)]; apply zlen_nonneg).
        specialize (IH c st' o' (k - zlen buf) H2 H1 A3).
        cbn [concat]. rewrite skipn_app, skipn_all2 by (unfold zlen in Hk2; lia). cbn [app].
        replace (Z.to_nat k - length buf)%nat with (Z.to_nat (k - zlen buf)) by (unfold zlen; lia). exact IH.
      + rewrite Z.add_0_l in A. apply (proj1 (int_step V st o buf (c :: src) k st' r HV Hs E)). auto.
  Qed.

  Lemma body_first cs ds rest : digit_string B cs ds -> ds <> [] ->
    exists c b, sign_chars sign ++ cs ++ rest = c :: b /\ 0 <= c < 2 ^ CW /\ ~ c_space c.
  Proof.
    intros Hcs Hne. pose proof Hcfg as (Hb & Hcw & Hw). pose proof (cw_pow _ Hcw). unfold CW. destruct sign; cbn [sign_chars app].
    - exists 45, (cs ++ rest). repeat split; try lia. unfold c_space; simpl; lia.
    - clear - Hcs Hne Hb H. destruct Hcs as [|c d cs ds Hd Hds]; [contradiction|]. cbn [app]. exists c, (cs ++ rest).
      pose proof (denotes_cases _ _ _ Hb Hd). repeat split; try lia. eapply digit_not_space; eauto.
  Qed.

  (** A call of the sign phase, with the white space before it in the same buffer. *)
  Lemma scan_sign V cs ds rest : in_rangeb (sc_ty cfg) V = true ->
    digit_string B cs ds -> ds <> [] -> (sc_skipzero cfg = false -> no_leading_zero ds /\ value_of B ds <> 0) ->
    zlen (sign_chars sign) + zlen (strip_zeros ds) < ctx_buf_size cfg -> V = signed_value sign (value_of B ds) ->
    safe_first B CW rest -> no_digit_first B rest ->
    forall src st o phase0 ws s', Forall (fun c => c <> []) src -> s' <> [] ->
    s' ++ concat src = sign_chars sign ++ cs ++ rest ->
    st_buf st = [] -> st_size st = 0 -> phase0 <> ph_zero_skip ->
    ctx_feed cfg st (ws ++ s') = ctx_sign_phase cfg phase0 st (zlen ws) s' ->
    gives (scan (st, o) (ws ++ s') src) (fun x => snd x = [V]) rest.
  Proof.
    intros HV Hcs Hne Hlead Hfit EV Hsf Hn src st o phase0 ws s' Hs Hs' HT E1 E2 E3 E.
    pose proof (ctx_sign_phase_ok cfg Hcfg Hshbase sign Hsign V st phase0 (zlen ws) s' (concat src) cs ds rest E1 E2 E3 Hs' HT Hcs Hne Hlead EV Hfit Hsf Hn) as SO.
    rewrite <- E in SO. destruct SO as (st' & r & Ef & SO).
    assert (ER : rest = skipn (Z.to_nat (zlen ws + (zlen (sign_chars sign) + zlen cs))) ((ws ++ s') ++ concat src)).
    { rewrite <- app_assoc, HT. rewrite (app_assoc (sign_chars sign)), (app_assoc ws), skipn_app.
      rewrite skipn_all2 by (rewrite !app_length; unfold zlen; lia). cbn [app].
      replace (_ - _)%nat with O by (rewrite !app_length; unfold zlen; lia). reflexivity. }
    destruct SO as [(A1 & A2 & A3)|[A A']].
    - destruct src as [|c src].
      + cbn [concat] in *. destruct (inv_eof V st' _ A3 HV) as [K Ee]. rewrite ER, app_nil_r.
        eapply int_last; eauto; rewrite zlen_app; lia.
      + destruct (proj2 (int_step V st o (ws ++ s') (c :: src) 0 st' r HV Hs Ef) A1 ltac:(rewrite zlen_app; lia) c src eq_refl) as (o' & ->).
        pose proof (Forall_inv Hs) as H1; pose proof (Forall_inv_tail Hs) as H2. cbn [concat] in A3.
        assert (Hk2 : 0 <= zlen (sign_chars sign) + zlen cs - zlen s') by (destruct A3 as [(? & ? & ? & ? & ? & ? & ? & -> & _)|(? & (? & ? & ? & ? & -> & _) & _)]; apply zlen_nonneg).
        pose proof (scan_inv _ HV src c st' o' _ H2 H1 A3) as IH.
        rewrite ER. cbn [concat]. rewrite skipn_app, skipn_all2 by (rewrite app_length; unfold zlen in Hk2 |- *; lia). cbn [app].
        replace (_ - length (ws ++ s'))%nat with (Z.to_nat (zlen (sign_chars sign) + zlen cs - zlen s')) by (rewrite app_length; unfold zlen in *; lia). exact IH.
    - pose proof (proj1 (int_step V st o (ws ++ s') src (zlen ws + (zlen (sign_chars sign) + zlen cs)) st' r HV Hs Ef)) as G. rewrite <- ER in G. apply G.
      split; [exact A|]. rewrite zlen_app. pose proof (zlen_nonneg ws). pose proof (zlen_nonneg (sign_chars sign)). pose proof (zlen_nonneg cs). lia.
  Qed.

  Lemma scan_start V ws cs ds rest : in_rangeb (sc_ty cfg) V = true -> Forall c_space ws -> (sc_noskipws cfg = true -> ws = []) ->
    digit_string B cs ds -> ds <> [] -> (sc_skipzero cfg = false -> no_leading_zero ds /\ value_of B ds <> 0) ->
    zlen (sign_chars sign) + zlen (strip_zeros ds) < ctx_buf_size cfg -> V = signed_value sign (value_of B ds) ->
    safe_first B CW rest -> no_digit_first B rest ->
    forall src buf o, Forall (fun c => c <> []) src -> buf ++ concat src = ws ++ sign_chars sign ++ cs ++ rest ->
    gives (scan (st_init, o) buf src) (fun x => snd x = [V]) rest.
  Proof.
    intros HV Hws Hnows Hcs Hne Hlead Hfit EV Hsf Hn. pose proof Hcfg as (Hb & Hcw & Hw).
    destruct (body_first cs ds rest Hcs Hne) as (c0 & b0 & Eb & Hc0 & Hns).
    intros src. revert ws Hws Hnows. induction src as [|c src IH]; intros ws Hws Hnows buf o Hs HT.
    - cbn [concat] in HT. rewrite app_nil_r in HT. subst buf. rewrite Eb.
      apply (scan_sign V cs ds rest HV Hcs Hne Hlead Hfit EV Hsf Hn [] st_init o ph_space ws (c0 :: b0)); auto; try discriminate.
      + rewrite <- Eb. apply app_nil_r.
      + unfold ctx_feed. cbn [st_phase st_init]. destruct (sc_noskipws cfg) eqn:En.
        * rewrite (Hnows eq_refl). reflexivity.
        * assert (SK : skip_space (sc_cw cfg) (ws ++ c0 :: b0) = c0 :: b0) by (apply skip_space_spec; auto). rewrite SK. cbv zeta. rewrite zlen_app. replace (_ + _ - _) with (zlen ws) by lia. reflexivity.
    - pose proof (Forall_inv Hs) as H1; pose proof (Forall_inv_tail Hs) as H2. destruct (app_split _ _ _ _ HT) as [(ws2 & -> & HT2)|(r1 & Nr & -> & HT2)].
      + (* all white space, or nothing at all *)
        apply Forall_app in Hws as [Hw1 Hw2].
        destruct (sc_noskipws cfg) eqn:En.
        * specialize (Hnows eq_refl). apply app_eq_nil in Hnows as [-> ->]. cbn [app] in *.
          (* an empty buffer at the start *)
          cbn [concat] in HT2. case_eq (isigned (sc_ty cfg)); intros Es.
          -- assert (E : ctx_feed cfg st_init [] = Some (mk_st [] 0 ph_sign, mk_pres pc_partial 0 None))
               by (unfold ctx_feed; cbn [st_phase st_init]; rewrite En; unfold ctx_sign_phase; rewrite Es; reflexivity).
             destruct (proj2 (int_step V st_init o [] (c :: src) 0 _ _ HV Hs E) eq_refl eq_refl c src eq_refl) as (o' & ->).
             apply (scan_sign V cs ds rest HV Hcs Hne Hlead Hfit EV Hsf Hn src (mk_st [] 0 ph_sign) o' ph_sign [] c); auto; discriminate.
          -- assert (E : ctx_feed cfg st_init [] = Some (mk_st [] 0 ph_zero, mk_pres pc_partial 0 None)).
             { unfold ctx_feed; cbn [st_phase st_init]; rewrite En; unfold ctx_sign_phase; rewrite Es. unfold ctx_prefix_phase. rewrite Hshbase. reflexivity. }
             destruct (proj2 (int_step V st_init o [] (c :: src) 0 _ _ HV Hs E) eq_refl eq_refl c src eq_refl) as (o' & ->).
             pose proof (Hsign Es) as Esg.
             assert (G : gives (scan (mk_st [] 0 ph_zero, o') c src) (fun x => snd x = [V]) (skipn (Z.to_nat (zlen cs)) (c ++ concat src))).
             { apply scan_inv; auto. right. exists false. split; [|reflexivity]. exists cs, ds, rest. rewrite Esg in *. cbn [sign_chars app] in *.
               cbn [st_buf st_size]. repeat split; auto; apply Hlead; auto. }
             rewrite HT2, Esg in G. cbn [sign_chars app] in G. unfold zlen in G. rewrite Nat2Z.id, skipn_app, skipn_all, Nat.sub_diag in G. exact G.
        * assert (E : ctx_feed cfg st_init buf = Some (st_init, mk_pres pc_partial (zlen buf) None)).
          { unfold ctx_feed; cbn [st_phase st_init]. rewrite En.
            pose proof (skip_space_spec (sc_cw cfg) buf [] Hcw Hw1 I) as SK. rewrite app_nil_r in SK. rewrite SK. reflexivity. }
          destruct (proj2 (int_step V st_init o buf (c :: src) 0 _ _ HV Hs E) eq_refl eq_refl c src eq_refl) as (o' & ->).
          apply (IH ws2); auto. discriminate.
      + apply (scan_sign V cs ds rest HV Hcs Hne Hlead Hfit EV Hsf Hn (c :: src) st_init o ph_space ws r1); auto; try discriminate.
        unfold ctx_feed. cbn [st_phase st_init]. destruct (sc_noskipws cfg) eqn:En.
        * rewrite (Hnows eq_refl). reflexivity.
        * assert (SK : skip_space (sc_cw cfg) (ws ++ r1) = r1).
          { apply skip_space_spec; auto. destruct r1 as [|x r1]; [contradiction|]. rewrite Eb in HT2. cbn [app] in HT2. injection HT2 as -> _.
            split; [exact Hc0|exact Hns]. }
          rewrite SK. destruct r1 as [|x r1]; [contradiction|]. cbv zeta. rewrite zlen_app. replace (_ + _ - _) with (zlen ws) by lia. reflexivity.
  Qed.

  (** The integer 0, which must not be cut off after its digit. *)
  Hypothesis Hnz : sc_skipzero cfg = false.
  Lemma zero_phase phase0 st u b R rest : b ++ R = rest -> safe_first B CW rest -> no_digit_first B rest ->
    ctx_zero_phase cfg phase0 st u (48 :: b) =
      match b with
      | [] => Some (mk_st (st_buf st) (st_size st) ph_zero_invalid, mk_pres pc_partial (u + 1) None)
      | _ => Some (st, mk_pres pc_ok (u + 1) (Some 0))
      end.
  Proof.
    intros ER Hsf Hn. pose proof Hcfg as (Hb & Hcw & Hw). cbn [ctx_zero_phase]. rewrite Hnz.
    assert (D : char_digit (sc_base cfg) (sc_cw cfg) 48 = Some (Some 0)).
    { apply char_digit_some; auto. apply (denotes_small (sc_base cfg) 0); lia. }
    rewrite D. change (48 =? 48) with true. cbv iota. replace (zlen (48 :: b) - zlen b) with 1 by (rewrite zlen_cons; lia).
    destruct b as [|c1 b]; [reflexivity|]. subst rest. cbn [app safe_first no_digit_first] in Hsf, Hn.
    rewrite char_digit_none by auto. reflexivity.
  Qed.

  Lemma scan_zero_digit st o ws b src rest : Forall (fun c => c <> []) src ->
    b ++ concat src = rest -> safe_first B CW rest -> no_digit_first B rest -> (b = [] -> src = []) ->
    (exists phase0, ctx_feed cfg st (ws ++ 48 :: b) = ctx_zero_phase cfg phase0 st (zlen ws) (48 :: b)) \/
    (exists phase0 st0, ctx_feed cfg st (ws ++ 48 :: b) = ctx_zero_phase cfg phase0 st0 (zlen ws) (48 :: b)) ->
    gives (scan (st, o) (ws ++ 48 :: b) src) (fun x => snd x = [0]) rest.
  Proof.
    intros Hs ER Hsf Hn Hc E. pose proof Hcfg as (Hb & Hcw & Hw).
    assert (E' : exists phase0 st0, ctx_feed cfg st (ws ++ 48 :: b) = ctx_zero_phase cfg phase0 st0 (zlen ws) (48 :: b)).
    { destruct E as [(p0 & E)|E]; [exists p0, st; exact E|exact E]. }
    destruct E' as (phase0 & st0 & E'). rewrite (zero_phase phase0 st0 (zlen ws) b (concat src) rest ER Hsf Hn) in E'.
    assert (H0 : in_rangeb (sc_ty cfg) 0 = true).
    { pose proof (zero_in_range (sc_ty cfg)) as Z0. apply in_rangeb_spec. unfold in_range, int_min, int_max.
      assert (0 < 2 ^ (iw (sc_ty cfg) - 1)) by (apply Z.pow_pos_nonneg; apply width_cases in Hw; lia).
      assert (0 < 2 ^ iw (sc_ty cfg)) by (apply Z.pow_pos_nonneg; apply width_cases in Hw; lia). destruct (isigned (sc_ty cfg)); lia. }
    destruct b as [|c1 b].
    - rewrite (Hc eq_refl) in *. cbn [concat app] in ER. subst rest.
      assert (G : gives (scan (st, o) (ws ++ [48]) []) (fun x => snd x = [0]) (skipn (Z.to_nat (zlen (ws ++ [48]))) (ws ++ [48]))).
      { eapply int_last; [exact E'|reflexivity| |reflexivity| | |]; [cbn [p_used]; rewrite zlen_app, zlen_cons, zlen_nil; lia|reflexivity|reflexivity|reflexivity]. }
      unfold zlen in G. rewrite Nat2Z.id, skipn_all in G. exact G.
    - pose proof (proj1 (int_step 0 st o (ws ++ 48 :: c1 :: b) src (zlen ws + 1) _ _ H0 Hs E')) as G.
      replace rest with (skipn (Z.to_nat (zlen ws + 1)) ((ws ++ 48 :: c1 :: b) ++ concat src)).
      + apply G. unfold outcome. rewrite H0. split; [reflexivity|]. rewrite zlen_app, !zlen_cons. pose proof (zlen_nonneg ws). pose proof (zlen_nonneg b). lia.
      + rewrite <- app_assoc. replace (Z.to_nat (zlen ws + 1)) with (length (ws ++ [48])) by (rewrite app_length; cbn [length]; unfold zlen; lia).
        change ((48 :: c1 :: b) ++ concat src) with ([48] ++ (c1 :: b) ++ concat src). rewrite app_assoc, skipn_app, skipn_all, Nat.sub_diag. exact ER.
  Qed.

  Lemma scan_zero_sign rest : safe_first B CW rest -> no_digit_first B rest ->
    forall src st o phase0 ws s', Forall (fun c => c <> []) src -> s' <> [] ->
    s' ++ concat src = sign_chars sign ++ [48] ++ rest ->
    ctx_feed cfg st (ws ++ s') = ctx_sign_phase cfg phase0 st (zlen ws) s' ->
    ~ cut_at s' src (length (sign_chars sign ++ [48])) ->
    gives (scan (st, o) (ws ++ s') src) (fun x => snd x = [0]) rest.
  Proof.
    intros Hsf Hn src st o phase0 ws s' Hs Hs' HT E Hcut. pose proof Hcfg as (Hb & Hcw & Hw).
    destruct s' as [|c s']; [contradiction|]. clear Hs'. case_eq sign; intros Esg; rewrite Esg in HT, Hcut; cbn [sign_chars app] in *.
    - injection HT as -> HT. unfold ctx_sign_phase in E. rewrite Z.eqb_refl in E.
      case_eq (isigned (sc_ty cfg)); intros Es; [|pose proof (Hsign Es); congruence]. rewrite Es in E. unfold ctx_prefix_phase in E. rewrite Hshbase in E. cbn [andb] in E.
      destruct s' as [|c s'].
      + cbn [ctx_zero_phase] in E. destruct src as [|c src]; [discriminate HT|]. cbn [concat app] in HT.
        destruct (proj2 (int_step 0 st o (ws ++ [45]) (c :: src) 0 _ _ ltac:(
            apply in_rangeb_spec; unfold in_range, int_min, int_max;
            assert (0 < 2 ^ (iw (sc_ty cfg) - 1)) by (apply Z.pow_pos_nonneg; apply width_cases in Hw; lia);
            assert (0 < 2 ^ iw (sc_ty cfg)) by (apply Z.pow_pos_nonneg; apply width_cases in Hw; lia); destruct (isigned (sc_ty cfg)); lia) Hs E) eq_refl
            ltac:(cbn [p_used]; rewrite zlen_app, zlen_cons, zlen_nil; lia) c src eq_refl) as (o' & ->).
        pose proof (Forall_inv Hs) as H1; pose proof (Forall_inv_tail Hs) as H2. destruct c as [|c b]; [contradiction|].
        injection HT as -> HT. apply (scan_zero_digit _ o' [] b src rest); auto.
        * intros ->. destruct src as [|d src]; [reflexivity|]. exfalso. apply Hcut. exists [[48]], (d :: src). repeat split. discriminate.
        * left. exists ph_zero. reflexivity.
      + injection HT as -> HT. change (ws ++ 45 :: 48 :: s') with (ws ++ [45] ++ 48 :: s'). rewrite app_assoc.
        apply scan_zero_digit; auto.
        * intros ->. destruct src as [|d src]; [reflexivity|]. exfalso. apply Hcut. exists [], (d :: src). repeat split. discriminate.
        * right. exists phase0, (mk_st [45] 1 (st_phase st)). rewrite <- app_assoc. cbn [app]. rewrite E. f_equal. rewrite zlen_app. reflexivity.
    - injection HT as -> HT. apply scan_zero_digit; auto.
      + intros ->. destruct src as [|d src]; [reflexivity|]. exfalso. apply Hcut. exists [], (d :: src). repeat split. discriminate.
      + left. exists phase0. rewrite E. unfold ctx_sign_phase, ctx_prefix_phase. rewrite Hshbase. destruct (isigned (sc_ty cfg)); reflexivity.
  Qed.

  Lemma scan_zero ws rest : Forall c_space ws -> (sc_noskipws cfg = true -> ws = []) -> safe_first B CW rest -> no_digit_first B rest ->
    forall src buf o, Forall (fun c => c <> []) src -> buf ++ concat src = ws ++ sign_chars sign ++ [48] ++ rest ->
    ~ cut_at buf src (length (ws ++ sign_chars sign ++ [48])) ->
    gives (scan (st_init, o) buf src) (fun x => snd x = [0]) rest.
  Proof.
    intros Hws Hnows Hsf Hn. pose proof Hcfg as (Hb & Hcw & Hw).
    assert (Hcs : digit_string B [48] [0]) by (constructor; [apply (denotes_small B 0); unfold B; lia|constructor]).
    destruct (body_first [48] [0] rest Hcs ltac:(discriminate)) as (c0 & b0 & Eb & Hc0 & Hns).
    assert (H0 : in_rangeb (sc_ty cfg) 0 = true).
    { apply in_rangeb_spec. unfold in_range, int_min, int_max.
      assert (0 < 2 ^ (iw (sc_ty cfg) - 1)) by (apply Z.pow_pos_nonneg; apply width_cases in Hw; lia).
      assert (0 < 2 ^ iw (sc_ty cfg)) by (apply Z.pow_pos_nonneg; apply width_cases in Hw; lia). destruct (isigned (sc_ty cfg)); lia. }
    assert (Hshift : forall a b src n, ~ cut_at (a ++ b) src (length a + n) -> ~ cut_at b src n).
    { intros a b src n H (s1 & s2 & E1 & E2 & E3). apply H. exists s1, s2. repeat split; auto. rewrite E3, <- app_assoc, (app_length a). reflexivity. }
    intros src. revert ws Hws Hnows. induction src as [|c src IH]; intros ws Hws Hnows buf o Hs HT Hcut.
    - cbn [concat] in HT. rewrite app_nil_r in HT. subst buf. rewrite Eb.
      apply (scan_zero_sign rest Hsf Hn [] st_init o ph_space ws (c0 :: b0)); auto; try discriminate.
      + rewrite <- Eb. apply app_nil_r.
      + unfold ctx_feed. cbn [st_phase st_init]. destruct (sc_noskipws cfg) eqn:En.
        * rewrite (Hnows eq_refl). reflexivity.
        * assert (SK : skip_space (sc_cw cfg) (ws ++ c0 :: b0) = c0 :: b0) by (apply skip_space_spec; auto). rewrite SK.
          cbv zeta. rewrite zlen_app. replace (_ + _ - _) with (zlen ws) by lia. reflexivity.
      + intros (s1 & s2 & E1 & E2 & E3). symmetry in E1. apply app_eq_nil in E1 as [_ E1]. contradiction.
    - pose proof (Forall_inv Hs) as H1; pose proof (Forall_inv_tail Hs) as H2. destruct (app_split _ _ _ _ HT) as [(ws2 & -> & HT2)|(r1 & Nr & -> & HT2)].
      + apply Forall_app in Hws as [Hw1 Hw2].
        assert (Hcut2 : ~ cut_at c src (length (ws2 ++ sign_chars sign ++ [48]))).
        { intros (s1 & s2 & E1 & E2 & E3). apply Hcut. exists (c :: s1), s2. repeat split; auto; [rewrite E1; reflexivity|].
          rewrite <- app_assoc, (app_length buf), E3. cbn [concat]. rewrite (app_length buf), (app_length c). lia. }
        destruct (sc_noskipws cfg) eqn:En.
        * specialize (Hnows eq_refl). apply app_eq_nil in Hnows as [-> ->]. cbn [app] in *.
          cbn [concat] in HT2. case_eq (isigned (sc_ty cfg)); intros Es.
          -- assert (E : ctx_feed cfg st_init [] = Some (mk_st [] 0 ph_sign, mk_pres pc_partial 0 None))
               by (unfold ctx_feed; cbn [st_phase st_init]; rewrite En; unfold ctx_sign_phase; rewrite Es; reflexivity).
             destruct (proj2 (int_step 0 st_init o [] (c :: src) 0 _ _ H0 Hs E) eq_refl eq_refl c src eq_refl) as (o' & ->).
             apply (scan_zero_sign rest Hsf Hn src (mk_st [] 0 ph_sign) o' ph_sign [] c); auto; discriminate.
          -- assert (E : ctx_feed cfg st_init [] = Some (mk_st [] 0 ph_zero, mk_pres pc_partial 0 None)).
             { unfold ctx_feed; cbn [st_phase st_init]; rewrite En; unfold ctx_sign_phase; rewrite Es. unfold ctx_prefix_phase. rewrite Hshbase. reflexivity. }
             destruct (proj2 (int_step 0 st_init o [] (c :: src) 0 _ _ H0 Hs E) eq_refl eq_refl c src eq_refl) as (o' & ->).
             pose proof (Hsign Es) as Esg. rewrite Esg in HT2, Hcut2. cbn [sign_chars app] in HT2, Hcut2. destruct c as [|c b]; [contradiction|]. injection HT2 as -> HT2.
             apply (scan_zero_digit _ o' [] b src rest); auto.
             ++ intros ->. destruct src as [|d src]; [reflexivity|]. exfalso. apply Hcut2. exists [], (d :: src). repeat split. discriminate.
             ++ left. exists ph_zero. reflexivity.
        * assert (E : ctx_feed cfg st_init buf = Some (st_init, mk_pres pc_partial (zlen buf) None)).
          { unfold ctx_feed; cbn [st_phase st_init]. rewrite En.
            pose proof (skip_space_spec (sc_cw cfg) buf [] Hcw Hw1 I) as SK. rewrite app_nil_r in SK. rewrite SK. reflexivity. }
          destruct (proj2 (int_step 0 st_init o buf (c :: src) 0 _ _ H0 Hs E) eq_refl eq_refl c src eq_refl) as (o' & ->).
          apply (IH ws2); auto. discriminate.
      + apply (scan_zero_sign rest Hsf Hn (c :: src) st_init o ph_space ws r1); auto; try discriminate.
        * unfold ctx_feed. cbn [st_phase st_init]. destruct (sc_noskipws cfg) eqn:En.
          -- rewrite (Hnows eq_refl). reflexivity.
          -- assert (SK : skip_space (sc_cw cfg) (ws ++ r1) = r1).
             { apply skip_space_spec; auto. destruct r1 as [|x r1]; [contradiction|]. rewrite Eb in HT2. cbn [app] in HT2. injection HT2 as -> _.
               split; [exact Hc0|exact Hns]. }
             rewrite SK. destruct r1 as [|x r1]; [contradiction|]. cbv zeta. rewrite zlen_app. replace (_ + _ - _) with (zlen ws) by lia. reflexivity.
        * apply (Hshift ws). rewrite <- app_length. exact Hcut.
  Qed.
End INT.
