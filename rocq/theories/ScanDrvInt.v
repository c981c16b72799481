(** Proofs about the scan driver: an integer (the contiguous scanner first, then the context scanner). *)
From Verif Require Import Base NumSpec NumFacts ScanSpec IntPrintModel IntPrintProofs IntInjProofs IntSizeProofs IntScanModel IntScanProofs IntSseProofs IntCtxProofs IntRoundProofs
  LineModel LineSpec ScanDrvModel ScanDrvProofs.

Lemma digit_string_split base a b ds : digit_string base (a ++ b) ds ->
  exists d1 d2, ds = d1 ++ d2 /\ digit_string base a d1 /\ digit_string base b d2.
Proof.
  revert ds. induction a as [|x a IH]; intros ds H.
  - exists [], ds. repeat split; auto. constructor.
  - cbn [app] in H. inversion H as [|? d ? ds' Hd Hr]; subst. destruct (IH _ Hr) as (d1 & d2 & -> & H1 & H2).
    exists (d :: d1), d2. repeat split; auto. constructor; auto.
Qed.
Lemma digit_string_ok base cs ds : 2 <= base -> digit_string base cs ds -> digits_ok base ds.
Proof. intros Hb H. induction H as [|c d cs ds [Hd _] _ IH]; constructor; auto. Qed.
Lemma value_of_prefix base d1 d2 : 2 <= base -> digits_ok base (d1 ++ d2) -> 0 <= value_of base d1 <= value_of base (d1 ++ d2).
Proof.
  intros Hb H. apply Forall_app in H as [H1 H2]. pose proof (value_of_bound base d1 ltac:(lia) H1). split; [lia|].
  induction d2 as [|d d2 IH] using rev_ind; [rewrite app_nil_r; lia|].
  apply Forall_app in H2 as [H2 Hd]. apply Forall_inv in Hd. specialize (IH H2).
  rewrite app_assoc, value_of_snoc. nia.
Qed.

Lemma signed_smaller ty sign u v : 0 <= u <= v -> In (iw ty) int_widths -> in_rangeb ty (signed_value sign v) = true -> in_rangeb ty (signed_value sign u) = true.
Proof.
  intros H Hw H1. apply in_rangeb_spec in H1. apply in_rangeb_spec. unfold in_range, int_min, int_max, signed_value in *.
  assert (0 < 2 ^ (iw ty - 1)) by (apply Z.pow_pos_nonneg; apply width_cases in Hw; lia).
  destruct (isigned ty), sign; lia.
Qed.
Lemma no_leading_prefix d1 d2 : no_leading_zero (d1 ++ d2) -> d1 <> [] -> no_leading_zero d1.
Proof. destruct d1 as [|a [|b d1]]; cbn; auto. Qed.

(** The contiguous scanner on a buffer that ends inside the numeral (or right after it) stops at the end of the buffer. *)
Lemma int_short cfg ws sign cs ds rest1 : good_cfg cfg -> sc_shbase cfg = false -> (isigned (sc_ty cfg) = false -> sign = false) ->
  Forall c_space ws -> (sc_noskipws cfg = true -> ws = []) ->
  digit_string (sc_base cfg) cs ds -> ds <> [] -> (sc_skipzero cfg = false -> no_leading_zero ds) ->
  in_rangeb (sc_ty cfg) (signed_value sign (value_of (sc_base cfg) ds)) = true ->
  forall buf, buf ++ rest1 = ws ++ sign_chars sign ++ cs -> exists st code, int_contig cfg buf = Some (st, length buf, code).
Proof.
  intros Hcfg Hsh Hsg Hws Hnows Hcs Hne Hlead HV buf HT. pose proof Hcfg as (Hb & Hcw & Hw).
  assert (G : exists r, scan_int cfg buf = Some r /\ p_used r = zlen buf).
  { destruct (app_split _ _ _ _ HT) as [(ws2 & -> & HT2)|(r1 & Nr & -> & HT2)].
    - apply Forall_app in Hws as [Hw1 _]. destruct (sc_noskipws cfg) eqn:En.
      + specialize (Hnows eq_refl). apply app_eq_nil in Hnows as [-> _]. unfold scan_int. rewrite En, Hsh. cbn [andb]. rewrite andb_false_r.
        unfold scan_none_space. destruct (isigned (sc_ty cfg)); [eexists; split; reflexivity|].
        cbn [scan_zero_part]. unfold scan_digits_part. replace (32 <=? zlen []) with false by reflexivity. rewrite andb_false_r.
        unfold scan_scalar. destruct (Z.to_nat _); cbn [first_phase]; destruct (isigned (sc_ty cfg)); cbn;
          try (eexists; split; reflexivity); destruct (_ <? _); eexists; split; reflexivity.
      + rewrite (scan_blank cfg buf Hcfg En Hw1). eexists; split; reflexivity.
    - symmetry in HT2. destruct (app_split r1 rest1 (sign_chars sign) cs HT2) as [(q & Eq & _)|(cs1 & N1 & E1 & E2)].
      + (* white space and the sign *)
        destruct sign; [|destruct r1; [contradiction|discriminate Eq]]. destruct r1 as [|c r1]; [contradiction|].
        injection Eq as <- Eq. symmetry in Eq. apply app_eq_nil in Eq as [-> _].
        assert (Es : isigned (sc_ty cfg) = true) by (destruct (isigned (sc_ty cfg)); [reflexivity|discriminate (Hsg eq_refl)]).
        assert (E : scan_int cfg (ws ++ [45]) = scan_digits_part cfg true (zlen ws + 1) []).
        { unfold scan_int. rewrite Hsh, Es. cbn [andb negb]. unfold scan_none_space. rewrite Es.
          destruct (sc_noskipws cfg) eqn:En.
          - rewrite (Hnows eq_refl). reflexivity.
          - rewrite (skip_space_spec (sc_cw cfg) ws [45] Hcw Hws).
            + cbn [andb Z.eqb Pos.eqb scan_zero_part]. cbv zeta. rewrite zlen_app. f_equal. lia.
            + split; [pose proof (cw_pow _ Hcw); lia|unfold c_space; simpl; lia]. }
        rewrite E. unfold scan_digits_part. replace (32 <=? zlen []) with false by reflexivity. rewrite andb_false_r, Es.
        unfold scan_scalar. assert (U : zlen ws + 1 + (zlen (@nil Z) - zlen (@nil Z)) = zlen (ws ++ [45])) by (unfold zlen; rewrite app_length; cbn [length]; lia).
        destruct (Z.to_nat _); cbn [first_phase parse_code_eqb negb]; rewrite U; destruct (_ <? 0); eexists; split; reflexivity.
      + subst r1 cs. destruct (digit_string_split _ _ _ _ Hcs) as (d1 & d2 & -> & D1 & D2).
        assert (Nd : d1 <> []) by (intros ->; inversion D1; subst; contradiction).
        pose proof (value_of_prefix (sc_base cfg) d1 d2 ltac:(lia) (digit_string_ok (sc_base cfg) _ _ ltac:(lia) Hcs)) as Hpre.
        pose proof (signed_smaller _ sign _ _ Hpre Hw HV) as HV1.
        destruct (scan_int_gen cfg ws sign cs1 d1 [] Hcfg Hsh Hsg) as (r & E & _ & _ & U); auto.
        * intros _ _. unfold no_sse. replace (32 <=? zlen []) with false by reflexivity. apply andb_false_r.
        * intros _. constructor.
        * intros Ez. apply (no_leading_prefix d1 d2); auto.
        * exact I.
        * exact I.
        * rewrite app_nil_r in E. exists r. split; [exact E|]. unfold outcome in U. rewrite HV1 in U. cbn [p_code p_used] in U. rewrite U by (left; reflexivity).
          rewrite !zlen_app. lia. }
  destruct G as (r & E & U). unfold int_contig. rewrite E, U. unfold zlen. rewrite Nat2Z.id. eexists. eexists. reflexivity.
Qed.

(** White space, a numeral, and what follows: the object and the rest of the text, for every cutting of the text into
    buffers (that does not separate a single digit 0 from what follows it). *)
Lemma int_length cfg sign ds : good_cfg cfg -> digits_ok (sc_base cfg) ds -> (isigned (sc_ty cfg) = false -> sign = false) ->
  in_rangeb (sc_ty cfg) (signed_value sign (value_of (sc_base cfg) ds)) = true ->
  zlen (sign_chars sign) + zlen (strip_zeros ds) < ctx_buf_size cfg.
Proof.
  intros (Hb & Hcw & Hw) Hds Hsg HV. unfold ctx_buf_size. apply in_rangeb_spec in HV. apply abs_bound in HV; [|exact Hw].
  assert (L : zlen (strip_zeros ds) <= cal_max_int_size (mk_int (iw (sc_ty cfg)) false) (sc_base cfg)).
  { destruct (strip_zeros_lead ds) as [->|Hl].
    - rewrite zlen_nil. destruct (cal_max_int_size_spec (mk_int (iw (sc_ty cfg)) false) (sc_base cfg) Hw ltac:(lia)) as (N1 & _ & _). lia.
    - assert (Hn : is_numeral (sc_base cfg) false (value_of (sc_base cfg) ds) (map (digit_char false) (strip_zeros ds))).
      { exists (strip_zeros ds). repeat split; auto; [|apply strip_zeros_value].
        clear - Hds. induction Hds as [|d ds Hd Hr IH]; cbn [strip_zeros]; [constructor|]. destruct (d =? 0); [exact IH|constructor; assumption]. }
      assert (Hv : 0 <= value_of (sc_base cfg) ds < 2 ^ iw (sc_ty cfg)).
      { pose proof (value_of_bound (sc_base cfg) ds ltac:(lia) Hds). unfold signed_value in HV. destruct sign; lia. }
      pose proof (numeral_length _ _ _ _ _ Hb Hw Hn Hv) as L. unfold zlen in *. rewrite map_length in L. exact L. }
  assert (zlen (sign_chars sign) <= if isigned (sc_ty cfg) then 1 else 0).
  { destruct (isigned (sc_ty cfg)); [destruct sign; cbn; unfold zlen; cbn; lia|]. rewrite (Hsg eq_refl). cbn. unfold zlen; cbn; lia. }
  lia.
Qed.

Lemma int_piece cfg ws sign cs ds rest : good_cfg cfg -> sc_shbase cfg = false -> (isigned (sc_ty cfg) = false -> sign = false) ->
  (sc_skipzero cfg = true -> sc_sse cfg = false) ->
  Forall c_space ws -> (sc_noskipws cfg = true -> ws = []) ->
  digit_string (sc_base cfg) cs ds -> ds <> [] -> (sc_skipzero cfg = false -> no_leading_zero ds) ->
  in_rangeb (sc_ty cfg) (signed_value sign (value_of (sc_base cfg) ds)) = true ->
  (sc_cw cfg = 8 -> bytes rest) -> safe_first (sc_base cfg) (sc_cw cfg) rest -> no_digit_first (sc_base cfg) rest ->
  forall src buf, Forall (fun c => c <> []) src -> buf ++ concat src = ws ++ sign_chars sign ++ cs ++ rest ->
  (sc_skipzero cfg = false -> value_of (sc_base cfg) ds = 0 -> ~ cut_at buf src (length (ws ++ sign_chars sign ++ cs))) ->
  gives (both_scan (int_contig cfg) (int_define cfg) (int_eof cfg) (st_init, []) buf src)
    (fun x => snd x = [signed_value sign (value_of (sc_base cfg) ds)]) rest.
Proof.
  intros Hcfg Hsh Hsg Hsse Hws Hnows Hcs Hne Hlead HV Hby Hsf Hn src buf Hs HT Hcut. pose proof Hcfg as (Hb & Hcw & Hw).
  pose proof (digit_string_ok (sc_base cfg) _ _ ltac:(lia) Hcs) as Hok.
  assert (Hctx : gives (ctx_scan (int_define cfg) (int_eof cfg) (st_init, []) buf src) (fun x => snd x = [signed_value sign (value_of (sc_base cfg) ds)]) rest).
  { destruct (sc_skipzero cfg) eqn:Ez; [|destruct (Z.eq_dec (value_of (sc_base cfg) ds) 0) as [E0|E0]].
    - apply (scan_start cfg Hcfg Hsh sign Hsg _ ws cs ds rest); auto; [rewrite Ez; discriminate|].
      apply int_length; auto.
    - specialize (Hlead eq_refl). assert (Eds : ds = [0]).
      { destruct ds as [|d [|d2 ds]]; [contradiction| |].
        - unfold value_of in E0; cbn in E0. f_equal. lia.
        - exfalso. cbn in Hlead. pose proof (Forall_inv Hok) as Hd. pose proof (Forall_inv_tail Hok) as Hr.
          rewrite value_of_cons in E0. pose proof (value_of_bound (sc_base cfg) (d2 :: ds) ltac:(lia) Hr).
          assert (0 < sc_base cfg ^ Z.of_nat (length (d2 :: ds))) by (apply Z.pow_pos_nonneg; lia). cbn beta in Hd. nia. }
      subst ds. assert (Ec : cs = [48]).
      { inversion Hcs as [|c d cs' ds' [_ Hd] Hr]; subst. inversion Hr; subst. f_equal. unfold digit_char in Hd. cbn in Hd. lia. }
      subst cs. rewrite E0. replace (signed_value sign 0) with 0 by (destruct sign; reflexivity).
      apply (scan_zero cfg Hcfg Hsh sign Hsg Ez ws rest); auto.
    - apply (scan_start cfg Hcfg Hsh sign Hsg _ ws cs ds rest); auto. apply int_length; auto. }
  unfold both_scan. assert (HT' : buf ++ concat src = (ws ++ sign_chars sign ++ cs) ++ rest) by (rewrite <- !app_assoc; exact HT).
  destruct (app_split _ _ _ _ HT') as [(q & Eq & _)|(r1 & Nr & Eb & Er)].
  - destruct (int_short cfg ws sign cs ds q Hcfg Hsh Hsg Hws Hnows Hcs Hne Hlead HV buf (eq_sym Eq)) as (st & code & ->).
    rewrite Nat.eqb_refl. exact Hctx.
  - assert (Hby1 : sc_cw cfg = 8 -> bytes r1) by (intros E; specialize (Hby E); rewrite Er in Hby; apply Forall_app in Hby; apply Hby).
    assert (Hsf1 : safe_first (sc_base cfg) (sc_cw cfg) r1 /\ no_digit_first (sc_base cfg) r1).
    { destruct r1 as [|x r1]; [contradiction|]. rewrite Er in Hsf, Hn. split; [exact Hsf|exact Hn]. }
    destruct Hsf1 as [Hsf1 Hn1].
    destruct (scan_int_gen cfg ws sign cs ds r1 Hcfg Hsh Hsg) as (r & E & C & V & U); auto.
    { intros Ez _. unfold no_sse. rewrite (Hsse Ez). reflexivity. }
    replace (ws ++ sign_chars sign ++ cs ++ r1) with buf in E by (rewrite Eb, <- !app_assoc; reflexivity).
    unfold int_contig. rewrite E. unfold outcome in C, V, U. rewrite HV in C, V, U. cbn [p_code p_val p_used] in C, V, U.
    rewrite C, V, U by (left; reflexivity).
    assert (EK : Z.to_nat (zlen ws + zlen (sign_chars sign) + zlen cs) = length (ws ++ sign_chars sign ++ cs)) by (rewrite !app_length; unfold zlen; lia).
    rewrite EK. assert (Lb : (length buf = length (ws ++ sign_chars sign ++ cs) + length r1)%nat) by (rewrite Eb, app_length; reflexivity).
    assert (Lr : (length r1 <> 0)%nat) by (destruct r1; [contradiction|cbn; lia]).
    rewrite (proj2 (Nat.eqb_neq _ _)) by lia. rewrite (proj2 (Nat.ltb_ge _ _)) by lia.
    eexists _, _, _. split; [reflexivity|]. split; [reflexivity|]. split; [|exact Hs].
    rewrite Eb, skipn_app, skipn_all, Nat.sub_diag. exact Er.
Qed.

(** Nothing but white space. *)
Lemma int_nothing cfg buf src : good_cfg cfg -> sc_noskipws cfg = false -> Forall (fun c => c <> []) src -> Forall c_space (buf ++ concat src) ->
  exists st, both_scan (int_contig cfg) (int_define cfg) (int_eof cfg) (st_init, []) buf src = Scanned false st [] [].
Proof.
  intros Hcfg En Hs Hws. pose proof Hcfg as (Hb & Hcw & Hw). apply Forall_app in Hws as [Hw1 Hw2].
  unfold both_scan, int_contig. rewrite (scan_blank cfg buf Hcfg En Hw1). cbn [p_used]. unfold zlen at 1. rewrite Nat2Z.id, Nat.eqb_refl. clear Hb.
  assert (E : forall o buf, Forall c_space buf -> int_define cfg (st_init, o) buf = Some ((st_init, o), length buf, pc_partial)).
  { intros o b Hsp. unfold int_define, ctx_feed. cbn [fst st_phase st_init]. rewrite En.
    pose proof (skip_space_spec (sc_cw cfg) b [] Hcw Hsp I) as SK. rewrite app_nil_r in SK. rewrite SK. cbn. unfold zlen. rewrite Nat2Z.id. reflexivity. }
  exists (st_init, []). revert buf Hw1. induction src as [|c src IH]; intros buf Hw1; cbn [ctx_scan]; rewrite (E _ _ Hw1), Nat.ltb_irrefl.
  - unfold at_eof, int_eof, ctx_eof. cbn [fst st_phase st_init]. rewrite En. reflexivity.
  - pose proof (Forall_inv Hs) as H1; pose proof (Forall_inv_tail Hs) as H2. cbn [concat] in Hw2. apply Forall_app in Hw2 as [Hc Hr].
    destruct c as [|x c]; [contradiction|]. apply IH; auto.
Qed.
