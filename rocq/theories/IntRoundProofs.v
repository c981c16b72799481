(** Print then scan, and rejection of malformed texts. *)
From Verif Require Import Base NumSpec NumFacts IntPrintModel IntPrintProofs JeaiiiProofs IntPrintCorrect IntInjProofs IntSizeProofs ScanSpec IntScanModel IntScanProofs IntSseProofs IntCtxProofs.
Ltac Zify.zify_post_hook ::= idtac.

Lemma numeral_digit_string base upper u txt : 2 <= base <= 36 -> is_numeral base upper u txt ->
  exists ds, digit_string base txt ds /\ value_of base ds = u /\ no_leading_zero ds.
Proof.
  intros Hb (ds & Hok & Hl & Hv & ->). exists ds. repeat split; auto. clear Hl Hv.
  induction Hok as [|d ds Hd _ IH]; cbn [map]; constructor; auto. split; [lia|]. destruct upper; auto.
Qed.

Lemma numeral_length base upper u txt w : 2 <= base <= 36 -> In w int_widths -> is_numeral base upper u txt -> 0 <= u < 2 ^ w ->
  zlen txt <= cal_max_int_size (mk_int w false) base.
Proof.
  intros Hb Hw (ds & Hok & Hl & Hv & ->) Hu. unfold zlen. rewrite map_length. fold (zlen ds).
  destruct (cal_max_int_size_spec (mk_int w false) base Hw ltac:(lia)) as (N1 & N2 & _).
  unfold int_max in N2; cbn [isigned iw] in N2.
  destruct (le_lt_dec (length ds) 1) as [L|L]; [unfold zlen; lia|].
  pose proof (value_lower_bound base ds ltac:(lia) Hok Hl ltac:(lia)) as HB.
  apply Z.le_ngt. intros HN.
  assert (base ^ cal_max_int_size (mk_int w false) base <= base ^ (zlen ds - 1)) by (apply Z.pow_le_mono_r; lia). lia.
Qed.

Lemma sign_text_chars t : sign_text false t = sign_chars (t <? 0).
Proof. unfold sign_text, sign_chars. destruct (t <? 0); reflexivity. Qed.

Lemma signed_abs t : signed_value (t <? 0) (Z.abs t) = t.
Proof. unfold signed_value. destruct (Z.ltb_spec t 0); lia. Qed.

Lemma outcome_in_range ty t u : in_range ty t -> outcome ty t u = mk_pres pc_ok u (Some t).
Proof. intros H. unfold outcome. apply in_rangeb_spec in H. rewrite H. reflexivity. Qed.

Lemma unsigned_sign ty t : in_range ty t -> isigned ty = false -> (t <? 0) = false.
Proof. intros H E. unfold in_range, int_min in H. rewrite E in H. apply Z.ltb_ge. lia. Qed.

Lemma abs_bound ty t : In (iw ty) int_widths -> in_range ty t -> 0 <= Z.abs t < 2 ^ iw ty.
Proof.
  intros Hw H. unfold in_range, int_min, int_max in H.
  assert (E2 : 2 ^ iw ty = 2 * 2 ^ (iw ty - 1)) by (rewrite <- Z.pow_succ_r by (apply width_cases in Hw; lia); f_equal; lia).
  assert (Hp : 0 < 2 ^ (iw ty - 1)) by (apply Z.pow_pos_nonneg; apply width_cases in Hw; lia).
  destruct (isigned ty); lia.
Qed.

Lemma sse_exact_numeral cfg upper u txt rest : good_cfg cfg -> is_numeral (sc_base cfg) upper u txt -> 0 <= u < 2 ^ iw (sc_ty cfg) ->
  sse_exact cfg (txt ++ rest) (zlen txt).
Proof.
  intros (Hb & Hcw & Hw) Hn Hu. unfold sse_exact. pose proof (numeral_length _ _ _ _ _ Hb Hw Hn Hu) as HL.
  destruct (Z.eqb_spec (sc_base cfg) 10) as [E|E].
  - rewrite E in HL. destruct (Z.leb_spec (iw (sc_ty cfg)) 64) as [L64|L64].
    + right. destruct (Z.ltb_spec (iw (sc_ty cfg)) 64) as [L|L];
      apply width_cases in Hw as [W|[W|[W|[W|W]]]]; rewrite W in *; try lia; (eapply Z.le_trans; [exact HL|vm_compute; discriminate]).
    + left. unfold no_sse. rewrite (proj2 (Z.leb_gt _ _) L64). rewrite andb_false_r. reflexivity.
  - left. unfold no_sse. rewrite (proj2 (Z.eqb_neq _ _) E). rewrite andb_false_r. reflexivity.
Qed.

(** Scanning the plain printed form. *)
Lemma roundtrip_plain fl cfg ty t rest : good_cfg cfg -> sc_ty cfg = ty -> sc_shbase cfg = false ->
  pf_base fl = sc_base cfg -> pf_showbase fl = false -> pf_showpos fl = false -> pf_full fl = false -> config_ok fl ty ->
  in_range ty t ->
  (sc_skipzero cfg = true -> sc_sse cfg = true -> t = 0 -> zlen rest < 32) -> (sc_cw cfg = 8 -> bytes rest) ->
  safe_first (sc_base cfg) (sc_cw cfg) rest -> no_digit_first (sc_base cfg) rest ->
  exists txt, print_int fl ty t = Some txt /\ scan_int cfg (txt ++ rest) = Some (mk_pres pc_ok (zlen txt) (Some t)).
Proof.
  intros Hcfg <- Hsh Hbase Hsb Hsp Hfull Hok Ht Hz Hby Hs Hn. pose proof Hcfg as (Hb & Hcw & Hw).
  destruct (print_int_correct fl (sc_ty cfg) t Hw ltac:(lia) Hok Ht) as (num & E & N). rewrite Hfull in N.
  rewrite Hbase in N. rewrite E, Hsb, Hsp. eexists. split; [reflexivity|]. cbn [app]. rewrite sign_text_chars.
  destruct (numeral_digit_string _ _ _ _ Hb N) as (ds & Hds & Hv & Hl).
  pose proof (abs_bound _ _ Hw Ht) as Ha.
  destruct (scan_int_gen cfg [] (t <? 0) num ds rest) as (r & R & (S1 & S2 & S3)); auto.
  - apply unsigned_sign; exact Ht.
  - intros Hsk Hv0. unfold no_sse. destruct (sc_sse cfg) eqn:Es; [|reflexivity].
    assert (zlen rest < 32) by (apply Hz; auto; lia). rewrite (proj2 (Z.leb_gt 32 (zlen rest))) by lia. apply andb_false_r.
  - intros ->. exact Hl.
  - cbn [app] in R. rewrite <- app_assoc. rewrite R. rewrite Hv, signed_abs in S1, S2, S3. rewrite outcome_in_range in S1, S2, S3 by exact Ht.
    cbn [p_code p_val p_used] in S1, S2, S3. f_equal. destruct r as [a b c]; cbn in *. rewrite S1, S2. rewrite S3.
    + f_equal. rewrite zlen_app. change (zlen (@nil Z)) with 0. lia.
    + left; reflexivity.
Qed.

(** ... and in pieces. *)
Lemma roundtrip_chunks fl cfg ty t rest : good_cfg cfg -> sc_ty cfg = ty -> sc_shbase cfg = false ->
  pf_base fl = sc_base cfg -> pf_showbase fl = false -> pf_showpos fl = false -> pf_full fl = false -> config_ok fl ty ->
  in_range ty t -> (sc_skipzero cfg = false -> t <> 0) ->
  safe_first (sc_base cfg) (sc_cw cfg) rest -> no_digit_first (sc_base cfg) rest ->
  exists txt, print_int fl ty t = Some txt /\
    forall chunks, Forall (fun c => c <> []) chunks -> concat chunks = txt ++ rest ->
      scan_chunks cfg chunks = Some (mk_pres pc_ok (zlen txt) (Some t)).
Proof.
  intros Hcfg <- Hsh Hbase Hsb Hsp Hfull Hok Ht Hz Hs Hn. pose proof Hcfg as (Hb & Hcw & Hw).
  destruct (print_int_correct fl (sc_ty cfg) t Hw ltac:(lia) Hok Ht) as (num & E & N). rewrite Hfull in N.
  rewrite Hbase in N. rewrite E, Hsb, Hsp. eexists. split; [reflexivity|]. cbn [app]. rewrite sign_text_chars.
  destruct (numeral_digit_string _ _ _ _ Hb N) as (ds & Hds & Hv & Hl).
  pose proof (abs_bound _ _ Hw Ht) as Ha. pose proof (numeral_length _ _ _ _ _ Hb Hw N Ha) as HL.
  intros chunks Hc HT. unfold scan_chunks.
  rewrite (scan_chunks_spec cfg Hcfg Hsh (t <? 0) (unsigned_sign _ _ Ht) [] num ds rest); auto.
  - rewrite Hv, signed_abs, outcome_in_range by exact Ht. do 2 f_equal. rewrite zlen_app. change (zlen (@nil Z)) with 0. lia.
  - intros ->. exact Hl.
  - intros Hsk. split; [exact Hl|]. specialize (Hz Hsk). lia.
  - assert (zlen (strip_zeros ds) <= zlen num).
    { rewrite (digit_string_zlen cfg num ds Hds). clear. induction ds as [|d ds IH]; [cbn [strip_zeros]; lia|].
      cbn [strip_zeros]. destruct (d =? 0); rewrite ?zlen_cons in *; lia. }
    unfold ctx_buf_size. assert (zlen (sign_chars (t <? 0)) <= if isigned (sc_ty cfg) then 1 else 0).
    { destruct (isigned (sc_ty cfg)) eqn:Es; [destruct (t <? 0); vm_compute; discriminate|]. rewrite (unsigned_sign _ _ Ht Es). vm_compute. discriminate. }
    lia.
  - rewrite <- app_assoc in HT. exact HT.
Qed.

(** ** Base prefixes *)

Lemma scan_prefix_ok base up rest : (base = 2 \/ base = 8 \/ base = 16 \/ (base = 3 /\ up = false)) ->
  scan_prefix base (base_prefix base up ++ rest) = Some (inr rest).
Proof. intros [->|[->|[->|[-> ->]]]]; [destruct up|destruct up|destruct up|]; reflexivity. Qed.

Lemma roundtrip_prefix fl cfg ty t rest : good_cfg cfg -> sc_ty cfg = ty -> sc_shbase cfg = true ->
  pf_base fl = sc_base cfg -> pf_showbase fl = true -> pf_showpos fl = false -> pf_full fl = false -> config_ok fl ty ->
  (sc_base cfg = 2 \/ sc_base cfg = 8 \/ sc_base cfg = 16 \/ (sc_base cfg = 3 /\ pf_upshowbase fl = false)) ->
  in_range ty t -> (sc_cw cfg = 8 -> bytes rest) ->
  safe_first (sc_base cfg) (sc_cw cfg) rest -> no_digit_first (sc_base cfg) rest ->
  exists txt, print_int fl ty t = Some txt /\ scan_int cfg (txt ++ rest) = Some (mk_pres pc_ok (zlen txt) (Some t)).
Proof.
  intros Hcfg <- Hsh Hbase Hsb Hsp Hfull Hok Hbs Ht Hby Hs Hn. pose proof Hcfg as (Hb & Hcw & Hw).
  destruct (print_int_correct fl (sc_ty cfg) t Hw ltac:(lia) Hok Ht) as (num & E & N). rewrite Hfull in N.
  rewrite Hbase in N, E. rewrite E, Hsb, Hsp. eexists. split; [reflexivity|]. rewrite sign_text_chars.
  destruct (numeral_digit_string _ _ _ _ Hb N) as (ds & Hds & Hv & Hl).
  set (sg := t <? 0) in *. set (pre := base_prefix (sc_base cfg) (pf_upshowbase fl)) in *.
  assert (Hne : ds <> []) by (intros ->; exact Hl).
  assert (Hno10 : (sc_base cfg =? 10) = false) by (apply Z.eqb_neq; lia).
  assert (Hno : forall s, no_sse cfg s) by (intros s; unfold no_sse; rewrite Hno10, andb_false_r; reflexivity).
  assert (Hpre : exists p, pre = 48 :: p).
  { unfold pre. destruct Hbs as [->|[->|[->|[-> ->]]]]; destruct (pf_upshowbase fl); eexists; reflexivity. }
  destruct Hpre as [p Ep].
  rewrite <- !app_assoc.
  assert (Hsp2 : skip_space (sc_cw cfg) (sign_chars sg ++ pre ++ num ++ rest) = sign_chars sg ++ pre ++ num ++ rest).
  { apply (skip_space_spec (sc_cw cfg) [] _ Hcw); [constructor|]. pose proof (cw_pow _ Hcw).
    destruct sg; cbn [sign_chars app]; [|rewrite Ep; cbn [app]]; split; try lia; unfold c_space; simpl; lia. }
  unfold scan_int. rewrite Hsh, Hno10, Hsp2. cbn [andb negb].
  set (body := sign_chars sg ++ pre ++ num ++ rest).
  replace (if sc_noskipws cfg then body else body) with body by (destruct (sc_noskipws cfg); reflexivity).
  assert (Hbody : exists c b, body = c :: b).
  { unfold body. destruct sg; cbn [sign_chars app]; [eexists _, _; reflexivity|rewrite Ep; eexists _, _; reflexivity]. }
  assert (Hres : (if negb (isigned (sc_ty cfg)) && true
   then match scan_prefix (sc_base cfg) body with
        | None => None
        | Some (inl k) => Some (mk_pres pc_invalid (zlen body - zlen body + k) None)
        | Some (inr s2) => scan_none_space cfg false (zlen body - zlen body + (zlen body - zlen s2)) s2 end
   else scan_none_space cfg (true && isigned (sc_ty cfg)) (zlen body - zlen body) body) =
   Some (mk_pres pc_ok (zlen (sign_chars sg ++ pre ++ num)) (Some t))).
  { destruct (isigned (sc_ty cfg)) eqn:Es; cbn [negb andb].
    - unfold scan_none_space. rewrite Es. destruct Hbody as (c & b & Eb). rewrite Eb.
      rewrite Hno10. cbn [andb negb].
      assert (Hcut : (if c =? 45 then (zlen (c :: b) - zlen (c :: b) + 1, b) else (zlen (c :: b) - zlen (c :: b), c :: b))
               = (zlen (sign_chars sg), pre ++ num ++ rest) /\ (c =? 45) = sg).
      { unfold body in Eb. destruct sg; cbn [sign_chars app] in Eb.
        - injection Eb as <- <-. rewrite Z.eqb_refl. split; [f_equal; change (zlen (sign_chars true)) with 1; lia|reflexivity].
        - rewrite Ep in Eb. cbn [app] in Eb. injection Eb as <- <-. cbn [Z.eqb Pos.eqb]. split; [|reflexivity].
          f_equal; [change (zlen (sign_chars false)) with 0; lia|rewrite Ep; reflexivity]. }
      destruct Hcut as [-> ->].
      unfold pre at 1. rewrite scan_prefix_ok by exact Hbs.
      rewrite (scan_zero_part_spec cfg sg _ num ds rest); auto; try (intros; congruence).
      rewrite Hv. unfold sg. rewrite signed_abs, outcome_in_range by exact Ht. do 2 f_equal. rewrite !zlen_app. lia.
    - assert (Esg : sg = false) by (apply (unsigned_sign _ _ Ht Es)).
      unfold body. rewrite Esg. cbn [sign_chars app]. unfold pre at 1. rewrite scan_prefix_ok by exact Hbs.
      pose proof (scan_none_space_spec cfg (zlen (pre ++ num ++ rest) - zlen (pre ++ num ++ rest) + (zlen (pre ++ num ++ rest) - zlen (num ++ rest)))
        false num ds rest Hcfg ltac:(auto) (Hno _) Hds Hne ltac:(auto) Hs Hn) as SP. cbn [sign_chars app] in SP. rewrite SP.
      rewrite Hv. rewrite <- Esg at 1. unfold sg at 1. rewrite signed_abs, outcome_in_range by exact Ht. do 2 f_equal.
      rewrite !zlen_app. change (zlen (@nil Z)) with 0. lia. }
  destruct Hbody as (c & b & Eb).
  destruct (sc_noskipws cfg); [exact Hres|]. rewrite Eb in Hres |- *. exact Hres.
Qed.

(** ** Malformed texts *)

Lemma scan_invalid cfg ws (minus : bool) rest : good_cfg cfg -> sc_shbase cfg = false ->
  Forall c_space ws -> (sc_noskipws cfg = true -> ws = []) ->
  (minus = true -> isigned (sc_ty cfg) = true) -> rest <> [] ->
  (minus = false -> match rest with [] => True | c :: _ => (sc_noskipws cfg = false -> ~ c_space c) /\ (isigned (sc_ty cfg) = true -> c <> 45) end) ->
  safe_first (sc_base cfg) (sc_cw cfg) rest -> no_digit_first (sc_base cfg) rest ->
  scan_int cfg (ws ++ sign_chars minus ++ rest) = Some (mk_pres pc_invalid (zlen ws + zlen (sign_chars minus)) None).
Proof.
  intros Hcfg Hsh Hws Hnows Hsg Hne Hfirst Hs Hn. pose proof Hcfg as (Hb & Hcw & Hw).
  destruct rest as [|c rest]; [contradiction|]. simpl in Hs, Hn. pose proof (cw_pow _ Hcw) as Hp.
  assert (Hcd : char_digit (sc_base cfg) (sc_cw cfg) c = Some None) by (apply char_digit_none; auto).
  unfold scan_int. rewrite Hsh. cbn [andb]. rewrite andb_false_r.
  set (body := sign_chars minus ++ c :: rest).
  assert (Es1 : (if sc_noskipws cfg then ws ++ body else skip_space (sc_cw cfg) (ws ++ body)) = body).
  { destruct (sc_noskipws cfg); [rewrite Hnows by reflexivity; reflexivity|].
    apply skip_space_spec; auto. unfold body. destruct minus; cbn [sign_chars app].
    - split; [lia|unfold c_space; simpl; lia].
    - split; [apply Hs|apply (Hfirst eq_refl); reflexivity]. }
  rewrite Es1.
  assert (Hgoal : scan_none_space cfg false (zlen (ws ++ body) - zlen body) body = Some (mk_pres pc_invalid (zlen ws + zlen (sign_chars minus)) None)).
  { replace (zlen (ws ++ body) - zlen body) with (zlen ws) by (rewrite zlen_app; lia).
    unfold scan_none_space, body. destruct minus; cbn [sign_chars app].
    - rewrite (Hsg eq_refl). rewrite Z.eqb_refl. cbn [andb]. unfold scan_zero_part. rewrite Hcd. reflexivity.
    - destruct (Hfirst eq_refl) as [_ Hm]. change (zlen []) with 0. rewrite Z.add_0_r.
      destruct (isigned (sc_ty cfg)).
      + destruct (Z.eqb_spec c 45); [exfalso; apply Hm; auto|]. cbn [andb]. unfold scan_zero_part. rewrite Hcd. reflexivity.
      + unfold scan_zero_part. rewrite Hcd. reflexivity. }
  destruct (sc_noskipws cfg); [exact Hgoal|]. unfold body in *. destruct minus; exact Hgoal.
Qed.

Lemma scan_blank cfg ws : good_cfg cfg -> sc_noskipws cfg = false -> Forall c_space ws ->
  scan_int cfg ws = Some (mk_pres pc_end_of_file (zlen ws) None).
Proof.
  intros (Hb & Hcw & Hw) Hn Hws. unfold scan_int. rewrite Hn.
  pose proof (skip_space_spec (sc_cw cfg) ws [] Hcw Hws I) as E. rewrite app_nil_r in E. rewrite E.
  do 2 f_equal. change (zlen (@nil Z)) with 0. lia.
Qed.
