(** Proofs about to (ToModel): integers in pieces. *)
From Verif Require Import Base NumSpec NumFacts ScanSpec BufModel PrintModel BufSpec IntPrintModel IntPrintProofs IntInjProofs IntSizeProofs IntScanModel IntScanProofs IntSseProofs IntCtxProofs
  IntRoundProofs IntSoundProofs IpCtxProofs FindModel LineModel LineSpec Leb128Model IpModel IpCtxModel ScanDrvModel ScanDrvProofs ScanDrvInt ToModel ToProofs ToCtxProofs.

Section IntPieces.
Variables (B CW : Z) (ty : int_type) (sse : bool).
Let cfg := mk_scfg B false false false ty CW sse.
Hypothesis Hcfg : good_cfg cfg.
Let Hb : 2 <= B <= 36 := proj1 Hcfg.
Let Hcw : In CW char_widths := proj1 (proj2 Hcfg).

Definition blead (pre : list Z) : Prop := match pre with [] => False | c :: _ => is_digit_of B c /\ c <> 48 end.
Lemma blead_nonzero pre ds : blead pre -> digit_string B pre ds -> ds <> [] /\ no_leading_zero ds.
Proof.
  destruct pre as [|c pre]; [contradiction|]. intros [_ Hc] D. inversion D as [|? d ? ds' A E]; subst. split; [discriminate|].
  destruct ds' as [|d2 ds']; [exact I|]. cbn. intros ->. apply Hc. destruct A as [_ [A|A]]; exact A.
Qed.
Definition sg_ok (sg : bool) : Prop := isigned ty = false -> sg = false.
(** [P] has been seen. *)
Definition seen (P : list Z) (st : sstate) : Prop :=
  exists ws sg, Forall c_space ws /\ sg_ok sg /\
  match st_phase st with
  | ph_space => P = ws /\ st_buf st = [] /\ st_size st = 0
  | ph_zero => P = ws ++ sign_chars sg /\ st_buf st = sign_chars sg /\ st_size st = zlen (sign_chars sg)
  | ph_zero_invalid => P = ws ++ sign_chars sg ++ [48]
  | ph_digit => exists pre dp, P = ws ++ sign_chars sg ++ pre /\ digit_string B pre dp /\ blead pre /\
      st_buf st = sign_chars sg ++ pre /\ st_size st = zlen (sign_chars sg ++ pre) /\ zlen (sign_chars sg ++ pre) < ctx_buf_size cfg
  | ph_overflow => exists pre dp, P = ws ++ sign_chars sg ++ pre /\ digit_string B pre dp /\ blead pre /\ ctx_buf_size cfg <= zlen (sign_chars sg ++ pre)
  | _ => False
  end.
(** A text that denotes [v]: white space, a sign, digits; after the single digit 0 another digit is possible. *)
Definition says (follow : list Z -> Prop) (T : list Z) (v : Z) : Prop :=
  exists ws sg cs ds rest, T = ws ++ sign_chars sg ++ cs ++ rest /\ Forall c_space ws /\ sg_ok sg /\ digit_string B cs ds /\ ds <> [] /\ no_leading_zero ds /\
    v = signed_value sg (value_of B ds) /\ in_range ty v /\ (follow rest \/ cs = [48]).
Definition next (rest : list Z) : Prop := rest <> [] /\ no_digit_first B rest.
Definition ends (rest : list Z) : Prop := rest = [].
Definition feeds (P s : list Z) (u0 : Z) (a : list Z) (st' : sstate) (r : pres) : Prop :=
  (p_code r = pc_partial /\ p_used r = u0 + zlen a /\ seen (P ++ s) st' /\ p_val r = None) \/
  (p_code r <> pc_partial /\ 0 <= p_used r < u0 + zlen a /\ (p_code r = pc_ok -> exists v, p_val r = Some v /\ says next (P ++ s) v)).

Lemma span s : Forall (safe_char B CW) s -> exists cs ds rest, s = cs ++ rest /\ digit_string B cs ds /\ no_digit_first B rest /\ skip_digits B CW s = Some rest.
Proof.
  intros Hu. destruct (span_digits B s) as (cs & ds & rest & -> & D & N). exists cs, ds, rest. repeat split; auto.
  eapply skip_digits_spec; eauto. apply Forall_app in Hu as [_ Hu]. destruct rest; [exact I|exact (Forall_inv Hu)].
Qed.
Lemma buffer_says sg pre dp : sg_ok sg -> digit_string B pre dp -> blead pre -> zlen (sign_chars sg ++ pre) < ctx_buf_size cfg ->
  scan_none_space cfg false 0 (sign_chars sg ++ pre) = Some (outcome ty (signed_value sg (value_of B dp)) (zlen (sign_chars sg ++ pre))).
Proof.
  intros Hsg D L Hz. destruct (blead_nonzero _ _ L D) as [Ne Nz].
  pose proof (scan_none_space_spec cfg 0 sg pre dp [] Hcfg Hsg) as SP. rewrite !app_nil_r in SP. rewrite SP; auto.
  - rewrite zlen_app. reflexivity.
  - apply (inner_no_sse cfg Hcfg). rewrite zlen_app in Hz. pose proof (zlen_nonneg (sign_chars sg)). lia.
  - exact I.
  - exact I.
Qed.
Lemma outcome_val V u : p_code (outcome ty V u) = pc_ok -> p_val (outcome ty V u) = Some V /\ in_range ty V.
Proof. unfold outcome. destruct (in_rangeb ty V) eqn:E; [|discriminate]. intros _. split; [reflexivity|]. apply in_rangeb_spec. exact E. Qed.
Lemma outcome_code V u : p_code (outcome ty V u) <> pc_partial.
Proof. unfold outcome. destruct (in_rangeb ty V); discriminate. Qed.
Lemma outcome_used V u : p_used (outcome ty V u) = u.
Proof. unfold outcome. destruct (in_rangeb ty V); reflexivity. Qed.

Lemma digits_feed st u0 ws sg pre dp s st' r : 0 <= u0 -> Forall c_space ws -> sg_ok sg -> digit_string B pre dp ->
  st_buf st = sign_chars sg ++ pre -> st_size st = zlen (sign_chars sg ++ pre) -> zlen (sign_chars sg ++ pre) < ctx_buf_size cfg ->
  blead (pre ++ s) -> Forall (safe_char B CW) s ->
  ctx_digit_phase cfg st u0 s = Some (st', r) -> feeds (ws ++ sign_chars sg ++ pre) s u0 s st' r.
Proof.
  intros Hu0 Hws Hsg D Hbuf Hsz Hz L Hu. destruct (span s Hu) as (cs & ds & rest & -> & Dc & N & SK). unfold ctx_digit_phase. cbn [cfg sc_base sc_cw sc_ty sc_sse]. rewrite SK.
  replace (zlen (cs ++ rest) - zlen rest) with (zlen cs) by (rewrite zlen_app; lia).
  assert (F1 : firstn (Z.to_nat (st_size st)) (st_buf st) = sign_chars sg ++ pre) by (rewrite Hsz, Hbuf; unfold zlen; rewrite Nat2Z.id; apply firstn_all).
  assert (F2 : firstn (Z.to_nat (zlen cs)) (cs ++ rest) = cs) by (unfold zlen; rewrite Nat2Z.id, firstn_app, Nat.sub_diag, firstn_all; cbn; apply app_nil_r).
  rewrite F1, F2, Hsz.
  assert (DD : digit_string B (pre ++ cs) (dp ++ ds)) by (apply Forall2_app; auto).
  assert (L2 : blead (pre ++ cs)).
  { destruct pre as [|p pre]; [|exact L]. destruct cs as [|c1 cs]; [|exact L]. exfalso. cbn [app] in L. destruct rest; [exact L|]. cbn in L, N. apply N, L. }
  assert (Eapp : forall x, (ws ++ sign_chars sg ++ pre) ++ cs ++ x = ws ++ sign_chars sg ++ (pre ++ cs) ++ x) by (intros; rewrite <- !app_assoc; reflexivity).
  destruct (Z.ltb_spec (zlen cs) (ctx_buf_size cfg - zlen (sign_chars sg ++ pre))) as [Hn|Hn].
  - destruct rest as [|c rest].
    + intros H. injection H as <- <-. rewrite app_nil_r in *. left. split; [reflexivity|]. split; [reflexivity|]. split; [|reflexivity].
      exists ws, sg. split; [exact Hws|]. split; [exact Hsg|]. cbn [st_phase st_buf st_size]. exists (pre ++ cs), (dp ++ ds).
      rewrite <- !app_assoc. repeat split; auto; rewrite !zlen_app in *; lia.
    + replace (zlen (sign_chars sg ++ pre) + zlen cs =? 0) with false.
      2: { symmetry. apply Z.eqb_neq. rewrite !zlen_app. destruct (pre ++ cs) as [|y l] eqn:E; [contradiction|]. assert (zlen pre + zlen cs = zlen l + 1) by (rewrite <- zlen_app, E, zlen_cons; lia).
           pose proof (zlen_nonneg l). pose proof (zlen_nonneg (sign_chars sg)). lia. }
      rewrite <- app_assoc. fold cfg. rewrite (buffer_says sg (pre ++ cs) (dp ++ ds) Hsg DD L2) by (rewrite !zlen_app in *; lia).
      intros H. injection H as <- <-. right. cbn [p_code p_used p_val]. split; [apply outcome_code|]. rewrite outcome_used. split.
      * rewrite !zlen_app, zlen_cons. pose proof (zlen_nonneg rest). pose proof (zlen_nonneg cs). lia.
      * intros Ok. destruct (outcome_val _ _ Ok) as [V1 V2]. eexists. split; [exact V1|]. destruct (blead_nonzero _ _ L2 DD) as [Ne Nz].
        exists ws, sg, (pre ++ cs), (dp ++ ds), (c :: rest). repeat split; auto; try apply V2. left. split; [discriminate|exact N].
  - destruct rest as [|c rest].
    + intros H. injection H as <- <-. rewrite app_nil_r in *. left. split; [reflexivity|]. split; [reflexivity|]. split; [|reflexivity].
      exists ws, sg. split; [exact Hws|]. split; [exact Hsg|]. cbn [st_phase]. exists (pre ++ cs), (dp ++ ds).
      rewrite <- !app_assoc. repeat split; auto; rewrite !zlen_app in *; lia.
    + intros H. injection H as <- <-. right. cbn [p_code p_used]. split; [discriminate|]. split; [|discriminate].
      rewrite zlen_app, zlen_cons. pose proof (zlen_nonneg rest). pose proof (zlen_nonneg cs). lia.
Qed.
Lemma zero_feed ph st u0 ws sg s st' r : 0 <= u0 -> Forall c_space ws -> sg_ok sg -> st_buf st = sign_chars sg -> st_size st = zlen (sign_chars sg) -> Forall (safe_char B CW) s ->
  ctx_zero_phase cfg ph st u0 s = Some (st', r) -> feeds (ws ++ sign_chars sg) s u0 s st' r.
Proof.
  intros Hu0 Hws Hsg Hbuf Hsz Hu. destruct s as [|c s].
  { cbn [ctx_zero_phase]. intros H. injection H as <- <-. left. rewrite app_nil_r. split; [reflexivity|]. split; [cbn; lia|]. split; [|reflexivity]. exists ws, sg. cbn [st_phase st_buf st_size]. auto. }
  cbn [ctx_zero_phase cfg sc_skipzero sc_base sc_cw]. pose proof (Forall_inv Hu) as Hc. pose proof (Forall_inv_tail Hu) as Hu1.
  pose proof (zlen_nonneg s) as Z0.
  destruct (is_digit_dec B c) as [(d & Id)|I].
  - rewrite (char_digit_some B CW c d) by auto. destruct (Z.eqb_spec c 48) as [-> | Nc].
    + replace (zlen (48 :: s) - zlen s) with 1 by (rewrite zlen_cons; lia). destruct s as [|c1 s].
      * intros H. injection H as <- <-. left. split; [reflexivity|]. split; [reflexivity|]. split; [|reflexivity]. exists ws, sg. cbn [st_phase]. rewrite <- app_assoc. auto.
      * pose proof (Forall_inv Hu1) as Hc1. pose proof (zlen_nonneg s) as Z1. destruct (is_digit_dec B c1) as [(d1 & I1)|I1].
        -- rewrite (char_digit_some B CW c1 d1) by auto. intros H. injection H as <- <-. right. cbn [p_code p_used]. split; [discriminate|]. split; [rewrite !zlen_cons in *; lia|discriminate].
        -- rewrite (char_digit_none B CW c1) by auto. intros H. injection H as <- <-. right. cbn [p_code p_used p_val]. split; [discriminate|]. split; [rewrite !zlen_cons in *; lia|].
           intros _. exists 0. split; [reflexivity|]. exists ws, sg, [48], [0], (c1 :: s). rewrite <- app_assoc. repeat split; auto.
           ++ constructor; [apply (denotes_small B 0); lia|constructor].
           ++ discriminate.
           ++ destruct sg; reflexivity.
           ++ unfold int_min. destruct (isigned ty); [|lia]. pose proof (Z.pow_nonneg 2 (iw ty - 1)). lia.
           ++ unfold int_max. pose proof (proj2 (proj2 Hcfg)) as Hw. apply width_cases in Hw. cbn [cfg sc_ty] in Hw.
              assert (0 < 2 ^ (iw ty - 1)) by (apply Z.pow_pos_nonneg; lia). assert (0 < 2 ^ iw ty) by (apply Z.pow_pos_nonneg; lia). destruct (isigned ty); lia.
    + intros H. pose proof (digits_feed st u0 ws sg [] [] (c :: s) st' r) as DF. rewrite app_nil_r in DF. apply DF; auto.
      * constructor.
      * unfold ctx_buf_size. cbn [cfg sc_ty sc_base]. destruct (cal_max_int_size_spec (mk_int (iw ty) false) B (proj2 (proj2 Hcfg)) (proj1 Hb)) as (N1 & _).
        destruct sg; cbn [sign_chars]; [change (zlen [45]) with 1; destruct (isigned ty) eqn:E; [lia|]; specialize (Hsg E); discriminate|change (zlen (@nil Z)) with 0; destruct (isigned ty); lia].
      * split; [exists d; exact Id|exact Nc].
  - rewrite (char_digit_none B CW c) by auto. intros H. injection H as <- <-. right. cbn [p_code p_used]. split; [discriminate|]. split; [rewrite !zlen_cons in *; lia|discriminate].
Qed.
Lemma shift_feeds P a b s u0 st' r : s = a ++ b -> 0 <= u0 -> feeds (P ++ a) b u0 b st' r -> feeds P s u0 b st' r.
Proof. intros -> Hu. unfold feeds. rewrite <- !app_assoc. auto. Qed.
Lemma sign_feed ph st u0 ws s st' r : 0 <= u0 -> Forall c_space ws -> st_buf st = [] -> st_size st = 0 -> s <> [] -> Forall (safe_char B CW) s ->
  ctx_sign_phase cfg ph st u0 s = Some (st', r) -> feeds ws s u0 s st' r.
Proof.
  intros Hu0 Hws Hbuf Hsz Hne Hu. destruct s as [|c s]; [contradiction|]. unfold ctx_sign_phase, ctx_prefix_phase. cbn [cfg sc_shbase sc_ty andb].
  assert (Plain : ctx_zero_phase cfg ph st u0 (c :: s) = Some (st', r) -> feeds ws (c :: s) u0 (c :: s) st' r).
  { intros H. pose proof (zero_feed ph st u0 ws false (c :: s) st' r) as ZF. cbn [sign_chars] in ZF. rewrite app_nil_r in ZF. apply ZF; auto. intros _. reflexivity. }
  destruct (isigned ty) eqn:Es; [|exact Plain]. destruct (Z.eqb_spec c 45) as [-> | N]; [|exact Plain].
  intros H. assert (G : feeds (ws ++ sign_chars true) s (u0 + 1) s st' r).
  { apply (zero_feed ph (mk_st [45] 1 (st_phase st))); auto; [lia|intros E; congruence|exact (Forall_inv_tail Hu)]. }
  unfold feeds in *. rewrite <- app_assoc in G. cbn [sign_chars app] in G. rewrite zlen_cons.
  destruct G as [(G1 & G2 & G3 & G4)|(G1 & G2 & G3)]; [left|right]; repeat split; auto; lia.
Qed.
Lemma feed_seen P st s st' r : seen P st -> Forall (safe_char B CW) s -> ctx_feed cfg st s = Some (st', r) -> feeds P s 0 s st' r.
Proof.
  intros (ws & sg & Hws & Hsg & M) Hu H. unfold ctx_feed in H. cbn [cfg sc_noskipws sc_skipzero sc_base sc_cw] in H. destruct (st_phase st) eqn:Ph; try contradiction.
  - destruct M as (-> & M1 & M2). destruct (span_space s) as (w2 & rest & -> & W2 & Nr).
    apply Forall_app in Hu as [Hu1 Hu2]. rewrite (skip_space_spec CW w2 rest Hcw W2) in H.
    2: { destruct rest as [|x rest]; [exact I|]. split; [apply (Forall_inv Hu2)|exact Nr]. }
    destruct rest as [|x rest].
    + injection H as <- <-. rewrite app_nil_r. left. split; [reflexivity|]. split; [reflexivity|]. split; [|reflexivity].
      exists (ws ++ w2), sg. rewrite Ph. repeat split; auto. apply Forall_app; auto.
    + assert (G : feeds (ws ++ w2) (x :: rest) (zlen (w2 ++ x :: rest) - zlen (x :: rest)) (x :: rest) st' r).
      { apply (sign_feed ph_space st); auto; try discriminate; [rewrite zlen_app; pose proof (zlen_nonneg w2); lia|apply Forall_app; auto]. }
      unfold feeds in *. rewrite <- app_assoc in G. replace (zlen (w2 ++ x :: rest) - zlen (x :: rest) + zlen (x :: rest)) with (0 + zlen (w2 ++ x :: rest)) in G by lia. exact G.
  - destruct M as (-> & M1 & M2). apply (zero_feed ph_zero st); auto. lia.
  - rewrite M. destruct s as [|x [|c s]]; [|discriminate|].
    + injection H as <- <-. left. rewrite app_nil_r. split; [reflexivity|]. split; [reflexivity|]. split; [|reflexivity]. exists ws, sg. rewrite Ph. auto.
    + pose proof (Forall_inv (Forall_inv_tail Hu)) as Hc. right. pose proof (zlen_nonneg s).
      assert (E : p_used r = 1 /\ (p_code r = pc_ok /\ p_val r = Some 0 \/ p_code r = pc_invalid)).
      { destruct (is_digit_dec B c) as [(d & Id)|I].
        - rewrite (char_digit_some B CW c d) in H by auto. injection H as _ <-. auto.
        - rewrite (char_digit_none B CW c) in H by auto. injection H as _ <-. auto. }
      destruct E as [E1 E2]. split; [destruct E2 as [[-> _]| ->]; discriminate|]. split; [rewrite E1, !zlen_cons; lia|].
      intros Ok. destruct E2 as [[_ ->]|E2]; [|congruence]. exists 0. split; [reflexivity|]. exists ws, sg, [48], [0], (x :: c :: s). rewrite <- !app_assoc.
      split; [reflexivity|]. split; [exact Hws|]. split; [exact Hsg|]. split; [constructor; [apply (denotes_small B 0); lia|constructor]|]. split; [discriminate|]. split; [exact I|].
      split; [destruct sg; reflexivity|]. split; [|right; reflexivity].
      pose proof (proj2 (proj2 Hcfg)) as Hw. apply width_cases in Hw. cbn [cfg sc_ty] in Hw. unfold in_range, int_min, int_max.
      assert (0 < 2 ^ (iw ty - 1)) by (apply Z.pow_pos_nonneg; lia). assert (0 < 2 ^ iw ty) by (apply Z.pow_pos_nonneg; lia). destruct (isigned ty); lia.
  - destruct M as (pre & dp & -> & D & L & M1 & M2 & M3). eapply digits_feed; eauto; [lia|]. destruct pre; [contradiction|exact L].
  - destruct M as (pre & dp & -> & D & L & M1). destruct (span s Hu) as (cs & ds & rest & -> & Dc & N & SK). rewrite SK in H. destruct rest as [|c rest].
    + injection H as <- <-. left. rewrite app_nil_r. split; [reflexivity|]. split; [reflexivity|]. split; [|reflexivity]. exists ws, sg. rewrite Ph. split; [exact Hws|]. split; [exact Hsg|].
      exists (pre ++ cs), (dp ++ ds). rewrite <- !app_assoc. split; [reflexivity|]. split; [apply Forall2_app; auto|]. split; [destruct pre; [contradiction|exact L]|].
      rewrite !zlen_app in *. pose proof (zlen_nonneg cs). lia.
    + injection H as <- <-. right. cbn [p_code p_used]. split; [discriminate|]. split; [|discriminate]. rewrite zlen_app, zlen_cons. pose proof (zlen_nonneg rest). pose proof (zlen_nonneg cs). lia.
Qed.
Lemma eof_seen P st code v : seen P st -> ctx_eof cfg st = Some (code, v) -> code = pc_ok -> exists x, v = Some x /\ says ends P x.
Proof.
  intros (ws & sg & Hws & Hsg & M) H ->. unfold ctx_eof in H. cbn [cfg sc_noskipws sc_base sc_ty sc_cw sc_sse] in H. destruct (st_phase st) eqn:Ph; try contradiction; try discriminate.
  - injection H as <-. exists 0. split; [reflexivity|]. exists ws, sg, [48], [0], []. rewrite app_nil_r. split; [exact M|]. split; [exact Hws|]. split; [exact Hsg|].
    split; [constructor; [apply (denotes_small B 0); lia|constructor]|]. split; [discriminate|]. split; [exact I|].
    split; [destruct sg; reflexivity|]. split; [|left; reflexivity].
    pose proof (proj2 (proj2 Hcfg)) as Hw. apply width_cases in Hw. cbn [cfg sc_ty] in Hw. unfold in_range, int_min, int_max.
    assert (0 < 2 ^ (iw ty - 1)) by (apply Z.pow_pos_nonneg; lia). assert (0 < 2 ^ iw ty) by (apply Z.pow_pos_nonneg; lia). destruct (isigned ty); lia.
  - destruct M as (pre & dp & -> & D & L & M1 & M2 & M3). rewrite M1 in H. fold cfg in H. rewrite (buffer_says sg pre dp Hsg D L M3) in H. cbn [option_map] in H.
    injection H as Hc <-. destruct (outcome_val _ _ Hc) as [V1 V2]. eexists. split; [exact V1|]. destruct (blead_nonzero _ _ L D) as [Ne Nz].
    exists ws, sg, pre, dp, []. rewrite app_nil_r. repeat split; auto; try apply V2. left. reflexivity.
Qed.
Lemma feed_nil P st : seen P st -> ctx_feed cfg st [] = Some (st, mk_pres pc_partial 0 None).
Proof.
  intros (ws & sg & Hws & Hsg & M). unfold ctx_feed. cbn [cfg sc_noskipws sc_skipzero sc_base sc_cw skip_space skip_digits]. destruct st as [buf size ph]. cbn [st_phase st_buf st_size] in *. destruct ph; try contradiction; try reflexivity.
  destruct M as (pre & dp & -> & D & L & M1 & M2 & M3). unfold ctx_digit_phase. cbn [sc_base sc_cw skip_digits st_size st_buf].
  replace (zlen (@nil Z) - zlen (@nil Z)) with 0 by reflexivity. fold cfg. rewrite (proj2 (Z.ltb_lt _ _)) by lia. cbn [firstn Z.to_nat]. rewrite app_nil_r, Z.add_0_r.
  rewrite M2, <- M1. unfold zlen. rewrite Nat2Z.id, firstn_all. reflexivity.
Qed.

(** to on the texts is the chunked scan of the texts that are not empty. *)
Definition answer (o : option pres) : to_res (list Z) :=
  match o with None => TUndef | Some r => checked (p_code r) (match p_val r with Some v => [v] | None => [] end) end.
Lemma eof_answer P st o u : seen P st ->
  map_to snd match int_eof cfg (st, o) with None => TUndef | Some (st2, code2) => checked code2 st2 end = answer (option_map (fun r => mk_pres (fst r) u (snd r)) (ctx_eof cfg st)).
Proof.
  intros HS. unfold int_eof. cbn [fst snd]. destruct (ctx_eof cfg st) as [[code v]|] eqn:E; [|reflexivity]. cbn [option_map fst snd answer p_code p_val].
  assert (V : code = pc_ok -> exists x, v = Some x) by (intros C; destruct (eof_seen _ _ _ _ HS E C) as (x & -> & _); eauto).
  destruct code; try reflexivity. destruct (V eq_refl) as (x & ->). reflexivity.
Qed.
Lemma to_texts_run : forall ts P st o u, seen P st -> Forall (Forall (safe_char B CW)) ts -> ts <> [] ->
  map_to snd (to_texts (int_define cfg) (int_eof cfg) (st, o) ts) = answer (ctx_run cfg st u (filter nonempty ts)).
Proof.
  induction ts as [|t ts IH]; intros P st o u HS Hu Hne; [contradiction|]. rewrite to_texts_cons. unfold int_define at 1. cbn [fst snd].
  pose proof (Forall_inv Hu) as Ht. pose proof (Forall_inv_tail Hu) as Hts.
  assert (Next : forall P' st' o' u', seen P' st' ->
    map_to snd (match ts with [] => match int_eof cfg (st', o') with None => TUndef | Some (st2, code2) => checked code2 st2 end
                            | _ => to_texts (int_define cfg) (int_eof cfg) (st', o') ts end) = answer (ctx_run cfg st' u' (filter nonempty ts))).
  { intros P' st' o' u' HS'. destruct ts as [|t2 ts]; [cbn [filter ctx_run]; apply (eof_answer P'); exact HS'|]. apply (IH P'); auto. discriminate. }
  destruct t as [|x t].
  - rewrite (feed_nil P st HS). cbn [p_val p_used p_code Z.to_nat length Nat.eqb negb filter nonempty]. apply (Next P). exact HS.
  - cbn [filter nonempty ctx_run]. destruct (ctx_feed cfg st (x :: t)) as [[st' r]|] eqn:E; [|reflexivity].
    destruct (feed_seen P st (x :: t) st' r HS Ht E) as [(A1 & A2 & A3 & A4)|(A1 & A2 & A3)].
    + rewrite A2, A4. replace (Z.to_nat (0 + zlen (x :: t))) with (length (x :: t)) by (unfold zlen; lia). rewrite Nat.eqb_refl. cbn [negb]. rewrite A1.
      apply (Next (P ++ x :: t)). exact A3.
    + rewrite (proj2 (Nat.eqb_neq _ _)) by (unfold zlen in A2; lia). cbn [negb]. destruct (p_code r) eqn:C; try reflexivity; [|contradiction].
      destruct (A3 eq_refl) as (v & -> & _). reflexivity.
Qed.
(** A value is the value of the text. *)
Lemma to_texts_sound : forall ts P st o v, seen P st -> Forall (Forall (safe_char B CW)) ts -> ts <> [] ->
  map_to snd (to_texts (int_define cfg) (int_eof cfg) (st, o) ts) = TGot v -> exists x, v = [x] /\ says (no_digit_first B) (P ++ concat ts) x.
Proof.
  induction ts as [|t ts IH]; intros P st o v HS Hu Hne H; [contradiction|]. rewrite to_texts_cons in H. unfold int_define at 1 in H. cbn [fst snd] in H.
  pose proof (Forall_inv Hu) as Ht. pose proof (Forall_inv_tail Hu) as Hts. cbn [concat].
  destruct (ctx_feed cfg st t) as [[st' r]|] eqn:E; [|discriminate].
  destruct (feed_seen P st t st' r HS Ht E) as [(A1 & A2 & A3 & A4)|(A1 & A2 & A3)].
  - rewrite A2 in H. replace (Z.to_nat (0 + zlen t)) with (length t) in H by (unfold zlen; lia). rewrite Nat.eqb_refl in H. cbn [negb] in H.
    destruct ts as [|t2 ts].
    + cbn [concat]. rewrite app_nil_r. unfold int_eof in H. cbn [fst snd] in H. destruct (ctx_eof cfg st') as [[code w]|] eqn:Ee; [|discriminate].
      destruct code; try discriminate. destruct (eof_seen _ _ _ _ A3 Ee eq_refl) as (x & -> & Hx). cbn in H. injection H as <-. exists x. split; [reflexivity|].
      destruct Hx as (ws & sg & cs & ds & rest & X1 & X2 & X3 & X4 & X5 & X6 & X7 & X8 & X9). exists ws, sg, cs, ds, rest. repeat split; auto; try apply X8.
      destruct X9 as [-> | X9]; [left; exact I|auto].
    + rewrite app_assoc. apply (IH _ st' _ v A3 Hts ltac:(discriminate) H).
  - rewrite (proj2 (Nat.eqb_neq _ _)) in H by (unfold zlen in A2; lia). cbn [negb] in H. destruct (p_code r) eqn:C; try discriminate.
    destruct (A3 eq_refl) as (x & Ev & Hx). rewrite Ev in H. cbn in H. injection H as <-. exists x. split; [reflexivity|].
    destruct Hx as (ws & sg & cs & ds & rest & X1 & X2 & X3 & X4 & X5 & X6 & X7 & X8 & X9).
    exists ws, sg, cs, ds, (rest ++ concat ts). rewrite app_assoc, X1, <- !app_assoc. repeat split; auto; try apply X8.
    destruct X9 as [[X9 X10]|X9]; [|auto]. destruct rest as [|y rest]; [contradiction|left; exact X10].
Qed.
Lemma seen_init : seen [] st_init.
Proof. exists [], false. split; [constructor|]. split; [intros _; reflexivity|]. cbn. auto. Qed.
Lemma to_texts_scan t more o : Forall (Forall (safe_char B CW)) (t :: more) -> Forall (fun c => c <> []) (t :: more) ->
  to_texts (int_define cfg) (int_eof cfg) (st_init, o) (t :: more) =
    match ctx_scan (int_define cfg) (int_eof cfg) (st_init, o) t more with
    | Scanned true st' _ _ => TGot st' | Scanned false _ _ _ => TThrew pc_end_of_file
    | LineModel.Raised c => TThrew c | Overrun => TUndef end.
Proof.
  intros Hu Hne. apply (to_is_scan (int_define cfg) (int_eof cfg) (fun st => exists P, seen P (fst st)) (Forall (safe_char B CW))); auto; [|exists []; exact seen_init].
  intros st s st' k code (P & HS) Hs Hs0 E. unfold int_define in E. destruct (ctx_feed cfg (fst st) s) as [[st1 r]|] eqn:Ef; [|discriminate]. injection E as <- <- <-.
  destruct (feed_seen P (fst st) s st1 r HS Hs Ef) as [(A1 & A2 & A3 & A4)|(A1 & A2 & A3)].
  - split; [intros _; split; [exists (P ++ s); exact A3|rewrite A2; unfold zlen; lia]|intros C; contradiction].
  - split; [intros C; contradiction|intros _; unfold zlen in A2; lia].
Qed.
(** An integer of the type in nonempty pieces. *)
Lemma ctx_piece ws sign cs ds rest : sg_ok sign -> Forall c_space ws -> digit_string B cs ds -> ds <> [] -> no_leading_zero ds ->
  in_rangeb ty (signed_value sign (value_of B ds)) = true -> safe_first B CW rest -> no_digit_first B rest ->
  forall src buf, Forall (fun c => c <> []) src -> buf ++ concat src = ws ++ sign_chars sign ++ cs ++ rest ->
  (value_of B ds = 0 -> ~ cut_at buf src (length (ws ++ sign_chars sign ++ cs))) ->
  gives (ctx_scan (int_define cfg) (int_eof cfg) (st_init, []) buf src) (fun x => snd x = [signed_value sign (value_of B ds)]) rest.
Proof.
  intros Hsg Hws Hcs Hne Hlead HV Hsf Hn src buf Hs HT Hcut.
  pose proof (digit_string_ok B _ _ ltac:(lia) Hcs) as Hok.
  destruct (Z.eq_dec (value_of B ds) 0) as [E0|E0].
  - assert (Eds : ds = [0]).
    { destruct ds as [|d [|d2 ds]]; [contradiction| |].
      - unfold value_of in E0; cbn in E0. f_equal. lia.
      - exfalso. cbn in Hlead. pose proof (Forall_inv Hok) as Hd. pose proof (Forall_inv_tail Hok) as Hr.
        rewrite value_of_cons in E0. pose proof (value_of_bound B (d2 :: ds) ltac:(lia) Hr).
        assert (0 < B ^ Z.of_nat (length (d2 :: ds))) by (apply Z.pow_pos_nonneg; lia). cbn beta in Hd. clear - E0 H H0 Hd Hlead. nia. }
    subst ds. assert (Ec : cs = [48]).
    { inversion Hcs as [|c d cs' ds' [_ Hd] Hr]; subst. inversion Hr; subst. f_equal. unfold digit_char in Hd. cbn in Hd. lia. }
    subst cs. rewrite E0. replace (signed_value sign 0) with 0 by (destruct sign; reflexivity).
    apply (scan_zero cfg Hcfg eq_refl sign Hsg eq_refl ws rest); auto. discriminate.
  - apply (scan_start cfg Hcfg eq_refl sign Hsg _ ws cs ds rest); auto; [discriminate|].
    pose proof (int_length cfg sign ds Hcfg Hok Hsg HV) as L. exact L.
Qed.
Lemma filter_filter ts : filter nonempty (filter nonempty ts) = filter nonempty ts.
Proof. induction ts as [|[|x t] ts IH]; cbn; [reflexivity|exact IH|rewrite IH; reflexivity]. Qed.
Lemma to_texts_filter ts : Forall (Forall (safe_char B CW)) ts -> filter nonempty ts <> [] ->
  map_to snd (to_texts (int_define cfg) (int_eof cfg) (st_init, []) ts) = map_to snd (to_texts (int_define cfg) (int_eof cfg) (st_init, []) (filter nonempty ts)).
Proof.
  intros Hu Hne. rewrite (to_texts_run ts [] st_init [] 0 seen_init Hu) by (intros ->; contradiction).
  rewrite (to_texts_run (filter nonempty ts) [] st_init [] 0 seen_init (filter_parts _ _ Hu) Hne). rewrite filter_filter. reflexivity.
Qed.
End IntPieces.
