(** What the chunked IPv4 scanner accepts. *)
From Coq Require Import String List.
From Verif Require Import Base NumSpec ScanSpec ByteSpec IntPrintModel IntPrintProofs IntScanModel IntScanProofs IntSseProofs IntSoundProofs IntRoundProofs IntCtxProofs
  TimeTextProofs IpSpec IpModel IpScanProofs IpAcceptProofs IpCtxModel IpCtxProofs.

(** The text of the phases [items], with the numbers [vs]. *)
Fixpoint spelt (items : list ip_item) (vs t : list Z) : Prop :=
  match items with
  | [] => vs = [] /\ t = []
  | ISep ch :: r => exists t', t = ch :: t' /\ spelt r vs t'
  | IField sk w :: r => exists ws num t' v vs', t = ws ++ num ++ t' /\ vs = v :: vs' /\ Forall c_space ws /\ (sk = false -> ws = []) /\
      is_numeral 10 false v num /\ 0 <= v < 2 ^ w /\ spelt r vs' t'
  end.
Lemma spelt_app i1 : forall i2 v1 v2 t1 t2, spelt i1 v1 t1 -> spelt i2 v2 t2 -> spelt (i1 ++ i2) (v1 ++ v2) (t1 ++ t2).
Proof.
  induction i1 as [|[sk w|ch] i1 IH]; intros i2 v1 v2 t1 t2 H1 H2; cbn [spelt app] in *.
  - destruct H1 as [-> ->]. exact H2.
  - destruct H1 as (ws & num & t' & v & vs' & -> & -> & Hw & Hs & N & Hv & R). exists ws, num, (t' ++ t2), v, (vs' ++ v2).
    rewrite <- !app_assoc. repeat split; auto; try lia.
  - destruct H1 as (t' & -> & R). exists (t' ++ t2). split; [reflexivity|auto].
Qed.

Section Sound.
Variable cw : Z.
Variable sse : bool.
Hypothesis Hcw : In cw char_widths.

Definition lead (pre : list Z) : Prop := match pre with [] => False | c :: _ => is_digit_of 10 c /\ c <> 48 end.
Lemma lead_app a b : lead a -> lead (a ++ b).
Proof. destruct a; [contradiction|auto]. Qed.
Lemma lead_nonzero pre ds : lead pre -> digit_string 10 pre ds -> ds <> [] /\ no_leading_zero ds.
Proof.
  destruct pre as [|c pre]; [contradiction|]. intros [_ Hc] D. inversion D as [|? d ? ds' A B]; subst. split; [discriminate|].
  destruct ds' as [|d2 ds']; [exact I|]. cbn. intros ->. apply Hc. destruct A as [_ [A|A]]; exact A.
Qed.
(** In the middle of a number: [cur] has been seen of it. *)
Definition mid (sk : bool) (int : sstate) (cur : list Z) : Prop :=
  exists ws, Forall c_space ws /\ (sk = false -> ws = []) /\
  ((cur = ws /\ st_size int = 0 /\ st_phase int = (if sk then ph_space else ph_zero)) \/
   (exists pre ds, cur = ws ++ pre /\ digit_string 10 pre ds /\ lead pre /\ zlen pre < 6 /\ st_size int = zlen pre /\ firstn (Z.to_nat (st_size int)) (st_buf int) = pre /\ st_phase int = ph_digit) \/
   (cur = ws ++ [48] /\ st_size int = 0 /\ st_phase int = ph_zero_invalid) \/
   (exists cs ds pre dp, cur = ws ++ cs /\ digit_string 10 cs ds /\ 6 <= zlen cs /\ digit_string 10 pre dp /\ (pre = [] \/ lead pre) /\ zlen pre < 6 /\ firstn (Z.to_nat (st_size int)) (st_buf int) = pre /\ st_phase int = ph_overflow)).

Lemma span s : units cw s -> exists cs ds rest, s = cs ++ rest /\ digit_string 10 cs ds /\ no_digit_first 10 rest /\ skip_digits 10 cw s = Some rest.
Proof.
  intros Hu. destruct (span_digits 10 s) as (cs & ds & rest & -> & D & N). exists cs, ds, rest. repeat split; auto.
  eapply skip_digits_spec; eauto; [lia|]. apply units_safe. apply Forall_app in Hu. apply Hu.
Qed.
Lemma scan_digits w pre ds : In w [8; 16] -> digit_string 10 pre ds -> lead pre -> zlen pre < 6 ->
  scan_none_space (mk_scfg 10 false false false (mk_int w false) cw sse) false 0 pre = Some (outcome (mk_int w false) (value_of 10 ds) (zlen pre)) /\
  (p_code (outcome (mk_int w false) (value_of 10 ds) (zlen pre)) = pc_ok -> is_numeral 10 false (value_of 10 ds) pre /\ 0 <= value_of 10 ds < 2 ^ w) /\
  is_numeral 10 false (value_of 10 ds) pre.
Proof.
  intros Hw D L Z6. destruct (lead_nonzero pre ds L D) as [Ne Nz].
  assert (N : is_numeral 10 false (value_of 10 ds) pre) by (apply numeral10; auto).
  assert (Hi : In w int_widths) by (cbn in *; tauto).
  split; [|split; [|exact N]].
  - pose proof (scan_none_space_spec (mk_scfg 10 false false false (mk_int w false) cw sse) 0 false pre ds []) as SP.
    rewrite !app_nil_r in SP. cbn [sign_chars app] in SP. rewrite SP; auto.
    + repeat split; cbn; auto; lia.
    + unfold no_sse. cbn [sc_base sc_cw sc_sse]. replace (32 <=? zlen pre) with false by (symmetry; apply Z.leb_gt; lia). apply andb_false_r.
    + exact I.
    + exact I.
  - unfold outcome. destruct (in_rangeb _ _) eqn:R; [|discriminate]. intros _. split; [exact N|].
    apply in_rangeb_spec in R. unfold in_range, int_min, int_max in R. cbn [isigned iw] in R. lia.
Qed.

Definition field_says (sk : bool) (w : Z) (u0 : Z) (cur s : list Z) (int' : sstate) (r : pres) : Prop :=
  (p_code r = pc_partial -> p_used r = u0 + zlen s /\ mid sk int' (cur ++ s)) /\
  (p_code r = pc_ok -> exists ws num a r1 v, s = a ++ r1 /\ r1 <> [] /\ no_digit_first 10 r1 /\ cur ++ a = ws ++ num /\ Forall c_space ws /\ (sk = false -> ws = []) /\
     is_numeral 10 false v num /\ 0 <= v < 2 ^ w /\ p_val r = Some v /\ p_used r = u0 + zlen a).

Lemma digits_sound sk w int u0 ws pre dp s int' r : In w [8; 16] -> Forall c_space ws -> (sk = false -> ws = []) ->
  digit_string 10 pre dp -> zlen pre < 6 -> st_size int = zlen pre -> firstn (Z.to_nat (st_size int)) (st_buf int) = pre -> (pre = [] \/ lead pre) -> lead (pre ++ s) -> units cw s ->
  field_digits w cw sse int u0 s = Some (int', r) -> field_says sk w u0 (ws ++ pre) s int' r.
Proof.
  intros Hw Hws Hsk D Z6 Hsz Hbuf HL L Hu. destruct (span s Hu) as (cs & ds & rest & -> & Dc & N & SK). unfold field_digits. rewrite SK.
  replace (zlen (cs ++ rest) - zlen rest) with (zlen cs) by (rewrite zlen_app; lia). rewrite zfirstn_app, Hbuf, Hsz.
  assert (DD : digit_string 10 (pre ++ cs) (dp ++ ds)) by (apply Forall2_app; auto).
  destruct (Z.ltb_spec (zlen cs) (ip_buf_size - zlen pre)) as [Hn|Hn]; unfold ip_buf_size in Hn.
  - destruct rest as [|c rest].
    + intros H. injection H as <- <-. rewrite app_nil_r in *. split; [|discriminate]. intros _. split; [reflexivity|].
      exists ws. split; [exact Hws|]. split; [exact Hsk|]. right; left. exists (pre ++ cs), (dp ++ ds). cbn [st_size st_buf st_phase].
      rewrite zlen_app. repeat split; auto; try lia. rewrite <- app_assoc; reflexivity. rewrite <- zlen_app. apply zfirstn_all.
    + assert (L2 : lead (pre ++ cs)).
      { destruct pre as [|p pre]; [|exact L]. destruct cs as [|c1 cs]; [|exact L]. exfalso. cbn in L, N. apply N, L. }
      replace (zlen pre + zlen cs =? 0) with false.
      2: { symmetry. apply Z.eqb_neq. rewrite <- zlen_app. pose proof (zlen_pos (pre ++ cs)). destruct (pre ++ cs); [contradiction|]. unfold zlen; cbn [length]. lia. }
      destruct (scan_digits w (pre ++ cs) (dp ++ ds) Hw DD L2) as (E & V & _); [rewrite zlen_app; lia|]. rewrite E. intros H. injection H as <- <-.
      split; cbn [p_code p_used p_val]; [unfold outcome; destruct (in_rangeb _ _); discriminate|]. intros Ok. destruct (V Ok) as [N1 V1].
      exists ws, (pre ++ cs), cs, (c :: rest), (value_of 10 (dp ++ ds)). rewrite <- app_assoc. repeat split; auto; try lia; try discriminate.
      * unfold outcome in *. destruct (in_rangeb _ _); [reflexivity|discriminate].
      * unfold outcome in *. destruct (in_rangeb _ _); [|discriminate]. cbn [p_used]. rewrite zlen_app. lia.
  - destruct rest as [|c rest].
    + intros H. injection H as <- <-. rewrite app_nil_r in *. split; [|discriminate]. intros _. split; [reflexivity|].
      exists ws. split; [exact Hws|]. split; [exact Hsk|]. right; right; right. exists (pre ++ cs), (dp ++ ds), pre, dp. cbn [st_size st_buf st_phase].
      rewrite zlen_app, <- app_assoc. repeat split; auto; try lia. rewrite <- Hsz; exact Hbuf.
    + intros H. injection H as <- <-. split; discriminate.
Qed.
Lemma zero_sound sk w int u0 ws s int' r : In w [8; 16] -> Forall c_space ws -> (sk = false -> ws = []) -> st_size int = 0 -> s <> [] -> units cw s ->
  field_zero w cw sse int u0 s = Some (int', r) -> field_says sk w u0 ws s int' r.
Proof.
  intros Hw Hws Hsk Hsz Hne Hu. destruct s as [|c s1]; [contradiction|]. cbn [field_zero]. pose proof (Forall_inv Hu) as Hc. pose proof (Forall_inv_tail Hu) as Hu1.
  assert (SF : forall x, 0 <= x < 2 ^ cw -> safe_char 10 cw x) by (intros x Hx; split; [exact Hx|lia]).
  destruct (is_digit_dec 10 c) as [I|I].
  - destruct I as (d & Id). rewrite (char_digit_some 10 cw c d) by (auto; lia). destruct (Z.eqb_spec c 48) as [->|Nc].
    + destruct s1 as [|c1 s2].
      * intros H. injection H as <- <-. split; [|discriminate]. intros _. split; [reflexivity|]. exists ws. split; [exact Hws|]. split; [exact Hsk|].
        right; right; left. auto.
      * pose proof (Forall_inv Hu1) as Hc1. destruct (is_digit_dec 10 c1) as [(d1 & I1)|I1].
        -- rewrite (char_digit_some 10 cw c1 d1) by (auto; lia). intros H. injection H as <- <-. split; discriminate.
        -- rewrite (char_digit_none 10 cw c1) by (auto; lia). intros H. injection H as <- <-. split; [discriminate|]. intros _.
           exists ws, [48], [48], (c1 :: s2), 0. repeat split; auto; try lia; try discriminate.
           ++ exists [0]. repeat split; auto. constructor; [lia|constructor].
           ++ destruct Hw as [<-|[<-|[]]]; reflexivity.
    + intros H. pose proof (digits_sound sk w int u0 ws [] [] (c :: s1) int' r Hw Hws Hsk) as DS. rewrite app_nil_r in DS. apply DS; auto; try (constructor; fail).
      * rewrite Hsz. reflexivity.
      * split; [exists d; exact Id|exact Nc].
  - rewrite (char_digit_none 10 cw c) by (auto; lia). intros H. injection H as <- <-. split; discriminate.
Qed.
Lemma field_sound sk w int cur s int' r : In w [8; 16] -> mid sk int cur -> s <> [] -> units cw s -> st_phase int <> ph_zero_invalid ->
  field_feed sk w cw sse int s = Some (int', r) -> field_says sk w 0 cur s int' r.
Proof.
  intros Hw (ws & Hws & Hsk & M) Hne Hu Hz. destruct M as [(-> & Hsz & Ph)|[(pre & ds & -> & D & L & Z6 & Hsz & Hbuf & Ph)|[(-> & _ & Ph)|(cs & ds & pre & dp & -> & D & Z6 & Dp & Lp & Zp & Hbuf & Ph)]]]; unfold field_feed; rewrite Ph.
  - destruct sk.
    + destruct (skip_space_inv cw Hcw s Hu) as (sp & E & F). destruct (skip_space cw s) as [|c s1] eqn:Es.
      * rewrite app_nil_r in E. subst sp. intros H. injection H as <- <-. split; [|discriminate]. intros _. split; [reflexivity|].
        exists (ws ++ s). split; [apply Forall_app; auto|]. split; [discriminate|]. left. auto.
      * intros H. assert (Hu1 : units cw (c :: s1)) by (rewrite E in Hu; apply Forall_app in Hu; apply Hu).
        pose proof (zero_sound true w int (zlen s - zlen (c :: s1)) (ws ++ sp) (c :: s1) int' r Hw) as ZS.
        destruct ZS as [A B]; auto; [apply Forall_app; auto|discriminate|discriminate|]. split.
        -- intros Q. destruct (A Q) as [A1 A2]. split; [lia|]. rewrite E, app_assoc. exact A2.
        -- intros Q. destruct (B Q) as (ws2 & num & a & r1 & v & E1 & E2 & E3 & E4 & E5 & E6 & E7 & E8 & E9 & E10).
           exists ws2, num, (sp ++ a), r1, v. rewrite <- app_assoc in E4. repeat split; auto; try lia.
           ++ rewrite E, E1, app_assoc. reflexivity.
           ++ rewrite E10, E, !zlen_app. lia.
    + intros H. apply (zero_sound false w int 0 ws s int' r); auto.
  - intros H. apply (digits_sound sk w int 0 ws pre ds s int' r); auto. apply lead_app; exact L.
  - contradiction.
  - destruct (span s Hu) as (c2 & d2 & rest & -> & Dc & N & SK). rewrite SK. destruct rest as [|c rest].
    + intros H. injection H as <- <-. rewrite app_nil_r. split; [|discriminate]. intros _. split; [reflexivity|].
      exists ws. split; [exact Hws|]. split; [exact Hsk|]. right; right; right.
      exists (cs ++ c2), (ds ++ d2), pre, dp. rewrite <- app_assoc. repeat split; auto; [apply Forall2_app; auto|rewrite zlen_app; pose proof (zlen_nonneg c2); lia].
    + intros H. injection H as <- <-. split; discriminate.
Qed.

(** The phases still to come: the separators are no digits, only the first number skips white space, the last phase is a number. *)
Definition no_field (todo : list ip_item) : Prop := match todo with IField _ _ :: _ => False | _ => True end.
Fixpoint later (todo : list ip_item) : Prop :=
  match todo with
  | [] => True
  | ISep ch :: r => r <> [] /\ ~ is_digit_of 10 ch /\ later r
  | IField sk w :: r => sk = false /\ In w [8; 16] /\ no_field r /\ later r
  end.
Definition wf (todo : list ip_item) : Prop := match todo with IField _ w :: r => In w [8; 16] /\ no_field r /\ later r | _ => later todo end.
Lemma later_wf todo : later todo -> wf todo.
Proof. destruct todo as [|[sk w|ch] r]; cbn; tauto. Qed.
Definition stands (todo : list ip_item) (int : sstate) (t cur : list Z) : Prop :=
  match todo with
  | [] => cur = []
  | ISep _ :: _ => cur = [] /\ st_size int = 0 /\ st_phase int = ph_zero
  | IField sk _ :: _ => mid sk int cur /\ no_digit_last t
  end.
Lemma feed_sound : forall todo done int vals used s t cur st' code u,
  spelt done vals t -> stands todo int t cur -> wf todo -> units cw s -> (st_phase int = ph_zero_invalid -> s = []) -> (todo = [] -> s <> [] /\ no_digit_first 10 s) ->
  ip_feed cw sse todo int vals used s = Some (st', code, u) ->
  (code = pc_partial -> u = used + zlen s /\ ip_todo st' <> [] /\ exists done' t' cur', done ++ todo = done' ++ ip_todo st' /\
     spelt done' (ip_vals st') t' /\ t ++ cur ++ s = t' ++ cur' /\ stands (ip_todo st') (ip_int st') t' cur' /\ wf (ip_todo st')) /\
  (code = pc_ok -> exists a r, s = a ++ r /\ u = used + zlen a /\ spelt (done ++ todo) (ip_vals st') (t ++ cur ++ a) /\ r <> [] /\ no_digit_first 10 r).
Proof.
  induction todo as [|it todo IH]; intros done int vals used s t cur st' code u SP ST WF Hu HZ HL H; cbn [ip_feed] in H.
  - injection H as <- <- <-. split; [discriminate|]. intros _. cbn in ST. subst cur. exists [], s. rewrite !app_nil_r, zlen_nil. cbn [ip_vals]. destruct (HL eq_refl). repeat split; auto. lia.
  - destruct s as [|c s1].
    + injection H as <- <- <-. split; [|discriminate]. intros _. rewrite zlen_nil. split; [lia|]. split; [discriminate|]. exists done, t, cur.
      rewrite app_nil_r. repeat split; auto.
    + destruct it as [sk w|ch].
      * destruct ST as [M NL]. cbn [wf] in WF. destruct WF as (Hw & NF & WF).
        destruct (field_feed sk w cw sse int (c :: s1)) as [[int' r]|] eqn:FF; [|discriminate].
        assert (HZ' : st_phase int <> ph_zero_invalid) by (intros Q; specialize (HZ Q); discriminate).
        destruct (field_sound sk w int cur (c :: s1) int' r Hw M ltac:(discriminate) Hu HZ' FF) as [A B].
        destruct (p_code r) eqn:PC.
        -- destruct (B eq_refl) as (ws & num & a & r1 & v & E1 & E2 & E3 & E4 & E5 & E6 & E7 & E8 & E9 & E10). rewrite E9 in H.
           rewrite E10, Z.add_0_l, E1, zskipn_app in H.
           assert (SP2 : spelt (done ++ [IField sk w]) (vals ++ [v]) (t ++ cur ++ a)).
           { rewrite E4. apply spelt_app; [exact SP|]. exists ws, num, [], v, []. rewrite app_nil_r. repeat split; auto; lia. }
           assert (Hu1 : units cw r1) by (rewrite E1 in Hu; apply Forall_app in Hu; apply Hu).
           assert (ST2 : stands todo (mk_st (st_buf int') 0 ph_zero) (t ++ cur ++ a) []).
           { destruct todo as [|[sk2 w2|ch2] todo2]; cbn [stands]; auto. contradiction. }
           destruct (IH (done ++ [IField sk w]) (mk_st (st_buf int') 0 ph_zero) (vals ++ [v]) (used + zlen a) r1 (t ++ cur ++ a) [] st' code u SP2 ST2 (later_wf _ WF) Hu1) as [C D]; [discriminate|auto|exact H|].
           rewrite <- app_assoc in C, D. cbn [app] in C, D. split.
           ++ intros Q. destruct (C Q) as (C1 & C2 & done' & t' & cur' & C3 & C4 & C5 & C6 & C7). rewrite E1, zlen_app. split; [lia|]. split; [exact C2|].
              exists done', t', cur'. repeat split; auto. rewrite <- C5, <- !app_assoc. reflexivity.
           ++ intros Q. destruct (D Q) as (a2 & r2 & D1 & D2 & D3 & D4 & D5). exists (a ++ a2), r2. rewrite <- !app_assoc in D3. rewrite E1, D1, zlen_app, app_assoc. repeat split; auto. lia.
        -- injection H as <- <- <-. split; discriminate.
        -- injection H as <- <- <-. split; [|discriminate]. intros _. destruct (A eq_refl) as [A1 A2]. cbn [ip_todo ip_int ip_vals]. split; [lia|]. split; [discriminate|].
           exists done, t, (cur ++ c :: s1). repeat split; auto.
        -- injection H as <- <- <-. split; discriminate.
        -- injection H as <- <- <-. split; discriminate.
      * destruct ST as (-> & Hsz & Ph). cbn [wf later] in WF. destruct WF as (Ne & Nd & WF).
        destruct (Z.eqb_spec c ch) as [->|Nc].
        -- assert (SP2 : spelt (done ++ [ISep ch]) vals (t ++ [ch])).
           { rewrite <- (app_nil_r vals). apply spelt_app; [exact SP|]. exists []. repeat split; auto. }
           assert (ST2 : stands todo int (t ++ [ch]) []).
           { destruct todo as [|[sk2 w2|ch2] todo2]; cbn [stands]; auto. split.
             - exists []. split; [constructor|]. split; [auto|]. left. split; [reflexivity|]. split; [exact Hsz|]. destruct WF as [-> _]. exact Ph.
             - intros p x Ex. apply app_inj_tail in Ex as [_ <-]. exact Nd. }
           destruct (IH (done ++ [ISep ch]) int vals (used + 1) s1 (t ++ [ch]) [] st' code u SP2 ST2 (later_wf _ WF) (Forall_inv_tail Hu)) as [C D]; [congruence|contradiction|exact H|].
           rewrite <- app_assoc in C, D. cbn [app] in C, D. split.
           ++ intros Q. destruct (C Q) as (C1 & C2 & done' & t' & cur' & C3 & C4 & C5 & C6 & C7). rewrite zlen_cons. split; [lia|]. split; [exact C2|].
              exists done', t', cur'. rewrite <- app_assoc in C5. repeat split; auto.
           ++ intros Q. destruct (D Q) as (a2 & r2 & D1 & D2 & D3 & D4 & D5). exists (ch :: a2), r2. rewrite <- app_assoc in D3. rewrite D1, zlen_cons. repeat split; auto. lia.
        -- injection H as <- <- <-. split; discriminate.
Qed.

(** All buffers. *)
Lemma run_sound items : forall chunks st used t cur done used' vals,
  items = done ++ ip_todo st -> ip_todo st <> [] -> spelt done (ip_vals st) t -> stands (ip_todo st) (ip_int st) t cur -> wf (ip_todo st) -> units cw (concat chunks) ->
  used = zlen (t ++ cur) -> (forall cs1 cs2, chunks = cs1 ++ cs2 -> concat cs2 <> [] -> ~ cut_after_zero (t ++ cur ++ concat cs1)) ->
  ip_run cw sse st used chunks = Some (pc_ok, used', vals) ->
  (exists a r, t ++ cur ++ concat chunks = a ++ r /\ used' = zlen a /\ spelt items vals a /\ no_digit_first 10 r) \/
  (used' = zlen (t ++ cur ++ concat chunks) /\ exists done' sk w t' ws last v vs ds, items = done' ++ [IField sk w] /\ vals = vs ++ [v] /\ spelt done' vs t' /\
     t ++ cur ++ concat chunks = t' ++ ws ++ last /\ Forall c_space ws /\ (sk = false -> ws = []) /\ digit_string 10 last ds /\ In w [8; 16] /\
     (last = [] \/ 6 <= zlen last \/ (is_numeral 10 false v last /\ 0 <= v < 2 ^ w))).
Proof.
  induction chunks as [|s chunks IH]; intros st used t cur done used' vals Ei Hne SP ST WF Hu Hused Hcut H; cbn [ip_run concat] in *.
  - right. rewrite app_nil_r. destruct (ip_eof cw sse st) as [[ec vs']|] eqn:EE; [|discriminate]. injection H as -> <- <-. split; [exact Hused|].
    unfold ip_eof in EE. destruct (ip_todo st) as [|[sk w|ch] [|it2 todo2]]; try discriminate.
    destruct (scan_none_space _ _ _ _) as [r|] eqn:SN; [|discriminate]. injection EE as Pc Ev. destruct ST as [(ws & Hws & Hsk & M) NL]. destruct WF as (Hw & _).
    destruct M as [(-> & Hsz & Ph)|[(pre & ds & -> & D & L & Z6 & Hsz & Hbuf & Ph)|[(-> & Hsz & Ph)|(cs & ds & pre & dp & -> & D & Z6 & Dp & Lp & Zp & Hbuf & Ph)]]].
    + rewrite Hsz in SN. cbn [Z.to_nat firstn] in SN. rewrite (scan_empty cw sse Hcw w Hw) in SN. injection SN as <-. cbn [p_val] in Ev. subst vs'.
      exists done, sk, w, t, ws, [], 0, (ip_vals st), []. rewrite app_nil_r. repeat split; auto. constructor.
    + rewrite Hbuf in SN. destruct (scan_digits w pre ds Hw D L Z6) as (E & V & _). rewrite E in SN. injection SN as <-. destruct (V Pc) as [V1 V2].
      assert (PV : p_val (outcome (mk_int w false) (value_of 10 ds) (zlen pre)) = Some (value_of 10 ds)) by (unfold outcome in *; destruct (in_rangeb _ _); [reflexivity|discriminate]).
      rewrite PV in Ev. subst vs'. exists done, sk, w, t, ws, pre, (value_of 10 ds), (ip_vals st), ds. repeat split; auto.
    + rewrite Hsz in SN. cbn [Z.to_nat firstn] in SN. rewrite (scan_empty cw sse Hcw w Hw) in SN. injection SN as <-. cbn [p_val] in Ev. subst vs'.
      exists done, sk, w, t, ws, [48], 0, (ip_vals st), [0]. repeat split; auto.
      * constructor; [split; [lia|left; reflexivity]|constructor].
      * right; right. split; [|destruct Hw as [<-|[<-|[]]]; lia]. exists [0]. repeat split; auto. constructor; [lia|constructor].
    + rewrite Hbuf in SN. assert (PV : exists v, p_val r = Some v).
      { destruct Lp as [->|L].
        - rewrite (scan_empty cw sse Hcw w Hw) in SN. injection SN as <-. exists 0. reflexivity.
        - destruct (scan_digits w pre dp Hw Dp L Zp) as (E & _). rewrite E in SN. injection SN as <-. unfold outcome in *. destruct (in_rangeb _ _); [eexists; reflexivity|discriminate]. }
      destruct PV as (v & PV). rewrite PV in Ev. subst vs'. exists done, sk, w, t, ws, cs, v, (ip_vals st), ds. repeat split; auto.
  - apply Forall_app in Hu as [Hu1 Hu2].
    destruct (ip_feed cw sse (ip_todo st) (ip_int st) (ip_vals st) 0 s) as [[[st' ec] u]|] eqn:FE; [|discriminate].
    destruct (feed_sound (ip_todo st) done (ip_int st) (ip_vals st) 0 s t cur st' ec u SP ST WF Hu1) as [A B].
    + intros Z. destruct s as [|c s]; [reflexivity|]. exfalso. apply (Hcut [] ((c :: s) :: chunks) eq_refl); [discriminate|]. cbn [concat]. rewrite app_nil_r.
      destruct (ip_todo st) as [|[sk w|ch] todo]; [contradiction| |destruct ST as (_ & _ & Q); congruence].
      destruct ST as [(ws & Hws & Hsk & M) NL].
      destruct M as [(-> & Hsz & Ph)|[(pre & ds & -> & D & L & Z6 & Hsz & Hbuf & Ph)|[(-> & Hsz & Ph)|(cs & ds & pre & dp & -> & D & Z6 & Dp & Lp & Zp & Hbuf & Ph)]]]; try congruence.
      { destruct sk; congruence. }
      exists (t ++ ws). split; [rewrite app_assoc; reflexivity|]. intros p x Ex. destruct ws as [|y ws _] using rev_ind.
      { rewrite app_nil_r in Ex. eapply NL; eauto. }
      rewrite app_assoc in Ex. apply app_inj_tail in Ex as [_ <-]. apply Forall_app in Hws as [_ Hy]. apply Forall_inv in Hy. rewrite is_digit10. unfold c_space in Hy. cbn in Hy. lia.
    + contradiction.
    + exact FE.
    + destruct ec; try discriminate.
      * injection H as <- <-. destruct (B eq_refl) as (a & r & E1 & E2 & E3 & E5 & E4). left. exists (t ++ cur ++ a), (r ++ concat chunks). rewrite E1, Ei, Hused, E2.
        rewrite <- !app_assoc. repeat split; auto; [rewrite !zlen_app; lia|]. destruct r; [contradiction|exact E4].
      * destruct (A eq_refl) as (A1 & A2 & done' & t' & cur' & A3 & A4 & A5 & A6 & A7).
        destruct (IH st' (used + u) t' cur' done' used' vals) as [P|P]; auto.
        -- congruence.
        -- rewrite <- A5, Hused, A1, !zlen_app. lia.
        -- intros cs1 cs2 E N. rewrite app_assoc, <- A5, <- !app_assoc. apply (Hcut (s :: cs1) cs2); [cbn; congruence|exact N].
        -- left. destruct P as (a & r & P1 & P). exists a, r. split; [|exact P]. rewrite <- P1, !app_assoc. f_equal. rewrite <- app_assoc. exact A5.
        -- right. rewrite app_assoc, <- A5, <- !app_assoc in P. exact P.
Qed.
End Sound.
