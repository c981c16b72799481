(** The chunked IPv4 scanner on the texts of addresses. *)
From Coq Require Import String List.
From Verif Require Import Base NumSpec ScanSpec ByteSpec IntPrintModel IntPrintProofs IntScanModel IntScanProofs IntSseProofs IntRoundProofs IntCtxProofs
  TimeTextProofs IpSpec IpModel IpScanProofs IpCtxModel.

(** The text before a cut ends in a number that is the single digit 0. *)
Definition cut_after_zero (before : list Z) : Prop :=
  exists pre, before = pre ++ [48] /\ (forall p x, pre = p ++ [x] -> ~ is_digit_of 10 x).
Definition no_digit_last (b : list Z) : Prop := forall p x, b = p ++ [x] -> ~ is_digit_of 10 x.

Section Fields.
Variable cw : Z.
Variable sse : bool.
Hypothesis Hcw : In cw char_widths.

(** Texts that the phases [todo] accept: the numbers [vs], from [k] characters of the text. *)
Inductive fits : list ip_item -> list Z -> list Z -> Z -> Prop :=
| fits_nil rest : no_digit_first 10 rest -> units cw rest -> fits [] [] rest 0
| fits_sep ch todo vs t k : 0 <= ch < 2 ^ cw -> ~ is_digit_of 10 ch -> fits todo vs t k -> fits (ISep ch :: todo) vs (ch :: t) (k + 1)
| fits_field sk w todo v vs ws num t k : In w [8; 16] -> 0 <= v < 2 ^ w -> is_numeral 10 false v num -> Forall c_space ws -> (sk = false -> ws = []) ->
    no_digit_first 10 t -> fits todo vs t k -> fits (IField sk w :: todo) (v :: vs) (ws ++ num ++ t) (zlen ws + zlen num + k).

Lemma fits_units todo vs t k : fits todo vs t k -> units cw t.
Proof.
  induction 1; auto.
  - constructor; auto.
  - apply units_app; [|apply units_app; [eapply numeral_units; eauto|auto]].
    apply Forall_forall. intros x Hx. rewrite Forall_forall in H2. specialize (H2 x Hx). apply cw_ascii; auto.
    unfold c_space in H2. cbn in H2. lia.
Qed.
Lemma fits_nonneg todo vs t k : fits todo vs t k -> 0 <= k.
Proof. induction 1; [lia|lia|]. pose proof (zlen_nonneg ws). pose proof (zlen_nonneg num). lia. Qed.
Lemma numeral_short w v num : In w [8; 16] -> 0 <= v < 2 ^ w -> is_numeral 10 false v num -> zlen num < 6.
Proof.
  intros Hw Hv N. assert (Hi : In w int_widths) by (cbn in *; tauto).
  pose proof (numeral_length 10 false v num w ltac:(lia) Hi N Hv) as L.
  destruct Hw as [<-|[<-|[]]]; vm_compute cal_max_int_size in L; lia.
Qed.
Lemma numeral_nonempty v num : is_numeral 10 false v num -> num <> [].
Proof. intros (ds & _ & Nz & _ & ->). destruct ds; [contradiction|discriminate]. Qed.

Lemma fits_empty todo vs t k : fits todo vs t k -> t = [] -> todo = [] /\ vs = [] /\ k = 0.
Proof.
  destruct 1 as [| |? ? ? ? ? ? ? ? ? ? ? N]; intros E; [auto|discriminate|]. exfalso. apply app_eq_nil in E as [_ E]. apply app_eq_nil in E as [E _].
  eapply numeral_nonempty; eauto.
Qed.
Lemma scan_buffer w v num : In w [8; 16] -> 0 <= v < 2 ^ w -> is_numeral 10 false v num ->
  scan_none_space (mk_scfg 10 false false false (mk_int w false) cw sse) false 0 num = Some (mk_pres pc_ok (zlen num) (Some v)).
Proof.
  intros Hw Hv N. pose proof (numeral_short w v num Hw Hv N) as L.
  destruct (numeral_digit_string 10 false v num ltac:(lia) N) as (ds & D & V & Nz).
  assert (Hi : In w int_widths) by (cbn in *; tauto).
  pose proof (scan_none_space_spec (mk_scfg 10 false false false (mk_int w false) cw sse) 0 false num ds []) as SP.
  rewrite !app_nil_r in SP. cbn [sign_chars app] in SP. rewrite SP; auto.
  - cbn [sc_base sc_ty]. rewrite V. unfold signed_value. cbn [zlen length]. unfold outcome.
    replace (in_rangeb (mk_int w false) v) with true; [reflexivity|]. symmetry. unfold in_rangeb, int_min, int_max. cbn [isigned iw].
    apply andb_true_iff. split; apply Z.leb_le; lia.
  - repeat split; cbn; auto; lia.
  - unfold no_sse. cbn [sc_base sc_cw sc_sse]. replace (32 <=? zlen num) with false by (symmetry; apply Z.leb_gt; lia). apply andb_false_r.
  - intros ->. apply Nz.
  - exact I.
  - exact I.
Qed.
Lemma scan_empty w : In w [8; 16] ->
  scan_none_space (mk_scfg 10 false false false (mk_int w false) cw sse) false 0 [] = Some (mk_pres pc_ok 0 (Some 0)).
Proof.
  intros Hw. cbn [char_widths In] in Hcw, Hw.
  destruct Hw as [<-|[<-|[]]]; destruct Hcw as [<-|[<-|[<-|[]]]]; destruct sse; vm_compute; reflexivity.
Qed.

Lemma zfirstn_all {A} (l : list A) : firstn (Z.to_nat (zlen l)) l = l.
Proof. unfold zlen. rewrite Nat2Z.id. apply firstn_all. Qed.
Lemma zfirstn_app {A} (a b : list A) : firstn (Z.to_nat (zlen a)) (a ++ b) = a.
Proof. unfold zlen. rewrite Nat2Z.id, firstn_app, Nat.sub_diag, firstn_all, firstn_O, app_nil_r. reflexivity. Qed.
Lemma zskipn_app {A} (a b : list A) : skipn (Z.to_nat (zlen a)) (a ++ b) = b.
Proof. unfold zlen. rewrite Nat2Z.id, skipn_app, Nat.sub_diag, skipn_all. reflexivity. Qed.
Lemma zlen_pos {A} (l : list A) : l <> [] -> 0 < zlen l.
Proof. unfold zlen. destruct l; [contradiction|cbn [length]; lia]. Qed.

(** In the middle of a number: [pre] has been buffered, [cs] is still to come. *)
Lemma field_digits_ok w v st u0 s R pre cs t : In w [8; 16] -> 0 <= v < 2 ^ w -> is_numeral 10 false v (pre ++ cs) ->
  st_size st = zlen pre -> firstn (Z.to_nat (st_size st)) (st_buf st) = pre ->
  s ++ R = cs ++ t -> units cw t -> no_digit_first 10 t ->
  (exists cs2, cs = s ++ cs2 /\ R = cs2 ++ t /\
     field_digits w cw sse st u0 s = Some (mk_st (pre ++ s) (zlen pre + zlen s) ph_digit, mk_pres pc_partial (u0 + zlen s) None)) \/
  (exists r1 st', r1 <> [] /\ s = cs ++ r1 /\ t = r1 ++ R /\
     field_digits w cw sse st u0 s = Some (st', mk_pres pc_ok (u0 + zlen cs) (Some v))).
Proof.
  intros Hw Hv N Hsz Hbuf HT Ht Hn. pose proof (numeral_short w v _ Hw Hv N) as L. rewrite zlen_app in L.
  destruct (numeral_digit_string 10 false v _ ltac:(lia) N) as (ds & D & _ & _).
  destruct (digit_string_app_inv _ _ _ _ D) as (d1 & d2 & _ & _ & D2).
  unfold field_digits. destruct (app_split _ _ _ _ HT) as [(cs2 & -> & ->)|(r1 & Nr & -> & ->)].
  - left. exists cs2. split; [reflexivity|]. split; [reflexivity|].
    destruct (digit_string_app_inv _ _ _ _ D2) as (e1 & e2 & _ & De & _).
    pose proof (skip_digits_spec 10 cw s e1 [] ltac:(lia) Hcw De I I) as SK. rewrite app_nil_r in SK. rewrite SK.
    rewrite zlen_nil, Z.sub_0_r. rewrite zlen_app in L. pose proof (zlen_nonneg cs2).
    replace (zlen s <? ip_buf_size - st_size st) with true by (symmetry; apply Z.ltb_lt; unfold ip_buf_size; lia).
    rewrite Hbuf, zfirstn_all, Hsz. reflexivity.
  - right.
    assert (Hn1 : no_digit_first 10 r1) by (eapply no_digit_first_app; eauto).
    assert (Hs1 : safe_first 10 cw r1).
    { apply units_safe. apply Forall_app in Ht. apply Ht. }
    rewrite (skip_digits_spec 10 cw cs d2 r1) by (auto; lia).
    replace (zlen (cs ++ r1) - zlen r1) with (zlen cs) by (rewrite zlen_app; lia).
    replace (zlen cs <? ip_buf_size - st_size st) with true by (symmetry; apply Z.ltb_lt; unfold ip_buf_size; lia).
    rewrite Hbuf, zfirstn_app. destruct r1 as [|c1 r1]; [contradiction|].
    replace (st_size st + zlen cs =? 0) with false.
    2: { symmetry. apply Z.eqb_neq. pose proof (zlen_pos _ (numeral_nonempty _ _ N)) as P. rewrite zlen_app in P. lia. }
    rewrite (scan_buffer w v (pre ++ cs)) by auto. cbn [p_code p_used p_val].
    eexists (c1 :: r1), _. repeat split; auto. do 3 f_equal. rewrite zlen_app. lia.
Qed.

(** At the start of a number. *)
Lemma field_zero_ok w v st u0 s R num t : In w [8; 16] -> 0 <= v < 2 ^ w -> is_numeral 10 false v num ->
  st_size st = 0 -> s <> [] -> s ++ R = num ++ t -> units cw t -> no_digit_first 10 t ->
  (exists cs2, num = s ++ cs2 /\ R = cs2 ++ t /\
     field_zero w cw sse st u0 s = Some (mk_st s (zlen s) ph_digit, mk_pres pc_partial (u0 + zlen s) None)) \/
  (s = [48] /\ v = 0 /\ R = t /\ 
     field_zero w cw sse st u0 s = Some (mk_st (st_buf st) 0 ph_zero_invalid, mk_pres pc_partial (u0 + zlen s) None)) \/
  (exists r1 st', r1 <> [] /\ s = num ++ r1 /\ t = r1 ++ R /\
     field_zero w cw sse st u0 s = Some (st', mk_pres pc_ok (u0 + zlen num) (Some v))).
Proof.
  intros Hw Hv N Hsz Hs HT Ht Hn.
  destruct (numeral_digit_string 10 false v _ ltac:(lia) N) as (ds & D & V & Nz).
  destruct s as [|c s]; [contradiction|]. unfold field_zero.
  destruct num as [|c' num]; [exfalso; eapply numeral_nonempty; eauto|]. pose proof HT as HT'. cbn [app] in HT'. injection HT' as <- HT1.
  pose proof D as D'. inversion D' as [|? d ? ds' Hd D1]; subst.
  rewrite (char_digit_some 10 cw c d) by (auto; lia).
  destruct (Z.eqb_spec c 48) as [->|Hc].
  - (* the number is 0 *)
    assert (Ed : d = 0) by (pose proof (denotes10 _ _ Hd); lia). subst d.
    assert (En : num = [] /\ ds' = []).
    { destruct ds' as [|e ds']; [inversion D1; auto|]. cbn in Nz. exfalso. lia. }
    destruct En as [-> ->]. cbn [app] in HT1. subst t.
    destruct s as [|c1 s].
    + right. left. rewrite Hsz. repeat split.
    + right. right. cbn in Hn. inversion Ht as [|? ? Hc1 _]; subst.
      rewrite (char_digit_none 10 cw c1); [|lia|exact Hcw|split; [exact Hc1|lia]|exact Hn].
      eexists (c1 :: s), st. repeat split. discriminate.
  - assert (Hb : firstn (Z.to_nat (st_size st)) (st_buf st) = []) by (rewrite Hsz; reflexivity).
    destruct (field_digits_ok w (value_of 10 (d :: ds')) st u0 (c :: s) R [] (c :: num) t Hw Hv N Hsz Hb HT Ht Hn) as [(cs2 & E1 & E2 & E3)|(r1 & st' & E0 & E1 & E2 & E3)].
    + left. exists cs2. split; [exact E1|]. split; [exact E2|]. rewrite E3. reflexivity.
    + right. right. exists r1, st'. repeat split; auto.
Qed.

(** The invariant between two chunks: [T] is the text still to come, [B] the text before it. *)
Definition start_phase (todo : list ip_item) (p : sphase) : Prop :=
  match todo with IField true _ :: _ => p = ph_space | _ => p = ph_zero end.
Inductive inv : list ip_item -> sstate -> list Z -> list Z -> Z -> list Z -> Prop :=
| inv_start todo int vs T k B : st_size int = 0 -> start_phase todo (st_phase int) -> fits todo vs T k ->
    (match todo with IField _ _ :: _ => no_digit_last B | _ => True end) -> inv todo int vs T k B
| inv_mid sk w rest int v vs pre cs t k B : In w [8; 16] -> 0 <= v < 2 ^ w -> is_numeral 10 false v (pre ++ cs) -> pre <> [] ->
    int = mk_st pre (zlen pre) ph_digit -> no_digit_first 10 t -> fits rest vs t k ->
    inv (IField sk w :: rest) int (v :: vs) (cs ++ t) (zlen cs + k) B
| inv_zero sk w int B : In w [8; 16] -> st_size int = 0 -> inv [IField sk w] int [0] [] 0 B.

(** Every phase after the first one is entered in phase zero. *)
Fixpoint later_ok (todo : list ip_item) : Prop :=
  match todo with
  | [] => True
  | IField true _ :: _ => False
  | IField false _ :: t => (match t with IField _ _ :: _ => False | _ => True end) /\ later_ok t
  | ISep _ :: t => later_ok t
  end.
Definition todo_ok (todo : list ip_item) : Prop :=
  match todo with IField _ _ :: t => (match t with IField _ _ :: _ => False | _ => True end) /\ later_ok t | _ => later_ok todo end.
Lemma later_todo todo : later_ok todo -> todo_ok todo.
Proof. destruct todo as [|[[|] w|ch] t]; cbn; tauto. Qed.
Lemma later_start todo : later_ok todo -> start_phase todo ph_zero.
Proof. destruct todo as [|[[|] w|ch] t]; cbn; tauto. Qed.

Definition feed_good (vals vs : list Z) (used k : Z) (s R B : list Z) (r : option (ip_st * parse_code * Z)) : Prop :=
  exists st' ec u, r = Some (st', ec, u) /\
    ((ec = pc_partial /\ u = used + zlen s /\ ip_todo st' <> [] /\ todo_ok (ip_todo st') /\
      exists vs', ip_vals st' ++ vs' = vals ++ vs /\ inv (ip_todo st') (ip_int st') vs' R (k - zlen s) (B ++ s)) \/
     (ec = pc_ok /\ u = used + k /\ ip_vals st' = vals ++ vs /\ k <= zlen s)).

Lemma last_inv {A} (a b : list A) x y : a ++ [x] = b ++ [y] -> a = b /\ x = y.
Proof. apply app_inj_tail. Qed.

Lemma feed_ok : forall todo int vals used s R vs k B, inv todo int vs (s ++ R) k B -> todo_ok todo ->
  (R <> [] -> zlen s <= k -> ~ cut_after_zero (B ++ s)) -> feed_good vals vs used k s R B (ip_feed cw sse todo int vals used s).
Proof.
  induction todo as [|it todo IH]; intros int vals used s R vs k B HI Hok Hcut.
  - inversion HI as [? ? ? ? ? ? _ _ F _ E1 E2 E3 E4 E5 E6| |]; subst. inversion F; subst. cbn [ip_feed].
    eexists _, _, _. split; [reflexivity|]. right. cbn [ip_vals]. rewrite app_nil_r. repeat split; [lia|apply zlen_nonneg].
  - cbn [ip_feed]. destruct s as [|c s].
    { eexists _, _, _. split; [reflexivity|]. left. cbn [ip_todo ip_int ip_vals]. repeat split; [cbn; lia|discriminate|exact Hok|].
      exists vs. split; [reflexivity|]. cbn [app] in HI. rewrite zlen_nil, Z.sub_0_r, app_nil_r. exact HI. }
    destruct it as [sk w|ch].
    2: { (* a separator *)
      inversion HI as [? ? ? ? ? ? Hsz Hph F _ E1 E2 E3 E4 E5 E6| |]; subst.
      inversion F as [|? ? ? ? k0 Hr Hnd F1 E1 E2 E3|]; subst. rewrite Z.eqb_refl.
      assert (Hok' : later_ok todo) by exact Hok.
      destruct (IH int vals (used + 1) s R vs k0 (B ++ [c])) as (st' & ec & u & E & Q).
      - apply inv_start; auto.
        + cbn in Hph. rewrite Hph. now apply later_start.
        + destruct todo as [|[|] ?]; auto. intros p x Ex. apply last_inv in Ex as [_ <-]. exact Hnd.
      - now apply later_todo.
      - intros HR Hk. rewrite <- app_assoc. apply Hcut; auto. rewrite zlen_cons. lia.
      - exists st', ec, u. split; [exact E|]. destruct Q as [(-> & -> & Q1 & Q2 & vs' & Q3 & Q4)|(-> & -> & Q1 & Q2)]; [left|right].
        + repeat split; auto; [rewrite zlen_cons; lia|]. exists vs'. split; [exact Q3|]. rewrite <- app_assoc in Q4. cbn [app] in Q4.
          replace (k0 + 1 - zlen (c :: s)) with (k0 - zlen s) by (rewrite zlen_cons; lia). exact Q4.
        + repeat split; auto; [lia|rewrite zlen_cons; lia]. }
    (* a number; what happens after it *)
    assert (After : forall v vs' t k' int' u r1, vs = v :: vs' -> fits todo vs' t k' -> t = r1 ++ R -> k = u + k' -> c :: s = firstn (Z.to_nat u) (c :: s) ++ r1 -> 0 <= u ->
       zlen (firstn (Z.to_nat u) (c :: s)) = u ->
       feed_good vals vs used k (c :: s) R B
         (ip_feed cw sse todo (mk_st (st_buf int') 0 ph_zero) (vals ++ [v]) (used + u) (skipn (Z.to_nat u) (c :: s)))).
    { intros v vs' t k' int' u r1 -> F1 -> -> Es Hu0 Hu. set (pf := firstn (Z.to_nat u) (c :: s)) in *.
      assert (Esk : skipn (Z.to_nat u) (c :: s) = r1).
      { rewrite Es. rewrite <- Hu. apply zskipn_app. }
      rewrite Esk. cbn [todo_ok] in Hok. destruct Hok as [Hnf Hok].
      destruct (IH (mk_st (st_buf int') 0 ph_zero) (vals ++ [v]) (used + u) r1 R vs' k' (B ++ pf)) as (st' & ec & u' & E & Q).
      - apply inv_start; auto; [now apply later_start|]. destruct todo as [|[|] ?]; auto. contradiction.
      - now apply later_todo.
      - intros HR Hk. rewrite <- app_assoc, <- Es. apply Hcut; auto. rewrite Es, zlen_app. lia.
      - exists st', ec, u'. split; [exact E|]. destruct Q as [(-> & -> & Q1 & Q2 & vs2 & Q3 & Q4)|(-> & -> & Q1 & Q2)]; [left|right].
        + repeat split; auto; [rewrite Es, zlen_app; lia|]. exists vs2. rewrite <- app_assoc in Q3. split; [exact Q3|].
          rewrite <- app_assoc, <- Es in Q4. replace (u + k' - zlen (c :: s)) with (k' - zlen r1); [exact Q4|]. rewrite Es, zlen_app; lia.
        + repeat split; [lia|rewrite Q1, <- app_assoc; reflexivity|rewrite Es, zlen_app; lia]. }
    inversion HI as [? ? ? ? ? ? Hsz Hph F HB E1 E2 E3 E4 E5 E6|? ? ? ? v vs' pre cs t k' ? Hw Hv N Hpre Hint Hn F E1 E2 E3 E4 E5 E6|]; subst.
    + (* at its start *)
      inversion F as [| |? ? ? v vs' ws num t k' Hw Hv N Hws Hsk Hn F1 E1 E2 E3 E4]; subst.
      pose proof (fits_units _ _ _ _ F1) as Ut.
      assert (Zero : forall ws1 s1 st u0, st_size st = 0 -> ws = ws1 -> c :: s = ws1 ++ s1 -> s1 <> [] -> s1 ++ R = num ++ t -> u0 = zlen ws1 ->
         feed_good vals (v :: vs') used (zlen ws + zlen num + k') (c :: s) R B
          (match field_zero w cw sse st u0 s1 with
           | None => None
           | Some (int', r) =>
              match p_code r, p_val r with
              | pc_ok, Some v => ip_feed cw sse todo (mk_st (st_buf int') 0 ph_zero) (vals ++ [v]) (used + p_used r) (skipn (Z.to_nat (p_used r)) (c :: s))
              | ec, _ => Some (mk_ip (IField sk w :: todo) int' vals, ec, used + p_used r)
              end
           end)).
      { intros ws1 s1 st u0 Hst <- Es Hs1 HT ->. 
        destruct (field_zero_ok w v st (zlen ws) s1 R num t Hw Hv N Hst Hs1 HT Ut Hn) as [(cs2 & Ea & Eb & ->)|[(Ea & Eb & Ec & ->)|(r1 & st' & Ea & Eb & Ec & ->)]];
          cbn [p_code p_val p_used].
        - eexists _, _, _. split; [reflexivity|]. left. cbn [ip_todo ip_int ip_vals].
          repeat split; [rewrite Es, zlen_app; lia|discriminate|apply Hok|apply Hok|]. exists (v :: vs'). split; [reflexivity|].
          rewrite Eb. replace (zlen ws + zlen num + k' - zlen (c :: s)) with (zlen cs2 + k').
          2: { rewrite Es, Ea, !zlen_app. lia. }
          eapply inv_mid; eauto. now rewrite <- Ea.
        - (* the chunk ends after a single 0 *)
          eexists _, _, _. split; [reflexivity|]. left. cbn [ip_todo ip_int ip_vals].
          repeat split; [rewrite Es, zlen_app; lia|discriminate|apply Hok|apply Hok|]. exists (v :: vs'). split; [reflexivity|].
          assert (HR : R = []).
          { destruct R as [|y R]; [reflexivity|]. exfalso. pose proof (fits_nonneg _ _ _ _ F1). apply Hcut; [discriminate|rewrite Es, zlen_app, Ea; pose proof (zlen_pos _ (numeral_nonempty _ _ N)); change (zlen [48]) with 1; lia|]. exists (B ++ ws). rewrite Es, Ea, <- app_assoc. split; [reflexivity|].
            intros p x Ep. destruct (list_eq_dec Z.eq_dec ws []) as [->|Hne].
            - rewrite app_nil_r in Ep. eapply HB; eauto.
            - destruct (exists_last Hne) as (ws' & y' & ->). rewrite app_assoc in Ep. apply last_inv in Ep as [_ <-].
              apply Forall_app in Hws as [_ Hws]. inversion Hws as [|? ? Hy _]; subst. intros Hd. apply is_digit10 in Hd. unfold c_space in Hy. cbn in Hy. lia. }
          subst R. subst t v. destruct (fits_empty _ _ _ _ F1 eq_refl) as (-> & -> & ->).
          replace (zlen ws + zlen num + 0 - zlen (c :: s)) with 0.
          2: { rewrite !app_nil_r in HT. rewrite Es, zlen_app, HT. lia. }
          apply inv_zero; auto.
        - assert (Eu : zlen (ws ++ num) = zlen ws + zlen num) by apply zlen_app.
          assert (Ef : firstn (Z.to_nat (zlen ws + zlen num)) (c :: s) = ws ++ num).
          { rewrite Es, Eb, app_assoc, <- Eu. apply zfirstn_app. }
          eapply After; eauto; rewrite ?Ef; auto; [|rewrite <- Eu; apply zlen_nonneg].
          rewrite Es, Eb, app_assoc. reflexivity. }
      unfold field_feed. destruct sk; cbn [start_phase] in Hph; rewrite Hph.
      * (* white space first *)
        assert (Enum : exists d num', num = d :: num' /\ is_digit_of 10 d /\ 0 <= d < 2 ^ cw).
        { destruct (numeral_digit_string 10 false v _ ltac:(lia) N) as (ds & D & _). pose proof (numeral_units cw v num Hcw N) as Un.
          destruct num as [|d num']; [exfalso; eapply numeral_nonempty; eauto|]. inversion D; subst. inversion Un; subst.
          exists d, num'. split; [reflexivity|]. split; [eexists; eauto|auto]. }
        destruct Enum as (d & num' & En & Hd & Hdr).
        assert (Hds : ~ c_space d) by (apply is_digit10 in Hd; unfold c_space; cbn; lia).
        match goal with H : ws ++ num ++ t = _ |- _ => rename H into HT | H : _ = ws ++ num ++ t |- _ => symmetry in H; rename H into HT end.
        symmetry in HT. change ((c :: s) ++ R = ws ++ num ++ t) in HT.
        destruct (app_split _ _ _ _ HT) as [(ws2 & Ew & ER)|(r1 & Nr & Es & Et)].
        -- (* the chunk ends inside the white space *)
           assert (Esk : skip_space cw (c :: s) = []).
           { pose proof (skip_space_spec cw (c :: s) [] Hcw) as SS. rewrite app_nil_r in SS. apply SS; [|exact I]. rewrite Ew in Hws. apply Forall_app in Hws. apply Hws. }
           rewrite Esk. cbn [p_code p_val p_used]. eexists _, _, _. split; [reflexivity|]. left. cbn [ip_todo ip_int ip_vals].
           repeat split; [discriminate|apply Hok|apply Hok|]. exists (v :: vs'). split; [reflexivity|].
           replace (zlen ws + zlen num + k' - zlen (c :: s)) with (zlen ws2 + zlen num + k') by (rewrite Ew, zlen_app; lia).
           apply inv_start; auto.
           ++ rewrite ER. econstructor; eauto; [|discriminate]. rewrite Ew in Hws. apply Forall_app in Hws. apply Hws.
           ++ intros p x Ep. rewrite Ew in Hws. destruct (@exists_last _ (c :: s) ltac:(discriminate)) as (l' & y & El).
              rewrite El, app_assoc in Ep. apply last_inv in Ep as [_ <-]. rewrite El in Hws. apply Forall_app in Hws as [Hws _]. apply Forall_app in Hws as [_ Hws].
              inversion Hws as [|? ? Hy _]; subst. intros Hdx. apply is_digit10 in Hdx. unfold c_space in Hy. cbn in Hy. lia.
        -- assert (Er1 : exists r1', r1 = d :: r1').
           { destruct r1 as [|z r1]; [contradiction|]. rewrite En in Et. cbn in Et. injection Et as <- _. eauto. }
           destruct Er1 as (r1' & ->).
           assert (Esk : skip_space cw (c :: s) = d :: r1').
           { rewrite Es. apply skip_space_spec; auto. }
           rewrite Esk. replace (zlen (c :: s) - zlen (d :: r1')) with (zlen ws) by (rewrite Es, zlen_app; lia).
           apply (Zero ws (d :: r1')); auto; discriminate.
      * rewrite (Hsk eq_refl) in *. apply (Zero [] (c :: s)); auto; discriminate.
    + (* inside *)
      pose proof (fits_units _ _ _ _ F) as Ut. unfold field_feed. cbn [st_phase].
      destruct (field_digits_ok w v (mk_st pre (zlen pre) ph_digit) 0 (c :: s) R pre cs t Hw Hv N eq_refl (zfirstn_all pre)) as [(cs2 & Ea & Eb & ->)|(r1 & st' & Ea & Eb & Ec & ->)]; auto;
        cbn [p_code p_val p_used].
      * eexists _, _, _. split; [reflexivity|]. left. cbn [ip_todo ip_int ip_vals]. repeat split; [discriminate|apply Hok|apply Hok|].
        exists (v :: vs'). split; [reflexivity|]. rewrite Eb. replace (zlen cs + k' - zlen (c :: s)) with (zlen cs2 + k') by (rewrite Ea, zlen_app; lia).
        apply (inv_mid sk w todo _ v vs' (pre ++ c :: s) cs2 t k'); auto.
        -- rewrite <- app_assoc, <- Ea. exact N.
        -- destruct pre; discriminate.
        -- rewrite zlen_app. reflexivity.
      * assert (Ef : firstn (Z.to_nat (zlen cs)) (c :: s) = cs) by (rewrite Eb; apply zfirstn_app).
        eapply After; eauto; rewrite ?Z.add_0_l, ?Ef; auto. apply zlen_nonneg.
Qed.

Lemma run_ok : forall chunks st used vs k B, inv (ip_todo st) (ip_int st) vs (concat chunks) k B -> ip_todo st <> [] -> todo_ok (ip_todo st) ->
  (forall cs1 cs2, chunks = cs1 ++ cs2 -> concat cs2 <> [] -> zlen (concat cs1) <= k -> ~ cut_after_zero (B ++ concat cs1)) ->
  ip_run cw sse st used chunks = Some (pc_ok, used + k, ip_vals st ++ vs).
Proof.
  induction chunks as [|s chunks IH]; intros st used vs k B HI Hne Hok Hcut.
  - cbn [concat] in HI. cbn [ip_run]. unfold ip_eof. destruct st as [todo int vals]. cbn [ip_todo ip_int ip_vals] in *.
    inversion HI as [? ? ? ? ? ? Hsz Hph F HB E1 E2 E3 E4 E5 E6|? w ? ? v vs' pre cs t k' ? Hw Hv N Hpre Hint Hn F E1 E2 E3 E4 E5 E6|? w ? ? Hw Hsz]; subst.
    + destruct (fits_empty _ _ _ _ F eq_refl) as (-> & _). contradiction.
    + match goal with H : cs ++ t = [] |- _ => apply app_eq_nil in H as [-> ->] end.
      destruct (fits_empty _ _ _ _ F eq_refl) as (-> & -> & ->). cbn [st_size st_buf]. rewrite zfirstn_all. rewrite app_nil_r in N.
      rewrite (scan_buffer w v pre) by auto. cbn [p_code p_val app]. change (zlen (@nil Z)) with 0. rewrite !Z.add_0_r. reflexivity.
    + rewrite Hsz. cbn [Z.to_nat firstn]. rewrite (scan_empty w Hw). cbn [p_code p_val]. rewrite Z.add_0_r. reflexivity.
  - cbn [concat] in HI. cbn [ip_run].
    destruct (feed_ok (ip_todo st) (ip_int st) (ip_vals st) 0 s (concat chunks) vs k B HI Hok) as (st' & ec & u & -> & Q).
    { intros HR. specialize (Hcut [s] chunks eq_refl HR). cbn [concat] in Hcut. rewrite app_nil_r in Hcut. exact Hcut. }
    destruct Q as [(-> & -> & Q1 & Q2 & vs' & Q3 & Q4)|(-> & -> & Q1 & _)].
    + rewrite (IH st' _ vs' _ _ Q4 Q1 Q2).
      * rewrite Q3. do 3 f_equal. lia.
      * intros cs1 cs2 -> HR Hk. rewrite <- app_assoc. apply (Hcut (s :: cs1) cs2); auto. cbn [concat]. rewrite zlen_app. lia.
    + rewrite Q1. do 3 f_equal.
Qed.

(** The texts of addresses. *)
Lemma v4_fits a b c d txt ws rest vs k more : octet a -> octet b -> octet c -> octet d -> v4_text a b c d txt -> Forall c_space ws ->
  no_digit_first 10 rest -> fits more vs rest k ->
  fits (v4_items ++ more) (a :: b :: c :: d :: vs) (ws ++ txt ++ rest) (zlen ws + zlen txt + k).
Proof.
  intros Ha Hb Hc Hd (ta & tb & tc & td & Na & Nb & Nc & Nd & ->) Hws Hn F.
  assert (Hdot : ~ is_digit_of 10 46) by (rewrite is_digit10; lia).
  assert (H46 : 0 <= 46 < 2 ^ cw) by (apply cw_ascii; auto; lia).
  assert (Fd : fits (IField false 8 :: more) (d :: vs) (td ++ rest) (zlen td + k)).
  { apply (fits_field false 8 more d vs [] td rest k); auto. left; auto. }
  assert (Fc : fits (IField false 8 :: ISep 46 :: IField false 8 :: more) (c :: d :: vs) (tc ++ 46 :: td ++ rest) (zlen tc + (zlen td + k + 1))).
  { apply (fits_field false 8 _ c (d :: vs) [] tc); auto; [left; auto|]. constructor; auto. }
  assert (Fb : fits (IField false 8 :: ISep 46 :: IField false 8 :: ISep 46 :: IField false 8 :: more) (b :: c :: d :: vs) (tb ++ 46 :: tc ++ 46 :: td ++ rest) (zlen tb + (zlen tc + (zlen td + k + 1) + 1))).
  { apply (fits_field false 8 _ b (c :: d :: vs) [] tb); auto; [left; auto|]. constructor; auto. }
  replace (ws ++ (ta ++ text "." ++ tb ++ text "." ++ tc ++ text "." ++ td) ++ rest) with (ws ++ ta ++ 46 :: tb ++ 46 :: tc ++ 46 :: td ++ rest).
  2: { rewrite dot46. rewrite <- !app_assoc. reflexivity. }
  replace (zlen ws + zlen _ + k) with (zlen ws + zlen ta + (zlen tb + (zlen tc + (zlen td + k + 1) + 1) + 1)).
  2: { rewrite dot46, !zlen_app. change (zlen [46]) with 1. lia. }
  apply (fits_field true 8 _ a (b :: c :: d :: vs) ws ta); auto; [left; auto|discriminate|]. constructor; auto.
Qed.
End Fields.
