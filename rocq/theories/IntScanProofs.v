(** Proofs about contiguous integer scanning. *)
From Coq Require Import String.
From Verif Require Import Base NumSpec NumFacts IntPrintModel IntPrintProofs IntInjProofs ScanSpec IntScanModel.

Definition char_widths : list Z := [8; 16; 32].

(** Code units whose digit test does not read past the lookup table. *)
Definition safe_char (base cw c : Z) : Prop :=
  0 <= c < 2 ^ cw /\ (10 < base -> c <> (if cw =? 8 then 255 else 97 + base - 10)).
Definition safe_first (base cw : Z) (s : list Z) : Prop :=
  match s with [] => True | c :: _ => safe_char base cw c end.

Lemma denotes_cases base c d : 2 <= base <= 36 -> denotes base c d ->
  (0 <= d < 10 /\ d < base /\ c = 48 + d) \/ (10 <= d < base /\ (c = 87 + d \/ c = 55 + d)).
Proof.
  intros Hb [Hd Hc]. destruct (Z.ltb_spec d 10).
  - left. rewrite !digit_char_small in Hc by lia. lia.
  - right. rewrite <- !charliteral_digit_char in Hc by lia. unfold charliteralofnumber in Hc.
    destruct (Z.ltb_spec d 10); lia.
Qed.

Lemma denotes_small base d : 2 <= base <= 36 -> 0 <= d < base -> d < 10 -> denotes base (48 + d) d.
Proof. intros. split; [lia|]. left. rewrite digit_char_small; lia. Qed.
Lemma denotes_lower base d : 2 <= base <= 36 -> 10 <= d < base -> denotes base (87 + d) d.
Proof. intros. split; [lia|]. left. rewrite <- charliteral_digit_char by lia. unfold charliteralofnumber. destruct (Z.ltb_spec d 10); lia. Qed.
Lemma denotes_upper base d : 2 <= base <= 36 -> 10 <= d < base -> denotes base (55 + d) d.
Proof. intros. split; [lia|]. right. rewrite <- charliteral_digit_char by lia. unfold charliteralofnumber. destruct (Z.ltb_spec d 10); lia. Qed.

Lemma is_digit_small base c : 2 <= base <= 36 -> 48 <= c < 58 -> c < 48 + base -> is_digit_of base c.
Proof. intros. exists (c - 48). replace c with (48 + (c - 48)) at 1 by lia. apply denotes_small; lia. Qed.
Lemma is_digit_lower base c : 2 <= base <= 36 -> 97 <= c < 87 + base -> is_digit_of base c.
Proof. intros. exists (c - 87). replace c with (87 + (c - 87)) at 1 by lia. apply denotes_lower; lia. Qed.
Lemma is_digit_upper base c : 2 <= base <= 36 -> 65 <= c < 55 + base -> is_digit_of base c.
Proof. intros. exists (c - 55). replace c with (55 + (c - 55)) at 1 by lia. apply denotes_upper; lia. Qed.

Lemma wrap_small w x : 0 <= x < 2 ^ w -> wrap w x = x.
Proof. intros; unfold wrap; apply Z.mod_small; assumption. Qed.
Lemma wrap_neg w x : - 2 ^ w <= x < 0 -> wrap w x = x + 2 ^ w.
Proof.
  intros H. unfold wrap. symmetry. apply Z.mod_unique with (-1); [left|]; lia.
Qed.

Lemma cw_pow cw : In cw char_widths -> 256 <= 2 ^ cw.
Proof. intros [<-|[<-|[<-|[]]]]; vm_compute; discriminate. Qed.

Lemma wrap8_sub c k : 0 <= c < 256 -> 0 <= k < 256 ->
  (k <= c /\ wrap 8 (c - k) = c - k) \/ (c < k /\ wrap 8 (c - k) = c - k + 256).
Proof.
  intros Hc Hk. destruct (Z.leb_spec k c).
  - left. split; [lia|]. apply wrap_small. change (2 ^ 8) with 256. lia.
  - right. split; [lia|]. apply wrap_neg. change (2 ^ 8) with 256. lia.
Qed.

Lemma tb_digit_some base c d : 10 < base <= 36 -> denotes base c d -> tb_digit base c = Some d.
Proof.
  intros Hb Hd. pose proof (denotes_cases base c d ltac:(lia) Hd) as Hc.
  unfold tb_digit.
  destruct (wrap8_sub c 65 ltac:(lia) ltac:(lia)) as [[A ->]|[A ->]];
  destruct (wrap8_sub c 97 ltac:(lia) ltac:(lia)) as [[B ->]|[B ->]];
  destruct (wrap8_sub c 48 ltac:(lia) ltac:(lia)) as [[C ->]|[C ->]]; try lia;
  repeat match goal with
         | |- context [?a <? ?b] => destruct (Z.ltb_spec a b)
         | |- context [?a <=? ?b] => destruct (Z.leb_spec a b)
         end; try lia;
  try (rewrite wrap_small by (change (2 ^ 8) with 256; lia)); f_equal; try lia.
Qed.

Lemma tb_digit_none base c : 10 < base <= 36 -> 0 <= c < 256 -> ~ is_digit_of base c -> tb_digit base c = None.
Proof.
  intros Hb Hc Hn. unfold tb_digit.
  assert (N1 : ~ (48 <= c < 58)) by (intros H; apply Hn; apply is_digit_small; lia).
  assert (N2 : ~ (97 <= c < 87 + base)) by (intros H; apply Hn; apply is_digit_lower; lia).
  assert (N3 : ~ (65 <= c < 55 + base)) by (intros H; apply Hn; apply is_digit_upper; lia).
  destruct (wrap8_sub c 65 ltac:(lia) ltac:(lia)) as [[A ->]|[A ->]];
  destruct (wrap8_sub c 97 ltac:(lia) ltac:(lia)) as [[B ->]|[B ->]];
  destruct (wrap8_sub c 48 ltac:(lia) ltac:(lia)) as [[C ->]|[C ->]]; try lia;
  repeat match goal with
         | |- context [?a <? ?b] => destruct (Z.ltb_spec a b)
         | |- context [?a <=? ?b] => destruct (Z.leb_spec a b)
         end; try lia; reflexivity.
Qed.

Lemma char_digit_some base cw c d : 2 <= base <= 36 -> In cw char_widths -> denotes base c d ->
  char_digit base cw c = Some (Some d).
Proof.
  intros Hb Hw Hd. pose proof (denotes_cases base c d Hb Hd) as Hc. pose proof (cw_pow cw Hw) as Hp.
  unfold char_digit. destruct (Z.leb_spec base 10).
  - rewrite wrap_small by lia. destruct (Z.leb_spec base (c - 48)); [lia|]. do 2 f_equal. lia.
  - assert (Hlt : c < sto_tb_size base cw) by (unfold sto_tb_size; destruct (cw =? 8); lia).
    destruct (Z.ltb_spec (sto_tb_size base cw) c); [lia|]. rewrite andb_false_r.
    destruct (Z.ltb_spec c (sto_tb_size base cw)); [|lia]. f_equal. apply tb_digit_some; [lia|exact Hd].
Qed.

Lemma char_digit_none base cw c : 2 <= base <= 36 -> In cw char_widths -> safe_char base cw c ->
  ~ is_digit_of base c -> char_digit base cw c = Some None.
Proof.
  intros Hb Hw [Hc Hs] Hn. pose proof (cw_pow cw Hw) as Hp.
  unfold char_digit. destruct (Z.leb_spec base 10).
  - assert (N1 : ~ (48 <= c < 48 + base)) by (intros H0; apply Hn; apply is_digit_small; lia).
    destruct (Z.leb_spec 48 c).
    + rewrite wrap_small by lia. destruct (Z.leb_spec base (c - 48)); [reflexivity|lia].
    + rewrite wrap_neg by lia. destruct (Z.leb_spec base (c - 48 + 2 ^ cw)); [reflexivity|lia].
  - specialize (Hs ltac:(lia)). unfold sto_tb_size. destruct (Z.eqb_spec cw 8) as [->|Hn8]; cbn [negb andb].
    + change (2 ^ 8) with 256 in *. destruct (Z.ltb_spec c 255); [|lia]. f_equal. apply tb_digit_none; auto; lia.
    + destruct (Z.ltb_spec (97 + base - 10) c); [reflexivity|]. destruct (Z.ltb_spec c (97 + base - 10)); [|lia].
      f_equal. apply tb_digit_none; auto; lia.
Qed.

Lemma digit_string_ok base cs ds : digit_string base cs ds -> digits_ok base ds.
Proof. intros H. induction H; constructor; [destruct H; lia|assumption]. Qed.

Lemma skip_digits_spec base cw cs ds rest : 2 <= base <= 36 -> In cw char_widths -> digit_string base cs ds ->
  safe_first base cw rest -> no_digit_first base rest -> skip_digits base cw (cs ++ rest) = Some rest.
Proof.
  intros Hb Hw H Hs Hn. induction H as [|c d cs ds Hd _ IH]; cbn [app skip_digits].
  - destruct rest as [|c rest]; [reflexivity|]. cbn [skip_digits].
    rewrite char_digit_none; auto.
  - rewrite (char_digit_some base cw c d); auto.
Qed.

Lemma wrap_acc w res base d : wrap w (wrap w (wrap w res * base) + d) = wrap w (res * base + d).
Proof.
  unfold wrap. rewrite Zplus_mod_idemp_l. rewrite <- Zplus_mod_idemp_l. rewrite Zmult_mod_idemp_l.
  rewrite Zplus_mod_idemp_l. reflexivity.
Qed.

Lemma first_phase_spec base cw w cs ds rest : 2 <= base <= 36 -> In cw char_widths -> digit_string base cs ds ->
  forall n res, (length cs = n \/ ((length cs <= n)%nat /\ safe_first base cw rest /\ no_digit_first base rest)) ->
  first_phase base cw w n (cs ++ rest) (wrap w res)
  = Some (wrap w (res * base ^ zlen ds + value_of base ds), rest).
Proof.
  intros Hb Hw H. induction H as [|c d cs ds Hd Hds IH]; intros n res Hn; cbn [app].
  - unfold zlen, value_of; cbn [length fold_left Z.of_nat]. rewrite Z.pow_0_r, Z.mul_1_r, Z.add_0_r.
    destruct n as [|n]; [destruct rest; reflexivity|].
    destruct rest as [|c rest]; [reflexivity|]. cbn [first_phase].
    destruct Hn as [Hn|(_ & Hs & Hnd)]; [discriminate|]. rewrite char_digit_none; auto.
  - destruct n as [|n]; [simpl in Hn; lia|]. cbn [first_phase].
    rewrite (char_digit_some base cw c d) by auto. rewrite wrap_acc.
    rewrite IH by (simpl in Hn; destruct Hn as [Hn|(Hn & A & B)]; [left; lia|right; repeat split; auto; lia]).
    do 2 f_equal. rewrite value_of_cons. unfold zlen. cbn [length]. rewrite Nat2Z.inj_succ, Z.pow_succ_r by lia.
    f_equal. ring.
Qed.

Lemma special_base_pow w base : In w int_widths -> special_base base = true ->
  base ^ cal_max_int_size (mk_int w false) base = 2 ^ w.
Proof.
  intros Hw Hb. unfold special_base in Hb. apply orb_true_iff in Hb as [Hb|Hb]; [apply orb_true_iff in Hb as [Hb|Hb]|];
  apply Z.eqb_eq in Hb; subst base; apply width_cases in Hw as [-> |[-> |[-> |[-> | ->]]]]; vm_compute; reflexivity.
Qed.

Lemma Forall2_split_l {A B} (P : A -> B -> Prop) n l1 l2 : Forall2 P l1 l2 ->
  Forall2 P (firstn n l1) (firstn n l2) /\ Forall2 P (skipn n l1) (skipn n l2).
Proof.
  intros H. revert n. induction H; intros [|n]; simpl; split; try constructor; auto; apply IHForall2.
Qed.

Lemma Forall2_length {A B} (P : A -> B -> Prop) l1 l2 : Forall2 P l1 l2 -> length l1 = length l2.
Proof. intros H; induction H; simpl; congruence. Qed.

Lemma value_lower_bound base ds : 1 < base -> digits_ok base ds -> no_leading_zero ds -> (2 <= length ds)%nat ->
  base ^ (zlen ds - 1) <= value_of base ds.
Proof.
  intros Hb Hd Hn Hl. destruct ds as [|d ds]; [simpl in Hl; lia|]. destruct ds as [|d' ds]; [simpl in Hl; lia|].
  simpl in Hn. inversion Hd as [|? ? Hd1 Hd2]; subst. rewrite value_of_cons.
  pose proof (value_of_bound base (d' :: ds) ltac:(lia) Hd2) as Hv.
  unfold zlen. replace (Z.of_nat (length (d :: d' :: ds)) - 1) with (Z.of_nat (length (d' :: ds))) by (cbn [length]; lia).
  assert (0 < base ^ Z.of_nat (length (d' :: ds))) by (apply Z.pow_pos_nonneg; lia). nia.
Qed.

Lemma scan_scalar_spec base cw w cs ds rest : 2 <= base <= 36 -> In cw char_widths -> In w int_widths ->
  digit_string base cs ds -> (ds = [] \/ no_leading_zero ds) ->
  safe_first base cw rest -> no_digit_first base rest ->
  exists res, scan_scalar base cw w (cs ++ rest)
    = Some (if value_of base ds <? 2 ^ w then pc_ok else pc_overflow, res, rest)
    /\ (value_of base ds < 2 ^ w -> res = value_of base ds).
Proof.
  intros Hb Hcw Hw H Hlead Hs Hnd.
  pose proof (digit_string_ok _ _ _ H) as Hok.
  pose proof (Forall2_length _ _ _ H) as Hlen.
  pose proof (cal_max_int_size_spec (mk_int w false) base Hw ltac:(lia)) as (N1 & N2 & N3).
  unfold int_max in N2, N3; cbn [isigned iw] in N2, N3.
  unfold scan_scalar. set (N := cal_max_int_size (mk_int w false) base) in *.
  set (sp := special_base base).
  set (msz := N - (if sp then 0 else 1)).
  assert (Hw8 : 256 <= 2 ^ w) by (apply width_cases in Hw as [-> |[-> |[-> |[-> | ->]]]]; vm_compute; discriminate).
  assert (Hbw : base <= 2 ^ w - 1) by lia.
  assert (HN2 : sp = false -> 2 <= N).
  { intros _. apply Z.le_ngt. intros HN. assert (N = 1) as E by lia. rewrite E, Z.pow_1_r in N2. lia. }
  assert (Hmsz : 0 < msz) by (unfold msz; destruct sp; [lia|specialize (HN2 eq_refl); lia]).
  assert (Hfit : base ^ msz <= 2 ^ w).
  { unfold msz. destruct sp eqn:Es; [rewrite Z.sub_0_r; unfold N; rewrite special_base_pow; auto; lia|].
    destruct N3 as [N3|N3]; [specialize (HN2 eq_refl); lia|]. lia. }
  assert (H0 : wrap w 0 = 0) by (apply wrap_small; lia).
  destruct (le_lt_dec (length cs) (Z.to_nat msz)) as [Hle|Hgt].
  - (* everything fits *)
    pose proof (value_of_bound base ds ltac:(lia) Hok) as Hv.
    assert (Hv2 : value_of base ds < 2 ^ w).
    { eapply Z.lt_le_trans; [apply Hv|]. eapply Z.le_trans; [|exact Hfit]. apply Z.pow_le_mono_r; lia. }
    pose proof (first_phase_spec base cw w cs ds rest Hb Hcw H (Z.to_nat msz) 0 ltac:(right; auto)) as F.
    rewrite H0 in F. rewrite F. rewrite Z.mul_0_l, Z.add_0_l, wrap_small by lia.
    exists (value_of base ds). destruct (Z.ltb_spec (value_of base ds) (2 ^ w)); [|lia]. split; [|reflexivity].
    destruct rest as [|c rest]; [reflexivity|]. simpl in Hs, Hnd. rewrite char_digit_none by auto. reflexivity.
  - destruct (Forall2_split_l _ (Z.to_nat msz) _ _ H) as [H1 H2].
    set (cs1 := firstn (Z.to_nat msz) cs) in *. set (cs2 := skipn (Z.to_nat msz) cs) in *.
    set (ds1 := firstn (Z.to_nat msz) ds) in *. set (ds2 := skipn (Z.to_nat msz) ds) in *.
    assert (Ecs : cs = cs1 ++ cs2) by (symmetry; apply firstn_skipn).
    assert (Eds : ds = ds1 ++ ds2) by (symmetry; apply firstn_skipn).
    assert (L1 : length cs1 = Z.to_nat msz) by (unfold cs1; rewrite firstn_length; lia).
    assert (L1d : length ds1 = Z.to_nat msz) by (unfold ds1; rewrite firstn_length; lia).
    assert (L2 : (1 <= length cs2)%nat) by (unfold cs2; rewrite skipn_length; lia).
    rewrite Ecs, <- app_assoc.
    pose proof (first_phase_spec base cw w cs1 ds1 (cs2 ++ rest) Hb Hcw H1 (Z.to_nat msz) 0 ltac:(left; lia)) as F.
    rewrite H0 in F. rewrite F. rewrite Z.mul_0_l, Z.add_0_l.
    pose proof (digit_string_ok _ _ _ H1) as Hok1. pose proof (value_of_bound base ds1 ltac:(lia) Hok1) as Hv1.
    assert (Hv1' : value_of base ds1 < 2 ^ w).
    { eapply Z.lt_le_trans; [apply Hv1|]. eapply Z.le_trans; [|exact Hfit]. apply Z.pow_le_mono_r; lia. }
    rewrite wrap_small by lia.
    destruct H2 as [|c d cs2' ds2' Hd H2]; [simpl in L2; lia|]. cbn [app].
    rewrite (char_digit_some base cw c d) by auto.
    destruct Hlead as [Hlead|Hlead]; [subst ds; destruct ds1; discriminate|].
    destruct sp eqn:Es.
    + (* power of two base: any further digit overflows *)
      rewrite (skip_digits_spec base cw cs2' ds2' rest) by auto. cbn [option_map].
      assert (Hbig : 2 ^ w <= value_of base ds).
      { replace (2 ^ w) with (base ^ msz) by (unfold msz; rewrite Z.sub_0_r; apply special_base_pow; auto).
        eapply Z.le_trans; [|apply value_lower_bound; auto; try lia].
        apply Z.pow_le_mono_r; [lia|]. unfold zlen. rewrite Eds, app_length. cbn [length]. lia. }
      eexists. destruct (Z.ltb_spec (value_of base ds) (2 ^ w)); [lia|]. split; [reflexivity|lia].
    + specialize (HN2 eq_refl).
      set (q := (2 ^ w - 1) / base). set (r := (2 ^ w - 1) mod base).
      assert (Hqr : 2 ^ w - 1 = base * q + r /\ 0 <= r < base).
      { split; [apply Z.div_mod; lia|apply Z.mod_pos_bound; lia]. }
      destruct Hqr as [Hqr Hr].
      set (v1 := value_of base ds1) in *.
      destruct Hd as [Hdr _].
      assert (Hovf : (q <? v1) || ((q =? v1) && (r <? d)) = negb (v1 * base + d <? 2 ^ w)).
      { destruct (Z.ltb_spec q v1), (Z.eqb_spec q v1), (Z.ltb_spec r d), (Z.ltb_spec (v1 * base + d) (2 ^ w)); cbn; try reflexivity; nia. }
      rewrite Hovf.
      destruct ds2' as [|d2 ds2'].
      * inversion H2; subst cs2'. cbn [app].
        assert (Ev : value_of base ds = v1 * base + d) by (rewrite Eds, value_of_snoc; reflexivity).
        rewrite <- Ev. destruct (Z.ltb_spec (value_of base ds) (2 ^ w)); cbn [negb].
        -- assert (0 <= value_of base ds) by (apply value_of_bound; [lia|assumption]).
           exists (value_of base ds).
           assert (Ew : wrap w (wrap w (v1 * base) + d) = value_of base ds).
           { rewrite <- (wrap_small w v1) by lia. rewrite wrap_acc, <- Ev. apply wrap_small; lia. }
           rewrite Ew. destruct rest as [|c2 rest]; [split; reflexivity|]. simpl in Hs, Hnd.
           rewrite char_digit_none by auto. split; reflexivity.
        -- exists v1. destruct rest as [|c2 rest]; [split; [reflexivity|lia]|]. simpl in Hs, Hnd.
           rewrite char_digit_none by auto. split; [reflexivity|lia].
      * inversion H2 as [|c2 ? cs2'' ? Hd2 H2']; subst cs2'. cbn [app].
        rewrite (char_digit_some base cw c2 d2) by auto.
        rewrite (skip_digits_spec base cw cs2'' ds2' rest) by auto. cbn [option_map].
        assert (Hbig : 2 ^ w <= value_of base ds).
        { eapply Z.le_trans with (base ^ N); [lia|].
          eapply Z.le_trans; [|apply value_lower_bound; auto; try lia].
          apply Z.pow_le_mono_r; [lia|]. unfold zlen. rewrite Eds, app_length. cbn [length]. unfold msz in *. lia. }
        eexists. destruct (Z.ltb_spec (value_of base ds) (2 ^ w)); [lia|]. split; [reflexivity|lia].
Qed.

(** ** Sign and zero rules *)

Lemma to_signed_id w x : 0 < w -> 0 <= x < 2 ^ (w - 1) -> to_signed w x = x.
Proof.
  intros Hw Hx. assert (2 ^ w = 2 * 2 ^ (w - 1)) by (rewrite <- Z.pow_succ_r by lia; f_equal; lia).
  unfold to_signed. rewrite wrap_small by lia. destruct (Z.ltb_spec x (2 ^ (w - 1))); lia.
Qed.

Lemma to_signed_neg w x : 0 < w -> 0 < x <= 2 ^ (w - 1) -> to_signed w (0 - x) = - x.
Proof.
  intros Hw Hx. assert (2 ^ w = 2 * 2 ^ (w - 1)) by (rewrite <- Z.pow_succ_r by lia; f_equal; lia).
  unfold to_signed. rewrite wrap_neg by lia. destruct (Z.ltb_spec (0 - x + 2 ^ w) (2 ^ (w - 1))); lia.
Qed.

Definition signed_value (sign : bool) (v : Z) : Z := if sign then - v else v.
Definition in_rangeb (ty : int_type) (v : Z) : bool := (int_min ty <=? v) && (v <=? int_max ty).
Lemma in_rangeb_spec ty v : in_rangeb ty v = true <-> in_range ty v.
Proof. unfold in_rangeb, in_range. rewrite andb_true_iff, !Z.leb_le. tauto. Qed.

(** The outcome required by the English property. *)
Definition outcome (ty : int_type) (v used : Z) : pres :=
  if in_rangeb ty v then mk_pres pc_ok used (Some v) else mk_pres pc_overflow used None.

Definition no_sse (cfg : scfg) (s : list Z) : Prop :=
  sc_sse cfg && (sc_base cfg =? 10) && (sc_cw cfg =? 8) && (iw (sc_ty cfg) <=? 64) && (32 <=? zlen s) = false.

Lemma zlen_app {A} (a b : list A) : zlen (a ++ b) = zlen a + zlen b.
Proof. unfold zlen. rewrite app_length. lia. Qed.
Lemma zlen_nonneg {A} (a : list A) : 0 <= zlen a. Proof. unfold zlen; lia. Qed.
Lemma zlen_cons {A} (x : A) a : zlen (x :: a) = zlen a + 1. Proof. unfold zlen. cbn [length]. lia. Qed.
Lemma zlen_nil {A} : zlen (@nil A) = 0. Proof. reflexivity. Qed.

Definition good_cfg (cfg : scfg) : Prop :=
  2 <= sc_base cfg <= 36 /\ In (sc_cw cfg) char_widths /\ In (iw (sc_ty cfg)) int_widths.

Definition finish_of (ty : int_type) (sign : bool) (res it : Z) : pres :=
  if isigned ty then
    let imax := (2 ^ iw ty - 1) / 2 in
    if wrap (iw ty) (imax + (if sign then 1 else 0)) <? res then mk_pres pc_overflow it None
    else mk_pres pc_ok it (Some (if sign then to_signed (iw ty) (0 - res) else to_signed (iw ty) res))
  else mk_pres pc_ok it (Some res).

Lemma finish_spec ty sign v it : In (iw ty) int_widths -> (isigned ty = false -> sign = false) ->
  0 <= v < 2 ^ iw ty -> finish_of ty sign v it = outcome ty (signed_value sign v) it.
Proof.
  intros Hw Hsg Hv. unfold finish_of, outcome, in_rangeb, int_min, int_max.
  assert (Hw0 : 0 < iw ty) by (apply width_cases in Hw; lia).
  assert (E2 : 2 ^ iw ty = 2 * 2 ^ (iw ty - 1)) by (rewrite <- Z.pow_succ_r by lia; f_equal; lia).
  assert (Hp : 0 < 2 ^ (iw ty - 1)) by (apply Z.pow_pos_nonneg; lia).
  set (w := iw ty) in *. set (h := 2 ^ (w - 1)) in *.
  destruct (isigned ty).
  - assert (Ei : (2 ^ w - 1) / 2 = h - 1) by (symmetry; apply Z.div_unique with 1; lia).
    cbv zeta. rewrite Ei. rewrite wrap_small by (destruct sign; lia).
    unfold signed_value. destruct sign.
    + destruct (Z.ltb_spec (h - 1 + 1) v).
      * destruct (Z.leb_spec (- h) (- v)); [lia|]. reflexivity.
      * destruct (Z.leb_spec (- h) (- v)); [|lia]. destruct (Z.leb_spec (- v) (h - 1)); [|lia]. cbn [andb].
        do 2 f_equal. destruct (Z.eq_dec v 0) as [->|]; [|apply to_signed_neg; fold h; lia].
        apply to_signed_id; fold h; lia.
    + rewrite Z.add_0_r. destruct (Z.ltb_spec (h - 1) v).
      * destruct (Z.leb_spec v (h - 1)); [lia|]. rewrite andb_false_r. reflexivity.
      * destruct (Z.leb_spec (- h) v); [|lia]. destruct (Z.leb_spec v (h - 1)); [|lia]. cbn [andb].
        do 2 f_equal. apply to_signed_id; fold h; lia.
  - rewrite (Hsg eq_refl). unfold signed_value.
    destruct (Z.leb_spec 0 v); [|lia]. destruct (Z.leb_spec v (2 ^ w - 1)); [|lia]. reflexivity.
Qed.

Lemma outcome_overflow ty sign v it : In (iw ty) int_widths -> (isigned ty = false -> sign = false) ->
  2 ^ iw ty <= v -> outcome ty (signed_value sign v) it = mk_pres pc_overflow it None.
Proof.
  intros Hw Hsg Hv. unfold outcome, in_rangeb, int_min, int_max, signed_value.
  assert (E2 : 2 ^ iw ty = 2 * 2 ^ (iw ty - 1)) by (rewrite <- Z.pow_succ_r by (apply width_cases in Hw; lia); f_equal; lia).
  assert (Hp : 0 < 2 ^ (iw ty - 1)) by (apply Z.pow_pos_nonneg; apply width_cases in Hw; lia).
  destruct (isigned ty).
  - destruct sign.
    + destruct (Z.leb_spec (- 2 ^ (iw ty - 1)) (- v)); [lia|]. reflexivity.
    + destruct (Z.leb_spec v (2 ^ (iw ty - 1) - 1)); [lia|]. rewrite andb_false_r. reflexivity.
  - rewrite (Hsg eq_refl). destruct (Z.leb_spec v (2 ^ iw ty - 1)); [lia|]. rewrite andb_false_r. reflexivity.
Qed.

Lemma scan_digits_part_scalar cfg sign used0 s : no_sse cfg s ->
  scan_digits_part cfg sign used0 s =
  match scan_scalar (sc_base cfg) (sc_cw cfg) (iw (sc_ty cfg)) s with
  | None => None
  | Some (ec, res, rest) =>
      let it := used0 + (zlen s - zlen rest) in
      if negb (parse_code_eqb ec pc_ok) then Some (mk_pres ec it None) else Some (finish_of (sc_ty cfg) sign res it)
  end.
Proof. intros H. unfold no_sse in H. unfold scan_digits_part. rewrite H. reflexivity. Qed.

Lemma scan_digits_part_spec cfg sign used0 cs ds rest : good_cfg cfg -> (isigned (sc_ty cfg) = false -> sign = false) ->
  no_sse cfg (cs ++ rest) ->
  digit_string (sc_base cfg) cs ds -> (ds = [] \/ no_leading_zero ds) ->
  safe_first (sc_base cfg) (sc_cw cfg) rest -> no_digit_first (sc_base cfg) rest ->
  scan_digits_part cfg sign used0 (cs ++ rest)
  = Some (outcome (sc_ty cfg) (signed_value sign (value_of (sc_base cfg) ds)) (used0 + zlen cs)).
Proof.
  intros (Hb & Hcw & Hw) Hsg Hsse H Hl Hs Hn. rewrite scan_digits_part_scalar by assumption.
  destruct (scan_scalar_spec _ _ (iw (sc_ty cfg)) cs ds rest Hb Hcw Hw H Hl Hs Hn) as (res & -> & Hres).
  cbv zeta. rewrite zlen_app. replace (used0 + (zlen cs + zlen rest - zlen rest)) with (used0 + zlen cs) by lia.
  pose proof (digit_string_ok _ _ _ H) as Hok. pose proof (value_of_bound (sc_base cfg) ds ltac:(lia) Hok) as Hv.
  destruct (Z.ltb_spec (value_of (sc_base cfg) ds) (2 ^ iw (sc_ty cfg))) as [Hlt|Hge]; cbn [parse_code_eqb negb].
  - rewrite (Hres Hlt). f_equal. apply finish_spec; auto. lia.
  - rewrite outcome_overflow by (auto; lia). reflexivity.
Qed.

Lemma denotes_zero base c : 2 <= base <= 36 -> forall d, denotes base c d -> (c = 48 <-> d = 0).
Proof. intros Hb d H. pose proof (denotes_cases base c d Hb H). lia. Qed.

Lemma skip_zeros_app n rest : skip_zeros (repeat 48 n ++ rest) = skip_zeros rest.
Proof. induction n; simpl; auto. Qed.

(** Splitting a digit string into its leading zeros and the rest. *)
Fixpoint strip_zeros (ds : list Z) : list Z :=
  match ds with [] => [] | d :: ds' => if d =? 0 then strip_zeros ds' else ds end.

Lemma strip_zeros_value base ds : value_of base (strip_zeros ds) = value_of base ds.
Proof.
  induction ds as [|d ds IH]; [reflexivity|]. cbn [strip_zeros]. destruct (Z.eqb_spec d 0) as [->|]; [|reflexivity].
  rewrite IH, value_of_cons. lia.
Qed.

Lemma strip_zeros_lead ds : strip_zeros ds = [] \/ no_leading_zero (strip_zeros ds).
Proof.
  induction ds as [|d ds IH]; [left; reflexivity|]. cbn [strip_zeros]. destruct (Z.eqb_spec d 0); [assumption|].
  right. destruct ds; simpl; auto.
Qed.

Lemma skip_zeros_digits base cs ds rest : 2 <= base <= 36 -> digit_string base cs ds -> no_digit_first base rest ->
  exists cs', skip_zeros (cs ++ rest) = cs' ++ rest /\ digit_string base cs' (strip_zeros ds) /\ zlen cs' <= zlen cs.
Proof.
  intros Hb H Hn. induction H as [|c d cs ds Hd Hds IH]; cbn [app].
  - exists []. split; [|split; [constructor|lia]]. destruct rest as [|c rest]; [reflexivity|]. cbn [skip_zeros app].
    destruct (Z.eqb_spec c 48) as [->|]; [|reflexivity]. exfalso. apply Hn. exists 0. apply (denotes_small base 0); lia.
  - cbn [skip_zeros strip_zeros]. pose proof (denotes_zero base c Hb d Hd) as Hz.
    destruct (Z.eqb_spec c 48) as [E|E].
    + destruct (Z.eqb_spec d 0); [|tauto]. destruct IH as (cs' & A & B & C). exists cs'. rewrite zlen_cons. split; [exact A|split; [exact B|lia]].
    + destruct (Z.eqb_spec d 0); [tauto|]. exists (c :: cs). split; [reflexivity|]. split; [constructor; assumption|lia].
Qed.

Lemma zero_in_range ty : In (iw ty) int_widths -> forall sign used, outcome ty (signed_value sign 0) used = mk_pres pc_ok used (Some 0).
Proof.
  intros Hw sign used. unfold outcome, signed_value, in_rangeb, int_min, int_max.
  replace (if sign then - (0) else 0) with 0 by (destruct sign; reflexivity).
  assert (1 <= 2 ^ (iw ty - 1)) by (apply width_cases in Hw as [-> |[-> |[-> |[-> | ->]]]]; vm_compute; discriminate).
  assert (1 <= 2 ^ iw ty) by (apply width_cases in Hw as [-> |[-> |[-> |[-> | ->]]]]; vm_compute; discriminate).
  destruct (isigned ty).
  - destruct (Z.leb_spec (- 2 ^ (iw ty - 1)) 0); [|lia]. destruct (Z.leb_spec 0 (2 ^ (iw ty - 1) - 1)); [reflexivity|lia].
  - destruct (Z.leb_spec 0 (2 ^ iw ty - 1)); [reflexivity|lia].
Qed.

Lemma no_sse_shorter cfg a b : zlen b <= zlen a -> no_sse cfg a -> no_sse cfg b.
Proof.
  intros Hl. unfold no_sse. destruct (sc_sse cfg && _ && _ && _); [|auto]. cbn [andb].
  destruct (Z.leb_spec 32 (zlen a)), (Z.leb_spec 32 (zlen b)); auto; lia.
Qed.

Lemma scan_zero_part_spec cfg sign used0 cs ds rest : good_cfg cfg -> (isigned (sc_ty cfg) = false -> sign = false) ->
  no_sse cfg (cs ++ rest) ->
  digit_string (sc_base cfg) cs ds -> ds <> [] -> (sc_skipzero cfg = false -> no_leading_zero ds) ->
  safe_first (sc_base cfg) (sc_cw cfg) rest -> no_digit_first (sc_base cfg) rest ->
  scan_zero_part cfg sign used0 (cs ++ rest)
  = Some (outcome (sc_ty cfg) (signed_value sign (value_of (sc_base cfg) ds)) (used0 + zlen cs)).
Proof.
  intros Hcfg Hsg Hsse H Hne Hlead Hs Hn. pose proof Hcfg as (Hb & Hcw & Hw).
  destruct H as [|c d cs ds Hd Hds]; [contradiction|]. cbn [app]. unfold scan_zero_part.
  rewrite (char_digit_some _ _ c d) by auto.
  assert (Hall : digit_string (sc_base cfg) (c :: cs) (d :: ds)) by (constructor; assumption).
  pose proof (denotes_zero (sc_base cfg) c Hb d Hd) as Hz.
  destruct (Z.eqb_spec c 48) as [E|E].
  - assert (d = 0) by tauto. subst d.
    destruct (sc_skipzero cfg) eqn:Esk.
    + destruct (skip_zeros_digits (sc_base cfg) cs ds rest Hb Hds Hn) as (cs' & E1 & E2 & E3).
      rewrite E1.
      assert (Hv : value_of (sc_base cfg) (0 :: ds) = value_of (sc_base cfg) (strip_zeros ds))
        by (rewrite strip_zeros_value, value_of_cons; lia).
      rewrite Hv.
      destruct (cs' ++ rest) as [|x xs] eqn:Ecat.
      * apply app_eq_nil in Ecat as [-> ->]. inversion E2 as [H0 H1|]. unfold value_of at 1; cbn [fold_left].
        rewrite zero_in_range by assumption. rewrite app_nil_r. reflexivity.
      * rewrite <- Ecat. rewrite (scan_digits_part_spec cfg sign _ cs' (strip_zeros ds) rest); auto.
        -- do 2 f_equal. cbn [app]. rewrite !zlen_cons, !zlen_app. lia.
        -- eapply no_sse_shorter; [|exact Hsse]. cbn [app]. rewrite !zlen_cons, !zlen_app. lia.
        -- apply strip_zeros_lead.
    + specialize (Hlead eq_refl). destruct ds as [|d2 ds]; [|simpl in Hlead; lia].
      inversion Hds; subst cs. cbn [app].
      change (value_of (sc_base cfg) [0]) with 0. rewrite zero_in_range by assumption.
      destruct rest as [|c1 rest]; [reflexivity|]. simpl in Hs, Hn. rewrite char_digit_none by auto. reflexivity.
  - change (c :: cs ++ rest) with ((c :: cs) ++ rest). apply scan_digits_part_spec; auto.
    right. destruct ds; simpl; auto. tauto.
Qed.

Lemma minus_not_digit base d : 2 <= base <= 36 -> ~ denotes base 45 d.
Proof. intros Hb H. pose proof (denotes_cases base 45 d Hb H). lia. Qed.

(** The texts of signs. *)
Definition sign_chars (sign : bool) : list Z := if sign then [45] else [].

Lemma scan_none_space_spec cfg used0 sign cs ds rest : good_cfg cfg -> (isigned (sc_ty cfg) = false -> sign = false) ->
  no_sse cfg (cs ++ rest) ->
  digit_string (sc_base cfg) cs ds -> ds <> [] -> (sc_skipzero cfg = false -> no_leading_zero ds) ->
  safe_first (sc_base cfg) (sc_cw cfg) rest -> no_digit_first (sc_base cfg) rest ->
  scan_none_space cfg false used0 (sign_chars sign ++ cs ++ rest)
  = Some (outcome (sc_ty cfg) (signed_value sign (value_of (sc_base cfg) ds)) (used0 + zlen (sign_chars sign) + zlen cs)).
Proof.
  intros Hcfg Hsg Hsse H Hne Hlead Hs Hn. unfold scan_none_space.
  destruct (isigned (sc_ty cfg)) eqn:Es.
  - destruct sign; cbn [sign_chars app].
    + rewrite Z.eqb_refl. cbn [andb]. rewrite (scan_zero_part_spec cfg true _ cs ds rest); auto. rewrite Es; discriminate.
    + pose proof (scan_zero_part_spec cfg false used0 cs ds rest Hcfg ltac:(auto) Hsse H Hne Hlead Hs Hn) as Z0.
      rewrite zlen_nil, Z.add_0_r.
      destruct H as [|c d cs ds Hd Hds]; [contradiction|]. cbn [app] in *.
      destruct (Z.eqb_spec c 45) as [->|]; [exfalso; eapply minus_not_digit; [|exact Hd]; apply Hcfg|].
      cbn [andb]. exact Z0.
  - rewrite (Hsg eq_refl). cbn [sign_chars app]. rewrite zlen_nil, Z.add_0_r. apply scan_zero_part_spec; auto.
Qed.

Lemma is_c_space_spec cw c : In cw char_widths -> 0 <= c < 2 ^ cw -> is_c_space cw c = true <-> c_space c.
Proof.
  intros Hw Hc. pose proof (cw_pow cw Hw). unfold is_c_space, c_space. rewrite orb_true_iff, Z.eqb_eq, Z.ltb_lt.
  destruct (Z.leb_spec 9 c).
  - rewrite wrap_small by lia. simpl. lia.
  - rewrite wrap_neg by lia. simpl. lia.
Qed.

Lemma skip_space_spec cw ws s : In cw char_widths -> Forall c_space ws ->
  (match s with [] => True | c :: _ => 0 <= c < 2 ^ cw /\ ~ c_space c end) -> skip_space cw (ws ++ s) = s.
Proof.
  intros Hw Hws Hs. induction Hws as [|c ws Hc _ IH]; cbn [app skip_space].
  - destruct s as [|c s]; [reflexivity|]. cbn [skip_space]. destruct Hs as [Hr Hs].
    destruct (is_c_space cw c) eqn:E; [|reflexivity]. exfalso; apply Hs, (is_c_space_spec cw); auto.
  - pose proof (cw_pow cw Hw). replace (is_c_space cw c) with true; [exact IH|]. symmetry. apply is_c_space_spec; auto.
    unfold c_space in Hc. simpl in Hc. lia.
Qed.

Lemma digit_not_space base c d : 2 <= base <= 36 -> denotes base c d -> ~ c_space c.
Proof. intros Hb H Hs. pose proof (denotes_cases base c d Hb H). unfold c_space in Hs. simpl in Hs. lia. Qed.

Lemma scan_int_spec cfg ws sign cs ds rest : good_cfg cfg -> sc_shbase cfg = false ->
  (isigned (sc_ty cfg) = false -> sign = false) -> no_sse cfg (cs ++ rest) ->
  Forall c_space ws -> (sc_noskipws cfg = true -> ws = []) ->
  digit_string (sc_base cfg) cs ds -> ds <> [] -> (sc_skipzero cfg = false -> no_leading_zero ds) ->
  safe_first (sc_base cfg) (sc_cw cfg) rest -> no_digit_first (sc_base cfg) rest ->
  scan_int cfg (ws ++ sign_chars sign ++ cs ++ rest)
  = Some (outcome (sc_ty cfg) (signed_value sign (value_of (sc_base cfg) ds)) (zlen ws + zlen (sign_chars sign) + zlen cs)).
Proof.
  intros Hcfg Hsh Hsg Hsse Hws Hnows H Hne Hlead Hs Hn. unfold scan_int. rewrite Hsh. cbn [andb].
  rewrite andb_false_r.
  set (body := sign_chars sign ++ cs ++ rest).
  assert (Hbody : exists c b, body = c :: b /\ 0 <= c < 2 ^ sc_cw cfg /\ ~ c_space c).
  { pose proof Hcfg as (Hb & Hcw & _). pose proof (cw_pow _ Hcw). unfold body. destruct sign; cbn [sign_chars app].
    - exists 45, (cs ++ rest). repeat split; try lia. unfold c_space; simpl; lia.
    - destruct H as [|c d cs ds Hd Hds]; [contradiction|]. cbn [app]. exists c, (cs ++ rest). repeat split.
      + pose proof (denotes_cases _ _ _ Hb Hd). lia.
      + pose proof (denotes_cases _ _ _ Hb Hd). lia.
      + eapply digit_not_space; eauto. }
  destruct Hbody as (c & b & Eb & Hc & Hnsp).
  assert (Es1 : (if sc_noskipws cfg then ws ++ body else skip_space (sc_cw cfg) (ws ++ body)) = body).
  { destruct (sc_noskipws cfg); [rewrite Hnows by reflexivity; reflexivity|].
    apply skip_space_spec; [apply Hcfg|exact Hws|]. rewrite Eb. auto. }
  rewrite Es1.
  assert (Hgoal : scan_none_space cfg false (zlen (ws ++ body) - zlen body) body =
    Some (outcome (sc_ty cfg) (signed_value sign (value_of (sc_base cfg) ds)) (zlen ws + zlen (sign_chars sign) + zlen cs))).
  { unfold body. rewrite scan_none_space_spec with (ds := ds); auto. do 2 f_equal. rewrite !zlen_app. lia. }
  destruct (sc_noskipws cfg); [exact Hgoal|]. destruct body; [discriminate|exact Hgoal].
Qed.
