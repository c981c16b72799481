(** The text of a time format fits in the size announced for it. *)
From Verif Require Import Base NumSpec NumFacts IntPrintModel IntPrintCorrect IntSizeProofs PropsIntPrint TimeSpec TimeModel TimeTextSpec
  TimeTextModel TimeTextProofs LtSpec LtModel.

Lemma print_len ty v out : In (iw ty) [8; 16; 32; 64; 128] -> in_range ty v ->
  print_int default_pflags ty v = Some out -> zlen out <= reserved_size default_pflags ty.
Proof. intros Hw Hr E. exact (C03_reserve_enough_decimal default_pflags ty v out Hw eq_refl eq_refl Hr E). Qed.

Lemma print_some ty v : In (iw ty) int_widths -> in_range ty v -> config_ok default_pflags ty -> exists out, print_int default_pflags ty v = Some out.
Proof.
  intros Hw Hr Hc. destruct (print_int_correct default_pflags ty v Hw ltac:(cbn; lia) Hc Hr) as (num & E & _).
  eexists. exact E.
Qed.

Lemma size8_is : size8 = 3. Proof. reflexivity. Qed.
Lemma size16_is : size16 = 5. Proof. reflexivity. Qed.
Lemma size64_is : size64 = 20. Proof. reflexivity. Qed.
Lemma size_tz_is : size_tz = 15. Proof. reflexivity. Qed.

Lemma len8 v o : 0 <= v < 256 -> print_int default_pflags uint8_ty v = Some o -> zlen o <= 3.
Proof. intros H E. exact (print_len uint8_ty v o ltac:(cbn; auto) ltac:(unfold in_range; cbn; lia) E). Qed.
Lemma len16 v o : 0 <= v < 65536 -> print_int default_pflags uint16_ty v = Some o -> zlen o <= 5.
Proof. intros H E. exact (print_len uint16_ty v o ltac:(cbn; auto) ltac:(unfold in_range; cbn; lia) E). Qed.
Lemma len64 v o : - 2 ^ 63 <= v < 2 ^ 63 -> print_int default_pflags int64_ty v = Some o -> zlen o <= 20.
Proof. intros H E. exact (print_len int64_ty v o ltac:(cbn; auto) ltac:(unfold in_range; cbn; lia) E). Qed.

Lemma len32s v o n : 0 <= v < 10 ^ Z.of_nat n -> v < 2 ^ 32 -> (0 < n)%nat -> print_int default_pflags uint32_ty v = Some o -> zlen o <= Z.of_nat n.
Proof.
  intros H L Hn E. destruct (print_int_correct default_pflags uint32_ty v) as (num & E' & N).
  - right; right; left; reflexivity.
  - cbn; lia.
  - unfold config_ok. vm_compute. auto.
  - unfold in_range. cbn. lia.
  - rewrite E in E'. injection E' as ->. cbn in N. unfold sign_text. cbn [pf_showpos default_pflags].
    destruct (Z.ltb_spec v 0); [lia|]. cbn [app pf_showbase default_pflags].
    rewrite Z.abs_eq in N by lia. apply (numeral_len_le v n); auto.
Qed.

Lemma two_digits_len u o n : (2 <= n)%nat -> 0 <= u < 10 ^ Z.of_nat n -> u < 2 ^ 64 -> two_digits false u = Some o -> zlen o <= Z.of_nat n.
Proof.
  intros Hn Hu Hl. unfold two_digits. cbn [negb andb]. destruct (Z.leb_spec 100 u).
  - intros E. destruct (numeral10 u) as (num & E' & N); [lia|]. rewrite E in E'. injection E' as ->.
    apply (numeral_len_le u n); auto. lia.
  - rewrite tb_pair10 by lia. intros [= <-]. unfold zlen, pad2. cbn [length]. lia.
Qed.
Lemma two_digits_8 u o : 0 <= u < 256 -> two_digits false u = Some o -> zlen o <= 3.
Proof. intros H. apply (two_digits_len u o 3); [lia| |lia]. change (10 ^ Z.of_nat 3) with 1000. lia. Qed.
Lemma two_digits_64 u o : 0 <= u < 2 ^ 64 -> two_digits false u = Some o -> zlen o <= 20.
Proof. intros H. apply (two_digits_len u o 20); [lia| |lia]. change (10 ^ Z.of_nat 20) with 100000000000000000000. lia. Qed.

Lemma print_year_len y o : - 2 ^ 63 <= y < 2 ^ 63 -> print_year y = Some o -> zlen o <= 20.
Proof.
  intros H E. destruct (print_year_ok y H) as (txt & E' & T). rewrite E in E'. injection E' as ->.
  exact (year_len _ _ H T).
Qed.

Lemma print_timezone_len tz o : - 2 ^ 31 <= tz < 2 ^ 31 -> print_timezone tz = Some o -> zlen o <= 15.
Proof.
  intros H E. destruct (Z.eq_dec tz 0) as [-> |N].
  - vm_compute in E. injection E as <-. vm_compute. discriminate.
  - destruct (print_timezone_ok tz H N) as (txt & E' & T). rewrite E in E'. injection E' as ->.
    pose proof (zone_len _ _ H T). lia.
Qed.

Lemma wrap_range w x : 0 < w -> 0 <= wrap w x < 2 ^ w.
Proof. intros H. unfold wrap. apply Z.mod_pos_bound. apply Z.pow_pos_nonneg; lia. Qed.

Lemma doy_range c : 0 <= day_of_the_year c < 65536.
Proof.
  unfold day_of_the_year. destruct (11 <? _); [lia|]. destruct (_ && _); exact (wrap_range 16 _ ltac:(lia)).
Qed.
Lemma weekday_range y m d : 1 <= weekday y m d <= 7.
Proof.
  unfold weekday. destruct (weekday_args y m) as [a b]. pose proof (Z.mod_pos_bound (weekday_sum a b d 6) 7 ltac:(lia)).
  unfold wrap. rewrite Z.mod_small; lia.
Qed.
Lemma c_weekday_range y m d : 0 <= c_weekday y m d <= 6.
Proof.
  unfold c_weekday. destruct (weekday_args y m) as [a b]. pose proof (Z.mod_pos_bound (weekday_sum a b d 0) 7 ltac:(lia)).
  unfold wrap. rewrite Z.mod_small; lia.
Qed.

Lemma opt_app_len a b o : opt_app a b = Some o -> exists x y, a = Some x /\ b = Some y /\ zlen o = zlen x + zlen y.
Proof.
  destruct a as [x|], b as [y|]; cbn [opt_app]; try discriminate. intros [= <-]. exists x, y.
  split; [reflexivity|]. split; [reflexivity|]. unfold zlen. rewrite app_length. lia.
Qed.

Lemma chk64_range x y : chk64 x = Some y -> y = x /\ - 2 ^ 63 <= y < 2 ^ 63.
Proof.
  unfold chk64. destruct (Z.leb_spec (- 2 ^ 63) x); cbn [andb]; [|discriminate].
  destruct (Z.ltb_spec x (2 ^ 63)); [|discriminate]. intros [= <-]. split; [reflexivity|]. lia.
Qed.

Lemma week_year_range c y : - 2 ^ 63 <= cv_year c < 2 ^ 63 -> week_year c = Some y -> - 2 ^ 63 <= y < 2 ^ 63.
Proof.
  intros H. unfold week_year. destruct (_ && _); [intros E; apply chk64_range in E; tauto|].
  destruct (_ && _); [intros E; apply chk64_range in E; tauto|]. intros [= <-]. exact H.
Qed.

Lemma div_small_range x k n : 0 < k -> 0 <= x < n -> 0 <= x / k < n.
Proof.
  intros Hk H. split; [apply Z.div_pos; lia|]. apply Z.le_lt_trans with x; [|lia].
  apply Z.div_le_upper_bound; nia.
Qed.

Lemma print_v_len t c o : 0 <= lt_ndays t -> print_v t c = Some o -> zlen o <= 20.
Proof.
  intros Hn. unfold print_v. destruct (day_diff _ _ _ _ _ _) as [dd|]; [|discriminate]. cbn [obind]. cbv zeta.
  destruct (Z.eqb_spec (lt_ndays t) 0) as [|Hz]; [discriminate|]. cbn [orb].
  assert (Hp : 0 < lt_ndays t) by lia.
  assert (D : forall x, 0 <= wrap 64 x / lt_ndays t < 2 ^ 64).
  { intros x. apply div_small_range; [assumption|]. exact (wrap_range 64 x ltac:(lia)). }
  destruct (_ && _); [discriminate|].
  destruct (_ && _).
  - destruct (chk64 (cv_year c - 1)) as [y1|]; [|discriminate]. cbn [obind].
    destruct (chk64 _) as [a|]; [|discriminate]. cbn [obind].
    destruct (_ && _); [discriminate|].
    destruct (chk64 _) as [b|]; [|discriminate]. cbn [obind].
    destruct (chk64 _) as [b2|]; [|discriminate]. cbn [obind].
    destruct (_ <? _); intros E; (eapply two_digits_64; [|exact E]); [exact (wrap_range 64 _ ltac:(lia))|apply D].
  - destruct (_ && _); [intros [= <-]; vm_compute; discriminate|].
    destruct (_ <? _); intros E; (eapply two_digits_64; [|exact E]); [exact (wrap_range 64 _ ltac:(lia))|apply D].
Qed.

Lemma print_V_len c o : print_V c = Some o -> zlen o <= 5.
Proof.
  unfold print_V. cbv zeta. destruct (_ && _).
  - destruct (chk64 _) as [y1|]; [|discriminate]. cbn [obind]. destruct (_ || _); intros [= <-]; vm_compute; discriminate.
  - destruct (_ && _); [intros [= <-]; vm_compute; discriminate|].
    intros E. assert (zlen o <= 3); [|lia]. revert E.
    destruct (_ <? _); apply two_digits_8; exact (wrap_range 8 _ ltac:(lia)).
Qed.

Lemma print_I_len h o : 0 <= h < 256 -> print_I h = Some o -> zlen o <= 3.
Proof.
  intros H. unfold print_I. destruct (Z.eqb_spec h 0); [intros [= <-]; vm_compute; discriminate|].
  destruct (_ <=? _); [now apply two_digits_8|].
  destruct (_ <=? _); [apply two_digits_8; exact (wrap_range 8 _ ltac:(lia))|]. intros [= <-]. vm_compute. discriminate.
Qed.

Lemma print_month_len names m o : 0 <= m < 256 -> print_month names m = Some o ->
  zlen o <= (if 11 <? wrap 8 (m - 1) then size8 else zlen (names (wrap 8 (m - 1)))).
Proof.
  intros H. unfold print_month. cbv zeta. destruct (Z.ltb_spec (wrap 8 (m - 1)) 12); destruct (Z.ltb_spec 11 (wrap 8 (m - 1))); try lia.
  - intros [= <-]. lia.
  - now apply len8.
Qed.

Lemma two_digits_space_len u o : 0 <= u < 256 -> two_digits_space u = Some o -> zlen o <= 3.
Proof.
  intros H E. assert (two_digits false u = Some o \/ o = [32; 48 + u]) as [D| ->].
  { unfold two_digits_space in E. unfold two_digits. cbn [negb andb]. destruct (100 <=? u); [auto|].
    destruct (u <? 10); [|auto]. right. congruence. }
  - revert D. now apply two_digits_8.
  - vm_compute. discriminate.
Qed.

Lemma print_ampm_len t low h : 0 <= h -> zlen (print_ampm t low h) <= ampm_len t h.
Proof.
  intros H. unfold print_ampm, ampm_len, lower_text, zlen. destruct (Z.ltb_spec h 12), (Z.ltb_spec h 24); try lia;
    destruct (Z.leb_spec 12 h); try lia; destruct low; rewrite ?map_length; cbn [length]; lia.
Qed.

Lemma alt_len_ok t ty v o : In (iw ty) [8; 16; 32; 64; 128] -> in_range ty v -> alt_print t ty v = Some o -> zlen o <= alt_len t ty v.
Proof.
  intros Hw Hr. unfold alt_print, alt_len. cbv zeta. destruct (_ <? _).
  - intros [= <-]. lia.
  - now apply print_len.
Qed.

Lemma ox_range c ch v : stored c -> ox_common c ch = Some v -> 0 <= v < 256.
Proof.
  intros (Hy & Hm & Hd & Hh & Hmi & Hs & _). unfold ox_common.
  pose proof (weekday_range (cv_year c) (cv_month c) (cv_day c)).
  pose proof (c_weekday_range (cv_year c) (cv_month c) (cv_day c)).
  assert (W : forall x, 0 <= wrap 8 x < 256) by (intros x; exact (wrap_range 8 x ltac:(lia))).
  repeat match goal with |- context[if ?b then _ else _] =>
    match b with context[if _ then _ else _] => fail 1 | _ => destruct b end end;
    intros [= <-]; solve [lia | apply W].
Qed.

Lemma find_era_in es y m d e : find_era es y m d = Some e -> In e es.
Proof.
  induction es as [|x es IH]; cbn [find_era]; [discriminate|]. cbv zeta.
  destruct (if er_dir x then _ else _); [|intros; right; auto].
  destruct (0 <? _); [intros [= <-]; left; reflexivity|].
  destruct (_ =? _); [|discriminate].
  destruct (if er_dir x then _ else _); [intros [= <-]; left; reflexivity|intros; right; auto].
Qed.

Lemma measured_suffix p f : measured (p ++ f) -> measured f.
Proof.
  intros (A & B & C & D).
  assert (G : forall s, occurs s f -> occurs s (p ++ f)).
  { intros s (a & b & ->). exists (p ++ a), b. now rewrite app_assoc. }
  split; [intro O; apply A, G, O|]. split; [intro O; apply B, G, O|].
  split; [intro O; apply C, G, O|intro O; apply D, G, O].
Qed.

(** How the two steps over one directive correspond. *)
Definition step_fits (extra : Z) (q : list Z) (st : lt_step (list Z)) (sz : option (lt_step Z)) : Prop :=
  match st with
  | Ends o => exists v, sz = Some (Ends v) /\ zlen o <= v + extra
  | Goes o l rest => (exists v l', sz = Some (Goes v l' rest) /\ zlen o <= v + extra) /\ exists p, q = p ++ rest
  end.

Definition subs_fit (P : list Z -> option (list Z)) (N : list Z -> option Z) : Prop :=
  forall g o, measured g -> P g = Some o -> exists n, N g = Some n /\ zlen o <= n.

Lemma go_fits extra ch r (m : option (list Z)) (n : Z) st : 0 <= extra ->
  go m ch r = Some st -> (forall o, m = Some o -> zlen o <= n) -> step_fits extra (ch :: r) st (Some (Goes n ch r)).
Proof.
  intros He E H. destruct m as [o|]; cbn [go] in E; [|discriminate]. injection E as <-. split.
  - exists n, ch. split; [reflexivity|]. specialize (H o eq_refl). lia.
  - exists [ch]. reflexivity.
Qed.
Lemma go_fits2 extra c0 ch r (m : option (list Z)) (n : Z) st : 0 <= extra ->
  go m ch r = Some st -> (forall o, m = Some o -> zlen o <= n) -> step_fits extra (c0 :: ch :: r) st (Some (Goes n ch r)).
Proof.
  intros He E H. destruct m as [o|]; cbn [go] in E; [|discriminate]. injection E as <-. split.
  - exists n, ch. split; [reflexivity|]. specialize (H o eq_refl). lia.
  - exists [c0; ch]. reflexivity.
Qed.
Lemma sub_fits extra P N g c0 ch r st : 0 <= extra -> subs_fit P N -> measured g ->
  go (P g) ch r = Some st -> step_fits extra (c0 ++ ch :: r) st (go (N g) ch r).
Proof.
  intros He HS HM E. destruct (P g) as [o|] eqn:EP; cbn [go] in E; [|discriminate]. injection E as <-.
  destruct (HS g o HM EP) as (n & -> & L). cbn [go]. split.
  - exists n, ch. split; [reflexivity|lia].
  - exists (c0 ++ [ch]). now rewrite <- app_assoc.
Qed.

Lemma year_quot c : stored c -> - 2 ^ 63 <= Z.quot (cv_year c) 100 < 2 ^ 63.
Proof.
  intros (Hy & _). pose proof (Z.quot_rem' (cv_year c) 100). pose proof (Z.rem_bound_abs (cv_year c) 100 ltac:(lia)). lia.
Qed.

Lemma O_fits t c (omit : bool) r st : stored c ->
  print_O t c (if omit then [37; 45] else [37]) r = Some st ->
  step_fits (if omit then 1 else 0) (79 :: r) st (size_O t c r).
Proof.
  intros Hc. pose proof Hc as (Hy & Hm & Hd & Hh & _).
  assert (He : 0 <= (if omit then 1 else 0)) by (destruct omit; lia).
  unfold print_O, size_O. destruct r as [|ch r2].
  { intros [= <-]. exists 2. split; [reflexivity|]. destruct omit; cbn; lia. }
  destruct ((ch =? 98) || (ch =? 104)).
  { intros E. change (Some (Goes ?a ch r2)) with (go (Some a) ch r2) in E. eapply go_fits2; [exact He|exact E|]. intros o [= <-]. lia. }
  destruct (ch =? 67) eqn:E67.
  { intros E. eapply go_fits2; [exact He|exact E|]. intros o. apply alt_len_ok; [cbn; auto|].
    pose proof (year_quot c Hc).
    unfold in_range. cbn. lia. }
  destruct (ch =? 80) eqn:E80.
  { rewrite orb_true_r. intros E. change (Some (Goes ?a ch r2)) with (go (Some a) ch r2) in E.
    eapply go_fits2; [exact He|exact E|]. intros o [= <-]. apply print_ampm_len. lia. }
  destruct (ch =? 112) eqn:E112; cbn [orb].
  { intros E. change (Some (Goes ?a ch r2)) with (go (Some a) ch r2) in E.
    eapply go_fits2; [exact He|exact E|]. intros o [= <-]. apply print_ampm_len. lia. }
  destruct (ox_common c ch) as [v|] eqn:EO.
  - intros E. eapply go_fits2; [exact He|exact E|]. intros o. apply alt_len_ok; [cbn; auto|].
    pose proof (ox_range c ch v Hc EO). unfold in_range. cbn. lia.
  - intros [= <-]. eexists. split; [reflexivity|]. unfold zlen. destruct omit; cbn [app length]; lia.
Qed.

Lemma E_fits t c P N prev (omit : bool) i2 r st : stored c -> measured_locale t -> subs_fit P N ->
  2 <= i2 + (if omit then 1 else 0) - (if omit then 1 else 0) ->
  print_E t c P prev (if omit then [37; 45] else [37]) r = Some st ->
  step_fits (if omit then 1 else 0) (69 :: r) st (size_E t c N i2 r).
Proof.
  intros Hc (Hn & HF & HE) HS Hi. pose proof Hc as (Hy & Hm & Hd & Hh & _).
  assert (He : 0 <= (if omit then 1 else 0)) by (destruct omit; lia).
  rewrite Forall_forall in HF.
  unfold print_E, size_E. destruct r as [|ch r2].
  { intros [= <-]. exists i2. split; [reflexivity|]. destruct omit; cbn; lia. }
  destruct (ch =? 99) eqn:E99.
  { intros E. apply (sub_fits _ P N _ [69]); auto. apply HF. cbn; tauto. }
  destruct (ch =? 120) eqn:E120.
  { destruct (Z.eqb_spec ch 67); [lia|]. destruct (Z.eqb_spec ch 121); [lia|]. destruct (Z.eqb_spec ch 89); [lia|]. cbn [orb].
    intros E. apply (sub_fits _ P N _ [69]); auto. apply HF. cbn; tauto. }
  destruct (ch =? 88) eqn:E88.
  { destruct (Z.eqb_spec ch 67); [lia|]. destruct (Z.eqb_spec ch 121); [lia|]. destruct (Z.eqb_spec ch 89); [lia|]. cbn [orb].
    intros E. apply (sub_fits _ P N _ [69]); auto. apply HF. cbn; tauto. }
  destruct ((ch =? 67) || (ch =? 121) || (ch =? 89)) eqn:EE.
  - destruct (find_era _ _ _ _) as [e|] eqn:EF.
    + apply find_era_in in EF. rewrite Forall_forall in HE. specialize (HE e EF).
      destruct (Z.eqb_spec ch 89) as [->|N89].
      { cbn [Z.eqb Pos.eqb]. intros E. apply (sub_fits _ P N _ [69]); auto. }
      destruct (Z.eqb_spec ch 67) as [->|N67].
      { intros E. change (Some (Goes ?a 67 r2)) with (go (Some a) 67 r2) in E. eapply go_fits2; [exact He|exact E|]. intros o [= <-]. lia. }
      cbn [orb] in EE. rewrite orb_false_r in EE. rewrite EE.
      destruct (chk64 (er_sy e - er_offset e)) as [off|]; [|discriminate]. cbn [obind].
      destruct (chk64 (cv_year c - off)) as [ey|] eqn:EC.
      * intros E. eapply go_fits2; [exact He|exact E|]. intros o. apply len64. apply chk64_range in EC. tauto.
      * destruct prev as [b|]; [|discriminate]. intros E.
        change (Some (Goes ?a ch r2)) with (go (Some a) ch r2) in E. eapply go_fits2; [exact He|exact E|].
        intros o [= <-]. rewrite size64_is. destruct omit; vm_compute; discriminate.
    + intros E. change (Some (Goes ?a ch r2)) with (go (Some a) ch r2) in E. eapply go_fits2; [exact He|exact E|]. intros o [= <-]. vm_compute. discriminate.
  - intros [= <-]. eexists. split; [reflexivity|]. unfold zlen. destruct omit; cbn [app length]; lia.
Qed.

Lemma directive_fits t c P N prev (omit : bool) seg q st : stored c -> measured_locale t -> subs_fit P N ->
  (forall r, q <> 117 :: r) -> (forall r, q <> 78 :: r) -> 1 <= seg ->
  print_directive t c P prev omit q = Some st ->
  step_fits (if omit then 1 else 0) q st (size_directive t c N seg q).
Proof.
  intros Hc HL HS Hu HN Hseg. pose proof Hc as (Hy & Hm & Hd & Hh & Hmi & Hs & Htz).
  pose proof HL as (Hnd & HF & HE). rewrite Forall_forall in HF.
  assert (He : 0 <= (if omit then 1 else 0)) by (destruct omit; lia).
  destruct q as [|ch r]; [discriminate|].
  assert (U117 : ch <> 117) by (intros ->; exact (Hu r eq_refl)).
  assert (U78 : ch <> 78) by (intros ->; exact (HN r eq_refl)).
  unfold print_directive, size_directive. cbv zeta.
  Ltac one He := let E := fresh "E" in let o := fresh "o" in intros E; eapply go_fits; [exact He|exact E|]; intros o.
  Ltac sub HF He := let E := fresh "E" in intros E; eapply (sub_fits _ _ _ _ []); [exact He|eassumption|apply HF; cbn; tauto|exact E].
  Ltac letter ch k := destruct (Z.eqb_spec ch k) as [-> | ?]; [cbn [Z.eqb Pos.eqb orb]|cbn [orb]].
  letter ch 37. { one He. intros [= <-]. vm_compute. discriminate. }
  letter ch 97. { one He. intros [= <-]. lia. }
  letter ch 65. { one He. intros [= <-]. lia. }
  letter ch 66. { one He. intros EM. exact (print_month_len _ _ _ Hm EM). }
  letter ch 98. { one He. intros EM. exact (print_month_len _ _ _ Hm EM). }
  letter ch 104. { one He. intros EM. exact (print_month_len _ _ _ Hm EM). }
  letter ch 99. { sub HF He. }
  letter ch 67. { one He. apply len64. apply year_quot. exact Hc. }
  letter ch 100. { one He. destruct omit; [now apply len8|now apply two_digits_8]. }
  letter ch 68. { one He. intros EO. apply opt_app_len in EO as (a1 & b1 & A1 & EO & ->). apply opt_app_len in EO as (a2 & b2 & A2 & EO & ->).
    apply opt_app_len in EO as (a3 & b3 & A3 & EO & ->). apply opt_app_len in EO as (a4 & b4 & A4 & EO & ->).
    apply two_digits_8 in A1; [|assumption]. apply two_digits_8 in A3; [|assumption]. apply print_year_len in EO; [|assumption].
    injection A2 as <-. injection A4 as <-. change (zlen [47]) with 1. rewrite size8_is, size64_is. lia. }
  letter ch 101. { one He. now apply two_digits_space_len. }
  letter ch 69. { intros E. refine (E_fits t c P N prev omit _ r st Hc HL HS _ E). lia. }
  letter ch 70. { one He. intros EO. apply opt_app_len in EO as (a1 & b1 & A1 & EO & ->). apply opt_app_len in EO as (a2 & b2 & A2 & EO & ->).
    apply opt_app_len in EO as (a3 & b3 & A3 & EO & ->). apply opt_app_len in EO as (a4 & b4 & A4 & EO & ->).
    apply print_year_len in A1; [|assumption]. apply two_digits_8 in A3; [|assumption]. apply two_digits_8 in EO; [|assumption].
    injection A2 as <-. injection A4 as <-. change (zlen [45]) with 1. rewrite size8_is, size64_is. lia. }
  letter ch 103. { one He. destruct (week_year c) as [y|] eqn:EW; [|discriminate]. cbn [obind]. apply print_year_len. exact (week_year_range c y Hy EW). }
  letter ch 71. { one He. destruct (week_year c) as [y|] eqn:EW; [|discriminate]. cbn [obind]. apply print_year_len. exact (week_year_range c y Hy EW). }
  letter ch 72. { one He. now apply two_digits_8. }
  letter ch 73. { one He. now apply print_I_len. }
  letter ch 108. { one He. now apply print_I_len. }
  letter ch 106. { one He. apply len16. apply doy_range. }
  letter ch 107. { one He. intros EO. apply opt_app_len in EO as (a1 & b1 & A1 & EO & ->). injection A1 as <-.
    destruct (negb omit && (cv_hours c <? 10)) eqn:EH.
    - apply andb_prop in EH as [_ EH]. apply Z.ltb_lt in EH. change (zlen [48]) with 1.
      assert (zlen b1 <= 1); [|rewrite size8_is; lia].
      destruct (print_int_correct default_pflags uint8_ty (cv_hours c)) as (num & E' & Nn);
        [left; reflexivity|cbn; lia|unfold config_ok; vm_compute; auto|unfold in_range; cbn; lia|].
      rewrite EO in E'. injection E' as ->. cbn in Nn. unfold sign_text. cbn [pf_showpos default_pflags].
      destruct (Z.ltb_spec (cv_hours c) 0); [lia|]. cbn [app pf_showbase default_pflags].
      rewrite Z.abs_eq in Nn by lia. apply (numeral_len_le (cv_hours c) 1); [change (10 ^ Z.of_nat 1) with 10; lia|lia|exact Nn].
    - apply len8 in EO; [|assumption]. change (zlen []) with 0. rewrite size8_is. lia. }
  letter ch 109. { one He. destruct omit; [now apply len8|now apply two_digits_8]. }
  letter ch 77. { one He. now apply two_digits_8. }
  letter ch 110. { one He. intros [= <-]. vm_compute. discriminate. }
  letter ch 79. { intros E. exact (O_fits t c omit r st Hc E). }
  letter ch 80. { one He. intros [= <-]. apply print_ampm_len. lia. }
  letter ch 112. { one He. intros [= <-]. apply print_ampm_len. lia. }
  letter ch 114. { sub HF He. }
  letter ch 82. { one He. intros EO. apply opt_app_len in EO as (a1 & b1 & A1 & EO & ->). apply opt_app_len in EO as (a2 & b2 & A2 & EO & ->).
    apply two_digits_8 in A1; [|assumption]. apply two_digits_8 in EO; [|assumption]. injection A2 as <-. change (zlen [58]) with 1. rewrite size8_is. lia. }
  letter ch 83. { one He. now apply two_digits_8. }
  letter ch 116. { one He. intros [= <-]. vm_compute. discriminate. }
  letter ch 84. { one He. intros EO. apply opt_app_len in EO as (a1 & b1 & A1 & EO & ->). apply opt_app_len in EO as (a2 & b2 & A2 & EO & ->).
    apply opt_app_len in EO as (a3 & b3 & A3 & EO & ->). apply opt_app_len in EO as (a4 & b4 & A4 & EO & ->).
    apply two_digits_8 in A1; [|assumption]. apply two_digits_8 in A3; [|assumption]. apply two_digits_8 in EO; [|assumption].
    injection A2 as <-. injection A4 as <-. change (zlen [58]) with 1. rewrite size8_is. lia. }
  destruct (Z.eqb_spec ch 117) as [|_]; [contradiction|].
  letter ch 85. { one He. rewrite size16_is. intros EO. apply (len32s _ _ 5) in EO; [exact EO| | |lia].
    - change (10 ^ Z.of_nat 5) with 100000. assert (0 <= wrap 16 (weekday (cv_year c) 1 1 + day_of_the_year c - 1) / 7 < 65536); [|lia].
      apply div_small_range; [lia|]. exact (wrap_range 16 _ ltac:(lia)).
    - assert (0 <= wrap 16 (weekday (cv_year c) 1 1 + day_of_the_year c - 1) / 7 < 65536); [|lia].
      apply div_small_range; [lia|]. exact (wrap_range 16 _ ltac:(lia)). }
  letter ch 118. { one He. now apply print_v_len. }
  letter ch 86. { one He. apply print_V_len. }
  letter ch 119. { one He. intros [= <-]. vm_compute. discriminate. }
  letter ch 87. { one He. rewrite size16_is. intros EO. apply (two_digits_len _ _ 5) in EO; [exact EO|lia| | ].
    - change (10 ^ Z.of_nat 5) with 100000. match goal with |- _ <= ?x < _ => assert (0 <= x < 65536); [|lia] end.
      apply div_small_range; [lia|]. exact (wrap_range 16 _ ltac:(lia)).
    - match goal with |- ?x < _ => assert (0 <= x < 65536); [|lia] end.
      apply div_small_range; [lia|]. exact (wrap_range 16 _ ltac:(lia)). }
  letter ch 120. { sub HF He. }
  letter ch 88. { sub HF He. }
  letter ch 121. { one He. now apply print_year_len. }
  letter ch 89. { one He. now apply print_year_len. }
  letter ch 122. { one He. now apply print_timezone_len. }
  letter ch 90. { one He. now apply print_timezone_len. }
  destruct (Z.eqb_spec ch 78) as [|_]; [contradiction|].
  intros [= <-]. eexists. split; [reflexivity|]. unfold zlen. destruct omit; cbn [app length]; lia.
Qed.

Lemma print_fits fuel : forall t c prev seg f out, stored c -> measured_locale t -> measured f -> 0 <= seg ->
  lt_print fuel t c prev f = Some out -> exists n, lt_size fuel t c seg f = Some n /\ zlen out <= n.
Proof.
  induction fuel as [|n IH]; intros t c prev seg f out Hc HL HM Hseg; [discriminate|].
  cbn [lt_print lt_size]. destruct f as [|x r].
  { intros [= <-]. exists 0. split; [reflexivity|vm_compute; discriminate]. }
  destruct (Z.eqb_spec x 37) as [-> |Nx]; cbn [negb].
  2:{ intros E. apply opt_app_len in E as (a & b & [= <-] & E & ->).
      destruct (IH t c _ (seg + 1) r b Hc HL ltac:(exact (measured_suffix [x] r HM)) ltac:(lia) E) as (k & -> & L).
      cbn [option_map]. exists (1 + k). split; [reflexivity|]. change (zlen [x]) with 1. lia. }
  destruct r as [|y r1].
  { intros [= <-]. exists 1. split; [reflexivity|vm_compute; discriminate]. }
  cbv zeta.
  destruct ((y =? 45) && (zlen r1 =? 0)) eqn:EO.
  { intros [= <-]. exists 2. split; [reflexivity|vm_compute; discriminate]. }
  set (omit := y =? 45) in *. set (q := if omit then r1 else y :: r1) in *.
  assert (Hq : exists p, 37 :: y :: r1 = p ++ q).
  { unfold q. destruct omit; [exists [37; y]|exists [37]]; reflexivity. }
  assert (Hu : forall r, q <> 117 :: r).
  { intros r E. destruct HM as (A & B & _). unfold q in E. unfold omit in E. destruct (Z.eqb_spec y 45) as [-> |].
    - apply B. exists [], r. cbn. now rewrite E.
    - apply A. exists [], r. cbn. now rewrite E. }
  assert (HN : forall r, q <> 78 :: r).
  { intros r E. destruct HM as (_ & _ & A & B). unfold q in E. unfold omit in E. destruct (Z.eqb_spec y 45) as [-> |].
    - apply B. exists [], r. cbn. now rewrite E.
    - apply A. exists [], r. cbn. now rewrite E. }
  destruct (print_directive t c (lt_print n t c None) prev omit q) as [st|] eqn:ED; [|discriminate].
  assert (HS : subs_fit (lt_print n t c None) (lt_size n t c 0)).
  { intros g o Hg Eg. exact (IH t c None 0 g o Hc HL Hg ltac:(lia) Eg). }
  pose proof (directive_fits t c _ _ prev omit (seg + 1 + (if omit then 1 else 0)) q st Hc HL HS Hu HN ltac:(destruct omit; lia) ED) as HF.
  destruct st as [o|o l rest]; cbn [step_fits] in HF.
  - destruct HF as (v & -> & L). intros [= <-]. eexists. split; [reflexivity|]. lia.
  - destruct HF as ((v & l' & -> & L) & (p & Ep)). intros E. apply opt_app_len in E as (a & b & [= <-] & E & ->).
    assert (HR : measured rest).
    { destruct Hq as (p0 & Hq). rewrite Hq, Ep, app_assoc in HM. exact (measured_suffix _ _ HM). }
    destruct (IH t c _ 0 rest b Hc HL HR ltac:(lia) E) as (k & -> & Lk). cbn [option_map].
    eexists. split; [reflexivity|]. lia.
Qed.
