(** Printing and scanning of timestamps. *)
From Coq Require Import String.
From Verif Require Import Base NumSpec NumFacts IntPrintModel IntPrintProofs IntPrintCorrect IntScanModel ScanSpec
  IntScanProofs IntSseProofs IntRoundProofs TimeSpec TimeModel TimeTextSpec TimeTextModel.

Lemma tb_pair10 v : 0 <= v < 100 -> tb_pair 10 false v = Some (pad2 v).
Proof.
  intros H. rewrite tb_pair_spec by lia. cbn [map]. unfold pad2.
  rewrite !digit_char_small; [reflexivity|apply Z.mod_pos_bound; lia|].
  split; [apply Z.div_pos; lia|apply Z.div_lt_upper_bound; lia].
Qed.

Lemma two_digits_ok b v : 0 <= v < 100 -> two_digits b v = Some (pad2 v).
Proof.
  intros H. unfold two_digits. destruct (Z.leb_spec 100 v); [lia|]. rewrite andb_false_r. now apply tb_pair10.
Qed.

Lemma pad2_digits v : 0 <= v < 100 -> 0 <= v / 10 <= 9 /\ 0 <= v mod 10 <= 9.
Proof.
  intros H. pose proof (Z.mod_pos_bound v 10). split; [|lia].
  split; [apply Z.div_pos; lia|]. assert (v / 10 < 10) by (apply Z.div_lt_upper_bound; lia). lia.
Qed.

Lemma numeral10 u : 0 <= u < 2 ^ 64 ->
  exists num, print_int default_pflags uint64_ty u = Some num /\ is_numeral 10 false u num.
Proof.
  intros H. destruct (print_int_correct default_pflags uint64_ty u) as (num & E & N).
  - right; right; right; left; reflexivity.
  - cbn; lia.
  - unfold config_ok. vm_compute. auto.
  - unfold in_range. cbn. lia.
  - cbn in N. rewrite Z.abs_eq in N by lia. exists num. split; [|exact N].
    rewrite E. unfold sign_text. cbn [pf_showpos pf_showbase default_pflags app].
    destruct (Z.ltb_spec u 0); [lia|]. reflexivity.
Qed.

Lemma magnitude64 y : - 2 ^ 63 <= y < 2 ^ 63 -> magnitude 64 true y = Z.abs y.
Proof.
  intros H. unfold magnitude. cbn [andb]. change (2 ^ 63) with 9223372036854775808 in *.
  destruct (Z.ltb_spec y 0).
  - rewrite (wrap_neg 64 y) by lia. rewrite wrap_neg by lia. lia.
  - rewrite wrap_small by lia. lia.
Qed.

Lemma pad4_numeral u : 0 <= u < 10000 ->
  is_padded_numeral 10 false 4 u (pad2 (u / 100) ++ pad2 (u mod 100)).
Proof.
  intros H. exists [u / 100 / 10; (u / 100) mod 10; u mod 100 / 10; (u mod 100) mod 10].
  pose proof (Z.div_mod u 100 ltac:(lia)). pose proof (Z.mod_pos_bound u 100 ltac:(lia)).
  assert (A : 0 <= u / 100 < 100) by (split; [apply Z.div_pos; lia|apply Z.div_lt_upper_bound; lia]).
  pose proof (pad2_digits (u / 100) A) as [P1 P2]. pose proof (pad2_digits (u mod 100) ltac:(lia)) as [P3 P4].
  split; [repeat (apply Forall_cons; [lia|]); apply Forall_nil|]. split; [reflexivity|]. split.
  - unfold value_of. cbn [fold_left].
    pose proof (Z.div_mod (u / 100) 10 ltac:(lia)). pose proof (Z.div_mod (u mod 100) 10 ltac:(lia)). lia.
  - cbn [map pad2 app]. rewrite !digit_char_small by lia. reflexivity.
Qed.

Lemma print_year_ok y : - 2 ^ 63 <= y < 2 ^ 63 -> exists txt, print_year y = Some txt /\ year_text y txt.
Proof.
  intros H. unfold print_year, year_text. rewrite magnitude64 by assumption.
  destruct (Z.leb_spec 10000 (Z.abs y)) as [L|L].
  - destruct (numeral10 (Z.abs y)) as (num & E & N); [lia|]. rewrite E. cbn [opt_app].
    eexists. split; [reflexivity|]. exists num. split; [destruct (y <? 0); reflexivity|].
    destruct (Z.ltb_spec (Z.abs y) 10000); [lia|exact N].
  - rewrite !tb_pair10.
    + cbn [opt_app]. eexists. split; [reflexivity|]. eexists. split; [destruct (y <? 0); reflexivity|].
      destruct (Z.ltb_spec (Z.abs y) 10000); [|lia]. apply pad4_numeral. lia.
    + apply Z.mod_pos_bound. lia.
    + split; [apply Z.div_pos; lia|apply Z.div_lt_upper_bound; lia].
Qed.

(** Trailing zeros. *)
Lemma trim_spec fuel : forall sub sz, 0 < sub < 10 ^ (Z.of_nat fuel) ->
  exists s k, trim_zeros fuel sub sz = (s, sz - k) /\ 0 <= k < Z.of_nat fuel /\ sub = s * 10 ^ k /\ s mod 10 <> 0 /\ 0 < s.
Proof.
  induction fuel as [|n IH]; intros sub sz H.
  - cbn in H. lia.
  - cbn [trim_zeros]. destruct (Z.eqb_spec (sub mod 10) 0) as [E|E].
    + assert (D : sub = 10 * (sub / 10)) by (pose proof (Z.div_mod sub 10); lia).
      rewrite Nat2Z.inj_succ, Z.pow_succ_r in H by lia.
      destruct (IH (sub / 10) (sz - 1)) as (s & k & A & B & C & F & G); [lia|].
      exists s, (k + 1). rewrite A. split; [f_equal; lia|]. split; [lia|]. split; [|auto].
      rewrite Z.pow_add_r by lia. lia.
    + exists sub, 0. repeat split; try lia. f_equal; lia.
Qed.

Lemma print_subseconds_ok sub : 0 < sub < per_second ->
  exists txt, print_subseconds sub = Some txt /\ fraction_text sub txt.
Proof.
  intros H. unfold print_subseconds, fraction_text. destruct (Z.eqb_spec sub 0); [lia|].
  destruct (trim_spec 20 sub 19) as (s & k & A & B & C & F & G).
  { unfold per_second in H. change (Z.of_nat 20) with 20. lia. }
  rewrite A. assert (K : k < 19).
  { destruct (Z.eq_dec k 19); [|lia]. subst k. unfold per_second in H. nia. }
  assert (HS : 0 <= s < 10 ^ (19 - k)).
  { split; [lia|]. unfold per_second in H. apply (Z.mul_lt_mono_pos_r (10 ^ k)).
    - apply Z.pow_pos_nonneg; lia.
    - rewrite <- Z.pow_add_r by lia. replace (19 - k + k) with 19 by lia. lia. }
  rewrite main_impl_word_spec by (try reflexivity; lia). cbn [opt_app].
  replace (Z.to_nat (19 - k)) with (S (Z.to_nat (18 - k))) by lia. cbn [digs].
  eexists. split; [reflexivity|].
  exists (digs 10 (Z.to_nat (18 - k)) (s / 10)), (s mod 10).
  split.
  { apply Forall_app. split; [apply digs_ok; lia|]. apply Forall_cons; [apply Z.mod_pos_bound; lia|apply Forall_nil]. }
  assert (L : zlen (digs 10 (Z.to_nat (18 - k)) (s / 10) ++ [s mod 10]) = 19 - k).
  { unfold zlen. rewrite app_length, digs_length. cbn [length]. lia. }
  rewrite L. split; [lia|]. split; [assumption|]. split.
  - rewrite value_of_snoc, digs_value by lia. replace (19 - (19 - k)) with k by lia. rewrite C.
    rewrite Z2Nat.id by lia. f_equal. rewrite Z.mod_small.
    + pose proof (Z.div_mod s 10); lia.
    + split; [apply Z.div_pos; lia|]. apply Z.div_lt_upper_bound; [lia|].
      replace (19 - k) with (Z.succ (18 - k)) in HS by lia. rewrite Z.pow_succ_r in HS by lia. lia.
  - reflexivity.
Qed.

Lemma abs32 tz : - 2 ^ 31 <= tz < 2 ^ 31 ->
  (if tz <? 0 then wrap 64 (0 - wrap 64 tz) else wrap 64 tz) = Z.abs tz.
Proof.
  intros H. destruct (Z.ltb_spec tz 0).
  - rewrite (wrap_neg 64 tz) by lia. rewrite wrap_neg by lia. lia.
  - rewrite wrap_small by lia. lia.
Qed.

Lemma print_timezone_ok tz : - 2 ^ 31 <= tz < 2 ^ 31 -> tz <> 0 ->
  exists txt, print_timezone tz = Some txt /\ zone_text tz txt.
Proof.
  intros H N. unfold print_timezone, zone_text. rewrite abs32 by assumption.
  destruct (Z.eqb_spec tz 0); [contradiction|].
  set (a := Z.abs tz). assert (Ha : 0 <= a <= 2 ^ 31) by (unfold a; lia).
  pose proof (Z.mod_pos_bound a 60 ltac:(lia)). pose proof (Z.mod_pos_bound (a / 60) 60 ltac:(lia)).
  rewrite (wrap_small 8 (a mod 60)), (wrap_small 8 ((a / 60) mod 60)) by (change (2 ^ 8) with 256; lia).
  rewrite Z.div_div by lia. change (60 * 60) with 3600.
  assert (Hh : 0 <= a / 3600) by (apply Z.div_pos; lia).
  rewrite (two_digits_ok true ((a / 60) mod 60)) by lia.
  assert (HH : exists hh, two_digits false (a / 3600) = Some hh /\
     if a / 3600 <? 100 then hh = pad2 (a / 3600) else is_numeral 10 false (a / 3600) hh).
  { destruct (Z.ltb_spec (a / 3600) 100).
    - eexists. split; [apply two_digits_ok; lia|reflexivity].
    - unfold two_digits. destruct (Z.leb_spec 100 (a / 3600)); [|lia]. cbn [negb andb].
      apply numeral10. split; [lia|]. assert (a / 3600 <= a) by (apply Z.div_le_upper_bound; lia). lia. }
  destruct HH as (hh & E & P). rewrite E. 
  destruct (Z.eqb_spec (a mod 60) 0) as [E0|E0].
  - cbn [opt_app]. eexists. split; [reflexivity|]. exists hh. split; [exact P|].
    destruct (tz <? 0); rewrite ?app_nil_r; reflexivity.
  - rewrite two_digits_ok by lia. cbn [opt_app]. eexists. split; [reflexivity|]. exists hh. split; [exact P|].
    destruct (tz <? 0); reflexivity.
Qed.

Definition printable (c : civil) : Prop :=
  - 2 ^ 63 <= cv_year c < 2 ^ 63 /\ 0 <= cv_month c < 100 /\ 0 <= cv_day c < 100 /\
  0 <= cv_hours c < 100 /\ 0 <= cv_minutes c < 100 /\ 0 <= cv_seconds c < 100 /\
  0 <= cv_sub c < per_second /\ - 2 ^ 31 <= cv_tz c < 2 ^ 31.

Theorem print_iso8601_ok c : printable c -> exists txt, print_iso8601 c = Some txt /\ iso_text c txt.
Proof.
  intros (Hy & Hm & Hd & Hh & Hmi & Hs & Hf & Htz). unfold print_iso8601.
  destruct (print_year_ok _ Hy) as (ys & EY & TY). rewrite EY.
  rewrite !two_digits_ok by assumption.
  assert (EF : exists fs, (if cv_sub c =? 0 then Some [] else print_subseconds (cv_sub c)) = Some fs /\ fraction_text (cv_sub c) fs).
  { destruct (Z.eqb_spec (cv_sub c) 0) as [E|E].
    - exists []. split; [reflexivity|]. unfold fraction_text. rewrite E. reflexivity.
    - apply print_subseconds_ok. lia. }
  destruct EF as (fs & EF & TF). rewrite EF.
  assert (EZ : exists zs, (if cv_tz c =? 0 then Some [90] else print_timezone (cv_tz c)) = Some zs /\ zone_text (cv_tz c) zs).
  { destruct (Z.eqb_spec (cv_tz c) 0) as [E|E].
    - exists [90]. split; [reflexivity|]. unfold zone_text. rewrite E. reflexivity.
    - now apply print_timezone_ok. }
  destruct EZ as (zs & EZ & TZ). rewrite EZ. cbn [opt_app].
  eexists. split; [reflexivity|]. exists ys, fs, zs. split; [exact TY|]. split; [exact TF|]. split; [exact TZ|]. reflexivity.
Qed.

Theorem print_stamp_ok t : valid_stamp t -> exists txt, print_stamp t = Some txt /\ unix_text t txt.
Proof.
  intros [Hs Hf]. unfold print_stamp.
  destruct (print_int_correct default_pflags int64_ty (ts_sec t)) as (num & E & N).
  - right; right; right; left; reflexivity.
  - cbn; lia.
  - unfold config_ok. vm_compute. discriminate.
  - unfold in_range. cbn. lia.
  - rewrite E. cbn in N.
    assert (EF : exists fs, (if ts_sub t =? 0 then Some [] else print_subseconds (ts_sub t)) = Some fs /\ fraction_text (ts_sub t) fs).
    { destruct (Z.eqb_spec (ts_sub t) 0) as [E0|E0].
      - exists []. split; [reflexivity|]. unfold fraction_text. rewrite E0. reflexivity.
      - apply print_subseconds_ok. lia. }
    destruct EF as (fs & EF & TF). rewrite EF. cbn [opt_app].
    eexists. split; [reflexivity|]. exists num, fs. split; [exact N|]. split; [exact TF|].
    unfold sign_text. cbn [pf_showpos pf_showbase default_pflags app].
    destruct (ts_sec t <? 0); rewrite <- ?app_assoc; reflexivity.
Qed.

(** ** Scanning what was printed *)

Lemma is_dec_spec cw c : In cw char_widths -> 0 <= c < 2 ^ cw -> is_dec cw c = (48 <=? c) && (c <=? 57).
Proof.
  intros Hw Hc. pose proof (cw_pow cw Hw). unfold is_dec.
  destruct (Z.leb_spec 48 c), (Z.leb_spec c 57); cbn [andb].
  - rewrite wrap_small by lia. apply Z.ltb_lt. lia.
  - rewrite wrap_small by lia. apply Z.ltb_ge. lia.
  - rewrite wrap_neg by lia. apply Z.ltb_ge. lia.
  - exfalso; lia.
Qed.
Lemma is_dec_digit cw d : In cw char_widths -> 0 <= d <= 9 -> is_dec cw (48 + d) = true.
Proof.
  intros Hw Hd. pose proof (cw_pow cw Hw). rewrite is_dec_spec by (auto; lia).
  destruct (Z.leb_spec 48 (48 + d)), (Z.leb_spec (48 + d) 57); cbn [andb]; try reflexivity; exfalso; lia.
Qed.

Lemma scan_field_pad2 cw lo hi v s : In cw char_widths -> 0 <= v < 100 -> lo <= v <= hi ->
  scan_field cw lo hi (pad2 v ++ s) = SGo (v, s).
Proof.
  intros Hw Hv Hr. destruct (pad2_digits v Hv) as [A B]. unfold scan_field, scan_two, pad2. cbn [app].
  rewrite !is_dec_digit by assumption. cbn [negb sbind].
  replace (10 * (48 + v / 10 - 48) + (48 + v mod 10 - 48)) with v by (pose proof (Z.div_mod v 10); lia).
  destruct (Z.ltb_spec v lo); [lia|]. destruct (Z.ltb_spec hi v); [lia|]. reflexivity.
Qed.
Lemma scan_char_ok ch s : scan_char ch (ch :: s) = SGo s.
Proof. unfold scan_char. now rewrite Z.eqb_refl. Qed.

Lemma times10_spec n : forall v, 0 <= v -> v * 10 ^ Z.of_nat n < 2 ^ 64 -> times10 n v = v * 10 ^ Z.of_nat n.
Proof.
  induction n as [|n IH]; intros v Hv H; cbn [times10].
  - cbn. lia.
  - rewrite Nat2Z.inj_succ, Z.pow_succ_r in * by lia.
    assert (1 <= 10 ^ Z.of_nat n) by (assert (0 < 10 ^ Z.of_nat n) by (apply Z.pow_pos_nonneg; lia); lia).
    rewrite wrap_small by nia. rewrite IH by nia. lia.
Qed.

Lemma firstn_app_le {A} n (a b : list A) : (length a <= n)%nat -> firstn n (a ++ b) = a ++ firstn (n - length a) b.
Proof. intros H. rewrite firstn_app. now rewrite firstn_all2 by assumption. Qed.

Lemma digits_denote ds : digits_ok 10 ds -> digit_string 10 (map (digit_char false) ds) ds.
Proof.
  induction 1 as [|d ds Hd _ IH]; cbn [map]; constructor; auto. split; [lia|]. auto.
Qed.

Lemma uint64_cfg cw sse : In cw char_widths -> good_cfg (mk_scfg 10 true false true uint64_ty cw sse).
Proof. intros H. unfold good_cfg. cbn. split; [lia|]. split; [assumption|]. auto. Qed.

(** Scanning at most 19 digits followed by a non digit. *)
Lemma scan_fraction_exact cw sse rounding ds rest : In cw char_widths ->
  digits_ok 10 ds -> 1 <= zlen ds <= 19 -> safe_first 10 cw rest -> no_digit_first 10 rest ->
  scan_fraction cw sse rounding (map (digit_char false) ds ++ rest)
  = SGo (value_of 10 ds * 10 ^ (19 - zlen ds), rest).
Proof.
  intros Hw Hok Hlen Hs Hn. unfold scan_fraction.
  set (cs := map (digit_char false) ds).
  assert (Lcs : zlen cs = zlen ds) by (unfold cs, zlen; now rewrite map_length).
  assert (Ncs : (length cs <= 19)%nat) by (unfold zlen in *; lia).
  rewrite firstn_app_le by exact Ncs.
  set (rest' := firstn (19 - length cs) rest).
  assert (Hlw : zlen (cs ++ rest') <= 19).
  { unfold rest'. unfold zlen in *. rewrite app_length, firstn_length. lia. }
  pose proof (value_of_bound 10 ds ltac:(lia) Hok) as VB. fold (zlen ds) in VB.
  pose proof (scan_int_spec (mk_scfg 10 true false true uint64_ty cw sse) [] false cs ds rest') as SI.
  cbn [sc_base sc_noskipws sc_shbase sc_skipzero sc_ty sc_cw sc_sse isigned uint64_ty sign_chars app] in SI.
  assert (E : scan_int (mk_scfg 10 true false true uint64_ty cw sse) (cs ++ rest')
     = Some (mk_pres pc_ok (zlen ds) (Some (value_of 10 ds)))).
  { fold uint64_ty in SI. rewrite SI; clear SI; auto.
    - rewrite (zlen_nil (A:=Z)), Lcs. unfold signed_value. rewrite outcome_in_range; [f_equal; f_equal; lia|].
      unfold in_range. cbn [int_min int_max isigned iw uint64_ty]. split; [lia|].
      unfold int_max. cbn [isigned iw uint64_ty].
      assert (10 ^ zlen ds <= 10 ^ 19) by (apply Z.pow_le_mono_r; lia).
      change (2 ^ 64 - 1) with 18446744073709551615. change (10 ^ 19) with 10000000000000000000 in *. lia.
    - apply uint64_cfg. exact Hw.
    - unfold no_sse. cbn [sc_base sc_noskipws sc_shbase sc_skipzero sc_ty sc_cw sc_sse].
      rewrite (proj2 (Z.leb_gt 32 (zlen (cs ++ rest')))) by lia. apply andb_false_r.
    - apply digits_denote. exact Hok.
    - intros ->. cbn in Hlen. lia.
    - discriminate.
    - unfold rest'. destruct rest as [|c rest]; [destruct (19 - length cs)%nat; exact I|].
      destruct (19 - length cs)%nat; [exact I|]. exact Hs.
    - unfold rest'. destruct rest as [|c rest]; [destruct (19 - length cs)%nat; exact I|].
      destruct (19 - length cs)%nat; [exact I|]. exact Hn. }
  rewrite E. cbn [p_code p_val p_used].
  replace (skipn (Z.to_nat (zlen ds)) (cs ++ rest)) with rest.
  2:{ rewrite <- Lcs. unfold zlen. rewrite Nat2Z.id. rewrite skipn_app, skipn_all, Nat.sub_diag. reflexivity. }
  rewrite times10_spec; [|lia|].
  2:{ rewrite Z2Nat.id by lia.
      apply Z.lt_le_trans with (10 ^ zlen ds * 10 ^ (19 - zlen ds)).
      - apply Z.mul_lt_mono_pos_r; [apply Z.pow_pos_nonneg; lia|lia].
      - rewrite <- Z.pow_add_r by lia. replace (zlen ds + (19 - zlen ds)) with 19 by lia. vm_compute. discriminate. }
  rewrite Z2Nat.id by lia.
  destruct (Z.eqb_spec (zlen ds) 0); [lia|].
  assert (NE : exists c t, cs ++ rest = c :: t).
  { unfold cs. destruct ds as [|d ds]; [cbn in Hlen; lia|]. cbn. eauto. }
  destruct NE as (c & t & NE). rewrite NE.
  destruct rest as [|x rest2]; [reflexivity|].
  destruct (_ && _); [|reflexivity].
  cbn [skip_digits]. rewrite char_digit_none by (auto; lia). rewrite Nat.sub_diag. reflexivity.
Qed.

Lemma digit_not_first cw c rest : In cw char_widths -> 0 <= c < 48 \/ 58 <= c < 256 ->
  safe_first 10 cw (c :: rest) /\ no_digit_first 10 (c :: rest).
Proof.
  intros Hw Hc. pose proof (cw_pow cw Hw). split.
  - split; [lia|]. lia.
  - intros [d Hd]. apply denotes_cases in Hd; [|lia]. lia.
Qed.

Lemma int64_cfg b cw sse : In cw char_widths -> good_cfg (mk_scfg 10 b false false int64_ty cw sse).
Proof. intros H. unfold good_cfg. cbn. split; [lia|]. split; [assumption|]. auto. Qed.

Definition units (cw : Z) (s : list Z) : Prop := Forall (fun c => 0 <= c < 2 ^ cw) s.
Lemma units_bytes cw s : units cw s -> cw = 8 -> bytes s.
Proof. intros H ->. exact H. Qed.

Lemma scan_numeral ns cw sse u num rest : In cw char_widths -> 0 <= u < 2 ^ 63 -> is_numeral 10 false u num ->
  units cw rest -> safe_first 10 cw rest -> no_digit_first 10 rest ->
  scan_int (mk_scfg 10 ns false false int64_ty cw sse) (num ++ rest) = Some (mk_pres pc_ok (zlen num) (Some u)).
Proof.
  intros Hw Hu N Hr Hs Hn.
  destruct (roundtrip_plain default_pflags (mk_scfg 10 ns false false int64_ty cw sse) int64_ty u rest)
    as (txt & P & S); try reflexivity; auto.
  - apply int64_cfg. exact Hw.
  - unfold config_ok. vm_compute. discriminate.
  - unfold in_range. cbn. lia.
  - discriminate.
  - intros E. apply (units_bytes cw); assumption.
  - replace num with txt; [exact S|].
    destruct (print_int_correct default_pflags int64_ty u) as (num' & E & N').
    + right; right; right; left; reflexivity.
    + cbn; lia.
    + unfold config_ok. vm_compute. discriminate.
    + unfold in_range. cbn. lia.
    + cbn in N'. rewrite Z.abs_eq in N' by lia. rewrite E in P. injection P as <-.
      unfold sign_text. cbn [pf_showpos pf_showbase default_pflags app].
      destruct (Z.ltb_spec u 0); [lia|]. cbn [app]. eapply numeral_unique; [|exact N'|exact N]. lia.
Qed.

Lemma map_digits ds : digits_ok 10 ds -> map (digit_char false) ds = map (fun d => 48 + d) ds.
Proof. intros H. induction H as [|d ds Hd _ IH]; [reflexivity|]. cbn [map]. rewrite IH, digit_char_small by lia. reflexivity. Qed.

Lemma year_digits y ys : year_text y ys -> - 2 ^ 63 < y < 2 ^ 63 ->
  exists d0 d1 d2 d3 ds, digits_ok 10 (d0 :: d1 :: d2 :: d3 :: ds) /\
    value_of 10 (d0 :: d1 :: d2 :: d3 :: ds) = Z.abs y /\
    (ds = [] \/ is_numeral 10 false (Z.abs y) (map (digit_char false) (d0 :: d1 :: d2 :: d3 :: ds))) /\
    ys = sign_chars (y <? 0) ++ map (digit_char false) (d0 :: d1 :: d2 :: d3 :: ds).
Proof.
  intros (num & -> & H) Hy.
  assert (ES : (if y <? 0 then text "-" else []) = sign_chars (y <? 0)) by (destruct (y <? 0); reflexivity).
  rewrite ES. destruct (Z.ltb_spec (Z.abs y) 10000) as [L|L].
  - destruct H as (ds & Hok & Hl & Hv & ->).
    destruct ds as [|d0 [|d1 [|d2 [|d3 [|? ?]]]]]; cbn [length] in Hl; try lia.
    exists d0, d1, d2, d3, []. auto.
  - pose proof H as HN. destruct H as (ds & Hok & Hl & Hv & ->).
    pose proof (value_of_bound 10 ds ltac:(lia) Hok) as VB. fold (zlen ds) in VB.
    destruct ds as [|d0 [|d1 [|d2 [|d3 ds]]]].
    1-4: exfalso; rewrite Hv in VB; unfold zlen in VB; cbn [length] in VB; 
         assert (10 ^ Z.of_nat 3 = 1000) by reflexivity; assert (10 ^ Z.of_nat 2 = 100) by reflexivity;
         assert (10 ^ Z.of_nat 1 = 10) by reflexivity; assert (10 ^ Z.of_nat 0 = 1) by reflexivity; lia.
    exists d0, d1, d2, d3, ds. auto.
Qed.

Lemma scan_year_ok cw sse y ys rest : In cw char_widths -> - 2 ^ 63 < y < 2 ^ 63 -> year_text y ys ->
  units cw (45 :: rest) -> 15 <= zlen rest -> scan_year cw sse (ys ++ 45 :: rest) = SGo (y, 45 :: rest).
Proof.
  intros Hw Hy HT Hu Hl. destruct (year_digits y ys HT Hy) as (d0 & d1 & d2 & d3 & ds & Hok & Hv & Hn & ->).
  assert (LEN : 20 <= zlen ((sign_chars (y <? 0) ++ map (digit_char false) (d0 :: d1 :: d2 :: d3 :: ds)) ++ 45 :: rest)).
  { unfold zlen in *. rewrite !app_length, map_length. cbn [length]. lia. }
  unfold scan_year. rewrite (proj2 (Z.ltb_ge _ _) LEN).
  rewrite <- app_assoc.
  set (body := map (digit_char false) (d0 :: d1 :: d2 :: d3 :: ds) ++ 45 :: rest).
  assert (EB : body = (48 + d0) :: (48 + d1) :: (48 + d2) :: (48 + d3) :: map (digit_char false) ds ++ 45 :: rest).
  { unfold body. rewrite (map_digits _ Hok).
    rewrite (map_digits ds) by (do 4 apply Forall_inv_tail in Hok; exact Hok). reflexivity. }
  assert (E1 : match sign_chars (y <? 0) ++ body with c :: _ => c =? 45 | [] => false end = (y <? 0)).
  { rewrite EB. destruct (y <? 0); cbn [sign_chars app]; [reflexivity|]. pose proof (Forall_inv Hok) as HQ; cbn beta in HQ. apply Z.eqb_neq. lia. }
  rewrite E1.
  assert (E2 : (if y <? 0 then skipn 1 (sign_chars (y <? 0) ++ body) else sign_chars (y <? 0) ++ body) = body).
  { destruct (y <? 0); reflexivity. }
  rewrite E2.
  pose proof (Forall_inv Hok) as H0. pose proof (Forall_inv (Forall_inv_tail Hok)) as H1.
  cbn beta in H0, H1.
  pose proof (Forall_inv (Forall_inv_tail (Forall_inv_tail Hok))) as H2.
  pose proof (Forall_inv (Forall_inv_tail (Forall_inv_tail (Forall_inv_tail Hok)))) as H3.
  cbn beta in H2, H3.
  assert (HD : digits_ok 10 ds) by (do 4 apply Forall_inv_tail in Hok; exact Hok).
  assert (R : (if y <? 0 then - Z.abs y else Z.abs y) = y) by (destruct (Z.ltb_spec y 0); lia).
  assert (N45 : is_dec cw 45 = false).
  { pose proof (cw_pow cw Hw). rewrite is_dec_spec by (auto; lia). reflexivity. }
  rewrite EB at 1. rewrite !is_dec_digit by (auto; lia). cbn [sbind].
  destruct ds as [|d4 ds].
  - cbn [map app]. rewrite N45. rewrite EB. cbn [map app].
    unfold value_of in Hv. cbn [fold_left] in Hv.
    replace ((48 + d0 - 48) * 1000 + (48 + d1 - 48) * 100 + (48 + d2 - 48) * 10 + (48 + d3 - 48)) with (Z.abs y) by lia.
    rewrite R. reflexivity.
  - assert (ED : map (digit_char false) (d4 :: ds) ++ 45 :: rest = (48 + d4) :: map (digit_char false) ds ++ 45 :: rest).
    { cbn [map app]. rewrite digit_char_small by (pose proof (Forall_inv HD) as HQ; cbn beta in HQ; lia). reflexivity. }
    rewrite ED. rewrite is_dec_digit by (auto; pose proof (Forall_inv HD) as HQ; cbn beta in HQ; lia).
    destruct Hn as [Hn|Hn]; [discriminate|].
    destruct (digit_not_first cw 45 rest Hw ltac:(lia)) as [S1 S2].
    unfold body at 1.
    rewrite (scan_numeral true cw sse (Z.abs y) _ (45 :: rest) Hw ltac:(lia) Hn Hu S1 S2).
    cbn [p_code p_val p_used]. rewrite R. do 2 f_equal.
    unfold body, zlen. rewrite Nat2Z.id, skipn_app, skipn_all, Nat.sub_diag. reflexivity.
Qed.

Lemma fraction_scan cw sse sub fs c rest : In cw char_widths -> sub <> 0 -> fraction_text sub fs ->
  0 <= c < 48 \/ 58 <= c < 256 ->
  exists fs', fs = 46 :: fs' /\ scan_fraction cw sse true (fs' ++ c :: rest) = SGo (sub, c :: rest).
Proof.
  intros Hw Hs HT Hc. unfold fraction_text in HT. destruct (Z.eqb_spec sub 0); [contradiction|].
  destruct HT as (ds & d & Hok & Hl & Hd & Hv & ->). eexists. split; [reflexivity|].
  destruct (digit_not_first cw c rest Hw Hc) as [S1 S2].
  rewrite scan_fraction_exact; auto.
  - rewrite Hv. reflexivity.
  - unfold zlen in *. rewrite app_length in *. cbn [length] in *. lia.
Qed.

Lemma fraction_scan_end cw sse sub fs : In cw char_widths -> sub <> 0 -> fraction_text sub fs ->
  exists fs', fs = 46 :: fs' /\ scan_fraction cw sse true fs' = SGo (sub, []).
Proof.
  intros Hw Hs HT. unfold fraction_text in HT. destruct (Z.eqb_spec sub 0); [contradiction|].
  destruct HT as (ds & d & Hok & Hl & Hd & Hv & ->). eexists. split; [reflexivity|].
  match goal with |- scan_fraction _ _ _ ?l = _ => rewrite <- (app_nil_r l) end.
  rewrite scan_fraction_exact; auto.
  - rewrite Hv. reflexivity.
  - unfold zlen in *. rewrite app_length in *. cbn [length] in *. lia.
  - exact I.
  - exact I.
Qed.

(** The fields the scanner accepts, and an offset of whole minutes below a day. *)
Definition scannable (c : civil) : Prop :=
  - 2 ^ 63 < cv_year c < 2 ^ 63 /\ 1 <= cv_month c <= 12 /\ 1 <= cv_day c <= 31 /\
  0 <= cv_hours c <= 23 /\ 0 <= cv_minutes c <= 59 /\ 0 <= cv_seconds c <= 59 /\
  0 <= cv_sub c < per_second /\ Z.abs (cv_tz c) < 86400 /\ cv_tz c mod 60 = 0.

Lemma zone_scan cw tz zs rest : In cw char_widths -> Z.abs tz < 86400 -> tz mod 60 = 0 -> tz <> 0 -> zone_text tz zs ->
  exists zs', zs = (if tz <? 0 then 45 else 43) :: zs' /\ scan_zone cw (tz <? 0) (zs ++ rest) = SGo (tz, rest).
Proof.
  intros Hw Ha Hm Hn HT. unfold zone_text in HT. destruct (Z.eqb_spec tz 0); [contradiction|].
  destruct HT as (hh & Hh & ->).
  assert (A0 : Z.abs tz mod 60 = 0).
  { destruct (Z.abs_spec tz) as [[_ ->]|[_ ->]]; [exact Hm|].
    apply Z.mod_opp_l_z; [lia|exact Hm]. }
  rewrite A0. rewrite Z.eqb_refl, app_nil_r.
  assert (AH : 0 <= Z.abs tz / 3600 <= 23).
  { split; [apply Z.div_pos; lia|]. assert (Z.abs tz / 3600 < 24) by (apply Z.div_lt_upper_bound; lia). lia. }
  assert (AM : 0 <= Z.abs tz / 60 mod 60 <= 59) by (pose proof (Z.mod_pos_bound (Z.abs tz / 60) 60); lia).
  destruct (Z.ltb_spec (Z.abs tz / 3600) 100); [|lia]. subst hh.
  exists (pad2 (Z.abs tz / 3600) ++ text ":" ++ pad2 (Z.abs tz / 60 mod 60)).
  split; [destruct (tz <? 0); reflexivity|].
  unfold scan_zone.
  assert (E : skipn 1 (((if tz <? 0 then text "-" else text "+") ++ pad2 (Z.abs tz / 3600) ++ text ":" ++ pad2 (Z.abs tz / 60 mod 60)) ++ rest)
     = pad2 (Z.abs tz / 3600) ++ (58 :: (pad2 (Z.abs tz / 60 mod 60) ++ rest))).
  { destruct (tz <? 0); reflexivity. }
  rewrite E. rewrite (proj2 (Z.ltb_ge _ _)).
  2:{ unfold zlen. rewrite !app_length. change (length (text ":")) with 1%nat.
      replace (length (if tz <? 0 then text "-" else text "+")) with 1%nat by (destruct (tz <? 0); reflexivity).
      unfold pad2. cbn [length]. lia. }
  rewrite scan_field_pad2 by (auto; lia). cbn [sbind]. rewrite scan_char_ok. cbn [sbind].
  rewrite scan_field_pad2 by (auto; lia). cbn [sbind]. do 2 f_equal.
  assert (D : Z.abs tz / 3600 * 3600 + Z.abs tz / 60 mod 60 * 60 = Z.abs tz).
  { pose proof (Z.div_mod (Z.abs tz) 60 ltac:(lia)). pose proof (Z.div_mod (Z.abs tz / 60) 60 ltac:(lia)).
    rewrite Z.div_div in * by lia. change (60 * 60) with 3600 in *. lia. }
  rewrite D. destruct (Z.ltb_spec tz 0); lia.
Qed.

Lemma units_app cw a b : units cw a -> units cw b -> units cw (a ++ b).
Proof. intros. apply Forall_app. auto. Qed.
Lemma units_small cw l : In cw char_widths -> Forall (fun c => 0 <= c < 128) l -> units cw l.
Proof. intros Hw H. pose proof (cw_pow cw Hw). eapply Forall_impl; [|exact H]. cbn. intros; lia. Qed.
Lemma pad2_small v : 0 <= v < 100 -> Forall (fun c => 0 <= c < 128) (pad2 v).
Proof. intros H. destruct (pad2_digits v H). unfold pad2. repeat (apply Forall_cons; [lia|]). apply Forall_nil. Qed.
Lemma fraction_small sub fs : fraction_text sub fs -> Forall (fun c => 0 <= c < 128) fs.
Proof.
  unfold fraction_text. destruct (sub =? 0); [intros ->; constructor|].
  intros (ds & d & Hok & _ & _ & _ & ->). apply Forall_cons; [cbn; lia|].
  rewrite map_digits by exact Hok. apply Forall_map. eapply Forall_impl; [|exact Hok]. cbv beta; intros; lia.
Qed.

Lemma zone_small tz zs : Z.abs tz < 86400 -> zone_text tz zs -> Forall (fun c => 0 <= c < 128) zs.
Proof.
  intros Ha. unfold zone_text. destruct (tz =? 0).
  - intros ->. apply Forall_cons; [cbn; lia|apply Forall_nil].
  - intros (hh & Hh & ->).
    assert (AH : 0 <= Z.abs tz / 3600 < 100).
    { split; [apply Z.div_pos; lia|]. apply Z.div_lt_upper_bound; lia. }
    destruct (Z.ltb_spec (Z.abs tz / 3600) 100); [|lia]. subst hh.
    pose proof (Z.mod_pos_bound (Z.abs tz / 60) 60 ltac:(lia)). pose proof (Z.mod_pos_bound (Z.abs tz) 60 ltac:(lia)).
    apply Forall_app. split; [destruct (tz <? 0); apply Forall_cons; cbn; try lia; apply Forall_nil|].
    apply Forall_app. split; [apply pad2_small; lia|].
    apply Forall_app. split; [apply Forall_cons; cbn; try lia; apply Forall_nil|].
    apply Forall_app. split; [apply pad2_small; lia|].
    destruct (_ =? _); [apply Forall_nil|]. apply Forall_app. split; [apply Forall_cons; cbn; try lia; apply Forall_nil|].
    apply pad2_small; lia.
Qed.

Lemma zone_nonempty tz zs : zone_text tz zs -> 1 <= zlen zs.
Proof.
  unfold zone_text. destruct (tz =? 0); [intros ->; vm_compute; discriminate|].
  intros (hh & _ & ->). unfold zlen. rewrite app_length.
  replace (length (if tz <? 0 then text "-" else text "+")) with 1%nat by (destruct (tz <? 0); reflexivity). lia.
Qed.

Lemma zone_head tz zs : zone_text tz zs -> exists c zs', zs = c :: zs' /\
  c = (if tz =? 0 then 90 else if tz <? 0 then 45 else 43).
Proof.
  unfold zone_text. destruct (tz =? 0); [intros ->; eexists _, _; split; reflexivity|].
  intros (hh & _ & ->). destruct (tz <? 0); eexists _, _; split; reflexivity.
Qed.

Theorem scan_iso_text cw sse c txt ws rest : In cw char_widths -> scannable c -> iso_text c txt ->
  Forall c_space ws -> units cw rest -> scan_iso8601 cw sse (ws ++ txt ++ rest) = SGo (c, rest).
Proof.
  intros Hw (Hy & Hmo & Hd & Hh & Hmi & Hs & Hf & Ha & Hm) (ys & fs & zs & TY & TF & TZ & ->) Hws Hr.
  set (tail := fs ++ zs ++ rest).
  assert (Utail : units cw tail).
  { apply units_app; [apply units_small; [exact Hw|eapply fraction_small; exact TF]|].
    apply units_app; [apply units_small; [exact Hw|eapply zone_small; eassumption]|exact Hr]. }
  set (r2 := pad2 (cv_month c) ++ 45 :: pad2 (cv_day c) ++ 84 :: pad2 (cv_hours c) ++ 58 :: pad2 (cv_minutes c) ++ 58 :: pad2 (cv_seconds c) ++ tail).
  assert (E0 : (ys ++ text "-" ++ pad2 (cv_month c) ++ text "-" ++ pad2 (cv_day c) ++ text "T" ++ pad2 (cv_hours c) ++
      text ":" ++ pad2 (cv_minutes c) ++ text ":" ++ pad2 (cv_seconds c) ++ fs ++ zs) ++ rest = ys ++ 45 :: r2).
  { unfold r2, tail, pad2. rewrite <- !app_assoc. reflexivity. }
  rewrite E0. clear E0.
  assert (Ltail : 1 <= zlen tail).
  { pose proof (zone_nonempty _ _ TZ). unfold tail, zlen in *. rewrite !app_length. lia. }
  assert (Lr2 : 15 <= zlen r2).
  { unfold r2, pad2, zlen in *. cbn [app length]. lia. }
  assert (Ur2 : units cw (45 :: r2)).
  { pose proof (cw_pow cw Hw) as CP. unfold r2.
    assert (P : forall v, 0 <= v < 100 -> units cw (pad2 v)) by (intros v Hv; apply units_small; [exact Hw|now apply pad2_small]).
    repeat first [apply Forall_cons; [lia|] | apply units_app; [apply P; lia|] | exact Utail]. }
  unfold scan_iso8601.
  rewrite skip_space_spec; [|exact Hw|exact Hws|].
  2:{ destruct (year_digits _ _ TY Hy) as (d0 & d1 & d2 & d3 & ds & Hok & _ & _ & ->).
      pose proof (cw_pow cw Hw). pose proof (Forall_inv Hok) as HQ. cbn beta in HQ.
      destruct (cv_year c <? 0); cbn [sign_chars app map]; [|rewrite digit_char_small by lia].
      - split; [lia|]. unfold c_space; cbn; lia.
      - split; [lia|]. unfold c_space. cbn [In]. lia. }
  rewrite (scan_year_ok cw sse _ ys r2 Hw Hy TY Ur2 Lr2). cbn [sbind].
  rewrite (proj2 (Z.ltb_ge _ _)) by (unfold zlen in *; cbn [length]; lia).
  rewrite scan_char_ok. cbn [sbind]. unfold r2.
  rewrite scan_field_pad2 by (auto; lia). cbn [sbind]. rewrite scan_char_ok. cbn [sbind].
  rewrite scan_field_pad2 by (auto; lia). cbn [sbind]. rewrite scan_char_ok. cbn [sbind].
  rewrite scan_field_pad2 by (auto; lia). cbn [sbind]. rewrite scan_char_ok. cbn [sbind].
  rewrite scan_field_pad2 by (auto; lia). cbn [sbind]. rewrite scan_char_ok. cbn [sbind].
  rewrite scan_field_pad2 by (auto; lia). cbn [sbind].
  assert (ZONE : forall sub, sub = cv_sub c ->
    match zs ++ rest with
    | [] => SUb
    | ch :: s' =>
        if ch =? 90 then SGo (mk_civil (cv_year c) (cv_month c) (cv_day c) (cv_hours c) (cv_minutes c) (cv_seconds c) sub 0, s')
        else if ch =? 43 then
          let* (tz, s) := scan_zone cw false (zs ++ rest) in
          SGo (mk_civil (cv_year c) (cv_month c) (cv_day c) (cv_hours c) (cv_minutes c) (cv_seconds c) sub tz, s)
        else if ch =? 45 then
          let* (tz, s) := scan_zone cw true (zs ++ rest) in
          SGo (mk_civil (cv_year c) (cv_month c) (cv_day c) (cv_hours c) (cv_minutes c) (cv_seconds c) sub tz, s)
        else SFail pc_invalid (zs ++ rest)
    end = SGo (c, rest)).
  { intros sub ->. destruct (Z.eq_dec (cv_tz c) 0) as [Z0|Z0].
    - unfold zone_text in TZ. rewrite (proj2 (Z.eqb_eq _ _) Z0) in TZ. subst zs.
      change (text "Z" ++ rest) with (90 :: rest). cbn [Z.eqb Pos.eqb]. rewrite <- Z0. destruct c; reflexivity.
    - destruct (zone_scan cw (cv_tz c) zs rest Hw Ha Hm Z0 TZ) as (zs' & EZ & SZ).
      destruct (zs ++ rest) as [|ch s'] eqn:EQ; [exfalso; subst zs; cbn in EQ; discriminate|].
      assert (CH : ch = if cv_tz c <? 0 then 45 else 43) by (subst zs; cbn [app] in EQ; injection EQ as <- _; reflexivity).
      subst ch. destruct (cv_tz c <? 0) eqn:EN; cbn [Z.eqb Pos.eqb]; rewrite SZ; cbn [sbind];
        do 2 f_equal; destruct c; reflexivity. }
  unfold tail in *. destruct (Z.eq_dec (cv_sub c) 0) as [S0|S0].
  - unfold fraction_text in TF. rewrite (proj2 (Z.eqb_eq _ _) S0) in TF. subst fs. cbn [app] in *.
    destruct (zone_head _ _ TZ) as (ch & zs' & EZ & CH).
    specialize (ZONE 0 (eq_sym S0)). rewrite EZ in *. cbn [app] in *.
    replace (ch =? 46) with false; [exact ZONE|]. symmetry. apply Z.eqb_neq. subst ch.
    destruct (_ =? _); [lia|]. destruct (_ <? _); lia.
  - destruct (zone_head _ _ TZ) as (ch & zs' & EZ & CH).
    assert (HC : 0 <= ch < 48 \/ 58 <= ch < 256).
    { subst ch. destruct (_ =? _); [lia|]. destruct (_ <? _); lia. }
    destruct (fraction_scan cw sse (cv_sub c) fs ch (zs' ++ rest) Hw S0 TF HC) as (fs' & EF & SF).
    rewrite EF. cbn [app]. change (46 =? 46) with true. cbv iota.
    replace (fs' ++ zs ++ rest) with (fs' ++ ch :: zs' ++ rest) by (rewrite EZ; reflexivity).
    rewrite SF. cbn [sbind]. specialize (ZONE (cv_sub c) eq_refl). rewrite EZ in ZONE. exact ZONE.
Qed.

(** The text a unix timestamp may be followed by: nothing, or, after a fraction, a non digit. *)
Definition unix_follow (sub : Z) (rest : list Z) : Prop :=
  match rest with [] => True | c :: _ => sub <> 0 /\ (0 <= c < 48 \/ 58 <= c < 256) end.

Lemma scan_signed_numeral cw sse t num ws rest : In cw char_widths -> - 2 ^ 63 <= t < 2 ^ 63 ->
  is_numeral 10 false (Z.abs t) num -> Forall c_space ws ->
  units cw rest -> safe_first 10 cw rest -> no_digit_first 10 rest ->
  scan_int (mk_scfg 10 false false false int64_ty cw sse) (ws ++ sign_chars (t <? 0) ++ num ++ rest)
  = Some (mk_pres pc_ok (zlen ws + zlen (sign_chars (t <? 0)) + zlen num) (Some t)).
Proof.
  intros Hw Ht N Hws Hr Hs Hn. set (cfg := mk_scfg 10 false false false int64_ty cw sse).
  assert (Hcfg : good_cfg cfg) by (apply int64_cfg; exact Hw).
  assert (Hin : in_range int64_ty t) by (unfold in_range; cbn; lia).
  destruct (numeral_digit_string 10 false _ _ ltac:(lia) N) as (ds & Hds & Hv & Hl).
  destruct (scan_int_gen cfg ws (t <? 0) num ds rest) as (r & R & (S1 & S2 & S3)); auto.
  - discriminate.
  - discriminate.
  - intros E. apply (units_bytes cw); assumption.
  - discriminate.
  - intros ->. exact Hl.
  - rewrite R. cbn [cfg sc_base sc_ty] in S1, S2, S3. rewrite Hv, signed_abs, outcome_in_range in S1, S2, S3 by exact Hin.
    cbn [p_code p_val p_used] in S1, S2, S3. f_equal. destruct r as [a b c]; cbn in *. rewrite S1, S2. rewrite S3.
    + reflexivity.
    + left; reflexivity.
Qed.

Theorem scan_unix_text cw sse t txt ws rest : In cw char_widths -> valid_stamp t -> unix_text t txt ->
  Forall c_space ws -> units cw rest -> unix_follow (ts_sub t) rest ->
  scan_unix cw sse (ws ++ txt ++ rest) = SGo (t, rest).
Proof.
  intros Hw [Ht Hsub] (num & fs & N & TF & ->) Hws Hr Hfol.
  assert (ES : (if ts_sec t <? 0 then text "-" else []) = sign_chars (ts_sec t <? 0)) by (destruct (ts_sec t <? 0); reflexivity).
  rewrite ES. rewrite <- !app_assoc. unfold scan_unix.
  assert (SK : forall b, skipn (Z.to_nat (zlen ws + zlen (sign_chars (ts_sec t <? 0)) + zlen num)) (ws ++ sign_chars (ts_sec t <? 0) ++ num ++ b) = b).
  { intros b. rewrite !app_assoc. 
    replace (Z.to_nat (zlen ws + zlen (sign_chars (ts_sec t <? 0)) + zlen num)) with (length ((ws ++ sign_chars (ts_sec t <? 0)) ++ num))
      by (unfold zlen; rewrite !app_length; lia).
    rewrite skipn_app, skipn_all, Nat.sub_diag. reflexivity. }
  destruct (Z.eq_dec (ts_sub t) 0) as [S0|S0].
  - unfold fraction_text in TF. rewrite (proj2 (Z.eqb_eq _ _) S0) in TF. subst fs. cbn [app].
    destruct rest as [|c rest]; [|destruct Hfol; contradiction].
    rewrite scan_signed_numeral; auto; try exact I. cbn [p_code p_val p_used]. rewrite SK.
    destruct t as [tsec tsub]; cbn [ts_sec ts_sub] in S0 |- *. rewrite S0. reflexivity.
  - assert (HF : exists fs', fs = 46 :: fs' /\ scan_fraction cw sse true (fs' ++ rest) = SGo (ts_sub t, rest)).
    { destruct rest as [|c rest].
      - destruct (fraction_scan_end cw sse _ fs Hw S0 TF) as (fs' & E & SF). exists fs'. split; [exact E|].
        rewrite app_nil_r. exact SF.
      - destruct Hfol as [_ Hc]. exact (fraction_scan cw sse _ fs c rest Hw S0 TF Hc). }
    destruct HF as (fs' & -> & SF). cbn [app].
    destruct (digit_not_first cw 46 (fs' ++ rest) Hw ltac:(lia)) as [P1 P2].
    assert (U : units cw (46 :: fs' ++ rest)).
    { apply (units_app cw (46 :: fs')); [|exact Hr]. apply units_small; [exact Hw|]. eapply fraction_small; exact TF. }
    rewrite scan_signed_numeral; auto. cbn [p_code p_val p_used]. rewrite SK.
    change (46 =? 46) with true. cbn [negb]. rewrite SF. cbn [sbind]. do 2 f_equal. destruct t; reflexivity.
Qed.

(** ** The declared sizes suffice *)
Lemma numeral_len_le u n num : 0 <= u < 10 ^ Z.of_nat n -> (0 < n)%nat -> is_numeral 10 false u num -> zlen num <= Z.of_nat n.
Proof.
  intros Hu Hn (ds & Hok & Hl & Hv & ->). unfold zlen. rewrite map_length.
  destruct ds as [|d ds]; [destruct Hl|]. destruct ds as [|e ds]; [cbn; lia|].
  cbn [no_leading_zero] in Hl. rewrite value_of_cons in Hv.
  pose proof (Forall_inv Hok) as HQ; cbn beta in HQ.
  pose proof (value_of_bound 10 (e :: ds) ltac:(lia) (Forall_inv_tail Hok)) as VB.
  destruct (Z.le_gt_cases (Z.of_nat (length (d :: e :: ds))) (Z.of_nat n)) as [L|L]; [exact L|exfalso].
  assert (10 ^ Z.of_nat n <= 10 ^ Z.of_nat (length (e :: ds))) by (apply Z.pow_le_mono_r; cbn [length] in *; lia).
  nia.
Qed.

Lemma year_len y ys : - 2 ^ 63 <= y < 2 ^ 63 -> year_text y ys -> zlen ys <= 20.
Proof.
  intros Hy (num & -> & H).
  assert (zlen num <= 19).
  { destruct (Z.ltb_spec (Z.abs y) 10000).
    - destruct H as (ds & _ & Hl & _ & ->). unfold zlen. rewrite map_length. lia.
    - apply (numeral_len_le (Z.abs y) 19); [|lia|exact H]. change (10 ^ Z.of_nat 19) with 10000000000000000000. lia. }
  unfold zlen in *. rewrite app_length. destruct (y <? 0); cbn [length]; [change (length (text "-")) with 1%nat|]; lia.
Qed.
Lemma fraction_len sub fs : fraction_text sub fs -> zlen fs <= 20.
Proof.
  unfold fraction_text. destruct (sub =? 0); [intros ->; vm_compute; discriminate|].
  intros (ds & d & _ & Hl & _ & _ & ->). change (text ".") with [46]. unfold zlen in *. cbn [app length].
  rewrite map_length. lia.
Qed.
Lemma zone_len tz zs : - 2 ^ 31 <= tz < 2 ^ 31 -> zone_text tz zs -> zlen zs <= 13.
Proof.
  intros H. unfold zone_text. destruct (tz =? 0); [intros ->; vm_compute; discriminate|].
  intros (hh & Hh & ->).
  assert (zlen hh <= 6).
  { destruct (Z.ltb_spec (Z.abs tz / 3600) 100); [subst; vm_compute; discriminate|].
    apply (numeral_len_le (Z.abs tz / 3600) 6); [|lia|exact Hh]. change (10 ^ Z.of_nat 6) with 1000000.
    split; [lia|]. apply Z.div_lt_upper_bound; lia. }
  unfold zlen in *. rewrite !app_length.
  replace (length (if tz <? 0 then text "-" else text "+")) with 1%nat by (destruct (tz <? 0); reflexivity).
  change (length (text ":")) with 1%nat. unfold pad2. destruct (_ =? _); cbn [length app]; [lia|].
  change (length (text ":" ++ [48 + Z.abs tz mod 60 / 10; 48 + (Z.abs tz mod 60) mod 10])) with 3%nat. lia.
Qed.
Theorem iso_text_size c txt : printable c -> iso_text c txt -> zlen txt <= iso8601_reserve_size.
Proof.
  intros (Hy & _ & _ & _ & _ & _ & _ & Htz) (ys & fs & zs & TY & TF & TZ & ->).
  pose proof (year_len _ _ Hy TY). pose proof (fraction_len _ _ TF). pose proof (zone_len _ _ Htz TZ).
  assert (E : iso8601_reserve_size = 20 + 16 + 20 + 15 + 3 + 2) by (vm_compute; reflexivity). rewrite E.
  unfold zlen, pad2 in *. rewrite !app_length. cbn [length].
  change (length (text "-")) with 1%nat. change (length (text ":")) with 1%nat. change (length (text "T")) with 1%nat. lia.
Qed.
Theorem unix_text_size t txt : valid_stamp t -> unix_text t txt -> zlen txt <= stamp_reserve_size.
Proof.
  intros [Ht _] (num & fs & N & TF & ->). pose proof (fraction_len _ _ TF).
  assert (zlen num <= 19).
  { apply (numeral_len_le (Z.abs (ts_sec t)) 19); [|lia|exact N]. change (10 ^ Z.of_nat 19) with 10000000000000000000. lia. }
  assert (E : stamp_reserve_size = 20 + 1 + 19) by (vm_compute; reflexivity). rewrite E.
  unfold zlen in *. rewrite !app_length. destruct (ts_sec t <? 0); [change (length (text "-")) with 1%nat|cbn [length]]; lia.
Qed.
