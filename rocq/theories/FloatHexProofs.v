(** print_rsvhexfloat_define: the hexadecimal text is the exact value. *)
From Coq Require Import QArith Qabs.
From Verif Require Import Base Outcome NumSpec NumFacts IntPrintModel IntPrintProofs JeaiiiProofs IntPrintCorrect
  FloatTables FloatModel FloatSpec FloatTextSpec FloatTextModel FloatRoundProofs FloatCodeProofs FloatImplProofs
  FloatTextProofs FloatTextCases FloatTextForms FloatTextMeaning FloatReachProofs FloatPrintProofs.
Local Open Scope Z_scope.

Lemma countr_zero_spec fuel : forall x, 0 < x < 2 ^ Z.of_nat fuel ->
  exists n y, countr_zero fuel x = Done n /\ 0 <= n /\ x = y * 2 ^ n /\ Z.odd y = true.
Proof.
  induction fuel as [|fuel IH]; intros x H; [change (2 ^ Z.of_nat 0) with 1 in H; lia|].
  cbn [countr_zero]. destruct (Z.odd x) eqn:O.
  - exists 0, x. repeat split; [lia|change (2 ^ 0) with 1; lia|assumption].
  - assert (E : x = 2 * (x / 2)).
    { pose proof (Z.div_mod x 2 ltac:(lia)) as D. rewrite Zmod_odd, O in D. lia. }
    rewrite Nat2Z.inj_succ, Z.pow_succ_r in H by lia.
    destruct (IH (x / 2) ltac:(lia)) as (n & y & E1 & N0 & E2 & O2).
    rewrite E1. cbn [obind]. exists (n + 1), y. repeat split; [lia| |assumption].
    rewrite Z.pow_add_r by lia. change (2 ^ 1) with 2. rewrite E, E2 at 1. ring.
Qed.

Definition bias_of (f : fmt) : Z := 2 ^ (ebits f - 1) - 1.
Definition hex_exp_len (u : Z) : Z := if 1000 <=? u then 4 else if 100 <=? u then 3 else if 10 <=? u then 2 else 1.
Lemma hex_exp_text f u : known f -> 0 <= u < (if mantw f =? 64 then 10000 else 1000) ->
  prt_rsv_exponent (e2hexdigits f) u = Some (dtext u (hex_exp_len u)).
Proof.
  intros Kf H. unfold prt_rsv_exponent, hex_exp_len. destruct Kf as [-> | ->]; cbn [mantw binary32 binary64 e2hexdigits] in *.
  - change (32 =? 64) with false in H. cbv iota in H. change (3 =? 3) with true. cbv iota.
    destruct (Z.leb_spec 1000 u); [lia|]. destruct (Z.leb_spec 100 u); [apply three_text; lia|].
    destruct (Z.leb_spec 10 u), (Z.ltb_spec u 10); try lia; [apply hundred_text; lia|apply one_digit_text; lia].
  - change (64 =? 64) with true in H. cbv iota in H. change (4 =? 3) with false. cbv iota zeta.
    rewrite main_impl_spec; [reflexivity|right; right; left; reflexivity|lia|discriminate|reflexivity| |lia|].
    + destruct (Z.leb_spec 1000 u), (Z.leb_spec 100 u), (Z.leb_spec 10 u); lia.
    + destruct (Z.leb_spec 1000 u); [change (10 ^ 4) with 10000; lia|].
      destruct (Z.leb_spec 100 u); [change (10 ^ 3) with 1000; lia|].
      destruct (Z.leb_spec 10 u); [change (10 ^ 2) with 100; lia|change (10 ^ 1) with 10; lia].
Qed.
Lemma hex_exp_digits u : 0 <= u < 10000 -> exponent_digits 1 u (dtext u (hex_exp_len u)).
Proof.
  intros H. exists (digs 10 (Z.to_nat (hex_exp_len u)) u).
  assert (B : 1 <= hex_exp_len u /\ u < 10 ^ hex_exp_len u /\ (hex_exp_len u = 1 \/ 10 ^ (hex_exp_len u - 1) <= u)).
  { unfold hex_exp_len. destruct (Z.leb_spec 1000 u); [change (10 ^ 4) with 10000; change (10 ^ (4 - 1)) with 1000; lia|].
    destruct (Z.leb_spec 100 u); [change (10 ^ 3) with 1000; change (10 ^ (3 - 1)) with 100; lia|].
    destruct (Z.leb_spec 10 u); [change (10 ^ 2) with 100; change (10 ^ (2 - 1)) with 10; lia|change (10 ^ 1) with 10; lia]. }
  set (k := hex_exp_len u) in *. clearbody k. destruct B as (B1 & B2 & B3).
  split; [apply digs_ok; lia|]. split.
  { rewrite digs_value by lia. apply Z.mod_small. rewrite Z2Nat.id by lia. lia. }
  split; [reflexivity|]. unfold zlen. rewrite digs_length, Z2Nat.id by lia. split; [assumption|].
  destruct (Z.eq_dec k 1) as [E|E]; [left; assumption|right].
  destruct B3 as [B3|B3]; [contradiction|]. 
  replace (Z.to_nat k) with (S (Z.to_nat (k - 1))) by lia. 
  rewrite <- (Z2Nat.id (k - 1)) in B3 by lia.
  apply digs_no_leading_zero; [lia| |].
  - right. exact B3.
  - replace (Z.of_nat (S (Z.to_nat (k - 1)))) with k by lia. lia.
Qed.

Section Hex.
Variables (f : fmt) (fl : hflags) (mf ef : Z).
Hypothesis Kf : known f.
Hypothesis Hf : finite f mf ef.
Hypothesis Hz : 0 < mf \/ 0 < ef.
Let point : Z := point_of (hf_comma fl).
Let mark : Z := if hf_upper_e fl then 80 else 112.
Let bias := bias_of f.
Let mb := mbits f.
Let e2 : Z := Z.max ef 1 - bias.

Definition hex_exp_part : list Z := [mark; if e2 <? 0 then 45 else 43] ++ dtext (Z.abs e2) (hex_exp_len (Z.abs e2)).
Let mk : Z := 4 * ((mb + 3) / 4) - mb.
Let T : Z := (mb + 3) / 4.

Lemma hex_exp_is st : with_sign_prt_rsv_exponent_hex f e2 st =
  emit ([if e2 <? 0 then 45 else 43] ++ dtext (Z.abs e2) (hex_exp_len (Z.abs e2))) st.
Proof.
  assert (B : Z.abs e2 < (if mantw f =? 64 then 2000 else 200)).
  { destruct Hf as [_ He]. unfold e2, bias, bias_of. destruct Kf as [E | E]; rewrite E in *; cbn [mantw ebits binary32 binary64] in *.
    - change (2 ^ (8 - 1) - 1) with 127. change (2 ^ 8 - 1) with 255 in He. change (32 =? 64) with false. cbv iota. lia.
    - change (2 ^ (11 - 1) - 1) with 1023. change (2 ^ 11 - 1) with 2047 in He. change (64 =? 64) with true. cbv iota. lia. }
  unfold with_sign_prt_rsv_exponent_hex.
  assert (U : (if e2 <? 0 then wrap 32 (0 - wrap 32 e2) else wrap 32 e2) = Z.abs e2).
  { assert (Z.abs e2 < 2000) by (destruct (mantw f =? 64); lia). destruct (Z.ltb_spec e2 0) as [L|L].
    - unfold wrap. rewrite Zminus_mod_idemp_r. rewrite Z.mod_small by lia. lia.
    - rewrite wrap_id by lia. lia. }
  rewrite U. rewrite <- emit_app. destruct (emit _ st) as [s1| |]; cbn [obind]; try reflexivity.
  rewrite hex_exp_text; [reflexivity|assumption|]. destruct (mantw f =? 64); lia.
Qed.

(** digits after the separator: [hex_k] of them *)
Lemma hex_digits : 0 < mf -> exists d4 m',
  0 <= d4 < T /\ mf * 2 ^ mk = m' * 2 ^ (4 * d4) /\ 0 < m' < 16 ^ (T - d4) /\ m' mod 16 <> 0 /\
  (let! tz := countr_zero 64 mf in
   let trailing_zeros_digits := wrap 32 (tz + mk) in
   let trailing_zeros_digits_d4 := Z.shiftr trailing_zeros_digits 2 in
   let trailing_zeros_digits_d4m4 := wrap 32 (Z.shiftl trailing_zeros_digits_d4 2) in
   let! mantissa := ushl (mantw f) mf mk in
   let! mantissa := ushr (mantw f) mantissa trailing_zeros_digits_d4m4 in
   Done (mantissa, wrap 32 (T - trailing_zeros_digits_d4))) = Done (m', T - d4).
Proof.
  intros H0. destruct Hf as [Hm _].
  assert (B : 0 <= mk <= 1 /\ mb + mk = 4 * T /\ mb <= 52 /\ 0 < mb /\ mb + 2 < mantw f /\ mantw f <= 64).
  { unfold mk, T, mb. destruct Kf as [E | E]; rewrite E; cbn [mbits mantw binary32 binary64]; vm_compute; intuition discriminate. }
  fold mb in Hm. destruct B as (B1 & B2 & B3 & B4 & B5 & B6). clearbody mk T mb.
  assert (P52 : 2 ^ mb <= 2 ^ 52) by (apply Z.pow_le_mono_r; lia).
  destruct (countr_zero_spec 64 mf) as (n & y & E & N0 & EQ & O).
  { change (2 ^ Z.of_nat 64) with (2 ^ 64). assert (2 ^ 52 < 2 ^ 64) by reflexivity. lia. }
  rewrite E. cbn [obind]. cbv zeta.
  assert (P0 : 0 < 2 ^ n) by (apply Z.pow_pos_nonneg; lia).
  assert (Y0 : 0 < y) by nia.
  assert (Nb : n < mb). { apply (Z.pow_lt_mono_r_iff 2); [lia|lia|]. nia. }
  rewrite (wrap_id 32 (n + mk)) by lia.
  rewrite Z.shiftr_div_pow2, Z.shiftl_mul_pow2 by lia. change (2 ^ 2) with 4.
  pose proof (Z.div_mod (n + mk) 4 ltac:(lia)) as DM. pose proof (Z.mod_pos_bound (n + mk) 4 ltac:(lia)) as MB.
  set (d4 := (n + mk) / 4) in *. set (r := (n + mk) mod 4) in *. clearbody d4 r.
  assert (D4 : 0 <= d4 < T) by lia.
  rewrite (wrap_id 32 (d4 * 4)), (wrap_id 32 (T - d4)) by lia.
  assert (PK : 0 < 2 ^ mk) by (apply Z.pow_pos_nonneg; lia).
  assert (Mw : mf * 2 ^ mk < 2 ^ mantw f).
  { apply Z.lt_le_trans with (2 ^ (mb + mk)); [rewrite Z.pow_add_r by lia; nia|apply Z.pow_le_mono_r; lia]. }
  unfold ushl. destruct (Z.leb_spec 0 mk); [|lia]. destruct (Z.ltb_spec mk (mantw f)); [|lia]. cbn [andb obind].
  rewrite Z.shiftl_mul_pow2 by lia. rewrite (wrap_id (mantw f)) by nia.
  unfold ushr. destruct (Z.leb_spec 0 (d4 * 4)); [|lia]. destruct (Z.ltb_spec (d4 * 4) (mantw f)); [|lia]. cbn [andb obind].
  rewrite Z.shiftr_div_pow2 by lia.
  assert (PD : 0 < 2 ^ (4 * d4)) by (apply Z.pow_pos_nonneg; lia).
  assert (EM : mf * 2 ^ mk = y * 2 ^ r * 2 ^ (4 * d4)).
  { rewrite EQ. rewrite <- !Z.mul_assoc, <- !Z.pow_add_r by lia. do 2 f_equal. lia. }
  exists d4, (y * 2 ^ r). split; [assumption|]. split; [assumption|].
  assert (PR : 0 < 2 ^ r) by (apply Z.pow_pos_nonneg; lia).
  split; [split; [nia|]|split].
  - apply (Z.mul_lt_mono_pos_r (2 ^ (4 * d4))); [assumption|]. rewrite <- EM.
    change 16 with (2 ^ 4). rewrite <- Z.pow_mul_r, <- Z.pow_add_r by lia.
    replace (4 * (T - d4) + 4 * d4) with (mb + mk) by lia. rewrite Z.pow_add_r by lia. nia.
  - intros M. assert (X : (2 ^ (r + 1) | y * 2 ^ r)).
    { apply Z.divide_trans with 16; [|apply Z.mod_divide; [lia|assumption]].
      exists (2 ^ (4 - (r + 1))). rewrite <- Z.pow_add_r by lia. change 16 with (2 ^ 4). f_equal. lia. }
    rewrite Z.pow_add_r in X by lia. change (2 ^ 1) with 2 in X. rewrite (Z.mul_comm (2 ^ r)) in X.
    apply Z.mul_divide_cancel_r in X; [|lia]. apply Z.mod_divide in X; [|lia]. rewrite Zmod_odd, O in X. discriminate.
  - do 2 f_equal. rewrite EM. rewrite (Z.mul_comm d4 4). apply Z.div_mul. lia.
Qed.

(** The number that is written. *)
Definition hex_means (t : number) : Prop :=
  (hex_value t == bin (significand mb mf ef) (exponent mb bias ef))%Q /\
  n_int t = [if ef =? 0 then 0 else 1] /\ no_trailing_zero t /\ zlen (n_frac t) <= T.
Definition hex_prefix : list Z := if hf_showbase fl then [48; if hf_upper_showbase fl then 88 else 120] else [].
Lemma hex_is : exists t txt, text_of 16 (hf_upper fl) point mark 1 t txt /\ hex_means t /\
    zlen txt <= T + 8 /\
    forall sign buf pos, print_rsvhexfloat_define f fl (bits_of f sign mf ef) (buf, pos) =
    emit (sign_is (hf_showpos fl) sign ++ hex_prefix ++ txt) (buf, pos).
Proof.
  pose proof Hf as [Hm He].
  assert (B : 0 <= mk <= 1 /\ mb + mk = 4 * T /\ mb <= 52 /\ 0 < mb /\ mb + 2 < mantw f /\ mantw f <= 64 /\ 0 < T <= 13).
  { unfold mk, T, mb. destruct Kf as [E | E]; rewrite E; cbn [mbits mantw binary32 binary64]; vm_compute; intuition discriminate. }
  assert (Mk : ((mb / 4 + 1) * 4 - mb) mod 4 = mk).
  { unfold mk, mb. destruct Kf as [E | E]; rewrite E; reflexivity. }
  assert (Bi : Z.shiftr (2 ^ ebits f) 1 - 1 = bias).
  { unfold bias, bias_of. destruct Kf as [E | E]; rewrite E; reflexivity. }
  assert (Wd : In (mantw f) int_widths /\ mantw f <> 128).
  { destruct Kf as [E | E]; rewrite E; split; try discriminate; cbn; tauto. }
  assert (Eb : Z.abs e2 < 2000).
  { unfold e2, bias, bias_of. destruct Kf as [E | E]; rewrite E in *; cbn [mantw ebits binary32 binary64] in *.
    - change (2 ^ (8 - 1) - 1) with 127. change (2 ^ 8 - 1) with 255 in He. lia.
    - change (2 ^ (11 - 1) - 1) with 1023. change (2 ^ 11 - 1) with 2047 in He. lia. }
  assert (El : zlen (dtext (Z.abs e2) (hex_exp_len (Z.abs e2))) <= 4).
  { unfold hex_exp_len. rewrite dtext_len; repeat match goal with |- context [if ?c then _ else _] => destruct c end; lia. }
  assert (Start : forall sign buf pos k txt, (forall s2, k s2 = emit txt s2) ->
    (let! st := emit (sign_chars (hf_showpos fl) sign) (buf, pos) in
     let! st := if hf_showbase fl then emit (show_base 16 (hf_upper_showbase fl)) st else Done st in k st) =
    emit (sign_is (hf_showpos fl) sign ++ hex_prefix ++ txt) (buf, pos)).
  { intros sign buf pos k txt Hk. rewrite sign_chars_is, <- emit_app.
    destruct (emit (sign_is (hf_showpos fl) sign) (buf, pos)) as [s1| |] eqn:E1; cbn [obind]; try reflexivity.
    pose proof (emit_in _ _ _ E1) as R1. rewrite <- emit_app. unfold hex_prefix. destruct (hf_showbase fl).
    - change (show_base 16 (hf_upper_showbase fl)) with [48; if hf_upper_showbase fl then 88 else 120].
      destruct (emit _ s1) as [s2| |]; cbn [obind]; try reflexivity. apply Hk.
    - rewrite emit_nil by assumption. cbn [obind]. apply Hk. }
  assert (Etxt : exists dtxt, hex_exp_part = [mark; if e2 <? 0 then 45 else 43] ++ dtxt /\ exponent_digits 1 (Z.abs e2) dtxt).
  { eexists. split; [reflexivity|]. apply hex_exp_digits. lia. }
  assert (Ll : zlen hex_exp_part <= 6) by (unfold hex_exp_part; rewrite zlen_app; change (zlen [mark; if e2 <? 0 then 45 else 43]) with 2; lia).
  assert (Ep : forall st, (let! st := emit [mark] st in with_sign_prt_rsv_exponent_hex f e2 st) = emit hex_exp_part st).
  { intros st. unfold hex_exp_part. change ([mark; if e2 <? 0 then 45 else 43] ++ dtext (Z.abs e2) (hex_exp_len (Z.abs e2))) with
      ([mark] ++ ([if e2 <? 0 then 45 else 43] ++ dtext (Z.abs e2) (hex_exp_len (Z.abs e2)))). rewrite <- emit_app.
    destruct (emit [mark] st) as [s1| |]; cbn [obind]; try reflexivity. apply hex_exp_is. }
  assert (Nz : (mf =? 0) && (ef =? 0) = false) by (destruct (Z.eqb_spec mf 0), (Z.eqb_spec ef 0); cbn [andb]; lia).
  assert (Nm : (ef =? 2 ^ ebits f - 1) = false) by (apply Z.eqb_neq; lia).
  set (lead := if ef =? 0 then 0 else 1).
  assert (Ld : 0 <= lead <= 1) by (unfold lead; destruct (ef =? 0); lia).
  destruct (Z.eq_dec mf 0) as [M0|M0].
  - exists (mk_number [1] [] (Some e2)), ([49] ++ hex_exp_part).
    assert (L1 : lead = 1) by (unfold lead; destruct (Z.eqb_spec ef 0); lia).
    split; [|split; [|split]].
    + split; [discriminate|]. split; [constructor; [lia|constructor]|]. split; [constructor|].
      exists hex_exp_part. split; [exact Etxt|destruct (hf_upper fl); reflexivity].
    + split; [|split; [fold lead; rewrite L1; reflexivity|split; [left; reflexivity|cbn; lia]]].
      unfold hex_value, exponent_of. cbn [n_int n_frac n_exp app]. change (value_of 16 [1]) with 1. change (zlen []) with 0.
      unfold significand, exponent. rewrite M0. destruct (Z.eqb_spec ef 0) as [E|E]; [lia|].
      rewrite (bin_shift 1 (Z.max ef 1 - bias - mb) (e2 - 4 * 0)) by (unfold e2; lia).
      replace (1 * 2 ^ (e2 - 4 * 0 - (Z.max ef 1 - bias - mb))) with (0 + 2 ^ mb); [reflexivity|].
      replace (e2 - 4 * 0 - (Z.max ef 1 - bias - mb)) with mb by (unfold e2; lia). lia.
    + rewrite zlen_app. change (zlen [49]) with 1. lia.
    + intros sign buf pos. unfold print_rsvhexfloat_define. rewrite punned by (try assumption; lia).
      rewrite mask_is by assumption. fold mb. rewrite Mk, Bi. cbv zeta. rewrite Nm, Nz.
      apply (Start sign buf pos _ ([49] ++ hex_exp_part)). intros s2.
      rewrite M0. change (negb (0 =? 0)) with false. cbv iota. rewrite <- emit_app.
      destruct (emit [49] s2) as [s3| |]; cbn [obind]; try reflexivity. cbv beta iota zeta.
      replace (ef + - bias) with e2; [|unfold e2; destruct (Z.eqb_spec ef 0); lia].
      exact (Ep s3).
  - destruct (hex_digits ltac:(lia)) as (d4 & m' & D4 & EM & M1 & M2 & EQ).
    destruct (countr_zero 64 mf) as [tz| |] eqn:Q1; try discriminate EQ. cbn [obind] in EQ. cbv zeta in EQ.
    destruct (ushl (mantw f) mf mk) as [a| |] eqn:Q2; try discriminate EQ. cbn [obind] in EQ.
    destruct (ushr (mantw f) a (wrap 32 (Z.shiftl (Z.shiftr (wrap 32 (tz + mk)) 2) 2))) as [a'| |] eqn:Q3; try discriminate EQ.
    cbn [obind] in EQ. injection EQ as Q4 Q5. rewrite Q4 in Q3.
    set (frac := digs 16 (Z.to_nat (T - d4)) m').
    assert (Fl : zlen frac = T - d4) by (unfold frac, zlen; rewrite digs_length; lia).
    assert (Fv : value_of 16 frac = m').
    { unfold frac. rewrite digs_value by lia. rewrite Z2Nat.id by lia. apply Z.mod_small. lia. }
    assert (F0 : frac <> []) by (intros X; rewrite X in Fl; change (zlen []) with 0 in Fl; lia).
    exists (mk_number [lead] frac (Some e2)), ([digit_char (hf_upper fl) lead; point] ++ map (digit_char (hf_upper fl)) frac ++ hex_exp_part).
    split; [|split; [|split]].
    + split; [discriminate|]. split; [constructor; [lia|constructor]|]. split; [apply digs_ok; lia|].
      exists hex_exp_part. split; [exact Etxt|]. cbn [n_frac n_int]. destruct frac; [contradiction|reflexivity].
    + split; [|split; [reflexivity|split; [right|cbn [n_frac]; lia]]].
      * unfold hex_value, exponent_of. cbn [n_int n_frac n_exp]. rewrite value_of_app, Fv.
        fold (zlen frac). rewrite Fl. replace (value_of 16 [lead]) with lead by (rewrite value_of_cons; change (value_of 16 []) with 0; cbn [length]; lia).
        unfold significand, exponent. fold e2.
        rewrite (bin_shift _ (e2 - mb - mk) (e2 - 4 * (T - d4))) by lia.
        rewrite (bin_shift _ (e2 - mb - mk) (e2 - mb)) by lia.
        replace (e2 - 4 * (T - d4) - (e2 - mb - mk)) with (4 * d4) by lia.
        replace (e2 - mb - (e2 - mb - mk)) with mk by lia.
        replace ((if ef =? 0 then mf else mf + 2 ^ mb) * 2 ^ mk) with ((lead * 16 ^ (T - d4) + m') * 2 ^ (4 * d4)); [reflexivity|].
        rewrite Z.mul_add_distr_r, <- EM. change 16 with (2 ^ 4). rewrite <- Z.mul_assoc, <- Z.pow_mul_r, <- Z.pow_add_r by lia.
        replace (4 * (T - d4) + 4 * d4) with (mb + mk) by lia. rewrite Z.pow_add_r by lia.
        unfold lead. destruct (ef =? 0); ring.
      * cbn [n_frac]. unfold frac. replace (Z.to_nat (T - d4)) with (S (Z.to_nat (T - d4 - 1))) by lia. cbn [digs]. rewrite last_last. assumption.
    + rewrite !zlen_app. replace (zlen (map (digit_char (hf_upper fl)) frac)) with (zlen frac) by (unfold zlen; rewrite map_length; reflexivity).
      change (zlen [digit_char (hf_upper fl) lead; point]) with 2. lia.
    + intros sign buf pos. unfold print_rsvhexfloat_define. rewrite punned by (try assumption; lia).
      rewrite mask_is by assumption. fold mb. rewrite Mk, Bi. cbv zeta. rewrite Nm, Nz.
      apply (Start sign buf pos _ ([digit_char (hf_upper fl) lead; point] ++ map (digit_char (hf_upper fl)) frac ++ hex_exp_part)). intros s2.
      destruct (Z.eqb_spec mf 0) as [X|_]; [contradiction|]. cbn [negb].
      rewrite Q1. cbn [obind]. rewrite Q2. cbn [obind]. rewrite Q3. cbn [obind].
      replace (Z.shiftr (mb + mk) 2) with T by (destruct B as (_ & -> & _); rewrite Z.shiftr_div_pow2 by lia; change (2 ^ 2) with 4; rewrite Z.mul_comm, Z.div_mul; lia).
      rewrite Q5. fold point.
      replace (if ef =? 0 then (ef + - bias + 1, [48; point]) else (ef + - bias, [49; point])) with
        (e2, [digit_char (hf_upper fl) lead; point]).
      2: { unfold lead, e2. destruct (Z.eqb_spec ef 0) as [E|E]; f_equal; try lia; destruct (hf_upper fl); reflexivity. }
      cbv beta iota. rewrite <- emit_app.
      destruct (emit [digit_char (hf_upper fl) lead; point] s2) as [s3| |]; cbn [obind]; try reflexivity.
      rewrite main_impl_spec; try (destruct Wd; assumption || lia || tauto).
      2: { split; [lia|]. apply Z.lt_le_trans with (16 ^ (T - d4)); [lia|].
           change 16 with (2 ^ 4). rewrite <- Z.pow_mul_r by lia. apply Z.pow_le_mono_r; lia. }
      cbn [lift obind]. rewrite <- emit_app. fold frac. 
      destruct (emit (map (digit_char (hf_upper fl)) frac) s3) as [s4| |]; cbn [obind]; try reflexivity.
      exact (Ep s4).
Qed.
End Hex.
Lemma hex_special f fl sign mf ef buf pos : known f -> 0 <= mf < 2 ^ mbits f -> 0 <= ef < 2 ^ ebits f ->
  (ef = 2 ^ ebits f - 1 \/ (mf = 0 /\ ef = 0)) ->
  print_rsvhexfloat_define f fl (bits_of f sign mf ef) (buf, pos) =
  emit (sign_is (hf_showpos fl) sign ++
    (if ef =? 0 then hex_prefix fl ++ hex0p0 (hf_upper fl)
     else nan_chars (hf_upper fl) (negb (mf =? 0)))) (buf, pos).
Proof.
  intros Kf Hm He H. unfold print_rsvhexfloat_define. rewrite punned by assumption. rewrite mask_is by assumption. cbv zeta.
  rewrite sign_chars_is, <- emit_app.
  destruct (emit (sign_is (hf_showpos fl) sign) (buf, pos)) as [st| |] eqn:E; cbn [obind]; try reflexivity.
  assert (M : 0 < 2 ^ ebits f - 1) by (destruct Kf as [-> | ->]; reflexivity).
  destruct (Z.eqb_spec ef (2 ^ ebits f - 1)) as [X|X].
  - destruct (Z.eqb_spec ef 0); [lia|]. reflexivity.
  - destruct H as [H|[-> ->]]; [contradiction|]. change ((0 =? 0) && (0 =? 0)) with true. change (0 =? 0) with true. cbv iota.
    rewrite <- emit_app. unfold hex_prefix. destruct (hf_showbase fl); [reflexivity|].
    rewrite emit_nil by exact (emit_in _ _ _ E). reflexivity.
Qed.
