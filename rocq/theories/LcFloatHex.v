(** Hexadecimal floating point numbers printed with the decimal point of a locale. *)
From Coq Require Import QArith Qabs.
From Verif Require Import Base LcModel LcSpec Outcome NumSpec NumFacts IntPrintModel IntPrintProofs JeaiiiProofs IntPrintCorrect
  FloatTables FloatModel FloatSpec FloatTextSpec FloatTextModel FloatRoundProofs FloatCodeProofs FloatImplProofs
  FloatTextProofs FloatTextCases FloatTextForms FloatTextMeaning FloatReachProofs FloatPrintProofs FloatHexProofs LcFloatSpec LcFloatModel
  LcFloatProofs LcFloatMeaning.
Local Open Scope Z_scope.

Section Hex.
Variables (f : fmt) (fl : hflags) (mf ef : Z).
Hypothesis Kf : known f.
Hypothesis Hf : finite f mf ef.
Hypothesis Hz : 0 < mf \/ 0 < ef.
Let mark : Z := if hf_upper_e fl then 80 else 112.
Let bias := bias_of f.
Let mb := mbits f.
Let e2 : Z := Z.max ef 1 - bias.
Let mk : Z := 4 * ((mb + 3) / 4) - mb.
Let T : Z := (mb + 3) / 4.
Let hex_exp_part := hex_exp_part f fl ef.
Let hex_prefix := hex_prefix fl.

Lemma lc_hex_is : exists t, hex_means f mf ef t /\ n_int t <> [] /\ digits_ok 16 (n_int t) /\ digits_ok 16 (n_frac t) /\
  forall point, exists txt, lc_text_of 16 (hf_upper fl) [] [] point mark 1 t txt /\
    zlen txt <= T + 7 + zlen point /\
    forall sign buf pos, lc_print_rsvhexfloat_define f fl point (bits_of f sign mf ef) (buf, pos) =
    emit (sign_is (hf_showpos fl) sign ++ hex_prefix ++ txt) (buf, pos).
Proof.
  pose proof Hf as [Hm He].
  assert (B : 0 <= mk <= 1 /\ mb + mk = 4 * T /\ mb <= 52 /\ 0 < mb /\ mb + 2 < mantw f /\ mantw f <= 64 /\ 0 < T <= 13).
  { unfold mk, T, mb. destruct Kf as [E | E]; rewrite E; cbn [mbits mantw binary32 binary64]; vm_compute; intuition discriminate. }
  assert (Mk : ((mb / 4 + 1) * 4 - mb) mod 4 = mk).
  { unfold mk, mb. destruct Kf as [E | E]; rewrite E; reflexivity. }
  assert (Bi : Z.shiftr (2 ^ ebits f) 1 - 1 = bias).
  { unfold bias, bias_of. destruct Kf as [E | E]; rewrite E; reflexivity. }
  assert (Wd : In (mantw f) int_widths /\ mantw f <> 128).
  { destruct Kf as [E | E]; rewrite E; split; try discriminate; cbn; tauto. }
  assert (Eb : Z.abs e2 < 2000).
  { unfold e2, bias, bias_of. destruct Kf as [E | E]; rewrite E in *; cbn [mantw ebits binary32 binary64] in *.
    - change (2 ^ (8 - 1) - 1) with 127. change (2 ^ 8 - 1) with 255 in He. lia.
    - change (2 ^ (11 - 1) - 1) with 1023. change (2 ^ 11 - 1) with 2047 in He. lia. }
  assert (El : zlen (dtext (Z.abs e2) (hex_exp_len (Z.abs e2))) <= 4).
  { unfold hex_exp_len. rewrite dtext_len; repeat match goal with |- context [if ?c then _ else _] => destruct c end; lia. }
  assert (Start : forall sign buf pos k txt, (forall s2, k s2 = emit txt s2) ->
    (let! st := emit (sign_chars (hf_showpos fl) sign) (buf, pos) in
     let! st := if hf_showbase fl then emit (show_base 16 (hf_upper_showbase fl)) st else Done st in k st) =
    emit (sign_is (hf_showpos fl) sign ++ hex_prefix ++ txt) (buf, pos)).
  { intros sign buf pos k txt Hk. rewrite sign_chars_is, <- emit_app.
    destruct (emit (sign_is (hf_showpos fl) sign) (buf, pos)) as [s1| |] eqn:E1; cbn [obind]; try reflexivity.
    pose proof (emit_in _ _ _ E1) as R1. rewrite <- emit_app. unfold hex_prefix, FloatHexProofs.hex_prefix. destruct (hf_showbase fl).
    - change (show_base 16 (hf_upper_showbase fl)) with [48; if hf_upper_showbase fl then 88 else 120].
      destruct (emit _ s1) as [s2| |]; cbn [obind]; try reflexivity. apply Hk.
    - rewrite emit_nil by assumption. cbn [obind]. apply Hk. }
  assert (Etxt : exists dtxt, hex_exp_part = [mark; if e2 <? 0 then 45 else 43] ++ dtxt /\ exponent_digits 1 (Z.abs e2) dtxt).
  { eexists. split; [reflexivity|]. apply hex_exp_digits. lia. }
  assert (Ll : zlen hex_exp_part <= 6) by (unfold hex_exp_part, FloatHexProofs.hex_exp_part; fold bias; fold e2; fold mark; rewrite zlen_app; change (zlen [mark; if e2 <? 0 then 45 else 43]) with 2; lia).
  assert (Ep : forall st, (let! st := emit [mark] st in with_sign_prt_rsv_exponent_hex f e2 st) = emit hex_exp_part st).
  { intros st. unfold hex_exp_part, FloatHexProofs.hex_exp_part. fold bias. fold e2. fold mark. change ([mark; if e2 <? 0 then 45 else 43] ++ dtext (Z.abs e2) (hex_exp_len (Z.abs e2))) with
      ([mark] ++ ([if e2 <? 0 then 45 else 43] ++ dtext (Z.abs e2) (hex_exp_len (Z.abs e2)))). rewrite <- emit_app.
    destruct (emit [mark] st) as [s1| |]; cbn [obind]; try reflexivity. apply (hex_exp_is f fl mf ef Kf (conj Hm He)). }
  assert (Nz : (mf =? 0) && (ef =? 0) = false) by (destruct (Z.eqb_spec mf 0), (Z.eqb_spec ef 0); cbn [andb]; lia).
  assert (Nm : (ef =? 2 ^ ebits f - 1) = false) by (apply Z.eqb_neq; lia).
  set (lead := if ef =? 0 then 0 else 1).
  assert (Ld : 0 <= lead <= 1) by (unfold lead; destruct (ef =? 0); lia).
  destruct (Z.eq_dec mf 0) as [M0|M0].
  - exists (mk_number [1] [] (Some e2)).
    assert (L1 : lead = 1) by (unfold lead; destruct (Z.eqb_spec ef 0); lia).
    unfold hex_means. cbv zeta. fold mb. fold bias. fold T.
    split; [|split; [discriminate|split; [constructor; [lia|constructor]|split; [constructor|]]]].
    + split; [|split; [fold lead; rewrite L1; reflexivity|split; [left; reflexivity|cbn [n_frac]; change (zlen []) with 0; lia]]].
      unfold hex_value, exponent_of. cbn [n_int n_frac n_exp app]. change (value_of 16 [1]) with 1. change (zlen []) with 0.
      unfold significand, exponent. rewrite M0. destruct (Z.eqb_spec ef 0) as [E|E]; [lia|].
      rewrite (bin_shift 1 (Z.max ef 1 - bias - mb) (e2 - 4 * 0)) by (unfold e2; lia).
      replace (1 * 2 ^ (e2 - 4 * 0 - (Z.max ef 1 - bias - mb))) with (0 + 2 ^ mb); [reflexivity|].
      replace (e2 - 4 * 0 - (Z.max ef 1 - bias - mb)) with mb by (unfold e2; lia). lia.
    + intros point. exists ([49] ++ hex_exp_part). split; [|split].
      { exists hex_exp_part. split; [exact Etxt|destruct (hf_upper fl); reflexivity]. }
      { rewrite zlen_app. change (zlen [49]) with 1. pose proof (zlen_nonneg point). lia. }
      intros sign buf pos. unfold lc_print_rsvhexfloat_define. rewrite punned by (try assumption; lia).
      rewrite mask_is by assumption. fold mb. rewrite Mk, Bi. cbv zeta. rewrite Nm, Nz.
      apply (Start sign buf pos _ ([49] ++ hex_exp_part)). intros s2.
      rewrite M0. change (negb (0 =? 0)) with false. cbv iota. rewrite <- emit_app.
      destruct (emit [49] s2) as [s3| |]; cbn [obind]; try reflexivity. cbv beta iota zeta.
      replace (ef + - bias) with e2; [|unfold e2; destruct (Z.eqb_spec ef 0); lia].
      exact (Ep s3).
  - assert (M0' : 0 < mf) by lia.
    destruct (hex_digits f fl mf ef Kf Hf Hz M0') as (d4 & m' & D4 & EM & M1 & M2 & EQ).
    fold mb in EM, M1, D4, EQ; fold mk in EM, EQ; fold T in D4, M1, EQ; destruct (countr_zero 64 mf) as [tz| |] eqn:Q1; try discriminate EQ. cbn [obind] in EQ. cbv zeta in EQ.
    destruct (ushl (mantw f) mf mk) as [a| |] eqn:Q2; try discriminate EQ. cbn [obind] in EQ.
    destruct (ushr (mantw f) a (wrap 32 (Z.shiftl (Z.shiftr (wrap 32 (tz + mk)) 2) 2))) as [a'| |] eqn:Q3; try discriminate EQ.
    cbn [obind] in EQ. injection EQ as Q4 Q5. rewrite Q4 in Q3.
    set (frac := digs 16 (Z.to_nat (T - d4)) m').
    assert (Fl : zlen frac = T - d4) by (unfold frac, zlen; rewrite digs_length; lia).
    assert (Fv : value_of 16 frac = m').
    { unfold frac. rewrite digs_value by lia. rewrite Z2Nat.id by lia. apply Z.mod_small. lia. }
    assert (F0 : frac <> []) by (intros X; rewrite X in Fl; change (zlen []) with 0 in Fl; lia).
    exists (mk_number [lead] frac (Some e2)).
    unfold hex_means. cbv zeta. fold mb. fold bias. fold T.
    split; [|split; [discriminate|split; [constructor; [lia|constructor]|split; [apply digs_ok; lia|]]]].
    + split; [|split; [reflexivity|split; [right|cbn [n_frac]; lia]]].
      * unfold hex_value, exponent_of. cbn [n_int n_frac n_exp]. rewrite value_of_app, Fv.
        fold (zlen frac). rewrite Fl. replace (value_of 16 [lead]) with lead by (rewrite value_of_cons; change (value_of 16 []) with 0; cbn [length]; lia).
        unfold significand, exponent. fold e2.
        rewrite (bin_shift _ (e2 - mb - mk) (e2 - 4 * (T - d4))) by lia.
        rewrite (bin_shift _ (e2 - mb - mk) (e2 - mb)) by lia.
        replace (e2 - 4 * (T - d4) - (e2 - mb - mk)) with (4 * d4) by lia.
        replace (e2 - mb - (e2 - mb - mk)) with mk by lia.
        replace ((if ef =? 0 then mf else mf + 2 ^ mb) * 2 ^ mk) with ((lead * 16 ^ (T - d4) + m') * 2 ^ (4 * d4)); [reflexivity|].
        rewrite Z.mul_add_distr_r, <- EM. change 16 with (2 ^ 4). rewrite <- Z.mul_assoc, <- Z.pow_mul_r, <- Z.pow_add_r by lia.
        replace (4 * (T - d4) + 4 * d4) with (mb + mk) by lia. rewrite Z.pow_add_r by lia.
        unfold lead. destruct (ef =? 0); ring.
      * cbn [n_frac]. unfold frac. replace (Z.to_nat (T - d4)) with (S (Z.to_nat (T - d4 - 1))) by lia. cbn [digs]. rewrite last_last. assumption.
    + intros point. exists ([digit_char (hf_upper fl) lead] ++ point ++ map (digit_char (hf_upper fl)) frac ++ hex_exp_part). split; [|split].
      { exists hex_exp_part. split; [exact Etxt|]. cbn [n_frac n_int n_exp]. destruct frac; [contradiction|]. rewrite <- app_assoc. reflexivity. }
      { rewrite !zlen_app. replace (zlen (map (digit_char (hf_upper fl)) frac)) with (zlen frac) by (unfold zlen; rewrite map_length; reflexivity).
        change (zlen [digit_char (hf_upper fl) lead]) with 1. lia. }
      intros sign buf pos. unfold lc_print_rsvhexfloat_define. rewrite punned by (try assumption; lia).
      rewrite mask_is by assumption. fold mb. rewrite Mk, Bi. cbv zeta. rewrite Nm, Nz.
      apply (Start sign buf pos _ ([digit_char (hf_upper fl) lead] ++ point ++ map (digit_char (hf_upper fl)) frac ++ hex_exp_part)). intros s2.
      destruct (Z.eqb_spec mf 0) as [X|_]; [contradiction|]. cbn [negb].
      rewrite Q1. cbn [obind]. rewrite Q2. cbn [obind]. rewrite Q3. cbn [obind].
      replace (Z.shiftr (mb + mk) 2) with T by (destruct B as (_ & -> & _); rewrite Z.shiftr_div_pow2 by lia; change (2 ^ 2) with 4; rewrite Z.mul_comm, Z.div_mul; lia).
      rewrite Q5.
      replace (if ef =? 0 then (ef + - bias + 1, [48]) else (ef + - bias, [49])) with
        (e2, [digit_char (hf_upper fl) lead]).
      2: { unfold lead, e2. destruct (Z.eqb_spec ef 0) as [E|E]; f_equal; try lia; destruct (hf_upper fl); reflexivity. }
      cbv beta iota. rewrite <- emit_app.
      destruct (emit [digit_char (hf_upper fl) lead] s2) as [s3| |]; cbn [obind]; try reflexivity.
      rewrite <- emit_app. destruct (emit point s3) as [s4| |]; cbn [obind]; try reflexivity.
      rewrite main_impl_spec; try (destruct Wd; assumption || lia || tauto).
      2: { split; [lia|]. apply Z.lt_le_trans with (16 ^ (T - d4)); [lia|].
           change 16 with (2 ^ 4). rewrite <- Z.pow_mul_r by lia. apply Z.pow_le_mono_r; lia. }
      cbn [lift obind]. rewrite <- emit_app. fold frac. 
      destruct (emit (map (digit_char (hf_upper fl)) frac) s4) as [s5| |]; cbn [obind]; try reflexivity.
      exact (Ep s5).
Qed.
End Hex.
(** Without a locale: the point of the flags. *)
Lemma plain_hexfloat f fl bits st : print_rsvhexfloat_define f fl bits st = lc_print_rsvhexfloat_define f fl [point_of (hf_comma fl)] bits st.
Proof.
  unfold print_rsvhexfloat_define, lc_print_rsvhexfloat_define. destruct (get_punned_result f bits) as [[mf ef] sign]. cbv zeta.
  destruct (emit (sign_chars (hf_showpos fl) sign) st) as [s1| |]; cbn [obind]; try reflexivity.
  destruct (_ =? _); [reflexivity|].
  destruct (if hf_showbase fl then _ else _) as [s2| |]; cbn [obind]; try reflexivity.
  destruct ((mf =? 0) && (ef =? 0)); [reflexivity|]. destruct (negb (mf =? 0)); [|reflexivity].
  destruct (countr_zero 64 mf) as [tz| |]; cbn [obind]; try reflexivity.
  destruct (ushl _ _ _) as [a1| |]; cbn [obind]; try reflexivity. destruct (ushr _ _ _) as [a2| |]; cbn [obind]; try reflexivity.
  destruct (ef =? 0); cbv beta iota.
  - change [48; point_of (hf_comma fl)] with ([48] ++ [point_of (hf_comma fl)]). rewrite <- emit_app. destruct (emit [48] s2); reflexivity.
  - change [49; point_of (hf_comma fl)] with ([49] ++ [point_of (hf_comma fl)]). rewrite <- emit_app. destruct (emit [49] s2); reflexivity.
Qed.
Lemma plain_text base upper p mark least t txt : n_int t <> [] -> digits_ok base (n_int t) -> digits_ok base (n_frac t) ->
  lc_text_of base upper [] [] [p] mark least t txt -> text_of base upper p mark least t txt.
Proof.
  intros H1 H2 H3 (etxt & H4 & H5). split; [exact H1|]. split; [exact H2|]. split; [exact H3|]. exists etxt. split; [exact H4|].
  rewrite H5. rewrite grouped_none. destruct (n_exp t); reflexivity.
Qed.
