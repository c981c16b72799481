(** Floating point numbers printed with a locale (include/fast_io_unit/floating/lc_roundtrip.h, lc_hexfloat.h, lc_impl.h). *)
From Coq Require Import QArith.
From Verif Require Import Base LcModel LcSpec LcProofs Outcome NumSpec IntSizeProofs FloatTables FloatModel FloatSpec FloatTextSpec FloatTextModel FloatImplProofs
  FloatTextProofs FloatTextCases FloatTextForms FloatTextMeaning FloatReachProofs FloatPrintProofs FloatHexProofs
  LcFloatSpec LcFloatModel LcFloatProofs LcFloatMeaning LcFloatReach LcFloatHex.
Local Open Scope Z_scope.

(** As in PropsFloatText.v: [stored buf pos txt] is the destination with [txt] in the cells from [pos] on and nothing else changed,
    together with the position after it; [bits_of f sign mf ef] is the number with these IEEE 754 fields. *)
Definition sign_text (showpos sign : bool) : list Z := if sign then [45] else if showpos then [43] else [].
Definition grouping_ok (lc : lc_numeric) : Prop := Forall (fun e => 0 <= e) (lc_grouping lc).

(** * C136: the text with a locale is a text of the same number *)
Lemma same_len f d e l1 l2 : known f -> reach f d e l1 -> reach f d e l2 -> l1 = l2.
Proof.
  intros Kf (_ & A & _) (_ & B & _).
  assert (l1 <= l2) by (apply (digit_count_lt 10 d l2 l1); try lia; [apply B|apply B|exact A]).
  assert (l2 <= l1) by (apply (digit_count_lt 10 d l1 l2); try lia; [apply A|apply A|exact B]). lia.
Qed.
Theorem C136_same_number : forall sizet f fl lc mt sign mf ef, sizet = 32 \/ sizet = 64 -> f = binary32 \/ f = binary64 ->
  0 <= mf < 2 ^ mbits f -> 0 <= ef < 2 ^ ebits f - 1 -> (0 < mf \/ 0 < ef) -> grouping_ok lc ->
  exists d e t txt ltxt, dragonbox_impl sizet f mf ef = Done (d, e) /\
    (* without a locale *)
    text_of 10 false (if ff_comma fl then 44 else 46) (if ff_upper_e fl then 69 else 101) 2 t txt /\
    (forall buf pos, 0 <= pos -> pos + zlen (sign_text (ff_showpos fl) sign ++ txt) <= zlen buf ->
       print_rsvflt_define sizet f fl mt (bits_of f sign mf ef) (buf, pos) = Done (stored buf pos (sign_text (ff_showpos fl) sign ++ txt))) /\
    (* with it *)
    lc_text_of 10 false (lc_grouping lc) (lc_sep lc) (lc_point lc) (if ff_upper_e fl then 69 else 101) 2 t ltxt /\
    (forall buf pos, 0 <= pos -> pos + zlen (sign_text (ff_showpos fl) sign ++ ltxt) <= zlen buf ->
       lc_print_rsvflt_define sizet f fl lc mt (bits_of f sign mf ef) (buf, pos) = Done (stored buf pos (sign_text (ff_showpos fl) sign ++ ltxt))) /\
    (decimal_value t == dec d e)%Q /\
    match mt with
    | general => if (-5 <? e) && (e <? 7) then fixed_form t else scientific_form t
    | scientific => scientific_form t
    | decimal => scientific_form t \/ fixed_form t
    | fixed => fixed_form t
    end /\ (sizet = 64 \/ f = binary32 -> no_trailing_zero t).
Proof.
  intros sizet f fl lc mt sign mf ef Hs Kf Hm He Hz HF.
  destruct (lc_reach sizet f mf ef Hs Kf (conj Hm He) Hz) as (d & e & len & I & R & N & _).
  destruct (lc_chosen_means f fl lc d e len Kf R HF mt) as (t & T1 & T2 & T3 & T4 & T5).
  exists d, e, t, (chosen f fl d e len mt), (lc_chosen f fl lc d e len mt). split; [assumption|]. split; [exact T1|]. split.
  { intros buf pos Hp Hb. destruct (print_finite sizet f fl mt sign mf ef buf pos Hs Kf (conj Hm He) Hz Hp) as (d' & e' & len' & I' & R' & _ & E).
    assert (X : d' = d /\ e' = e) by (split; congruence). destruct X as [-> ->]. rewrite (same_len f d e len' len Kf R' R) in E.
    rewrite E. apply emit_stored; [exact Hp|exact Hb]. }
  split; [exact T2|]. split.
  { intros buf pos Hp Hb. destruct (lc_print_finite sizet f fl lc mt sign mf ef buf pos Hs Kf (conj Hm He) Hz Hp HF) as (d' & e' & len' & I' & R' & _ & E).
    assert (X : d' = d /\ e' = e) by (split; congruence). destruct X as [-> ->]. rewrite (same_len f d e len' len Kf R' R) in E.
    rewrite E. apply emit_stored; [exact Hp|exact Hb]. }
  split; [exact T3|]. split; [exact T4|]. intros H. apply T5, N, H.
Qed.
Print Assumptions C136_same_number.
(** Zeros, infinities and NaNs are written as without a locale. *)
Theorem C136_special : forall sizet f fl lc mt sign mf ef buf pos, f = binary32 \/ f = binary64 ->
  0 <= mf < 2 ^ mbits f -> 0 <= ef < 2 ^ ebits f -> (ef = 2 ^ ebits f - 1 \/ (mf = 0 /\ ef = 0)) ->
  lc_print_rsvflt_define sizet f fl lc mt (bits_of f sign mf ef) (buf, pos) = print_rsvflt_define sizet f fl mt (bits_of f sign mf ef) (buf, pos).
Proof. intros. apply lc_print_special; assumption. Qed.
Print Assumptions C136_special.
(** A locale with the point of the C locale and no grouping changes nothing. *)
Theorem C136_c_locale : forall sizet f fl g s mt sign mf ef buf pos, sizet = 32 \/ sizet = 64 -> f = binary32 \/ f = binary64 ->
  0 <= mf < 2 ^ mbits f -> 0 <= ef < 2 ^ ebits f -> 0 <= pos -> g = [] \/ s = [] -> Forall (fun e => 0 <= e) g ->
  lc_print_rsvflt_define sizet f fl (mk_lc [if ff_comma fl then 44 else 46] s g) mt (bits_of f sign mf ef) (buf, pos) =
  print_rsvflt_define sizet f fl mt (bits_of f sign mf ef) (buf, pos).
Proof.
  intros sizet f fl g s mt sign mf ef buf pos Hs Kf Hm He Hp Hg HF. set (lc := mk_lc _ s g).
  destruct (Z.eq_dec ef (2 ^ ebits f - 1)) as [E|E]; [apply C136_special; auto|].
  destruct (Z.eq_dec (mf + ef) 0) as [M|M]; [apply C136_special; try assumption; right; lia|].
  assert (Hf : finite f mf ef) by (split; [exact Hm|lia]). assert (Hz : 0 < mf \/ 0 < ef) by lia.
  destruct (lc_print_finite sizet f fl lc mt sign mf ef buf pos Hs Kf Hf Hz Hp HF) as (d & e & len & I & R & _ & ->).
  destruct (print_finite sizet f fl mt sign mf ef buf pos Hs Kf Hf Hz Hp) as (d' & e' & len' & I' & R' & _ & ->).
  assert (X : d' = d /\ e' = e) by (split; congruence). destruct X as [-> ->]. rewrite (same_len f d e len' len Kf R' R).
  f_equal. f_equal.
  assert (LD : forall l, locale_digits lc l = l).
  { intros l. unfold locale_digits, no_grouping, lc. cbn [lc_grouping lc_sep]. destruct Hg as [-> | ->]; [reflexivity|]. rewrite orb_true_r. reflexivity. }
  assert (FT : lc_fixed_text lc d e len = fixed_text fl d e len).
  { unfold lc_fixed_text, fixed_text, case1_text. cbv zeta. rewrite !LD. reflexivity. }
  assert (ST : lc_scientific_text f fl lc d e len = scientific_text f fl d e len) by reflexivity.
  unfold lc_chosen, chosen. rewrite FT, ST. reflexivity.
Qed.
Print Assumptions C136_c_locale.
(** 1234567.25 with point "," and groups of three separated by " "; 1e22 is scientific in general format. *)
Example C136_case : let de := mk_lc [44] [32] [3] in
  grouping_ok de /\ bits_of binary64 false 798826336092160 1043 < 2 ^ 64 /\
  lc_print_rsvflt_define 64 binary64 (mk_fflags false false false false) de fixed (bits_of binary64 false 798826336092160 1043) (repeat 0 13, 1) =
    Done (stored (repeat 0 13) 1 [49; 32; 50; 51; 52; 32; 53; 54; 55; 44; 50; 53]).
Proof. split; [repeat constructor; lia|]. split; [reflexivity|]. vm_compute. reflexivity. Qed.

(** * C137: the space reserved for it *)
Lemma dtl m len : 0 <= len -> zlen (dtext m len) = len.
Proof. apply dtext_len. Qed.
Section Lengths.
Variables (f : fmt) (fl : fflags) (lc : lc_numeric) (m e len : Z).
Hypothesis Kf : known f.
Hypothesis R : reach f m e len.
Hypothesis HF : grouping_ok lc.
(** How many digits the fixed text has before the point, if these are grouped. *)
Definition int_digits : Z := Z.max 1 (e + len).
Lemma fixed_zlen : exists g, zlen (lc_fixed_text lc m e len) = g + (if 0 <=? e then 0 else zlen (lc_point lc) + (if len <? - e then - e else Z.min len (- e))) /\
  (g <= int_digits + (int_digits - 1) * zlen (lc_sep lc)) /\
  (Forall (fun e => e = 0 \/ 2 <= e) (lc_grouping lc) -> 2 * g <= 2 * int_digits + (int_digits - 1) * zlen (lc_sep lc)).
Proof.
  pose proof (reach_len f m e len R) as LR. unfold lc_fixed_text, int_digits. cbv zeta. rewrite !(locale_digits_is fl lc HF).
  pose proof (zlen_nonneg (lc_sep lc)) as S0.
  assert (G : forall l, 1 <= zlen l -> zlen (grouped (lc_grouping lc) (lc_sep lc) l) <= zlen l + (zlen l - 1) * zlen (lc_sep lc)).
  { intros l H. apply grouped_zlen; [exact HF|]. intros X. rewrite X in H. cbn in H. lia. }
  assert (G2 : forall l, 1 <= zlen l -> Forall (fun e => e = 0 \/ 2 <= e) (lc_grouping lc) ->
    2 * zlen (grouped (lc_grouping lc) (lc_sep lc) l) <= 2 * zlen l + (zlen l - 1) * zlen (lc_sep lc)).
  { intros l H H2. apply grouped_zlen2; [exact H2|]. intros X. rewrite X in H. cbn in H. lia. }
  destruct (Z.leb_spec len (e + len - 1)) as [L|L]; [|destruct (Z.leb_spec 0 (e + len - 1)) as [L0|L0]; [destruct (Z.eqb_spec len (e + len - 1 + 1)) as [E|E]|]].
  - set (l := dtext m len ++ _). assert (ZL : zlen l = e + len) by (unfold l; rewrite zlen_app, dtl by lia; unfold zlen; rewrite repeat_length; lia).
    exists (zlen (grouped (lc_grouping lc) (lc_sep lc) l)). destruct (Z.leb_spec 0 e); [|lia]. replace (Z.max 1 (e + len)) with (zlen l) by lia.
    split; [lia|]. split; [apply G; lia|apply G2; lia].
  - exists (zlen (grouped (lc_grouping lc) (lc_sep lc) (dtext m len))). destruct (Z.leb_spec 0 e); [|lia].
    replace (Z.max 1 (e + len)) with (zlen (dtext m len)) by (rewrite dtl; lia).
    split; [lia|]. rewrite dtl by lia. split; [rewrite <- (dtl m len) at 2 3 by lia; apply G; rewrite dtl; lia|].
    intros H2. rewrite <- (dtl m len) at 2 3 by lia. apply G2; [rewrite dtl; lia|exact H2].
  - set (l := firstn (Z.to_nat (e + len - 1 + 1)) (dtext m len)).
    assert (ZL : zlen l = e + len) by (pose proof (dtl m len ltac:(lia)) as X; unfold l, zlen in *; rewrite firstn_length; lia).
    assert (ZS : zlen (skipn (Z.to_nat (e + len - 1 + 1)) (dtext m len)) = - e) by (pose proof (dtl m len ltac:(lia)) as X; unfold zlen in *; rewrite skipn_length; lia).
    exists (zlen (grouped (lc_grouping lc) (lc_sep lc) l)). destruct (Z.leb_spec 0 e); [lia|]. replace (Z.max 1 (e + len)) with (zlen l) by lia.
    rewrite !zlen_app, ZS. destruct (Z.ltb_spec len (- e)); [lia|]. split; [lia|]. split; [apply G; lia|apply G2; lia].
  - exists 1. rewrite !zlen_app, dtl by lia. unfold zlen at 1 3. rewrite repeat_length. cbn [length]. destruct (Z.leb_spec 0 e); [lia|].
    replace (Z.max 1 (e + len)) with 1 by lia. destruct (Z.ltb_spec len (- e)); split; lia.
Qed.
Lemma scientific_zlen : zlen (lc_scientific_text f fl lc m e len) <= m10digits f + zlen (lc_point lc) + 2 + e10digits f.
Proof.
  pose proof (reach_len f m e len R) as LR. pose proof (len_bound (mantw f) m len (proj1 R) (proj1 (proj2 R))) as LB.
  pose proof (zlen_nonneg (lc_point lc)) as P0.
  assert (A : zlen (lc_scientific_text f fl lc m e len) <= len + zlen (lc_point lc) + (2 + exp_len f (e + len - 1))).
  { unfold lc_scientific_text, exp_text, with_point. rewrite !zlen_app. rewrite (dtl (Z.abs _)) by (unfold exp_len; destruct (_ && _); lia).
    change (zlen [_; _]) with 2. assert (X : zlen (if len =? 1 then dtext m len else firstn (Z.to_nat 1) (dtext m len) ++ lc_point lc ++ skipn (Z.to_nat 1) (dtext m len)) <= len + zlen (lc_point lc)); [|lia].
    destruct (len =? 1); [rewrite dtl; lia|]. rewrite !zlen_app. pose proof (dtl m len ltac:(lia)) as D. unfold zlen in *. rewrite firstn_length, skipn_length. lia. }
  revert A LB. unfold exp_len. destruct Kf as [-> | ->]; cbn [mantw binary32 binary64 m10digits e10digits]; unfold digits_bound.
  - change (32 =? 64) with false. change (2 =? 3) with false. cbn [andb]. lia.
  - change (64 =? 64) with true. change (3 =? 3) with true. cbn [andb]. destruct (100 <=? _); lia.
Qed.
Lemma lc_chosen_fits mt : mt = fixed \/ mt = scientific \/ Forall (fun e => e = 0 \/ 2 <= e) (lc_grouping lc) ->
  zlen (lc_chosen f fl lc m e len mt) + 1 <= lc_float_size f mt lc.
Proof.
  intros H. pose proof (reach_len f m e len R) as LR. pose proof (len_bound (mantw f) m len (proj1 R) (proj1 (proj2 R))) as LB.
  pose proof (zlen_nonneg (lc_point lc)) as P0. pose proof (zlen_nonneg (lc_sep lc)) as S0.
  pose proof scientific_zlen as SZ. destruct fixed_zlen as (g & FZ & G1 & G2).
  pose proof (proj1 (proj2 (proj2 R))) as R1. pose proof (proj2 (proj2 (proj2 R))) as R2. revert R1 R2 LB. unfold dec_min, dec_max, digits_bound.
  unfold int_digits, lc_float_size in *. set (p := zlen (lc_point lc)) in *. set (s := zlen (lc_sep lc)) in *. clearbody p s.
  destruct mt; unfold lc_chosen.
  - destruct H as [H|[H|H]]; [discriminate|discriminate|]. specialize (G2 H).
    destruct (Z.ltb_spec (-5) e); cbn [andb]; [destruct (Z.ltb_spec e 7)|].
    + rewrite FZ. destruct (Z.leb_spec 0 e); [|destruct (Z.ltb_spec len (- e))]; destruct Kf as [-> | ->]; cbn [mantw binary32 binary64 m10digits e10digits Z.eqb Pos.eqb]; intros; nia.
    + destruct Kf as [-> | ->]; cbn [mantw binary32 binary64 m10digits e10digits Z.eqb Pos.eqb] in *; intros; nia.
    + destruct Kf as [-> | ->]; cbn [mantw binary32 binary64 m10digits e10digits Z.eqb Pos.eqb] in *; intros; nia.
  - unfold print_rsvflt_size. lia.
  - destruct H as [H|[H|H]]; [discriminate|discriminate|]. specialize (G2 H).
    destruct (take_scientific e len) eqn:TS.
    + destruct Kf as [-> | ->]; cbn [mantw binary32 binary64 m10digits e10digits Z.eqb Pos.eqb] in *; intros; nia.
    + unfold take_scientific in TS. cbv zeta in TS. rewrite FZ.
      destruct (Z.leb_spec len (e + len - 1)); destruct (Z.leb_spec 0 (e + len - 1)); destruct (Z.leb_spec 0 e); destruct (Z.ltb_spec len (- e)); try lia;
        destruct (Z.eqb_spec len 1); destruct (Z.eqb_spec len (e + len - 1 + 1)); apply Z.ltb_ge in TS; try lia;
        destruct Kf as [-> | ->]; cbn [mantw binary32 binary64 m10digits e10digits Z.eqb Pos.eqb] in *; intros; nia.
  - rewrite FZ. clear SZ G2 H.
    destruct (Z.leb_spec 0 e); [|destruct (Z.ltb_spec len (- e))]; destruct Kf as [-> | ->]; cbn [mantw binary32 binary64 m10digits e10max Z.eqb Pos.eqb]; intros; nia.
Qed.
End Lengths.
(** What the library reserves for a number is enough: in fixed and scientific format always, in general and decimal format if no
    group of the locale is a single digit. *)
Theorem C137_reserved_space_partial : forall sizet f fl lc mt sign mf ef buf pos, sizet = 32 \/ sizet = 64 -> f = binary32 \/ f = binary64 ->
  0 <= mf < 2 ^ mbits f -> 0 <= ef < 2 ^ ebits f -> grouping_ok lc ->
  mt = fixed \/ mt = scientific \/ Forall (fun e => e = 0 \/ 2 <= e) (lc_grouping lc) ->
  0 <= pos -> pos + lc_float_size f mt lc <= zlen buf ->
  exists txt, lc_print_rsvflt_define sizet f fl lc mt (bits_of f sign mf ef) (buf, pos) = Done (stored buf pos txt) /\
    zlen txt <= lc_float_size f mt lc.
Proof.
  intros sizet f fl lc mt sign mf ef buf pos Hs Kf Hm He HF HG Hp Hb. pose proof (sign_len (ff_showpos fl) sign) as SL.
  pose proof (zlen_nonneg (lc_point lc)) as P0. pose proof (zlen_nonneg (lc_sep lc)) as S0.
  assert (Sp : (ef = 2 ^ ebits f - 1 \/ (mf = 0 /\ ef = 0)) \/ (ef < 2 ^ ebits f - 1 /\ (0 < mf \/ 0 < ef))) by lia.
  destruct Sp as [Sp|[L Hz]].
  - rewrite lc_print_special by assumption. rewrite (print_special sizet f fl mt sign mf ef buf pos Kf Hm He Sp).
    match goal with |- context [emit (_ ++ ?x)] => set (t := x) end.
    assert (X : zlen t <= 4) by (unfold t; destruct (ef =? 0), mt, (ff_upper fl), (mf =? 0); vm_compute; discriminate).
    assert (Y : 5 <= lc_float_size f mt lc).
    { unfold lc_float_size. destruct Kf as [-> | ->], mt; unfold print_rsvflt_size; cbn [m10digits e10digits e10max binary32 binary64]; nia. }
    exists (sign_is (ff_showpos fl) sign ++ t). rewrite zlen_app. split; [|lia]. apply emit_stored; [exact Hp|rewrite zlen_app; lia].
  - destruct (lc_print_finite sizet f fl lc mt sign mf ef buf pos Hs Kf (conj Hm (conj (proj1 He) L)) Hz Hp HF) as (d & e & len & I & R & N & E).
    pose proof (lc_chosen_fits f fl lc d e len Kf R HF mt HG) as CR.
    rewrite E. eexists. split; [apply emit_stored; [assumption|rewrite zlen_app; lia]|rewrite zlen_app; lia].
Qed.
Print Assumptions C137_reserved_space_partial.
(** With groups of one digit and a separator of two characters it is not: 10000000000000002000000 has 23 digits in general format. *)
Theorem C137_reserved_space_refuted : forall lc, lc = mk_lc [46] [194; 160] [1] ->
  grouping_ok lc /\ lc_float_size binary64 general lc = 67 /\
  forall fl, lc_print_rsvflt_define 64 binary64 fl lc general (bits_of binary64 true 264771954660755 1096) (repeat 0 67, 0) = Undefined /\
    exists txt, lc_print_rsvflt_define 64 binary64 fl lc general (bits_of binary64 true 264771954660755 1096) (repeat 0 68, 0) = Done (txt, 68).
Proof.
  intros lc ->. split; [repeat constructor; lia|]. split; [reflexivity|]. intros [a b c d].
  split; [vm_compute; destruct a, b, c, d; reflexivity|]. eexists. vm_compute. destruct a, b, c, d; reflexivity.
Qed.
Print Assumptions C137_reserved_space_refuted.
Example C137_case : let lc := mk_lc [44] [226; 128; 175] [3; 2] in
  grouping_ok lc /\ Forall (fun e => e = 0 \/ 2 <= e) (lc_grouping lc) /\ lc_float_size binary64 decimal lc = 87.
Proof. split; [repeat constructor; lia|]. split; [repeat (constructor; [lia|]); constructor|reflexivity]. Qed.

(** * C138: hexadecimal texts *)
Definition prefix_text (fl : hflags) : list Z := if hf_showbase fl then [48; if hf_upper_showbase fl then 88 else 120] else [].
Theorem C138_hexfloat_exact : forall f fl sign mf ef, f = binary32 \/ f = binary64 ->
  0 <= mf < 2 ^ mbits f -> 0 <= ef < 2 ^ ebits f - 1 -> (0 < mf \/ 0 < ef) ->
  exists t, (hex_value t == bin (significand (mbits f) mf ef) (exponent (mbits f) (2 ^ (ebits f - 1) - 1) ef))%Q /\
    n_int t = [if ef =? 0 then 0 else 1] /\ no_trailing_zero t /\ digits_ok 16 (n_frac t) /\
    (exists txt, text_of 16 (hf_upper fl) (if hf_comma fl then 44 else 46) (if hf_upper_e fl then 80 else 112) 1 t txt /\
      forall buf pos, 0 <= pos -> pos + zlen (sign_text (hf_showpos fl) sign ++ prefix_text fl ++ txt) <= zlen buf ->
      print_rsvhexfloat_define f fl (bits_of f sign mf ef) (buf, pos) = Done (stored buf pos (sign_text (hf_showpos fl) sign ++ prefix_text fl ++ txt))) /\
    forall point, exists txt, lc_text_of 16 (hf_upper fl) [] [] point (if hf_upper_e fl then 80 else 112) 1 t txt /\
      zlen (sign_text (hf_showpos fl) sign ++ prefix_text fl ++ txt) <= lc_hexfloat_size f (hf_showbase fl) point /\
      forall buf pos, 0 <= pos -> pos + zlen (sign_text (hf_showpos fl) sign ++ prefix_text fl ++ txt) <= zlen buf ->
      lc_print_rsvhexfloat_define f fl point (bits_of f sign mf ef) (buf, pos) = Done (stored buf pos (sign_text (hf_showpos fl) sign ++ prefix_text fl ++ txt)).
Proof.
  intros f fl sign mf ef Kf Hm He Hz.
  destruct (lc_hex_is f fl mf ef Kf (conj Hm He) Hz) as (t & (T1 & T2 & T3 & T4) & N1 & N2 & N3 & P).
  exists t. split; [exact T1|]. split; [exact T2|]. split; [exact T3|]. split; [exact N3|]. split.
  - destruct (P [point_of (hf_comma fl)]) as (txt & A & B & C). exists txt. split; [apply plain_text; assumption|].
    intros buf pos Hp Hb. rewrite plain_hexfloat, C. apply emit_stored; assumption.
  - intros point. destruct (P point) as (txt & A & B & C). exists txt. split; [exact A|]. split.
    + rewrite !zlen_app. pose proof (sign_len (hf_showpos fl) sign) as SL. change (sign_text (hf_showpos fl) sign) with (sign_is (hf_showpos fl) sign).
      assert (PL : zlen (prefix_text fl) = if hf_showbase fl then 2 else 0) by (unfold prefix_text; destruct (hf_showbase fl); reflexivity).
      assert (SZ : (mbits f + 3) / 4 + 12 + (if hf_showbase fl then 2 else 0) <= print_rsvhexfloat_size f (hf_showbase fl)).
      { destruct Kf as [-> | ->], (hf_showbase fl); vm_compute; discriminate. }
      unfold lc_hexfloat_size. lia.
    + intros buf pos Hp Hb. rewrite C. apply emit_stored; assumption.
Qed.
Print Assumptions C138_hexfloat_exact.
(** Zeros, infinities and NaNs are written as without a locale. *)
Theorem C138_special : forall f fl point sign mf ef buf pos, f = binary32 \/ f = binary64 ->
  0 <= mf < 2 ^ mbits f -> 0 <= ef < 2 ^ ebits f -> (ef = 2 ^ ebits f - 1 \/ (mf = 0 /\ ef = 0)) ->
  lc_print_rsvhexfloat_define f fl point (bits_of f sign mf ef) (buf, pos) = print_rsvhexfloat_define f fl (bits_of f sign mf ef) (buf, pos) /\
  (0 <= pos -> pos + lc_hexfloat_size f (hf_showbase fl) point <= zlen buf ->
   exists txt, lc_print_rsvhexfloat_define f fl point (bits_of f sign mf ef) (buf, pos) = Done (stored buf pos txt)).
Proof.
  intros f fl point sign mf ef buf pos Kf Hm He H.
  assert (EQ : lc_print_rsvhexfloat_define f fl point (bits_of f sign mf ef) (buf, pos) = print_rsvhexfloat_define f fl (bits_of f sign mf ef) (buf, pos)).
  { unfold lc_print_rsvhexfloat_define, print_rsvhexfloat_define. rewrite punned by assumption. rewrite mask_is by assumption. cbv zeta.
    destruct (emit (sign_chars (hf_showpos fl) sign) (buf, pos)) as [st| |]; cbn [obind]; try reflexivity.
    destruct (Z.eqb_spec ef (2 ^ ebits f - 1)); [reflexivity|]. destruct H as [H|[-> ->]]; [contradiction|]. reflexivity. }
  split; [exact EQ|]. intros Hp Hb. rewrite EQ. rewrite hex_special by assumption.
  eexists. apply emit_stored; [exact Hp|]. rewrite zlen_app. pose proof (sign_len (hf_showpos fl) sign) as SL.
  assert (SZ : (mbits f + 3) / 4 + 12 + (if hf_showbase fl then 2 else 0) <= print_rsvhexfloat_size f (hf_showbase fl)).
  { destruct Kf as [-> | ->], (hf_showbase fl); vm_compute; discriminate. }
  assert (X : zlen (if ef =? 0 then hex_prefix fl ++ hex0p0 (hf_upper fl) else nan_chars (hf_upper fl) (negb (mf =? 0))) <= 9).
  { destruct fl as [a b c d g h]. unfold hex_prefix. cbn [hf_upper hf_showbase hf_upper_showbase]. destruct (ef =? 0), a, b, c, d, g, h, (mf =? 0); vm_compute; discriminate. }
  unfold lc_hexfloat_size in Hb. pose proof (zlen_nonneg point) as P0.
  assert (1 <= (mbits f + 3) / 4) by (destruct Kf as [-> | ->]; vm_compute; discriminate). destruct (hf_showbase fl); lia.
Qed.
Print Assumptions C138_special.
Example C138_case :
  lc_print_rsvhexfloat_define binary64 (mk_hflags true false false false false false) [194; 183] (bits_of binary64 false 2702159776422298 1019) (repeat 0 30, 0) =
    Done (stored (repeat 0 30) 0 [48;120;49;194;183;57;57;57;57;57;57;57;57;57;57;57;57;97;112;45;52]).
Proof. vm_compute. reflexivity. Qed.
