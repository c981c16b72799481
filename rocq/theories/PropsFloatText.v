(** Printing floating point numbers: the text (include/fast_io_unit/floating/roundtrip.h, punning.h, hexfloat.h). *)
From Coq Require Import QArith Qabs.
From Verif Require Import Base Outcome NumSpec FloatModel FloatSpec FloatTextSpec FloatTextModel FloatRoundProofs FloatBestProofs FloatImplProofs
  FloatImpl32Proofs FloatTextProofs FloatTextForms FloatTextMeaning FloatReachProofs FloatPrintProofs FloatHexProofs PropsFloat.
Local Open Scope Z_scope.

(** The destination is a list of cells [buf], the text goes to the cells from [pos] on: [stored buf pos txt] is
    the destination with [txt] in these cells and nothing else changed, together with the position after it.
    [bits_of f sign mf ef] is the number with these IEEE 754 fields. *)

(** * C59: the decimal text of a finite number *)

(** The text is the sign and then a text of the decimal d * 10^e that the digit generation (C57, C58) yields: in
    the form asked for, and without trailing zeros. *)
Theorem C59_decimal_text : forall sizet f fl mt sign mf ef buf pos, sizet = 32 \/ sizet = 64 -> f = binary32 \/ f = binary64 ->
  0 <= mf < 2 ^ mbits f -> 0 <= ef < 2 ^ ebits f - 1 -> (0 < mf \/ 0 < ef) ->
  0 <= pos -> pos + room f mt <= zlen buf ->
  exists d e t txt, dragonbox_impl sizet f mf ef = Done (d, e) /\
    print_rsvflt_define sizet f fl mt (bits_of f sign mf ef) (buf, pos) =
      Done (stored buf pos ((if sign then [45] else if ff_showpos fl then [43] else []) ++ txt)) /\
    text_of 10 false (if ff_comma fl then 44 else 46) (if ff_upper_e fl then 69 else 101) 2 t txt /\
    (decimal_value t == dec d e)%Q /\
    match mt with
    | general => if (-5 <? e) && (e <? 7) then fixed_form t else scientific_form t
    | scientific => scientific_form t
    | decimal => scientific_form t \/ fixed_form t
    | fixed => fixed_form t
    end /\ (sizet = 64 \/ f = binary32 -> no_trailing_zero t).
Proof.
  intros sizet f fl mt sign mf ef buf pos Hs Kf Hm He Hz Hp Hb.
  destruct (print_finite sizet f fl mt sign mf ef buf pos Hs Kf (conj Hm He) Hz Hp) as (d & e & len & I & R & N & E).
  destruct (chosen_means f fl d e len Kf R mt) as (t & T1 & T2 & T3 & T4).
  pose proof (chosen_room f fl d e len mt Kf R) as CR. pose proof (sign_len (ff_showpos fl) sign) as SL.
  exists d, e, t, (chosen f fl d e len mt). split; [assumption|]. split.
  { rewrite E. change (if sign then [45] else if ff_showpos fl then [43] else []) with (sign_is (ff_showpos fl) sign).
    apply emit_stored; [assumption|]. rewrite zlen_app. lia. }
  split; [exact T1|]. split; [exact T2|]. split; [exact T3|]. intros H. apply T4, N, H.
Qed.
Print Assumptions C59_decimal_text.

(** The text of a double reads back as the same double, in every format, unless it is one of the powers of two
    2^(ef - 1023) of the list in PropsFloat.v; the text of those does not. *)
Theorem C59_double_reads_back_refuted : forall sizet fl mt sign mf ef buf pos, sizet = 32 \/ sizet = 64 ->
  0 <= mf < 2 ^ 52 -> 0 <= ef < 2047 -> (0 < mf \/ 0 < ef) ->
  0 <= pos -> pos + print_rsvflt_size binary64 mt <= zlen buf ->
  exists t txt, print_rsvflt_define sizet binary64 fl mt (bits_of binary64 sign mf ef) (buf, pos) =
      Done (stored buf pos ((if sign then [45] else if ff_showpos fl then [43] else []) ++ txt)) /\
    text_of 10 false (if ff_comma fl then 44 else 46) (if ff_upper_e fl then 69 else 101) 2 t txt /\
    (rounds_to 53 (-1074) (decimal_value t) (significand 52 mf ef) (exponent 52 1023 ef) <->
     ~ (mf = 0 /\ In ef lost_double_powers)).
Proof.
  intros sizet fl mt sign mf ef buf pos Hs Hm He Hz Hp Hb.
  assert (Rm : room binary64 mt = print_rsvflt_size binary64 mt) by (destruct mt; reflexivity).
  destruct (C59_decimal_text sizet binary64 fl mt sign mf ef buf pos Hs (or_intror eq_refl) Hm
    ltac:(change (2 ^ ebits binary64 - 1) with 2047; lia) ltac:(lia) Hp ltac:(lia)) as (d & e & t & txt & I & E & T & V & _ & _).
  exists t, txt. split; [exact E|]. split; [exact T|].
  set (X := rounds_to 53 (-1074) (decimal_value t) (significand 52 mf ef) (exponent 52 1023 ef)).
  assert (Core : exists d' e', dragonbox_impl 64 binary64 mf ef = Done (d', e') /\
     (rounds_to 53 (-1074) (dec d' e') (significand 52 mf ef) (exponent 52 1023 ef) <-> ~ (mf = 0 /\ In ef lost_double_powers))).
  { assert (C : (0 < mf \/ ef = 1) \/ (mf = 0 /\ 2 <= ef)) by lia. destruct C as [C|[C1 C2]].
    - destruct (C57_double_partial mf ef Hm He C) as (d' & e' & I' & (B & _) & _). exists d', e'. split; [assumption|].
      split; [|intros _; exact B]. intros _ [M J]. destruct C as [C|C]; [lia|]. rewrite C in J.
      apply existsb_In in J. vm_compute in J. discriminate.
    - rewrite C1. destruct (C57_double_powers_of_two_refuted ef ltac:(lia)) as (d' & e' & I' & B).
      exists d', e'. split; [assumption|]. rewrite B. tauto. }
  destruct Core as (d' & e' & I' & Core). rewrite <- Core. unfold X.
  assert (Same : (decimal_value t == dec d' e')%Q).
  { rewrite V. destruct Hs as [-> | ->]; [|rewrite I' in I; injection I as <- <-; reflexivity].
    destruct (C57_double_32bit_partial mf ef d' e' Hm He ltac:(lia) I') as [Y|Y]; rewrite Y in I; injection I as <- <-; [reflexivity|].
    rewrite (dec_shift d' (e' - 1) e') by lia. replace (e' - (e' - 1)) with 1 by lia. change (10 ^ 1) with 10. rewrite Z.mul_comm. reflexivity. }
  split; apply rounds_to_proper; [exact Same|symmetry; exact Same].
Qed.
Print Assumptions C59_double_reads_back_refuted.

Example C59_example :
  let out mt bits := print_rsvflt_define 64 binary64 (mk_fflags false false false false) mt bits (repeat 0 30, 1) in
  (* 0.1 *) out general (bits_of binary64 false 2702159776422298 1019) = Done (stored (repeat 0 30) 1 [48; 46; 49]) /\
  (* -1.5e300 *) out decimal (bits_of binary64 true 540055194064949 2020) = Done (stored (repeat 0 30) 1 [45; 49; 46; 53; 101; 43; 51; 48; 48]) /\
  (* 1e22 *) out scientific (bits_of binary64 false 264771954660754 1096) = Done (stored (repeat 0 30) 1 [49; 101; 43; 50; 50]).
Proof. repeat split; vm_compute; reflexivity. Qed.

(** * C60: the hexadecimal text of a finite number is exact *)
Theorem C60_hexfloat_exact : forall f fl sign mf ef buf pos, f = binary32 \/ f = binary64 ->
  0 <= mf < 2 ^ mbits f -> 0 <= ef < 2 ^ ebits f - 1 -> (0 < mf \/ 0 < ef) ->
  0 <= pos -> pos + print_rsvhexfloat_size f (hf_showbase fl) <= zlen buf ->
  exists t txt, print_rsvhexfloat_define f fl (bits_of f sign mf ef) (buf, pos) =
      Done (stored buf pos ((if sign then [45] else if hf_showpos fl then [43] else []) ++
        (if hf_showbase fl then [48; if hf_upper_showbase fl then 88 else 120] else []) ++ txt)) /\
    text_of 16 (hf_upper fl) (if hf_comma fl then 44 else 46) (if hf_upper_e fl then 80 else 112) 1 t txt /\
    (hex_value t == bin (significand (mbits f) mf ef) (exponent (mbits f) (2 ^ (ebits f - 1) - 1) ef))%Q /\
    n_int t = [if ef =? 0 then 0 else 1] /\ no_trailing_zero t.
Proof.
  intros f fl sign mf ef buf pos Kf Hm He Hz Hp Hb.
  destruct (hex_is f fl mf ef Kf (conj Hm He) Hz) as (t & txt & T1 & (T2 & T3 & T4 & _) & L & E).
  exists t, txt. split; [|split; [exact T1|split; [exact T2|split; [exact T3|exact T4]]]].
  change (if sign then [45] else if hf_showpos fl then [43] else []) with (sign_is (hf_showpos fl) sign).
  change (if hf_showbase fl then [48; if hf_upper_showbase fl then 88 else 120] else []) with (hex_prefix fl).
  rewrite E. apply emit_stored; [assumption|]. rewrite !zlen_app. pose proof (sign_len (hf_showpos fl) sign) as SL.
  assert (PL : zlen (hex_prefix fl) = if hf_showbase fl then 2 else 0) by (unfold hex_prefix; destruct (hf_showbase fl); reflexivity).
  assert (SZ : (mbits f + 3) / 4 + 12 + (if hf_showbase fl then 2 else 0) <= print_rsvhexfloat_size f (hf_showbase fl)).
  { destruct Kf as [-> | ->], (hf_showbase fl); vm_compute; discriminate. }
  lia.
Qed.
Print Assumptions C60_hexfloat_exact.

(** 0x1.999999999999ap-4 and the least float, 0x0.000002p-126 *)
Example C60_example :
  print_rsvhexfloat_define binary64 (mk_hflags true false false false false false) (bits_of binary64 false 2702159776422298 1019) (repeat 0 30, 0) =
    Done (stored (repeat 0 30) 0 [48;120;49;46;57;57;57;57;57;57;57;57;57;57;57;57;97;112;45;52]) /\
  print_rsvhexfloat_define binary32 (mk_hflags false false false false false false) (bits_of binary32 true 1 0) (repeat 0 30, 0) =
    Done (stored (repeat 0 30) 0 [45;48;46;48;48;48;48;48;50;112;45;49;50;54]).
Proof. repeat split; vm_compute; reflexivity. Qed.

(** * C61: the space the library reserves for the text is enough *)
Theorem C61_reserved_space_partial : forall sizet f fl mt sign mf ef buf pos, sizet = 32 \/ sizet = 64 -> f = binary32 \/ f = binary64 ->
  f = binary64 \/ mt <> general ->
  0 <= mf < 2 ^ mbits f -> 0 <= ef < 2 ^ ebits f ->
  0 <= pos -> pos + print_rsvflt_size f mt <= zlen buf ->
  exists txt, print_rsvflt_define sizet f fl mt (bits_of f sign mf ef) (buf, pos) = Done (stored buf pos txt) /\
    zlen txt <= print_rsvflt_size f mt.
Proof.
  intros sizet f fl mt sign mf ef buf pos Hs Kf Hg Hm He Hp Hb.
  assert (Rm : room f mt = print_rsvflt_size f mt).
  { destruct Hg as [-> | Hg]; destruct mt; try reflexivity. congruence. }
  pose proof (sign_len (ff_showpos fl) sign) as SL.
  assert (Sp : (ef = 2 ^ ebits f - 1 \/ (mf = 0 /\ ef = 0)) \/ (ef < 2 ^ ebits f - 1 /\ (0 < mf \/ 0 < ef))) by lia.
  destruct Sp as [Sp|[L Hz]].
  - rewrite (print_special sizet f fl mt sign mf ef buf pos Kf Hm He Sp).
    eexists. split; [apply emit_stored; [assumption|]|];
      (eapply Z.le_trans; [|exact Hb] || idtac);
      rewrite zlen_app;
      assert (X : zlen (if ef =? 0 then match mt with scientific => dece0 (ff_upper fl) | _ => [48] end
         else nan_chars (ff_upper fl) (negb (mf =? 0))) <= 4) by (destruct (ef =? 0), mt, (ff_upper fl), (mf =? 0); vm_compute; discriminate);
      assert (Y : 15 <= print_rsvflt_size f mt) by (destruct Kf as [-> | ->], mt; vm_compute; discriminate); lia.
  - destruct (print_finite sizet f fl mt sign mf ef buf pos Hs Kf (conj Hm (conj (proj1 He) L)) Hz Hp) as (d & e & len & I & R & N & E).
    pose proof (chosen_room f fl d e len mt Kf R) as CR.
    rewrite E. eexists. split; [apply emit_stored; [assumption|rewrite zlen_app; lia]|rewrite zlen_app; lia].
Qed.
Print Assumptions C61_reserved_space_partial.

(** In general format a float may need one cell more than is reserved: -100000395000000 *)
Theorem C61_general_float_refuted :
  print_rsvflt_size binary32 general = 15 /\
  (forall fl buf pos, 0 <= pos -> pos + 15 = zlen buf ->
     print_rsvflt_define 64 binary32 fl general (bits_of binary32 true 3532368 173) (buf, pos) = Undefined) /\
  print_rsvflt_define 64 binary32 (mk_fflags false false false false) general (bits_of binary32 true 3532368 173) (repeat 0 16, 0) =
    Done ([45; 49; 48; 48; 48; 48; 48; 51; 57; 53; 48; 48; 48; 48; 48; 48], 16).
Proof.
  split; [reflexivity|]. split; [|vm_compute; reflexivity].
  intros fl buf pos Hp Hb.
  destruct (print_finite 64 binary32 fl general true 3532368 173 buf pos (or_intror eq_refl) (or_introl eq_refl)) as (d & e & len & I & R & N & E);
    [split; [vm_compute; intuition discriminate|vm_compute; intuition discriminate]|lia|assumption|].
  assert (I' : dragonbox_impl 64 binary32 3532368 173 = Done (100000395, 6)) by (vm_compute; reflexivity).
  rewrite I' in I. injection I as <- <-. rewrite E.
  assert (Ln : len = 9).
  { destruct R as (_ & (A & B & C) & _). destruct (Z_lt_le_dec len 9) as [L|L].
    - assert (10 ^ len <= 10 ^ 8) by (apply Z.pow_le_mono_r; lia). change (10 ^ 8) with 100000000 in *. lia.
    - destruct (Z_lt_le_dec 9 len) as [L'|L']; [|lia]. destruct C as [C|C]; [lia|].
      assert (10 ^ 9 <= 10 ^ (len - 1)) by (apply Z.pow_le_mono_r; lia). change (10 ^ 9) with 1000000000 in *. lia. }
  rewrite Ln. unfold emit. cbn [fst snd]. rewrite put_none; [reflexivity|].
  right. rewrite zlen_app. change (zlen (sign_is (ff_showpos fl) true)) with 1.
  replace (zlen (chosen binary32 fl 100000395 6 9 general)) with 15; [lia|]. vm_compute. reflexivity.
Qed.
Print Assumptions C61_general_float_refuted.

(** With 16 cells it is enough. *)
Theorem C61_general_float_16_partial : forall sizet fl sign mf ef buf pos, sizet = 32 \/ sizet = 64 ->
  0 <= mf < 2 ^ 23 -> 0 <= ef < 255 -> (0 < mf \/ 0 < ef) -> 0 <= pos -> pos + 16 <= zlen buf ->
  exists txt, print_rsvflt_define sizet binary32 fl general (bits_of binary32 sign mf ef) (buf, pos) = Done (stored buf pos txt).
Proof.
  intros sizet fl sign mf ef buf pos Hs Hm He Hz Hp Hb.
  destruct (C59_decimal_text sizet binary32 fl general sign mf ef buf pos Hs (or_introl eq_refl) Hm
    ltac:(change (2 ^ ebits binary32 - 1) with 255; lia) Hz Hp Hb) as (d & e & t & txt & _ & E & _).
  eexists. exact E.
Qed.
Print Assumptions C61_general_float_16_partial.

(** The reserve of the hexadecimal text. *)
Theorem C61_reserved_space_hex : forall f fl sign mf ef buf pos, f = binary32 \/ f = binary64 ->
  0 <= mf < 2 ^ mbits f -> 0 <= ef < 2 ^ ebits f ->
  0 <= pos -> pos + print_rsvhexfloat_size f (hf_showbase fl) <= zlen buf ->
  exists txt, print_rsvhexfloat_define f fl (bits_of f sign mf ef) (buf, pos) = Done (stored buf pos txt) /\
    zlen txt <= print_rsvhexfloat_size f (hf_showbase fl).
Proof.
  intros f fl sign mf ef buf pos Kf Hm He Hp Hb.
  pose proof (sign_len (hf_showpos fl) sign) as SL.
  assert (PL : zlen (hex_prefix fl) = if hf_showbase fl then 2 else 0) by (unfold hex_prefix; destruct (hf_showbase fl); reflexivity).
  assert (SZ : (mbits f + 3) / 4 + 12 + (if hf_showbase fl then 2 else 0) <= print_rsvhexfloat_size f (hf_showbase fl)).
  { destruct Kf as [-> | ->], (hf_showbase fl); vm_compute; discriminate. }
  assert (Mb : 0 <= (mbits f + 3) / 4) by (destruct Kf as [-> | ->]; vm_compute; discriminate).
  assert (Sp : (ef = 2 ^ ebits f - 1 \/ (mf = 0 /\ ef = 0)) \/ (ef < 2 ^ ebits f - 1 /\ (0 < mf \/ 0 < ef))) by lia.
  destruct Sp as [Sp|[L Hz]].
  - rewrite (hex_special f fl sign mf ef buf pos Kf Hm He Sp).
    assert (X : zlen (if ef =? 0 then hex_prefix fl ++ hex0p0 (hf_upper fl) else nan_chars (hf_upper fl) (negb (mf =? 0))) <= zlen (hex_prefix fl) + 4).
    { destruct (ef =? 0); [rewrite zlen_app; destruct (hf_upper fl); change (zlen (hex0p0 _)) with 4; lia|].
      pose proof (zlen_nonneg (hex_prefix fl)). assert (zlen (nan_chars (hf_upper fl) (negb (mf =? 0))) = 3) by (destruct (hf_upper fl), (mf =? 0); reflexivity). lia. }
    eexists. split; [apply emit_stored; [assumption|rewrite zlen_app; lia]|rewrite zlen_app; lia].
  - destruct (hex_is f fl mf ef Kf (conj Hm (conj (proj1 He) L)) Hz) as (t & txt & _ & _ & Ln & E).
    rewrite E. eexists. split; [apply emit_stored; [assumption|rewrite !zlen_app; lia]|rewrite !zlen_app; lia].
Qed.
Print Assumptions C61_reserved_space_hex.

(** * C62: the texts of NaN, infinity and zero *)
Theorem C62_special_texts : forall sizet f fl mt sign mf ef buf pos, f = binary32 \/ f = binary64 ->
  0 <= mf < 2 ^ mbits f -> 0 <= pos -> pos + 5 <= zlen buf ->
  ef = 2 ^ ebits f - 1 \/ (ef = 0 /\ mf = 0) ->
  let word := if ef =? 0 then match mt with scientific => [48; if ff_upper fl then 69 else 101; 43; 48] | _ => [48] end
              else if mf =? 0 then (if ff_upper fl then [73; 78; 70] else [105; 110; 102])
              else (if ff_upper fl then [78; 65; 78] else [110; 97; 110]) in
  print_rsvflt_define sizet f fl mt (bits_of f sign mf ef) (buf, pos) =
    Done (stored buf pos ((if sign then [45] else if ff_showpos fl then [43] else []) ++ word)).
Proof.
  intros sizet f fl mt sign mf ef buf pos Kf Hm Hp Hb H word.
  assert (M : 0 < 2 ^ ebits f - 1) by (destruct Kf as [-> | ->]; reflexivity).
  rewrite print_special; [|assumption|assumption|lia|tauto].
  replace (if ef =? 0 then match mt with scientific => dece0 (ff_upper fl) | _ => [48] end else nan_chars (ff_upper fl) (negb (mf =? 0)))
    with word by (unfold word; destruct (ef =? 0); [destruct mt; reflexivity|]; destruct (mf =? 0); reflexivity).
  apply emit_stored; [assumption|]. rewrite zlen_app. pose proof (sign_len (ff_showpos fl) sign).
  assert (zlen word <= 4) by (unfold word; destruct (ef =? 0), mt, (mf =? 0), (ff_upper fl); vm_compute; discriminate).
  change (if sign then [45] else if ff_showpos fl then [43] else []) with (sign_is (ff_showpos fl) sign). lia.
Qed.
Print Assumptions C62_special_texts.

(** The exponent mark of every other number follows uppercase_e; that of zero does not: with uppercase_e 1 is 1E+00
    and 0 is 0e+0 *)
Theorem C62_zero_mark_refuted :
  let fl := mk_fflags false false true false in
  print_rsvflt_define 64 binary64 fl scientific (bits_of binary64 false 0 1023) (repeat 0 5, 0) = Done ([49; 69; 43; 48; 48], 5) /\
  print_rsvflt_define 64 binary64 fl scientific (bits_of binary64 false 0 0) (repeat 0 5, 0) = Done ([48; 101; 43; 48; 0], 4).
Proof. split; vm_compute; reflexivity. Qed.
Print Assumptions C62_zero_mark_refuted.

(** * C63: decimal format is never longer than fixed or scientific *)
Theorem C63_decimal_shortest : forall sizet f fl other sign mf ef buf pos st1 st2, sizet = 32 \/ sizet = 64 -> f = binary32 \/ f = binary64 ->
  0 <= mf < 2 ^ mbits f -> 0 <= ef < 2 ^ ebits f -> 0 <= pos -> other = fixed \/ other = scientific ->
  print_rsvflt_define sizet f fl other (bits_of f sign mf ef) (buf, pos) = Done st1 ->
  print_rsvflt_define sizet f fl decimal (bits_of f sign mf ef) (buf, pos) = Done st2 ->
  snd st2 <= snd st1.
Proof.
  intros sizet f fl other sign mf ef buf pos st1 st2 Hs Kf Hm He Hp Ho E1 E2.
  assert (Snd : forall l st, emit l (buf, pos) = Done st -> snd st = pos + zlen l).
  { intros l st H. unfold emit in H. cbn [fst snd] in H. destruct (put buf pos l); try discriminate. cbn [obind] in H. injection H as <-. reflexivity. }
  assert (Sp : (ef = 2 ^ ebits f - 1 \/ (mf = 0 /\ ef = 0)) \/ (ef < 2 ^ ebits f - 1 /\ (0 < mf \/ 0 < ef))) by lia.
  destruct Sp as [Sp|[L Hz]].
  - rewrite print_special in E1, E2 by assumption. rewrite (Snd _ _ E1), (Snd _ _ E2), !zlen_app.
    destruct (ef =? 0); destruct Ho as [-> | ->]; [|destruct (ff_upper fl)| |]; unfold dece0, zlen; cbn [length]; lia.
  - destruct (print_finite sizet f fl other sign mf ef buf pos Hs Kf (conj Hm (conj (proj1 He) L)) Hz Hp) as (d & e & len & I & R & _ & X1).
    destruct (print_finite sizet f fl decimal sign mf ef buf pos Hs Kf (conj Hm (conj (proj1 He) L)) Hz Hp) as (d' & e' & len' & I' & R' & _ & X2).
    rewrite I in I'. injection I' as <- <-. rewrite X1 in E1. rewrite X2 in E2. rewrite (Snd _ _ E1), (Snd _ _ E2), !zlen_app.
    assert (len' = len). { destruct R as (P1 & D1 & _). destruct R' as (_ & D2 & _). apply (IntPrintProofs.digit_count_unique 10 d); try lia; assumption. }
    subst len'. destruct (decimal_shorter f fl d e len R) as [A B].
    destruct Ho as [-> | ->]; unfold chosen at 2; lia.
Qed.
Print Assumptions C63_decimal_shortest.
Example C63_example :
  let out mt bits := match print_rsvflt_define 64 binary64 (mk_fflags false false false false) mt bits (repeat 0 400, 0) with Done st => snd st | _ => 0 end in
  out decimal (bits_of binary64 false 264771954660754 1096) = 5 /\ out fixed (bits_of binary64 false 264771954660754 1096) = 23 /\
  out decimal (bits_of binary64 false 2702159776422298 1019) = 3 /\ out scientific (bits_of binary64 false 2702159776422298 1019) = 5.
Proof. repeat split; vm_compute; reflexivity. Qed.
