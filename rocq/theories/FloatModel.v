(** Model of include/fast_io_unit/floating/punning.h (bit layout) and of the binary to
    decimal conversion of include/fast_io_unit/floating/roundtrip.h (Dragonbox).

    Words are [Z] values with explicit wrapping.  [Undefined] stands for C++ undefined
    behaviour (shift count out of range, signed overflow, a table read out of bounds) and,
    in the zero stripping loops, for a loop that does not end. *)
From Verif Require Import Base Outcome FloatTables IntrinModel.

(** punning.h 9-115 iec559_traits: the two formats whose decimal output the library has. *)
Record fmt := mk_fmt
  { mbits : Z; ebits : Z; mantw : Z (* bits of mantissa_type *);
    m10digits : Z; e10digits : Z; e2hexdigits : Z; e10max : Z }.
Definition binary32 : fmt := mk_fmt 23 8 32 9 2 3 38.
Definition binary64 : fmt := mk_fmt 52 11 64 17 3 4 308.

(** punning.h 446-476 get_punned_result: (mantissa, exponent, sign) of the bit pattern. *)
Definition get_punned_result (f : fmt) (bits : Z) : Z * Z * bool :=
  let mantissa_mask := wrap (mantw f) (2 ^ mbits f - 1) in
  let exponent_mask := wrap (mantw f) (2 ^ ebits f - 1) in
  (Z.land bits mantissa_mask,
   wrap 32 (Z.land (Z.shiftr bits (mbits f)) exponent_mask),
   negb (Z.land (Z.shiftr bits (mbits f + ebits f)) 1 =? 0)).

(** Shifts of a [w]-bit unsigned value: undefined unless the count is below [w]. *)
Definition ushl (w x n : Z) : outcome Z :=
  if (0 <=? n) && (n <? w) then Done (wrap w (Z.shiftl x n)) else Undefined.
Definition ushr (w x n : Z) : outcome Z :=
  if (0 <=? n) && (n <? w) then Done (Z.shiftr x n) else Undefined.
(** A table read: undefined outside of the table. *)
Definition tb_at {A} (t : list A) (i : Z) : outcome A :=
  if i <? 0 then Undefined
  else match nth_error t (Z.to_nat i) with Some a => Done a | None => Undefined end.

(** roundtrip.h 723-726 mul_ln2_div_ln10_floor and 728-731 mul_ln10_div_ln2_floor. *)
Definition mul_ln2_div_ln10_floor (e : Z) : outcome Z :=
  let! p := signed_result 32 (e * 1262611) in Done (Z.shiftr p 22).
Definition mul_ln10_div_ln2_floor (e : Z) : outcome Z :=
  let! p := signed_result 32 (e * 1741647) in Done (Z.shiftr p 19).

(** umul and umul_least64_high (intrinsics.h 435-600) in the builds with a 128-bit product;
    C39_umul states that the emulated versions agree with this product. *)
Definition umul64 (a b : Z) : Z * Z := (wrap 64 (a * b), wrap 64 (Z.shiftr (a * b) 64)).
Definition umul64_high (a b : Z) : Z := wrap 64 (Z.shiftr (a * b) 64).

(** roundtrip.h 733-741 mulshift_float64. *)
Definition mulshift_float64 (x ylow yhigh : Z) : Z :=
  let p0high := umul64_high x ylow in
  let '(p1low, p1high) := umul64 x yhigh in
  let '(_, c) := add_carry 64 false p1low p0high in
  fst (add_carry 64 c p1high 0).
(** roundtrip.h 743-746 mulshift_float32. *)
Definition mulshift_float32 (x y : Z) : Z := wrap 32 (umul64_high x y).

(** roundtrip.h 748-755 mul_parity_float64. *)
Definition mul_parity_float64 (two_f pow10_low pow10_high beta_minus_1 : Z) : outcome bool :=
  let p01 := wrap 64 (two_f * pow10_high) in
  let p10 := umul64_high two_f pow10_low in
  let mid := wrap 64 (p01 + p10) in
  let! bit := ushl 64 1 (64 - beta_minus_1) in
  Done (negb (Z.land mid bit =? 0)).
(** roundtrip.h 757-762 mul_parity_float32. *)
Definition mul_parity_float32 (two_f pow10 beta_minus_1 : Z) : outcome bool :=
  let p01 := wrap 64 (two_f * pow10) in
  let! bit := ushl 64 1 (64 - beta_minus_1) in
  Done (negb (Z.land p01 bit =? 0)).

(** roundtrip.h 764-769 multiple_of_pow2_unchecked. *)
Definition multiple_of_pow2_unchecked (w value e2 : Z) : outcome bool :=
  let! one := ushl w 1 e2 in Done (Z.land value (wrap w (one - 1)) =? 0).
(** roundtrip.h 771-776 multiple_of_pow2. *)
Definition multiple_of_pow2 (w value e2 : Z) : outcome bool :=
  if e2 <? w then multiple_of_pow2_unchecked w value (wrap 32 e2) else Done false.
(** roundtrip.h 778-782 multiple_of_pow5. *)
Definition multiple_of_pow5 (value e5 : Z) : outcome bool :=
  let! m5 := tb_at float64_mod5_tb e5 in Done (wrap 64 (value * fst m5) <=? snd m5).
(** roundtrip.h 806-810 multiple_of_pow5_float32. *)
Definition multiple_of_pow5_float32 (value e5 : Z) : outcome bool :=
  let! m5 := tb_at float_mod5_tb e5 in Done (wrap 32 (value * fst m5) <=? snd m5).

(** roundtrip.h 784-793 is_integral_end_point. *)
Definition is_integral_end_point (two_f e2 minus_k : Z) : outcome bool :=
  if e2 <? -2 then Done false
  else if e2 <=? 9 then Done true
  else if e2 <=? 86 then multiple_of_pow5 two_f (wrap 32 minus_k)
  else Done false.
(** roundtrip.h 795-804 is_integral_mid_point. *)
Definition is_integral_mid_point (two_f e2 minus_k : Z) : outcome bool :=
  if e2 <? -4 then multiple_of_pow2 64 two_f (minus_k - e2 + 1)
  else if e2 <=? 9 then Done true
  else if e2 <=? 86 then multiple_of_pow5 two_f (wrap 32 minus_k)
  else Done false.
(** roundtrip.h 812-821 is_integral_end_point_float32. *)
Definition is_integral_end_point_float32 (two_f e2 minus_k : Z) : outcome bool :=
  if e2 <? -1 then Done false
  else if e2 <=? 6 then Done true
  else if e2 <=? 39 then multiple_of_pow5_float32 two_f (wrap 32 minus_k)
  else Done false.
(** roundtrip.h 823-832 is_integral_mid_point_float32. *)
Definition is_integral_mid_point_float32 (two_f e2 minus_k : Z) : outcome bool :=
  if e2 <? -2 then multiple_of_pow2 32 two_f (minus_k - e2 + 1)
  else if e2 <=? 6 then Done true
  else if e2 <=? 39 then multiple_of_pow5_float32 two_f (wrap 32 minus_k)
  else Done false.

(** roundtrip.h 46,714 compute_pow10_float32 and compute_pow10_float64: the tables seen from
    their entry for the power 0. *)
Definition compute_pow10_float32 (k : Z) : outcome Z := tb_at pow10_float32_tb (k + 31).
Definition compute_pow10_float64 (k : Z) : outcome (Z * Z) := tb_at pow10_float64_tb (k + 292).

(** roundtrip.h 834-884 schubfach_asymmetric_interval, 64-bit branch. *)
Definition schubfach_asymmetric64 (e2 : Z) : outcome (Z * Z) :=
  let mbits := 52 in
  let! p := signed_result 32 (e2 * 1262611) in
  let! p' := signed_result 32 (p - 524031) in
  let minus_k := Z.shiftr p' 22 in
  let plus_k := - minus_k in
  let! l := mul_ln10_div_ln2_floor plus_k in
  let beta_minus_1 := e2 + l in
  let rshift := wrap 32 (64 - mbits - beta_minus_1) in
  let! pw := compute_pow10_float64 plus_k in
  let '(pw_hi, pw_lo) := pw in
  let! lower_endpoint := ushr 64 (wrap 64 (pw_hi - Z.shiftr pw_hi (mbits + 1))) rshift in
  let! q := ushr 64 (wrap 64 (pw_lo + Z.shiftr pw_hi mbits)) rshift in
  let not_integer := negb (2 =? e2) && negb (3 =? e2) in
  let xi := wrap 64 (lower_endpoint + Z.b2z not_integer) in
  let q := q / 10 in
  if xi <=? wrap 64 (q * 10) then Done (q, minus_k + 1)
  else
    let! h := ushr 64 pw_hi (wrap 32 (rshift - 1)) in
    let q := Z.shiftr (wrap 64 (h + 1)) 1 in
    let q := if e2 =? -77 then wrap 64 (q - Z.land q 1) else wrap 64 (q + Z.b2z (q <? xi)) in
    Done (q, minus_k).
(** roundtrip.h 834-884 schubfach_asymmetric_interval, 32-bit branch. *)
Definition schubfach_asymmetric32 (e2 : Z) : outcome (Z * Z) :=
  let mbits := 23 in
  let! p := signed_result 32 (e2 * 1262611) in
  let! p' := signed_result 32 (p - 524031) in
  let minus_k := Z.shiftr p' 22 in
  let plus_k := - minus_k in
  let! l := mul_ln10_div_ln2_floor plus_k in
  let beta_minus_1 := e2 + l in
  let rshift := wrap 32 (64 - mbits - beta_minus_1) in
  let! pw := compute_pow10_float32 plus_k in
  let! lower_endpoint := ushr 64 (wrap 64 (pw - Z.shiftr pw (mbits + 1))) rshift in
  let! q := ushr 64 (Z.shiftr pw mbits) rshift in
  let not_integer := negb (2 =? e2) && negb (3 =? e2) in
  let xi := wrap 64 (lower_endpoint + Z.b2z not_integer) in
  let q := q / 10 in
  if xi <=? wrap 64 (q * 10) then Done (wrap 32 q, minus_k + 1)
  else
    let! h := ushr 64 pw (wrap 32 (rshift - 1)) in
    let q := Z.shiftr (wrap 64 (h + 1)) 1 in
    let q := if e2 =? -35 then wrap 64 (q - Z.land q 1) else wrap 64 (q + Z.b2z (q <? xi)) in
    Done (wrap 32 q, minus_k).

Definition obool_or (a : bool) (b : outcome bool) : outcome bool := if a then Done true else b.
Definition obool_and (a : bool) (b : outcome bool) : outcome bool := if a then b else Done false.

(** roundtrip.h 952-963, the end of dragonbox_main: the multiple of the small divisor
    closest to the number (small_divisor is big_divisor / 10, line 904). *)
Definition dragonbox_small64 (two_fc delta pow10_lo pow10_hi beta_minus_1 e2 minus_k q r : Z) : outcome (Z * Z) :=
  let kappa := 2 in
  let small_divisor := 100 in
  let small_divisor_div2 := small_divisor / 2 in
  let q := wrap 64 (q * 10) in
  let dist := wrap 32 (r - delta / 2 + small_divisor_div2) in
  let dist_q := dist / 100 in
  let dist_q_mul100 := wrap 32 (dist_q * 100) in
  let q := wrap 64 (q + dist_q) in
  if dist =? dist_q_mul100 then
    let approx_y_parity := negb (Z.land dist 1 =? 0) in
    let! y_parity := mul_parity_float64 two_fc pow10_lo pow10_hi beta_minus_1 in
    let! down := obool_or (negb (Bool.eqb y_parity approx_y_parity))
                   (obool_and (negb (Z.land q 1 =? 0)) (is_integral_mid_point two_fc e2 minus_k)) in
    Done (if down then wrap 64 (q - 1) else q, minus_k + kappa)
  else Done (q, minus_k + kappa).

(** roundtrip.h 923-964 dragonbox_main, from the computation of is_even on, for double. *)
Definition dragonbox_main64_body (m2 e2 : Z) : outcome (Z * Z) :=
  let kappa := 2 in
  let big_divisor := 1000 in
  let is_even := Z.land m2 1 =? 0 in
  let! l2 := mul_ln2_div_ln10_floor e2 in
  let minus_k := l2 - kappa in
  let plus_k := - minus_k in
  let! l10 := mul_ln10_div_ln2_floor plus_k in
  let beta_minus_1 := e2 + l10 in
  let! pow10 := compute_pow10_float64 plus_k in
  let '(pow10_hi, pow10_lo) := pow10 in
  let! delta := ushr 64 pow10_hi (63 - beta_minus_1) in
  let delta := wrap 32 delta in
  let two_fc := wrap 64 (Z.shiftl m2 1) in
  let two_fl := wrap 64 (two_fc - 1) in
  let two_fr := wrap 64 (two_fc + 1) in
  let! x := ushl 64 two_fr beta_minus_1 in
  let zi := mulshift_float64 x pow10_lo pow10_hi in
  let q := zi / big_divisor in
  let r := wrap 32 (zi mod big_divisor) in
  let small q r := dragonbox_small64 two_fc delta pow10_lo pow10_hi beta_minus_1 e2 minus_k q r in
  if r <? delta then
    let! upper := obool_and (negb (negb (r =? 0) || is_even)) (is_integral_end_point two_fr e2 minus_k) in
    if negb upper then Done (q, minus_k + kappa + 1)
    else small (wrap 64 (q - 1)) big_divisor
  else if r =? delta then
    let! lower := obool_and is_even (is_integral_end_point two_fl e2 minus_k) in
    let! inside := obool_or lower (mul_parity_float64 two_fl pow10_lo pow10_hi beta_minus_1) in
    if inside then Done (q, minus_k + kappa + 1) else small q r
  else small q r.

(** roundtrip.h 986-997, the end of dragonbox_main: the multiple of the small divisor
    closest to the number (small_divisor is big_divisor / 10, line 904). *)
Definition dragonbox_small32 (two_fc delta pow10 beta_minus_1 e2 minus_k q r : Z) : outcome (Z * Z) :=
  let kappa := 1 in
  let small_divisor := 10 in
  let small_divisor_div2 := small_divisor / 2 in
  let q := wrap 32 (q * 10) in
  let dist := wrap 32 (r - delta / 2 + small_divisor_div2) in
  let dist_q := dist / small_divisor in
  let dist_q_mul100 := wrap 32 (dist_q * small_divisor) in
  let q := wrap 32 (q + dist_q) in
  if dist =? dist_q_mul100 then
    let approx_y_parity := negb (Z.land dist 1 =? 0) in
    let! y_parity := mul_parity_float32 two_fc pow10 beta_minus_1 in
    let! down := obool_or (negb (Bool.eqb y_parity approx_y_parity))
                   (obool_and (negb (Z.land q 1 =? 0))
                      (is_integral_mid_point_float32 two_fc e2 minus_k)) in
    Done (if down then wrap 32 (q - 1) else q, minus_k + kappa)
  else Done (q, minus_k + kappa).

(** roundtrip.h 923-926, 965-998 dragonbox_main, the same part for float. *)
Definition dragonbox_main32_body (m2 e2 : Z) : outcome (Z * Z) :=
  let kappa := 1 in
  let big_divisor := 100 in
  let is_even := Z.land m2 1 =? 0 in
  let! l2 := mul_ln2_div_ln10_floor e2 in
  let minus_k := l2 - kappa in
  let plus_k := - minus_k in
  let! l10 := mul_ln10_div_ln2_floor plus_k in
  let beta_minus_1 := e2 + l10 in
  let! pow10 := compute_pow10_float32 plus_k in
  let two_fc := wrap 32 (Z.shiftl m2 1) in
  let two_fl := wrap 32 (two_fc - 1) in
  let two_fr := wrap 32 (two_fc + 1) in
  let! x := ushl 32 two_fr beta_minus_1 in
  let zi := mulshift_float32 x pow10 in
  let q := zi / big_divisor in
  let r := zi mod big_divisor in
  let! delta := ushr 64 pow10 (63 - beta_minus_1) in
  let delta := wrap 32 delta in
  let small q r := dragonbox_small32 two_fc delta pow10 beta_minus_1 e2 minus_k q r in
  if r <? delta then
    let! upper := obool_and (negb (negb (r =? 0) || is_even))
                    (is_integral_end_point_float32 two_fr e2 minus_k) in
    if negb upper then Done (q, minus_k + kappa + 1)
    else small (wrap 32 (q - 1)) big_divisor
  else if r =? delta then
    let! lower := obool_and is_even (is_integral_end_point_float32 two_fl e2 minus_k) in
    let! inside := obool_or lower (mul_parity_float32 two_fl pow10 beta_minus_1) in
    if inside then Done (q, minus_k + kappa + 1) else small q r
  else small q r.

(** roundtrip.h 886-1002 dragonbox_main for a format: [m2] and [e2] are the mantissa and
    exponent fields.  Line 920 tests the mantissa after line 916 has set its hidden bit. *)
Definition dragonbox_main_with (mb eb w : Z) (body asym : Z -> Z -> outcome (Z * Z))
    (m2 e2 : Z) : outcome (Z * Z) :=
  let bias := Z.shiftr (2 ^ eb) 1 - 1 in
  let exponent_bias := bias + mb in
  let mflags := 2 ^ mb in
  if e2 =? 0 then body m2 (1 - exponent_bias)
  else
    let e2_temp := e2 in
    let e2 := e2 - exponent_bias in
    let m2 := Z.lor m2 mflags in
    let pos_e2 := wrap 32 (- e2) in
    let! integral := obool_and (pos_e2 <? mb) (multiple_of_pow2_unchecked w m2 pos_e2) in
    if integral then let! v := ushr w m2 pos_e2 in Done (v, 0)
    else if (m2 =? 0) && (1 <? e2_temp) then asym m2 e2
    else body m2 e2.
Definition dragonbox_main (f : fmt) (m2 e2 : Z) : outcome (Z * Z) :=
  if mantw f =? 64
  then dragonbox_main_with (mbits f) (ebits f) (mantw f) dragonbox_main64_body
         (fun _ => schubfach_asymmetric64) m2 e2
  else dragonbox_main_with (mbits f) (ebits f) (mantw f) dragonbox_main32_body
         (fun _ => schubfach_asymmetric32) m2 e2.

(** roundtrip.h 1025-1033 and 1072-1080: for(;;) dividing by 100 while no remainder. *)
Fixpoint strip100 (fuel : nat) (m10 e10 : Z) : outcome (Z * Z) :=
  match fuel with
  | O => Undefined
  | S fuel => if m10 mod 100 =? 0 then strip100 fuel (m10 / 100) (e10 + 2) else Done (m10, e10)
  end.
(** roundtrip.h 1053-1070: while(m10>=1000000000u) of the 32-bit build; the left component
    tells a return from inside of the loop. *)
Fixpoint strip_big (fuel : nat) (m10 e10 : Z) : outcome (bool * (Z * Z)) :=
  match fuel with
  | O => Undefined
  | S fuel =>
      if 1000000000 <=? m10 then
        if m10 mod 100 =? 0 then strip_big fuel (m10 / 100) (e10 + 2)
        else if m10 mod 10 =? 0 then Done (true, (m10 / 10, e10 + 1))
        else Done (true, (m10, e10))
      else Done (false, (m10, e10))
  end.
(** roundtrip.h 1017-1023 and 1045-1051: eight zeros at once. *)
Definition strip8 (m10 e10 : Z) : Z * Z :=
  if m10 mod 100000000 =? 0 then (m10 / 100000000, e10 + 8) else (m10, e10).

(** roundtrip.h 1000-1083 dragonbox_impl; [sizet] is the width of std::size_t. *)
Definition dragonbox_impl (sizet : Z) (f : fmt) (m2 e2 : Z) : outcome (Z * Z) :=
  let! d := dragonbox_main f m2 e2 in
  let '(m10, e10) := d in
  if (64 <=? sizet) || (mantw f <? 64) then
    let '(m10, e10) := if 64 <=? mantw f then strip8 m10 e10 else (m10, e10) in
    let! d := strip100 40 m10 e10 in
    let '(m10, e10) := d in
    if m10 mod 10 =? 0 then Done (m10 / 10, e10 + 1) else Done (m10, e10)
  else
    let '(m10, e10) := strip8 m10 e10 in
    let! b := strip_big 40 m10 e10 in
    let '(ret, (m10, e10)) := b in
    if ret then Done (m10, e10)
    else strip100 40 (wrap 32 m10) e10.
