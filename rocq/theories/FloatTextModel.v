(** Model of the text output of floating point numbers:
    include/fast_io_unit/floating/roundtrip.h 1084-1375 (decimal), punning.h 188-625 and
    hexfloat.h (hexadecimal).

    The destination is a list of cells, [pos] the index the iterator points to.  A store
    outside of the cells is [Undefined].  Characters are ASCII code units. *)
From Verif Require Import Base Outcome IntPrintModel FloatTables FloatModel.

(** Stores of consecutive characters from [pos] on. *)
Definition put (buf : list Z) (pos : Z) (l : list Z) : outcome (list Z) :=
  if (0 <=? pos) && (pos + zlen l <=? zlen buf)
  then Done (firstn (Z.to_nat pos) buf ++ l ++ skipn (Z.to_nat pos + length l) buf)
  else Undefined.
(** The [n] characters from [pos] on. *)
Definition get (buf : list Z) (pos n : Z) : outcome (list Z) :=
  if (0 <=? pos) && (0 <=? n) && (pos + n <=? zlen buf)
  then Done (firstn (Z.to_nat n) (skipn (Z.to_nat pos) buf)) else Undefined.
Definition cursor : Type := (list Z * Z)%type.
Definition emit (l : list Z) (st : cursor) : outcome cursor :=
  let! b := put (fst st) (snd st) l in Done (b, snd st + zlen l).
(** A digit generator that runs into undefined behaviour yields [None]. *)
Definition lift {A} (o : option A) : outcome A := match o with Some a => Done a | None => Undefined end.

Inductive format := general | scientific | decimal | fixed.
Record fflags := mk_fflags
  { ff_showpos : bool; ff_upper : bool; ff_upper_e : bool; ff_comma : bool }.
Definition point_of (comma : bool) : Z := if comma then 44 else 46.

(** jeaiii_method.h 335-500 jeaiii_hash<n> for n = 7, 8, 9. *)
Definition jeaiii_hash (n u len : Z) : option (list Z) :=
  if (1 <=? len) && (len <=? n) then jeaiii_c (len - 1) u else jeaiii_c n u.
(** jeaiii_method.h 501-611 jeaiii_main_len<true>: ryu_mode, the caller promises at most 17
    (64-bit) or 9 (32-bit) digits. *)
Definition jeaiii_main_len_ryu (w : Z) (n len : Z) (buf : list Z) (pos : Z) : outcome (list Z) :=
  if w =? 64 then
    if wrap 32 (Z.shiftr n 32) =? 0 then let! t := lift (jeaiii_hash 9 (wrap 32 n) len) in put buf pos t
    else
      let a := n / 1000000000 in
      let u := n mod 1000000000 in
      let alow := wrap 32 a in
      let len_sub := wrap 32 (len - 9) in
      let! t := lift (jeaiii_hash 7 alow len_sub) in
      let! buf := put buf pos t in
      let! t := lift (jeaiii_c 8 u) in
      put buf (pos + len_sub) t
  else let! t := lift (jeaiii_hash 8 n len) in put buf pos t.
(** utils.h 491-800 chars_len<10,true>: the thresholds above 10^17 (64-bit) and 10^9 (32-bit) are left out. *)
Definition chars_len_ryu (w value : Z) : Z :=
  chars_len10_from (if w =? 64 then 16%nat else 8%nat) value.

(** punning.h 478-493 print_rsv_fp_sign_impl. *)
Definition sign_chars (showpos sign : bool) : list Z :=
  if showpos then [if sign then 45 else 43] else if sign then [45] else [].
(** punning.h 203-259 prsv_fp_nan_impl. *)
Definition nan_chars (uppercase isnan : bool) : list Z :=
  if isnan then (if uppercase then [78; 65; 78] else [110; 97; 110])
  else (if uppercase then [73; 78; 70] else [105; 110; 102]).
(** punning.h 402-430 prsv_fp_dece0 and 373-400 prsv_fp_hex0p0. *)
Definition dece0 (uppercase : bool) : list Z := [48; if uppercase then 69 else 101; 43; 48].
Definition hex0p0 (uppercase : bool) : list Z := [48; if uppercase then 80 else 112; 43; 48].

(** punning.h 484-491 prt_rsv_hundred_flt_impl. *)
Definition prt_rsv_hundred (u : Z) : option (list Z) := tb_pair 10 false u.
Definition one_digit (u : Z) : option (list Z) := option_map (fun c => [c]) (char_literal_add0 u).
(** punning.h 493-622 prt_rsv_exponent_impl<mxdigits,indent> for 2 and 3 digits with indent. *)
Definition prt_rsv_exponent_indent (mxdigits u : Z) : option (list Z) :=
  if mxdigits =? 2 then prt_rsv_hundred u
  else if 100 <=? u then opt_app (one_digit (u / 100)) (prt_rsv_hundred (u mod 100))
  else prt_rsv_hundred u.
(** The same for 3 and 4 digits without indent. *)
Definition prt_rsv_exponent (mxdigits u : Z) : option (list Z) :=
  if mxdigits =? 3 then
    if 100 <=? u then opt_app (one_digit (u / 100)) (prt_rsv_hundred (u mod 100))
    else if u <? 10 then one_digit u
    else prt_rsv_hundred u
  else
    let sz := if 1000 <=? u then 4 else if 100 <=? u then 3 else if 10 <=? u then 2 else 1 in
    main_impl 32 10 false u sz.

(** roundtrip.h 1085-1094 print_rsv_fp_decimal_scientific_common_impl. *)
Definition print_rsv_fp_decimal_scientific_common (comma : bool) (w m10 m10len : Z) (st : cursor) : outcome cursor :=
  let '(buf, iter) := st in
  let itp1 := iter + 1 in
  let! buf := jeaiii_main_len_ryu w m10 m10len buf itp1 in
  let! c := get buf itp1 1 in
  let! buf := put buf iter c in
  let! buf := put buf itp1 [point_of comma] in
  Done (buf, itp1 + m10len).
(** roundtrip.h 1096-1107 print_rsv_fp_decimal_common_impl. *)
Definition print_rsv_fp_decimal_common (comma : bool) (w m10 m10len : Z) (st : cursor) : outcome cursor :=
  if m10len =? 1 then let! c := lift (one_digit m10) in emit c st
  else print_rsv_fp_decimal_scientific_common comma w m10 m10len st.
(** roundtrip.h 1109-1124 print_rsv_fp_e_impl. *)
Definition print_rsv_fp_e (f : fmt) (uppercase_e : bool) (e10 : Z) (st : cursor) : outcome cursor :=
  let! st := emit [if uppercase_e then 69 else 101] st in
  let ue10 := if e10 <? 0 then wrap 32 (0 - wrap 32 e10) else wrap 32 e10 in
  let! st := emit [if e10 <? 0 then 45 else 43] st in
  let! t := lift (prt_rsv_exponent_indent (e10digits f) ue10) in
  emit t st.
(** roundtrip.h 1126-1135 fill_zeros_impl: the loop ends after [n] stores. *)
Fixpoint fill_zeros (n : nat) (st : cursor) : outcome cursor :=
  match n with
  | O => Done st
  | S n => let! st := emit [48] st in fill_zeros n st
  end.
(** roundtrip.h 1137-1166 fill_zero_point_impl. *)
Definition fill_zero_point (comma : bool) (st : cursor) : outcome cursor :=
  let! st := emit [48; point_of comma] st in Done st.

(** roundtrip.h 1168-1174 fixed_case0_full_integer. *)
Definition fixed_case0_full_integer (w m10 olength real_exp : Z) (st : cursor) : outcome cursor :=
  let '(buf, iter) := st in
  let! buf := jeaiii_main_len_ryu w m10 (wrap 32 olength) buf iter in
  fill_zeros (Z.to_nat (wrap 32 (real_exp + 1 - olength))) (buf, iter + olength).
(** roundtrip.h 1176-1194 fixed_case1_integer_and_point; my_copy_n moves towards the front. *)
Definition fixed_case1_integer_and_point (comma : bool) (w m10 olength real_exp : Z) (st : cursor) : outcome cursor :=
  let '(buf, iter) := st in
  let eposition := real_exp + 1 in
  if olength =? eposition then
    let! buf := jeaiii_main_len_ryu w m10 (wrap 32 olength) buf iter in
    Done (buf, iter + olength)
  else
    let tmp := iter in
    let! buf := jeaiii_main_len_ryu w m10 (wrap 32 olength) buf (iter + 1) in
    let iter := iter + (olength + 1) in
    let! moved := get buf (tmp + 1) (wrap 32 eposition) in
    let! buf := put buf tmp moved in
    let! buf := put buf (tmp + eposition) [point_of comma] in
    Done (buf, iter).
(** roundtrip.h 1196-1204 fixed_case2_all_point. *)
Definition fixed_case2_all_point (comma : bool) (w m10 olength real_exp : Z) (st : cursor) : outcome cursor :=
  let! st := fill_zero_point comma st in
  let! st := fill_zeros (Z.to_nat (wrap 32 (- real_exp - 1))) st in
  let '(buf, iter) := st in
  let! buf := jeaiii_main_len_ryu w m10 (wrap 32 olength) buf iter in
  Done (buf, iter + olength).
(** roundtrip.h 1206-1223 print_rsv_fp_fixed_decision_impl. *)
Definition print_rsv_fp_fixed_decision (f : fmt) (comma : bool) (m10 e10 : Z) (st : cursor) : outcome cursor :=
  let w := mantw f in
  let olength := chars_len_ryu w m10 in
  let! real_exp := signed_result 32 (e10 + olength - 1) in
  if olength <=? real_exp then fixed_case0_full_integer w m10 olength real_exp st
  else if (0 <=? real_exp) && (real_exp <? olength)
  then fixed_case1_integer_and_point comma w m10 olength real_exp st
  else fixed_case2_all_point comma w m10 olength real_exp st.

(** roundtrip.h 1242-1262 print_rsv_fp_decision_impl, scientific. *)
Definition print_rsv_fp_scientific (f : fmt) (fl : fflags) (m10 e10 : Z) (st : cursor) : outcome cursor :=
  if m10 <? 10 then
    let! c := lift (one_digit m10) in
    let! st := emit c st in
    print_rsv_fp_e f (ff_upper_e fl) e10 st
  else
    let '(buf, iter) := st in
    let iterp1 := iter + 1 in
    let! t := lift (jeaiii_main (mantw f) m10) in
    let! buf := put buf iterp1 t in
    let new_iter := iterp1 + zlen t in
    let! e10 := signed_result 32 (e10 + to_signed 32 (wrap 32 (new_iter - iterp1) - 1)) in
    let! c := get buf iterp1 1 in
    let! buf := put buf iter c in
    let! buf := put buf iterp1 [point_of (ff_comma fl)] in
    print_rsv_fp_e f (ff_upper_e fl) e10 (buf, new_iter).
(** roundtrip.h 1263-1307 print_rsv_fp_decision_impl, decimal. *)
Definition print_rsv_fp_decimal (f : fmt) (fl : fflags) (m10 e10 : Z) (st : cursor) : outcome cursor :=
  let w := mantw f in
  let comma := ff_comma fl in
  let olength := chars_len_ryu w m10 in
  let! real_exp := signed_result 32 (e10 + olength - 1) in
  let '(fixed_length, this_case) :=
    if olength <=? real_exp then (wrap 32 (real_exp + 1), 1)
    else if (0 <=? real_exp) && (real_exp <? olength)
    then (let l := wrap 32 (olength + 2) in if olength =? real_exp + 1 then wrap 32 (l - 1) else l, 2)
    else (wrap 32 (wrap 32 (- real_exp) + wrap 32 olength + 1), 0) in
  let scientific_length := wrap 32 (if olength =? 1 then olength + 3 else olength + 5) in
  if scientific_length <? fixed_length then
    let! st := print_rsv_fp_decimal_common comma w m10 (wrap 32 olength) st in
    print_rsv_fp_e f (ff_upper_e fl) real_exp st
  else if this_case =? 1 then fixed_case0_full_integer w m10 olength real_exp st
  else if this_case =? 2 then fixed_case1_integer_and_point comma w m10 olength real_exp st
  else fixed_case2_all_point comma w m10 olength real_exp st.
(** roundtrip.h 1225-1241 print_rsv_fp_decision_impl, general, and the dispatch of 1353-1356. *)
Definition print_rsv_fp_decision (f : fmt) (fl : fflags) (mt : format) (m10 e10 : Z) (st : cursor) : outcome cursor :=
  match mt with
  | general => if (-5 <? e10) && (e10 <? 7) then print_rsv_fp_fixed_decision f (ff_comma fl) m10 e10 st
               else print_rsv_fp_scientific f fl m10 e10 st
  | scientific => print_rsv_fp_scientific f fl m10 e10 st
  | decimal => print_rsv_fp_decimal f fl m10 e10 st
  | fixed => print_rsv_fp_fixed_decision f (ff_comma fl) m10 e10 st
  end.

(** roundtrip.h 1310-1358 print_rsvflt_define_impl. *)
Definition print_rsvflt_define (sizet : Z) (f : fmt) (fl : fflags) (mt : format) (bits : Z) (st : cursor) : outcome cursor :=
  let exponent_mask := wrap 32 (wrap (mantw f) (2 ^ ebits f - 1)) in
  let '(mantissa, exponent, sign) := get_punned_result f bits in
  let! st := emit (sign_chars (ff_showpos fl) sign) st in
  if exponent =? exponent_mask then emit (nan_chars (ff_upper fl) (negb (mantissa =? 0))) st
  else if (mantissa =? 0) && (exponent =? 0) then
    match mt with scientific => emit (dece0 (ff_upper fl)) st | _ => emit [48] st end
  else
    let! d := dragonbox_impl sizet f mantissa exponent in
    let '(m10, e10) := d in
    print_rsv_fp_decision f fl mt m10 e10 st.

(** roundtrip.h 1360-1385 print_rsvflt_size_impl. *)
Definition print_rsvflt_size (f : fmt) (mt : format) : Z :=
  match mt with
  | fixed => 1 + 2 + e10max f + m10digits f
  | _ => 1 + m10digits f + 1 + 2 + e10digits f
  end.

(** punning.h 155-187 my_countr_zero_unchecked: undefined for zero. *)
Fixpoint countr_zero (fuel : nat) (x : Z) : outcome Z :=
  match fuel with
  | O => Undefined
  | S fuel => if Z.odd x then Done 0 else let! n := countr_zero fuel (x / 2) in Done (n + 1)
  end.

Record hflags := mk_hflags
  { hf_showbase : bool; hf_upper_showbase : bool; hf_showpos : bool; hf_upper : bool;
    hf_upper_e : bool; hf_comma : bool }.
(** hexfloat.h 15-29 with_sign_prt_rsv_exponent_hex_impl. *)
Definition with_sign_prt_rsv_exponent_hex (f : fmt) (e2 : Z) (st : cursor) : outcome cursor :=
  let ue2 := if e2 <? 0 then wrap 32 (0 - wrap 32 e2) else wrap 32 e2 in
  let! st := emit [if e2 <? 0 then 45 else 43] st in
  let! t := lift (prt_rsv_exponent (e2hexdigits f) ue2) in
  emit t st.
(** hexfloat.h 31-88 print_rsvhexfloat_define_impl. *)
Definition print_rsvhexfloat_define (f : fmt) (fl : hflags) (bits : Z) (st : cursor) : outcome cursor :=
  let mb := mbits f in
  let bias := Z.shiftr (2 ^ ebits f) 1 - 1 in
  let exponent_mask := wrap 32 (wrap (mantw f) (2 ^ ebits f - 1)) in
  let '(mantissa, exponent, sign) := get_punned_result f bits in
  let makeup_bits := ((mb / 4 + 1) * 4 - mb) mod 4 in
  let! st := emit (sign_chars (hf_showpos fl) sign) st in
  if exponent =? exponent_mask then emit (nan_chars (hf_upper fl) (negb (mantissa =? 0))) st
  else
    let! st := if hf_showbase fl then emit (show_base 16 (hf_upper_showbase fl)) st else Done st in
    if (mantissa =? 0) && (exponent =? 0) then emit (hex0p0 (hf_upper fl)) st
    else
      let e2 := exponent + - bias in
      let! r :=
        if negb (mantissa =? 0) then
          let! tz := countr_zero 64 mantissa in
          let trailing_zeros_digits := wrap 32 (tz + makeup_bits) in
          let trailing_zeros_mdigits_d4 := Z.shiftr (mb + makeup_bits) 2 in
          let trailing_zeros_digits_d4 := Z.shiftr trailing_zeros_digits 2 in
          let trailing_zeros_digits_d4m4 := wrap 32 (Z.shiftl trailing_zeros_digits_d4 2) in
          let! mantissa := ushl (mantw f) mantissa makeup_bits in
          let! mantissa := ushr (mantw f) mantissa trailing_zeros_digits_d4m4 in
          let mantissa_len := wrap 32 (trailing_zeros_mdigits_d4 - trailing_zeros_digits_d4) in
          let '(e2, lead) := if exponent =? 0 then (e2 + 1, [48; point_of (hf_comma fl)])
                             else (e2, [49; point_of (hf_comma fl)]) in
          let! st := emit lead st in
          let! t := lift (main_impl (mantw f) 16 (hf_upper fl) mantissa mantissa_len) in
          let! st := emit t st in
          Done (e2, st)
        else let! st := emit [49] st in Done (e2, st) in
      let '(e2, st) := r in
      let! st := emit [if hf_upper_e fl then 80 else 112] st in
      with_sign_prt_rsv_exponent_hex f e2 st.
(** hexfloat.h 91-100 print_rsvhexfloat_size_cache. *)
Definition print_rsvhexfloat_size (f : fmt) (showbase : bool) : Z :=
  reserved_size (mk_pflags 16 showbase false true false false) (mk_int (mantw f) false) + 6 +
  reserved_size (mk_pflags 10 true false true false false) (mk_int 32 true).
