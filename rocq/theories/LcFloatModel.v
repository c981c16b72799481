(** Model of floating point numbers printed with a locale: include/fast_io_unit/floating/lc_roundtrip.h, lc_hexfloat.h and
    lc_impl.h, for float and double on a 64-bit machine.  The plain texts are those of FloatTextModel.v.  Cells, stores and
    [Undefined] as there; a local array is a list of cells of its own, filled with zeros at first. *)
From Verif Require Import Base LcModel Outcome IntPrintModel FloatTables FloatModel FloatTextModel.
Local Open Scope Z_scope.

(** print_reserve_integral_main_impl<10,false,true> (core_impl/integers/impl.h 955-1064) for [len] digits that start at [pos]. *)
Definition lc_put_digits (w m10 len : Z) (buf : list Z) (pos : Z) : outcome (list Z) :=
  let! t := lift (main_impl w 10 false m10 len) in put buf pos t.

(** lc_roundtrip.h 6-18, 20-25 lc_print_rsv_fp_dgs_common_impl: all digits [len(point)] too far, the first one moved back. *)
Definition lc_fp_dgs_common (point : list Z) (w m10 m10len : Z) (st : cursor) : outcome cursor :=
  let '(buf, iter) := st in
  let res := iter + m10len + zlen point in
  let! buf := lc_put_digits w m10 m10len buf (res - m10len) in
  let! c := get buf (iter + zlen point) 1 in
  let! buf := put buf iter c in
  let! buf := put buf (iter + 1) point in
  Done (buf, res).
(** lc_roundtrip.h 27-38 lc_print_rsv_fp_decimal_common_impl *)
Definition lc_fp_decimal_common (point : list Z) (w m10 m10len : Z) (st : cursor) : outcome cursor :=
  if m10len =? 1 then let! c := lift (one_digit m10) in emit c st else lc_fp_dgs_common point w m10 m10len st.

(** lc_roundtrip.h 45-69 lc_no_grouping_fixed_case1_integer_and_point *)
Definition lc_no_grouping_case1 (point : list Z) (w m10 olength real_exp : Z) (st : cursor) : outcome cursor :=
  let '(buf, iter) := st in
  let eposition := real_exp + 1 in
  if olength =? eposition then
    let iter := iter + olength in
    let! buf := lc_put_digits w m10 (wrap 32 olength) buf (iter - olength) in
    Done (buf, iter)
  else
    let tmp := iter in
    let iter := iter + (olength + zlen point) in
    let! buf := lc_put_digits w m10 (wrap 32 olength) buf (iter - olength) in
    let! moved := get buf (tmp + zlen point) (wrap 32 eposition) in
    let! buf := put buf tmp moved in
    let! buf := put buf (tmp + eposition) point in
    Done (buf, iter).
(** lc_roundtrip.h 71-93 lc_grouping_fixed_case2_all_point *)
Definition lc_case2_all_point (point : list Z) (w m10 olength real_exp : Z) (st : cursor) : outcome cursor :=
  let! st := emit [48] st in
  let! st := emit point st in
  let! st := fill_zeros (Z.to_nat (wrap 32 (- real_exp - 1))) st in
  let '(buf, iter) := st in
  let! buf := lc_put_digits w m10 (wrap 32 olength) buf iter in
  Done (buf, iter + olength).

(** lc_roundtrip.h 95-138 lc_grouping_single_sep_ch_impl.  [src] is what is left between first and iter, last character first;
    [acc] what is written already.  [Undefined] is a read before first. *)
Inductive gcopy := GDone (acc : list Z) | GMore (src acc : list Z).
(** 104-109 (and 127-132): for(j=0; j!=e; ++j). *)
Fixpoint group_copy (src : list Z) (e j : Z) (acc : list Z) : outcome gcopy :=
  if j =? e then Done (GMore src acc)
  else match src with
       | [] => Undefined
       | c :: rest => match rest with [] => Done (GDone (c :: acc)) | _ => group_copy rest e (j + 1) (c :: acc) end
       end.
(** 114-119: no more groups. *)
Fixpoint rest_copy (src acc : list Z) : outcome (list Z) :=
  match src with
  | [] => Undefined
  | c :: rest => match rest with [] => Done (c :: acc) | _ => rest_copy rest (c :: acc) end
  end.
(** 123-134: the last entry again and again; [k] repetitions at most, more would be [Undefined]. *)
Fixpoint last_copy (k : nat) (e ch : Z) (src acc : list Z) : outcome (list Z) :=
  match k with
  | O => Undefined
  | S k => let! r := group_copy src e 0 acc in
           match r with GDone acc => Done acc | GMore src acc => last_copy k e ch src (ch :: acc) end
  end.
(** 98-112: the entries one by one; [prev] is grouping_base[i-1]. *)
Fixpoint groups_copy (g : list Z) (prev ch : Z) (src acc : list Z) : outcome (list Z) :=
  match g with
  | [] => last_copy (S (length src)) prev ch src acc
  | e :: g => if e =? 0 then rest_copy src acc
              else let! r := group_copy src e 0 acc in
                   match r with GDone acc => Done acc | GMore src acc => groups_copy g e ch src (ch :: acc) end
  end.
(** lc_roundtrip.h 140-168 grouping_handle_buffer<digits>: the grouped text is written into an array of 2*digits characters from its
    end on, and copied from there, with the separator in place of commas unless it is one character. *)
Definition grouping_handle_buffer (digits : Z) (lc : lc_numeric) (src : list Z) (st : cursor) : outcome cursor :=
  let ch := match lc_sep lc with [c] => c | _ => 44 end in
  let! text := groups_copy (lc_grouping lc) 0 ch (rev src) [] in
  if digits * 2 <? zlen text then Undefined
  else emit (match lc_sep lc with [_] => text | _ => put_seps (lc_sep lc) text end) st.
Definition cells (n : Z) : list Z := repeat 0 (Z.to_nat n).

(** lc_roundtrip.h 170-211 lc_grouping_fixed_case1_integer_and_point *)
Definition lc_grouping_case1 (f : fmt) (lc : lc_numeric) (m10 olength real_exp : Z) (st : cursor) : outcome cursor :=
  let m10total_digits := m10digits f + e10digits f + 2 in
  let eposition := real_exp + 1 in
  let! buffer1 := lc_put_digits (mantw f) m10 (wrap 32 olength) (cells m10total_digits) 0 in
  if olength =? eposition then
    let! src := get buffer1 0 olength in
    grouping_handle_buffer m10total_digits lc src st
  else
    let! src := get buffer1 0 eposition in
    let! st := grouping_handle_buffer m10total_digits lc src st in
    let! st := emit (lc_point lc) st in
    let! tail := get buffer1 eposition (olength - eposition) in
    emit tail st.
(** lc_roundtrip.h 228-233 (and 332-337): the number in an array of [n] characters first, then grouped. *)
Definition lc_grouping_case0 (n : Z) (f : fmt) (lc : lc_numeric) (m10 olength real_exp : Z) (st : cursor) : outcome cursor :=
  let! b := fixed_case0_full_integer (mantw f) m10 olength real_exp (cells n, 0) in
  let! src := get (fst b) 0 (snd b) in
  grouping_handle_buffer n lc src st.
Definition no_grouping (lc : lc_numeric) : bool := (zlen (lc_grouping lc) =? 0) || (zlen (lc_sep lc) =? 0).

(** lc_roundtrip.h 213-254 lc_print_rsv_fp_fixed_decision_impl *)
Definition lc_fixed_decision (f : fmt) (lc : lc_numeric) (m10 e10 : Z) (st : cursor) : outcome cursor :=
  let w := mantw f in
  let olength := chars_len_ryu w m10 in
  let! real_exp := signed_result 32 (e10 + olength - 1) in
  if olength <=? real_exp then
    if no_grouping lc then fixed_case0_full_integer w m10 olength real_exp st
    else lc_grouping_case0 (m10digits f + e10max f + 2) f lc m10 olength real_exp st
  else if (0 <=? real_exp) && (real_exp <? olength) then
    if no_grouping lc then lc_no_grouping_case1 (lc_point lc) w m10 olength real_exp st
    else lc_grouping_case1 f lc m10 olength real_exp st
  else lc_case2_all_point (lc_point lc) w m10 olength real_exp st.

(** lc_roundtrip.h 271-285 lc_print_rsv_fp_decision_impl, scientific *)
Definition lc_scientific (f : fmt) (fl : fflags) (lc : lc_numeric) (m10 e10 : Z) (st : cursor) : outcome cursor :=
  if m10 <? 10 then
    let! c := lift (one_digit m10) in
    let! st := emit c st in
    print_rsv_fp_e f (ff_upper_e fl) e10 st
  else
    let olength := wrap 32 (chars_len_ryu (mantw f) m10) in
    let sz := wrap 32 (olength - 1) in
    let! e10 := signed_result 32 (e10 + to_signed 32 sz) in
    let! st := lc_fp_dgs_common (lc_point lc) (mantw f) m10 olength st in
    print_rsv_fp_e f (ff_upper_e fl) e10 st.
(** lc_roundtrip.h 286-358 lc_print_rsv_fp_decision_impl, decimal *)
Definition lc_decimal (f : fmt) (fl : fflags) (lc : lc_numeric) (m10 e10 : Z) (st : cursor) : outcome cursor :=
  let w := mantw f in
  let olength := chars_len_ryu w m10 in
  let! real_exp := signed_result 32 (e10 + olength - 1) in
  let '(fixed_length, this_case) :=
    if olength <=? real_exp then (wrap 32 (real_exp + 1), 1)
    else if (0 <=? real_exp) && (real_exp <? olength)
    then (let l := wrap 32 (olength + 2) in if olength =? real_exp + 1 then wrap 32 (l - 1) else l, 2)
    else (wrap 32 (wrap 32 (- real_exp) + wrap 32 olength + 1), 0) in
  let scientific_length := wrap 32 (if olength =? 1 then olength + 3 else olength + 5) in
  if scientific_length <? fixed_length then
    let! st := lc_fp_decimal_common (lc_point lc) w m10 (wrap 32 olength) st in
    print_rsv_fp_e f (ff_upper_e fl) real_exp st
  else if this_case =? 1 then
    if no_grouping lc then fixed_case0_full_integer w m10 olength real_exp st
    else lc_grouping_case0 (m10digits f + e10digits f + 2) f lc m10 olength real_exp st
  else if this_case =? 2 then
    if no_grouping lc then lc_no_grouping_case1 (lc_point lc) w m10 olength real_exp st
    else lc_grouping_case1 f lc m10 olength real_exp st
  else lc_case2_all_point (lc_point lc) w m10 olength real_exp st.
(** lc_roundtrip.h 256-270 lc_print_rsv_fp_decision_impl, general, and the dispatch of 386-389 *)
Definition lc_decision (f : fmt) (fl : fflags) (lc : lc_numeric) (mt : format) (m10 e10 : Z) (st : cursor) : outcome cursor :=
  match mt with
  | general => if (-5 <? e10) && (e10 <? 7) then lc_fixed_decision f lc m10 e10 st else lc_scientific f fl lc m10 e10 st
  | scientific => lc_scientific f fl lc m10 e10 st
  | decimal => lc_decimal f fl lc m10 e10 st
  | fixed => lc_fixed_decision f lc m10 e10 st
  end.
(** lc_roundtrip.h 361-391 lc_print_rsvflt_define_impl *)
Definition lc_print_rsvflt_define (sizet : Z) (f : fmt) (fl : fflags) (lc : lc_numeric) (mt : format) (bits : Z) (st : cursor) : outcome cursor :=
  let exponent_mask := wrap 32 (wrap (mantw f) (2 ^ ebits f - 1)) in
  let '(mantissa, exponent, sign) := get_punned_result f bits in
  let! st := emit (sign_chars (ff_showpos fl) sign) st in
  if exponent =? exponent_mask then emit (nan_chars (ff_upper fl) (negb (mantissa =? 0))) st
  else if (mantissa =? 0) && (exponent =? 0) then
    match mt with scientific => emit (dece0 (ff_upper fl)) st | _ => emit [48] st end
  else
    let! d := dragonbox_impl sizet f mantissa exponent in
    let '(m10, e10) := d in
    lc_decision f fl lc mt m10 e10 st.

(** lc_impl.h 12-40 lc_print_rsv_iec559_size *)
Definition lc_float_size (f : fmt) (mt : format) (lc : lc_numeric) : Z :=
  match mt with
  | fixed => 2 + (e10max f + m10digits f - 1) + zlen (lc_point lc) + (e10max f + m10digits f - 1) * zlen (lc_sep lc)
  | scientific => print_rsvflt_size f scientific + zlen (lc_point lc)
  | _ => 3 + e10digits f + (m10digits f + 3) + zlen (lc_point lc) + (m10digits f + 3) * zlen (lc_sep lc)
  end.

(** lc_hexfloat.h 11-76 lc_print_rsvhexfloat_define_impl; the decimal point only comes from the locale. *)
Definition lc_print_rsvhexfloat_define (f : fmt) (fl : hflags) (point : list Z) (bits : Z) (st : cursor) : outcome cursor :=
  let mb := mbits f in
  let bias := Z.shiftr (2 ^ ebits f) 1 - 1 in
  let exponent_mask := wrap 32 (wrap (mantw f) (2 ^ ebits f - 1)) in
  let '(mantissa, exponent, sign) := get_punned_result f bits in
  let makeup_bits := ((mb / 4 + 1) * 4 - mb) mod 4 in
  let! st := emit (sign_chars (hf_showpos fl) sign) st in
  if exponent =? exponent_mask then emit (nan_chars (hf_upper fl) (negb (mantissa =? 0))) st
  else
    let! st := if hf_showbase fl then emit (show_base 16 (hf_upper_showbase fl)) st else Done st in
    if (mantissa =? 0) && (exponent =? 0) then emit (hex0p0 (hf_upper fl)) st
    else
      let e2 := exponent + - bias in
      let! r :=
        if negb (mantissa =? 0) then
          let! tz := countr_zero 64 mantissa in
          let trailing_zeros_digits := wrap 32 (tz + makeup_bits) in
          let trailing_zeros_mdigits_d4 := Z.shiftr (mb + makeup_bits) 2 in
          let trailing_zeros_digits_d4 := Z.shiftr trailing_zeros_digits 2 in
          let trailing_zeros_digits_d4m4 := wrap 32 (Z.shiftl trailing_zeros_digits_d4 2) in
          let! mantissa := ushl (mantw f) mantissa makeup_bits in
          let! mantissa := ushr (mantw f) mantissa trailing_zeros_digits_d4m4 in
          let mantissa_len := wrap 32 (trailing_zeros_mdigits_d4 - trailing_zeros_digits_d4) in
          let '(e2, lead) := if exponent =? 0 then (e2 + 1, [48]) else (e2, [49]) in
          let! st := emit lead st in
          let! st := emit point st in
          let! t := lift (main_impl (mantw f) 16 (hf_upper fl) mantissa mantissa_len) in
          let! st := emit t st in
          Done (e2, st)
        else let! st := emit [49] st in Done (e2, st) in
      let '(e2, st) := r in
      let! st := emit [if hf_upper_e fl then 80 else 112] st in
      with_sign_prt_rsv_exponent_hex f e2 st.
(** lc_impl.h 50-57: the size without a locale, less the character of the point. *)
Definition lc_hexfloat_size (f : fmt) (showbase : bool) (point : list Z) : Z := zlen point + (print_rsvhexfloat_size f showbase - 1).
