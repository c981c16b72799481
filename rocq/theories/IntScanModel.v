(** Model of integer scanning.
    Source: include/fast_io_core_impl/integers/sto/sto_contiguous.h,
            include/fast_io_core_impl/integers/sto/sto_generate_base_tb.h,
            include/fast_io_core_impl/simd_find.h (scalar meaning), char_category.h.
    A text is the list of its code units (unsigned values).  [None] is undefined behaviour
    (a table or buffer read out of bounds).  EBCDIC and byte-swapped wchar_t are not modelled. *)
From Verif Require Import Base IntPrintModel.

(** Configuration: template arguments <base,noskipws,shbase,skipzero>, T, the code unit width
    and whether the SSE4.1 branch was compiled in. *)
Record scfg := mk_scfg
  { sc_base : Z; sc_noskipws : bool; sc_shbase : bool; sc_skipzero : bool;
    sc_ty : int_type; sc_cw : Z; sc_sse : bool }.

(** sto_generate_base_tb.h 101-117 char_digit_to_literal_impl, ASCII, base > 10, on char8_t. *)
Definition tb_digit (base ch : Z) : option Z :=
  let mns := base - 10 in
  let ch2 := wrap 8 (ch - 65) in
  let ch3 := wrap 8 (ch - 97) in
  let c := wrap 8 (ch - 48) in
  if ch2 <? mns then Some (wrap 8 (ch2 + 10))
  else if ch3 <? mns then Some (wrap 8 (ch3 + 10))
  else if 10 <=? c then None else Some c.

(** sto_generate_base_tb.h 121-145: size of the lookup table; 255 for one-byte characters
    (so index 255 is out of bounds), otherwise one past the largest digit character. *)
Definition sto_tb_size (base cw : Z) : Z := if cw =? 8 then 255 else 97 + base - 10.

(** sto_contiguous.h 16-58 char_digit_to_literal and 150-190 char_is_digit (the same lookup).
    Outer [None]: out of bounds table read; inner [None]: not a digit. *)
Definition char_digit (base cw ch : Z) : option (option Z) :=
  if base <=? 10 then
    let c := wrap cw (ch - 48) in Some (if base <=? c then None else Some c)
  else if negb (cw =? 8) && (sto_tb_size base cw <? ch) then Some None
  else if ch <? sto_tb_size base cw then Some (tb_digit base ch)
  else None.

(** char_category.h 186-211 is_c_space. *)
Definition is_c_space (cw ch : Z) : bool := (ch =? 32) || (wrap cw (ch - 9) <? 5).

(** simd_find.h 576-606 find_space_common_impl<false,true>: skip white space. *)
Fixpoint skip_space (cw : Z) (s : list Z) : list Z :=
  match s with [] => [] | c :: s' => if is_c_space cw c then skip_space cw s' else s end.

(** simd_find.h 615-618 find_none_zero_simd_impl: skip the characters '0'. *)
Fixpoint skip_zeros (s : list Z) : list Z :=
  match s with [] => [] | c :: s' => if c =? 48 then skip_zeros s' else s end.

(** sto_contiguous.h 430-440 skip_digits. *)
Fixpoint skip_digits (base cw : Z) (s : list Z) : option (list Z) :=
  match s with
  | [] => Some []
  | c :: s' => match char_digit base cw c with
               | None => None
               | Some None => Some s
               | Some (Some _) => skip_digits base cw s'
               end
  end.

(** sto_contiguous.h 463-470: accumulate at most [n] digits, in T arithmetic of width [w]. *)
Fixpoint first_phase (base cw w : Z) (n : nat) (s : list Z) (res : Z) : option (Z * list Z) :=
  match n, s with
  | O, _ | _, [] => Some (res, s)
  | S k, c :: s' =>
      match char_digit base cw c with
      | None => None
      | Some None => Some (res, s)
      | Some (Some d) => first_phase base cw w k s' (wrap w (wrap w (res * base) + d))
      end
  end.

Definition special_base (base : Z) : bool := (base =? 2) || (base =? 4) || (base =? 16).

(** sto_contiguous.h 442-509 scan_int_contiguous_none_simd_space_part_define_impl. *)
Definition scan_scalar (base cw w : Z) (s : list Z) : option (parse_code * Z * list Z) :=
  let umax := 2 ^ w - 1 in
  let max_size := cal_max_int_size (mk_int w false) base - (if special_base base then 0 else 1) in
  match first_phase base cw w (Z.to_nat max_size) s 0 with
  | None => None
  | Some (res, []) => Some (pc_ok, res, [])
  | Some (res, (c :: s1) as s0) =>
      match char_digit base cw c with
      | None => None
      | Some None => Some (pc_ok, res, s0)
      | Some (Some d) =>
          if special_base base then
            option_map (fun r => (pc_overflow, res, r)) (skip_digits base cw s1)
          else
            let ovf := (umax / base <? res) || ((umax / base =? res) && (umax mod base <? d)) in
            let res' := if ovf then res else wrap w (wrap w (res * base) + d) in
            let code b := if b : bool then pc_overflow else pc_ok in
            match s1 with
            | [] => Some (code ovf, res', [])
            | c2 :: s2 =>
                match char_digit base cw c2 with
                | None => None
                | Some None => Some (code ovf, res', s1)
                | Some (Some _) => option_map (fun r => (pc_overflow, res', r)) (skip_digits base cw s2)
                end
            end
      end
  end.

(** ** The SSE4.1 path *)

(** Unaligned 16 byte load: undefined when fewer than 16 bytes are available. *)
Definition load16 (s : list Z) : option (list Z) :=
  if (16 <=? Z.of_nat (length s)) then Some (firstn 16 s) else None.

(** sto_contiguous.h 281-284: signed comparison of chunk-176 with -118. *)
Definition sse_is_digit (ch : Z) : bool := to_signed 8 (ch - 176) <? -118.
Fixpoint countr_one (l : list bool) : Z :=
  match l with true :: l' => 1 + countr_one l' | _ => 0 end.
(** sto_contiguous.h 267-291 detect_length. *)
Definition detect_length (s : list Z) : option Z :=
  option_map (fun c => countr_one (map sse_is_digit c)) (load16 s).

Definition zskip (n : Z) (s : list Z) : list Z := skipn (Z.to_nat n) s.
Definition znth (s : list Z) (i : Z) : Z := nth (Z.to_nat i) s 0.

(** sto_contiguous.h 260-261 simd16_shift_table and pshufb: lane i takes byte digits+i-16, or 0. *)
Definition shuffle_right (digits : Z) (chunk : list Z) : list Z :=
  map (fun i => if digits + i <? 16 then 0 else znth chunk (digits + i - 16)) (zseq 16).
Definition clamp (lo hi x : Z) : Z := Z.max lo (Z.min hi x).
Fixpoint pairs (f : Z -> Z -> Z) (l : list Z) : list Z :=
  match l with a :: b :: l' => f a b :: pairs f l' | _ => [] end.
(** pmaddubsw with 10,1; pmaddwd with 100,1; packusdw; pmaddwd with 10000,1. *)
Definition maddubs10 (a b : Z) : Z := clamp (-32768) 32767 (a * 10 + b).
Definition madd100 (a b : Z) : Z := to_signed 32 (to_signed 16 a * 100 + to_signed 16 b).
Definition packus (x : Z) : Z := clamp 0 65535 x.
Definition madd10000 (a b : Z) : Z := to_signed 32 (to_signed 16 a * 10000 + to_signed 16 b).

(** sto_contiguous.h 330-363: the 16-digit evaluation. *)
Definition sse_eval (digits : Z) (chunk : list Z) : Z :=
  let l := shuffle_right digits (map (fun c => wrap 8 (c - 48)) chunk) in
  let l := pairs madd10000 (map packus (pairs madd100 (pairs maddubs10 l))) in
  let lo := wrap 32 (znth l 0) in
  let hi := wrap 32 (znth l 1) in
  wrap 64 (wrap 64 (lo * 100000000) + hi).

(** sto_contiguous.h 297-309 sse_skip_long_overflow_digits: result relative to [buffer]. *)
Fixpoint sse_skip_loop (fuel : nat) (buffer : list Z) (it : Z) : option Z :=
  match fuel with
  | O => None
  | S f =>
      let n := Z.of_nat (length buffer) in
      if 16 <=? n - it then
        match detect_length (zskip it buffer) with
        | None => None
        | Some nl => if negb (nl =? 16) then Some (it + nl) else sse_skip_loop f buffer (it + 16)
        end
      else if n =? it then Some it
      else if n <? it then None
      else option_map (fun d => n + d) (detect_length (zskip (n - 16) buffer))
  end.
Definition sse_skip_long_overflow_digits (buffer : list Z) : option Z :=
  sse_skip_loop (S (length buffer)) buffer 16.

(** sto_contiguous.h 311-426 sse_parse<char_execharset,less_than_64_bits>: digits, code, value. *)
Definition sse_parse (less64 : bool) (s : list Z) : option (Z * parse_code * Z) :=
  match load16 s with
  | None => None
  | Some chunk =>
      let digits := countr_one (map sse_is_digit chunk) in
      if digits =? 0 then Some (0, pc_invalid, 0)
      else
        let result := sse_eval digits chunk in
        if digits =? 16 then
          if less64 then
            option_map (fun n => (n + 16, pc_overflow, 0)) (sse_skip_long_overflow_digits (zskip 16 s))
          else
            match detect_length (zskip 16 s) with
            | None => None
            | Some d1 =>
                let b i := znth s i - 48 in
                if d1 =? 3 then Some (19, pc_ok, wrap 64 (wrap 64 (result * 1000) + (b 16 * 100 + b 17 * 10 + b 18)))
                else if d1 =? 2 then Some (18, pc_ok, wrap 64 (wrap 64 (result * 100) + (b 16 * 10 + b 17)))
                else if d1 =? 1 then Some (17, pc_ok, wrap 64 (wrap 64 (result * 10) + b 16))
                else if d1 =? 0 then Some (16, pc_ok, result)
                else if d1 =? 4 then
                  let risky_value := (2 ^ 64 - 1) / 10000 in
                  let risky_mod := (2 ^ 64 - 1) mod 10000 in
                  if risky_value <? result then Some (20, pc_overflow, 0)
                  else
                    let partial := b 16 * 1000 + b 17 * 100 + b 18 * 10 + b 19 in
                    if (result =? risky_value) && (risky_mod <? partial) then Some (20, pc_overflow, 0)
                    else Some (20, pc_ok, wrap 64 (wrap 64 (result * 10000) + partial))
                else if d1 =? 16 then
                  option_map (fun n => (n + 16, pc_overflow, 0)) (sse_skip_long_overflow_digits (zskip 16 s))
                else Some (d1 + 16, pc_overflow, 0)
            end
        else Some (digits, pc_ok, result)
  end.

(** ** Sign, prefix, zeros *)

(** A finished scan: code, number of characters consumed, value stored in the target (if stored). *)
Record pres := mk_pres { p_code : parse_code; p_used : Z; p_val : option Z }.

(** sto_contiguous.h 513-573 scan_shbase_impl: [inl used] is a final (invalid) answer,
    [inr rest] means ongoing.  Note the doubled ++first after '[' (so "0[" at the end of the text
    reads past it) and the unconsumed ']'. *)
Definition scan_shbase (base : Z) (s : list Z) : option (Z + list Z) :=
  match s with
  | [] => Some (inl 0)
  | c0 :: s1 =>
      if negb (c0 =? 48) then Some (inl 0) else
      match s1 with
      | [] => Some (inl 1)
      | c1 :: s2 =>
          if (base =? 2) || (base =? 3) || (base =? 16) then
            if negb (c1 =? (if base =? 2 then 66 else if base =? 3 then 116 else 88))
               && negb (c1 =? (if base =? 2 then 98 else if base =? 3 then 116 else 120))
            then Some (inl 1) else Some (inr s2)
          else if negb (c1 =? 91) then Some (inl 1)
          else
            (* ++first; if((++first)==last) : one character after '[' is skipped *)
            match s2 with
            | [] => None
            | _ :: s3 =>
            match s3 with
            | [] => Some (inl 3)
            | c3 :: s4 =>
                if negb (c3 =? 48 + (if base <? 10 then base else base / 10)) then Some (inl 3) else
                match s4 with
                | [] => Some (inl 4)
                | c4 :: s5 =>
                    if 10 <? base then
                      if negb (c4 =? 48 + base mod 10) then Some (inl 4) else
                      match s5 with
                      | [] => Some (inl 5)
                      | c5 :: _ => if negb (c5 =? 93) then Some (inl 5) else Some (inr s5)
                      end
                    else if negb (c4 =? 93) then Some (inl 4) else Some (inr s4)
                end
            end end
      end
  end.

(** Prefix handling of sto_contiguous.h 588-608 and 709-731. *)
Definition scan_prefix (base : Z) (s : list Z) : option (Z + list Z) :=
  if base =? 8 then
    match s with c :: s' => if c =? 48 then Some (inr s') else Some (inl 0) | [] => Some (inl 0) end
  else scan_shbase base s.

(** sto_contiguous.h 640-698: digits proper, from the text [s] of which [used0] characters precede. *)
Definition scan_digits_part (cfg : scfg) (sign : bool) (used0 : Z) (s : list Z) : option pres :=
  let base := sc_base cfg in
  let ty := sc_ty cfg in
  let w := iw ty in
  let finish (res it : Z) : pres :=
    if isigned ty then
      let imax := (2 ^ w - 1) / 2 in
      if wrap w (imax + (if sign then 1 else 0)) <? res then mk_pres pc_overflow it None
      else mk_pres pc_ok it (Some (if sign then to_signed w (0 - res) else to_signed w res))
    else mk_pres pc_ok it (Some res) in
  if sc_sse cfg && (base =? 10) && (sc_cw cfg =? 8) && (w <=? 64) && (32 <=? zlen s) then
    match sse_parse (w <? 64) s with
    | None => None
    | Some (digits, ec, temp) =>
        let it := used0 + digits in
        if negb (parse_code_eqb ec pc_ok) then Some (mk_pres ec it None)
        else if (w <? 64) && (2 ^ w - 1 <? temp) then Some (mk_pres pc_overflow it None)
        else Some (finish temp it)
    end
  else
    match scan_scalar base (sc_cw cfg) w s with
    | None => None
    | Some (ec, res, rest) =>
        let it := used0 + (zlen s - zlen rest) in
        if negb (parse_code_eqb ec pc_ok) then Some (mk_pres ec it None) else Some (finish res it)
    end.

(** sto_contiguous.h 610-639: the zero rules. *)
Definition scan_zero_part (cfg : scfg) (sign : bool) (used0 : Z) (s : list Z) : option pres :=
  match s with
  | [] => scan_digits_part cfg sign used0 s
  | c :: s1 =>
      match char_digit (sc_base cfg) (sc_cw cfg) c with
      | None => None
      | Some None => Some (mk_pres pc_invalid used0 None)
      | Some (Some _) =>
          if c =? 48 then
            if sc_skipzero cfg then
              let s2 := skip_zeros s1 in
              match s2 with
              | [] => Some (mk_pres pc_ok (used0 + zlen s) (Some 0))
              | _ => scan_digits_part cfg sign (used0 + (zlen s - zlen s2)) s2
              end
            else
              match s1 with
              | [] => Some (mk_pres pc_ok (used0 + 1) (Some 0))
              | c1 :: _ =>
                  match char_digit (sc_base cfg) (sc_cw cfg) c1 with
                  | None => None
                  | Some None => Some (mk_pres pc_ok (used0 + 1) (Some 0))
                  | Some (Some _) => Some (mk_pres pc_invalid (used0 + 1) None)
                  end
              end
          else scan_digits_part cfg sign used0 s
      end
  end.

(** sto_contiguous.h 578-700 scan_int_contiguous_none_space_part_define_impl<base,shbase,skipzero>. *)
Definition scan_none_space (cfg : scfg) (shbase : bool) (used0 : Z) (s : list Z) : option pres :=
  if isigned (sc_ty cfg) then
    match s with
    | [] => Some (mk_pres pc_invalid used0 None)
    | c :: s1 =>
        let sign := c =? 45 in
        let '(u, s2) := if sign then (used0 + 1, s1) else (used0, s) in
        if shbase && negb (sc_base cfg =? 10) then
          match scan_prefix (sc_base cfg) s2 with
          | None => None
          | Some (inl k) => Some (mk_pres pc_invalid (u + k) None)
          | Some (inr s3) => scan_zero_part cfg sign (u + (zlen s2 - zlen s3)) s3
          end
        else scan_zero_part cfg sign u s2
    end
  else scan_zero_part cfg false used0 s.

(** sto_contiguous.h 702-735 scan_int_contiguous_define_impl: the contiguous scanner behind
    scan/to on a contiguous range. *)
Definition scan_int (cfg : scfg) (s : list Z) : option pres :=
  let s1 := if sc_noskipws cfg then s else skip_space (sc_cw cfg) s in
  let u := zlen s - zlen s1 in
  match sc_noskipws cfg, s1 with
  | false, [] => Some (mk_pres pc_end_of_file u None)
  | _, _ =>
      let shb := sc_shbase cfg && negb (sc_base cfg =? 10) in
      if negb (isigned (sc_ty cfg)) && shb then
        match scan_prefix (sc_base cfg) s1 with
        | None => None
        | Some (inl k) => Some (mk_pres pc_invalid (u + k) None)
        | Some (inr s2) => scan_none_space cfg false (u + (zlen s1 - zlen s2)) s2
        end
      else scan_none_space cfg (shb && isigned (sc_ty cfg)) u s1
  end.

(** ** Context (chunked) scanning, sto_contiguous.h 737-1187 *)

Inductive sphase := ph_space | ph_sign | ph_prefix | ph_zero | ph_zero_skip | ph_zero_invalid | ph_digit | ph_overflow.

(** State: the buffered text (buffer[0..size)) and the phase.  [st_size] is kept separately because
    the prefix phase reuses it as a counter. *)
Record sstate := mk_st { st_buf : list Z; st_size : Z; st_phase : sphase }.
Definition st_init : sstate := mk_st [] 0 ph_space.

(** sto_contiguous.h 749-757: capacity of the state buffer. *)
Definition ctx_buf_size (cfg : scfg) : Z :=
  (if isigned (sc_ty cfg) then 1 else 0) + cal_max_int_size (mk_int (iw (sc_ty cfg)) false) (sc_base cfg) + 2.

(** Result of one call on a chunk: new state, code, consumed, stored value. [None] = UB. *)
Definition ctx_res := option (sstate * pres).

(** sto_contiguous.h 988-1023 sc_int_ctx_digit_phase; [used0] characters of the chunk precede [s]. *)
Definition ctx_digit_phase (cfg : scfg) (st : sstate) (used0 : Z) (s : list Z) : ctx_res :=
  match skip_digits (sc_base cfg) (sc_cw cfg) s with
  | None => None
  | Some rest =>
      let n := zlen s - zlen rest in
      let at_end := match rest with [] => true | _ => false end in
      if n <? ctx_buf_size cfg - st_size st then
        let buf' := firstn (Z.to_nat (st_size st)) (st_buf st) ++ firstn (Z.to_nat n) s in
        let st' := mk_st buf' (st_size st + n) (st_phase st) in
        if at_end then
          Some (mk_st buf' (st_size st + n) ph_digit, mk_pres pc_partial (used0 + n) None)
        else if st_size st + n =? 0 then Some (st', mk_pres pc_ok (used0 + n) (Some 0))
        else
          match scan_none_space (mk_scfg (sc_base cfg) false false false (sc_ty cfg) (sc_cw cfg) (sc_sse cfg))
                                false 0 buf' with
          | None => None
          | Some r => Some (st', mk_pres (p_code r) (used0 + (p_used r - st_size st)) (p_val r))
          end
      else if at_end then Some (mk_st (st_buf st) (st_size st) ph_overflow, mk_pres pc_partial (used0 + n) None)
      else Some (st, mk_pres pc_overflow (used0 + n) None)
  end.

(** sto_contiguous.h 934-985 sc_int_ctx_zero_phase, together with its caller 1106-1138.
    [phase0] is the phase at entry of the call. *)
Definition ctx_zero_phase (cfg : scfg) (phase0 : sphase) (st : sstate) (used0 : Z) (s : list Z) : ctx_res :=
  let skip := sc_skipzero cfg in
  match s with
  | [] => Some (mk_st (st_buf st) (st_size st) ph_zero, mk_pres pc_partial used0 None)
  | c :: s1 =>
      match char_digit (sc_base cfg) (sc_cw cfg) c with
      | None => None
      | Some None =>
          match skip, phase0 with
          | true, ph_zero_skip => Some (st, mk_pres pc_ok used0 (Some 0))
          | _, _ => Some (st, mk_pres pc_invalid used0 None)
          end
      | Some (Some _) =>
          if c =? 48 then
            let s2 := if skip then skip_zeros s1 else s1 in
            let u := used0 + (zlen s - zlen s2) in
            match s2 with
            | [] => Some (mk_st (st_buf st) (st_size st) (if skip then ph_zero_skip else ph_zero_invalid),
                          mk_pres pc_partial u None)
            | c1 :: _ =>
                match char_digit (sc_base cfg) (sc_cw cfg) c1 with
                | None => None
                | Some None => Some (st, mk_pres pc_ok u (Some 0))
                | Some (Some _) =>
                    if skip then ctx_digit_phase cfg st u s2 else Some (st, mk_pres pc_invalid u None)
                end
            end
          else ctx_digit_phase cfg st used0 s
      end
  end.

(** sto_contiguous.h 831-931 sc_int_ctx_prefix_phase: [inl] final/partial answer, [inr] ongoing;
    [sz] is st.size used as a counter. *)
Definition ctx_prefix (base sz : Z) (s : list Z) : (Z * pres) + (Z * list Z) :=
  match s with
  | [] => inl (sz, mk_pres pc_partial 0 None)
  | c :: s1 =>
      if base =? 8 then if negb (c =? 48) then inl (sz, mk_pres pc_invalid 0 None) else inr (sz, s)
      else
        let generic := negb ((base =? 2) || (base =? 3) || (base =? 16)) in
        (* the leading '0' *)
        let step0 : (Z * pres) + (Z * Z * list Z) :=
          if sz =? 0 then
            if negb (c =? 48) then inl (sz, mk_pres pc_invalid 0 None)
            else match s1 with
                 | [] => inl (1, mk_pres pc_partial 1 None)
                 | _ => inr (if generic then 1 else sz, 1, s1)
                 end
          else inr (sz, 0, s) in
        match step0 with
        | inl r => inl r
        | inr (cache, u, s) =>
            if negb generic then
              match s with
              | [] => inl (sz, mk_pres pc_partial u None) (* unreachable *)
              | ch :: s2 =>
                  if (ch =? (if base =? 2 then 66 else if base =? 3 then 116 else 88))
                     || (ch =? (if base =? 2 then 98 else if base =? 3 then 116 else 120))
                  then inr (0, s2) else inl (sz, mk_pres pc_invalid u None)
              end
            else
              (* size_cache is not advanced inside the call: each later test only fires if the call
                 was entered with exactly that counter *)
              let test (want : Z) (ch0 : Z) (next : Z) (cache u sz : Z) (s : list Z) :=
                if cache =? want then
                  match s with
                  | [] => inl (sz, mk_pres pc_partial u None) (* unreachable *)
                  | ch :: s2 =>
                      if negb (ch =? ch0) then inl (sz, mk_pres pc_invalid u None)
                      else match s2 with
                           | [] => inl (next, mk_pres pc_partial (u + 1) None)
                           | _ => inr (u + 1, s2)
                           end
                  end
                else inr (u, s) in
              match test 1 91 2 cache u sz s with
              | inl r => inl r
              | inr (u, s) =>
                  match test 2 (48 + (if base <? 10 then base else base / 10)) 3 cache u sz s with
                  | inl r => inl r
                  | inr (u, s) =>
                      match (if 10 <? base then test 3 (48 + base mod 10) 4 cache u sz s else inr (u, s)) with
                      | inl r => inl r
                      | inr (u, s) =>
                          if cache =? (if base <? 10 then 3 else 4) then
                            match s with
                            | [] => inl (sz, mk_pres pc_partial u None)
                            | ch :: s2 => if negb (ch =? 93) then inl (sz, mk_pres pc_invalid u None) else inr (0, s2)
                            end
                          else inr (sz, s)
                      end
                  end
              end
        end
  end.

Definition ctx_prefix_phase (cfg : scfg) (phase0 : sphase) (st : sstate) (used0 : Z) (s : list Z) : ctx_res :=
  if sc_shbase cfg && negb (sc_base cfg =? 10) then
    match ctx_prefix (sc_base cfg) (st_size st) s with
    | inl (sz, r) => Some (mk_st (st_buf st) sz ph_prefix, mk_pres (p_code r) (used0 + p_used r) None)
    | inr (sz, s2) => ctx_zero_phase cfg phase0 (mk_st (st_buf st) sz ph_prefix) (used0 + (zlen s - zlen s2)) s2
    end
  else ctx_zero_phase cfg phase0 st used0 s.

(** sto_contiguous.h 785-828 sc_int_ctx_sign_phase<true,false>. *)
Definition ctx_sign_phase (cfg : scfg) (phase0 : sphase) (st : sstate) (used0 : Z) (s : list Z) : ctx_res :=
  if isigned (sc_ty cfg) then
    match s with
    | [] => Some (mk_st (st_buf st) (st_size st) ph_sign, mk_pres pc_partial used0 None)
    | c :: s1 =>
        if c =? 45 then ctx_prefix_phase cfg phase0 (mk_st [45] 1 (st_phase st)) (used0 + 1) s1
        else ctx_prefix_phase cfg phase0 st used0 s
    end
  else ctx_prefix_phase cfg phase0 st used0 s.

(** sto_contiguous.h 1044-1158 scan_context_define_parse_impl: one chunk. *)
Definition ctx_feed (cfg : scfg) (st : sstate) (s : list Z) : ctx_res :=
  match st_phase st with
  | ph_space =>
      if sc_noskipws cfg then ctx_sign_phase cfg ph_space st 0 s
      else
        let s1 := skip_space (sc_cw cfg) s in
        match s1 with
        | [] => Some (st, mk_pres pc_partial (zlen s) None)
        | _ => ctx_sign_phase cfg ph_space st (zlen s - zlen s1) s1
        end
  | ph_sign => ctx_sign_phase cfg ph_sign st 0 s
  | ph_prefix => ctx_prefix_phase cfg ph_prefix st 0 s
  | ph_zero => ctx_zero_phase cfg ph_zero st 0 s
  | ph_zero_skip => ctx_zero_phase cfg ph_zero_skip st 0 s
  | ph_digit => ctx_digit_phase cfg st 0 s
  | ph_zero_invalid =>
      if sc_skipzero cfg then Some (st, mk_pres pc_invalid 0 None)
      else
        (* 1025-1036 sc_int_ctx_zero_invalid_phase: ++first, then *first *)
        match s with
        | [] => Some (st, mk_pres pc_partial 0 None)
        | [_] => None
        | _ :: c :: _ =>
            match char_digit (sc_base cfg) (sc_cw cfg) c with
            | None => None
            | Some None => Some (st, mk_pres pc_ok 1 (Some 0))
            | Some (Some _) => Some (st, mk_pres pc_invalid 1 None)
            end
        end
  | ph_overflow =>
      (* 1038-1042 sc_int_ctx_skip_digits_phase *)
      match skip_digits (sc_base cfg) (sc_cw cfg) s with
      | None => None
      | Some [] => Some (st, mk_pres pc_partial (zlen s) None)
      | Some rest => Some (st, mk_pres pc_invalid (zlen s - zlen rest) None)
      end
  end.

(** sto_contiguous.h 1160-1203 scan_context_eof_define_parse_impl. *)
Definition ctx_eof (cfg : scfg) (st : sstate) : option (parse_code * option Z) :=
  match st_phase st with
  | ph_space => Some (if sc_noskipws cfg then pc_invalid else pc_end_of_file, None)
  | ph_digit =>
      option_map (fun r => (p_code r, p_val r))
        (scan_none_space (mk_scfg (sc_base cfg) false false false (sc_ty cfg) (sc_cw cfg) (sc_sse cfg))
                         false 0 (st_buf st))
  | ph_overflow => Some (pc_overflow, None)
  | ph_zero_skip | ph_zero_invalid => Some (pc_ok, Some 0)
  | _ => Some (pc_invalid, None)
  end.

(** The scan driver (scan_freestanding): feed chunks while the answer is partial; at end of input
    ask the eof function.  Result: code, characters consumed over all chunks, stored value. *)
Fixpoint ctx_run (cfg : scfg) (st : sstate) (used : Z) (chunks : list (list Z)) : option pres :=
  match chunks with
  | [] => option_map (fun r => mk_pres (fst r) used (snd r)) (ctx_eof cfg st)
  | s :: rest =>
      match ctx_feed cfg st s with
      | None => None
      | Some (st', r) =>
          match p_code r with
          | pc_partial => ctx_run cfg st' (used + p_used r) rest
          | _ => Some (mk_pres (p_code r) (used + p_used r) (p_val r))
          end
      end
  end.
Definition scan_chunks (cfg : scfg) (chunks : list (list Z)) : option pres := ctx_run cfg st_init 0 chunks.
