(** Model of LEB128 put/get.
    Source: include/fast_io_freestanding_impl/serializations/leb128.h.
    A text is a list of code units (unsigned values); only units below 256 are bytes. *)
From Verif Require Import Base.

(** leb128.h 24-55 leb128_put: the value is widened to int/unsigned, size_t/ptrdiff_t or kept;
    the value itself does not change.  [put_width] is the width of the widened type (64-bit target). *)
Definition put_width (w : Z) : Z := if w <=? 32 then 32 else if w <=? 64 then 64 else w.

(** leb128.h 69-80 print_reserve_size_leb128_length: declared maximum size for width [w]. *)
Definition leb_reserve (w : Z) : Z := (if w mod 7 =? 0 then 0 else 1) + w / 7.

(** leb128.h 96-130 pr_rsv_leb128_impl.  [value] is the mathematical value of the integer; >>= 7 is
    floor division (arithmetic shift).  [fuel] bounds the loop, [None] when exhausted. *)
Fixpoint leb_put (sgn : bool) (fuel : nat) (value : Z) : option (list Z) :=
  match fuel with
  | O => None
  | S f =>
      let temp := Z.land value 127 in
      let value' := Z.shiftr value 7 in
      let iszero := value' =? 0 in
      let stop :=
        if sgn then
          (iszero || (value' =? -1)) &&
          (let m := negb (Z.land temp 64 =? 0) in negb (Bool.eqb iszero m))
        else iszero in
      if stop then Some [temp]
      else option_map (cons (Z.lor temp 128)) (leb_put sgn f value')
  end.

(** The widened type has at most 128 bits: 19 groups; any larger fuel gives the same text. *)
Definition leb128_put (ty : int_type) (value : Z) : option (list Z) := leb_put (isigned ty) 64 value.

(** Result of the decoding loop: code, units consumed, the bits gathered in this call and the bit count. *)
Record lres := mk_lres { l_code : parse_code; l_used : Z; l_tmp : Z; l_cnt : Z }.

(** leb128.h 152-206 / 208-256: the loop shared by scn_ctx_define_leb128_impl and
    scn_cnt_define_leb128_impl; arithmetic on U = unsigned of width [iw ty]. *)
Fixpoint leb_loop (ty : int_type) (cw : Z) (s : list Z) (cnt tmp used : Z) : lres :=
  let digits := iw ty in
  let remains := digits mod 7 in
  match s with
  | [] => mk_lres pc_partial used tmp cnt
  | c :: s' =>
      if (8 <? cw) && (256 <=? c) then mk_lres pc_invalid used tmp cnt
      else
        let sign := negb (Z.land c 128 =? 0) in
        let byte := Z.land c 127 in
        let over :=
          if isigned ty then
            let lower := if remains =? 0 then 0 else Z.shiftl 1 (remains - 1) in
            let upper := if remains =? 0 then 127 else Z.land (Z.shiftl 255 (remains - 1)) 127 in
            (digits - 7 <? cnt) && ((digits <? cnt) || ((lower <=? byte) && (byte <? upper)))
          else
            (digits - 7 <? cnt) && ((digits <? cnt) || (Z.shiftl 1 remains <=? byte)) in
        if over then mk_lres pc_overflow (used + 1) tmp cnt
        else
          let tmp := Z.lor tmp (wrap digits (Z.shiftl byte cnt)) in
          if negb sign then
            let tmp :=
              if isigned ty && negb (Z.land byte 64 =? 0) && (cnt <? digits - 7)
              then Z.lor tmp (wrap digits (Z.shiftl (2 ^ digits - 1) (cnt + 7)))
              else tmp in
            mk_lres pc_ok (used + 1) tmp cnt
          else leb_loop ty cw s' (cnt + 7) tmp (used + 1)
  end.

Definition leb_value (ty : int_type) (t : Z) : Z := if isigned ty then to_signed (iw ty) t else t.

(** leb128.h 208-256 scn_cnt_define_leb128_impl: code, consumed, stored value (when ok). *)
Definition leb_scan (ty : int_type) (cw : Z) (s : list Z) : parse_code * Z * option Z :=
  let r := leb_loop ty cw s 0 0 0 in
  match l_code r with
  | pc_ok => (pc_ok, l_used r, Some (leb_value ty (Z.lor 0 (l_tmp r))))
  | pc_partial => (pc_invalid, l_used r, None)
  | c => (c, l_used r, None)
  end.

(** leb128.h 152-206 scn_ctx_define_leb128_impl on one chunk; [t] is the target (its bit pattern) and
    [group_count] the state. *)
Definition leb_ctx_feed (ty : int_type) (cw : Z) (group_count t : Z) (s : list Z) : parse_code * Z * Z * Z :=
  let t := if group_count =? 0 then 0 else t in
  let r := leb_loop ty cw s group_count 0 0 in
  match l_code r with
  | pc_ok => (pc_ok, l_used r, group_count, Z.lor t (l_tmp r))
  | pc_partial => (pc_partial, l_used r, l_cnt r, Z.lor t (l_tmp r))
  | c => (c, l_used r, group_count, t)
  end.

(** The scan driver: feed chunks while partial; at the end scan_context_eof_define (leb128.h 269-273). *)
Fixpoint leb_ctx_run (ty : int_type) (cw : Z) (group_count t used : Z) (chunks : list (list Z))
  : parse_code * Z * option Z :=
  match chunks with
  | [] => (pc_end_of_file, used, None)
  | s :: rest =>
      match leb_ctx_feed ty cw group_count t s with
      | (pc_partial, n, gc, t') => leb_ctx_run ty cw gc t' (used + n) rest
      | (pc_ok, n, _, t') => (pc_ok, used + n, Some (leb_value ty t'))
      | (c, n, _, _) => (c, used + n, None)
      end
  end.
(** The context scan from a fresh state; [t0] is whatever the target held before. *)
Definition leb_scan_chunks (ty : int_type) (cw t0 : Z) (chunks : list (list Z)) := leb_ctx_run ty cw 0 t0 0 chunks.
