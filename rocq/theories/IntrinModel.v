(** Multi-word arithmetic: include/fast_io_core_impl/intrinsics/{carry.h,udivmod.h} (namespace
    fast_io::intrinsics) and include/fast_io_core_impl/intrinsics.h (namespace
    fast_io::details::intrinsics).  A word is a [w]-bit unsigned value; [w] is a parameter, the
    types used are 32, 64 and 128 bits wide (narrower types would be promoted to int, which is not
    modelled; for them the portable code of intrinsics.h does not compile).  A function with a
    reference result returns the pair of its value and the referenced result.  The compiler
    builtins (__builtin_add_overflow, _addcarry_u32, ...) are given their documented meaning. *)
From Verif Require Import Base Outcome TimeSpec TimeModel.

(** Documented meaning of __builtin_add_overflow(a,b,&s) on an unsigned type: (s, overflowed). *)
Definition builtin_add_overflow (w a b : Z) : Z * bool := (wrap w (a + b), 2 ^ w <=? a + b).
Definition builtin_sub_overflow (w a b : Z) : Z * bool := (wrap w (a - b), a - b <? 0).
Definition builtin_mul_overflow (w a b : Z) : Z * bool := (wrap w (a * b), 2 ^ w <=? a * b).
(** Documented meaning of _addcarry_u32(c,a,b,&res): (res, carry). *)
Definition msvc_addcarry (w : Z) (c : bool) (a b : Z) : Z * bool :=
  (wrap w (a + b + Z.b2z c), 2 ^ w <=? a + b + Z.b2z c).
Definition msvc_subborrow (w : Z) (c : bool) (a b : Z) : Z * bool :=
  (wrap w (a - b - Z.b2z c), a - b - Z.b2z c <? 0).
(** std::countl_zero / std::countr_zero on a [w]-bit type. *)
Definition clz (w x : Z) : Z := if x =? 0 then w else w - 1 - Z.log2 x.
Fixpoint ctz_pos (p : positive) : Z := match p with xO q => 1 + ctz_pos q | _ => 0 end.
Definition ctz (w x : Z) : Z := match x with Zpos p => ctz_pos p | _ => w end.

(** ** fast_io::intrinsics *)
(** carry.h 89-93 addc, portable path (also the constant evaluation path). *)
Definition addc (w a b : Z) (carryin : bool) : Z * bool :=
  let a := wrap w (a + b) in
  let carryout := a <? b in
  let a := wrap w (a + Z.b2z carryin) in
  (a, carryout || (a <? Z.b2z carryin)).
(** carry.h 80-85 addc with __builtin_add_overflow. *)
Definition addc_builtin (w a b : Z) (carryin : bool) : Z * bool :=
  let '(s, c1) := builtin_add_overflow w a b in
  let '(s, c2) := builtin_add_overflow w s (Z.b2z carryin) in
  (s, c1 || c2).
(** carry.h 63-75 addc of 64-bit words on 32-bit MSVC. *)
Definition addc_msvc32 (a b : Z) (carryin : bool) : Z * bool :=
  let alow := wrap 32 a in let ahigh := wrap 32 (Z.shiftr a 32) in
  let blow := wrap 32 b in let bhigh := wrap 32 (Z.shiftr b 32) in
  let '(reslow, carrytemp) := msvc_addcarry 32 carryin alow blow in
  let '(reshigh, carryout) := msvc_addcarry 32 carrytemp ahigh bhigh in
  (Z.lor (wrap 64 (Z.shiftl reshigh 32)) reslow, carryout).
(** carry.h 163-167 subc, portable path. *)
Definition subc (w a b : Z) (carryin : bool) : Z * bool :=
  let b := wrap w (a - b) in
  let carryout := a <? b in
  let a := wrap w (b - Z.b2z carryin) in
  (a, carryout || (b <? a)).
(** carry.h 154-159 subc with __builtin_sub_overflow. *)
Definition subc_builtin (w a b : Z) (carryin : bool) : Z * bool :=
  let '(s, c1) := builtin_sub_overflow w a b in
  let '(s, c2) := builtin_sub_overflow w s (Z.b2z carryin) in
  (s, c1 || c2).
(** carry.h 137-149 subc of 64-bit words on 32-bit MSVC: the second call passes [alow]. *)
Definition subc_msvc32 (a b : Z) (carryin : bool) : Z * bool :=
  let alow := wrap 32 a in
  let blow := wrap 32 b in let bhigh := wrap 32 (Z.shiftr b 32) in
  let '(reslow, carrytemp) := msvc_subborrow 32 carryin alow blow in
  let '(reshigh, carryout) := msvc_subborrow 32 carrytemp alow bhigh in
  (Z.lor (wrap 64 (Z.shiftl reshigh 32)) reslow, carryout).

(** udivmod.h 83-91 and 96-104: the correction loop of a quotient digit.  [None]: still looping
    after [fuel] tests of the condition. *)
Fixpoint digit_loop (fuel : nat) (w b vn1 vn0 un q rhat : Z) : option (Z * Z) :=
  match fuel with
  | O => None
  | S fuel =>
    if (b <=? q) || (wrap w (b * rhat + un) <? wrap w (q * vn0)) then
      let q := wrap w (q - 1) in
      let rhat := wrap w (rhat + vn1) in
      if b <=? rhat then Some (q, rhat) else digit_loop fuel w b vn1 vn0 un q rhat
    else Some (q, rhat)
  end.
(** udivmod.h 27-107 udivbigbysmalltosmalldefault, portable path: (quotient, remainder) of the
    double word (u1,u0) by v.  Division by a zero digit is undefined. *)
Definition udivbigbysmall (w u1 u0 v : Z) : outcome (Z * Z) :=
  let n2 := w / 2 in
  let b := 2 ^ n2 in
  let mask := b - 1 in
  let s := clz w v in
  let '(v, un64, un10) :=
    if s =? 0 then (v, u1, u0)
    else (wrap w (Z.shiftl v s), Z.lor (wrap w (Z.shiftl u1 s)) (Z.shiftr u0 (w - s)), wrap w (Z.shiftl u0 s)) in
  let vn1 := Z.shiftr v n2 in
  let vn0 := Z.land v mask in
  let un1 := Z.shiftr un10 n2 in
  let un0 := Z.land un10 mask in
  if vn1 =? 0 then Undefined
  else
    let q1 := un64 / vn1 in
    match digit_loop 3 w b vn1 vn0 un1 q1 (wrap w (un64 - q1 * vn1)) with
    | None => Undefined
    | Some (q1, _) =>
      let un21 := wrap w (un64 * b + un1 - q1 * v) in
      let q0 := un21 / vn1 in
      match digit_loop 3 w b vn1 vn0 un0 q0 (wrap w (un21 - q0 * vn1)) with
      | None => Undefined
      | Some (q0, _) => Done (wrap w (q1 * b + q0), Z.shiftr (wrap w (un21 * b + un0 - q0 * v)) s)
      end
    end.
(** udivmod.h 110-133 shiftleft, 136-159 shiftright. *)
Definition shiftleft (w low high shift : Z) : Z :=
  if shift =? 0 then high else Z.lor (wrap w (Z.shiftl high shift)) (Z.shiftr low (w - shift)).
Definition shiftright (w low high shift : Z) : Z :=
  if shift =? 0 then low else Z.lor (wrap w (Z.shiftl high (w - shift))) (Z.shiftr low shift).
(** udivmod.h 207-223: the body of the do-while loop, run shift+1 times. *)
Definition udivmod_step (w : Z) (st : Z * Z * Z * Z * Z) : Z * Z * Z * Z * Z :=
  let '(nlow, nhigh, dlow, dhigh, q) := st in
  let '(nlow, carry) := subc w nlow dlow false in
  let '(nhigh, carry) := subc w nhigh dhigh carry in
  let mask := wrap w (0 - Z.b2z carry) in
  let templow := Z.land dlow mask in
  let temphigh := Z.land dhigh mask in
  let '(q, _) := addc w q q (negb carry) in
  let '(nlow, carry) := addc w nlow templow false in
  let '(nhigh, _) := addc w nhigh temphigh carry in
  (nlow, nhigh, shiftright w dlow dhigh 1, Z.shiftr dhigh 1, q).
Fixpoint udivmod_loop (n : nat) (w : Z) (st : Z * Z * Z * Z * Z) : Z * Z * Z * Z * Z :=
  match n with O => st | S n => udivmod_loop n w (udivmod_step w st) end.
(** udivmod.h 161-225 udivmod: (quotient low, high, remainder low, high). *)
Definition udivmod (w nlow nhigh dlow dhigh : Z) : outcome (Z * Z * Z * Z) :=
  if (nhigh <? dhigh) || ((dhigh =? nhigh) && (nlow <? dlow)) then Done (0, 0, nlow, nhigh)
  else if dhigh =? 0 then
    if nhigh <? dlow then
      let! (q, r) := udivbigbysmall w nhigh nlow dlow in Done (q, 0, r, 0)
    else if dlow =? 0 then Undefined
    else
      let! (q, r) := udivbigbysmall w (nhigh mod dlow) nlow dlow in Done (q, nhigh / dlow, r, 0)
  else
    let shift := clz w dhigh - clz w nhigh in
    let dhigh := shiftleft w dlow dhigh shift in
    let dlow := wrap w (Z.shiftl dlow shift) in
    let '(nlow, nhigh, _, _, q) := udivmod_loop (S (Z.to_nat shift)) w (nlow, nhigh, dlow, dhigh, 0) in
    Done (q, 0, nlow, nhigh).

(** ** fast_io::details::intrinsics *)
(** intrinsics.h 70-75 add_carry_naive: (out, carry). *)
Definition add_carry (w : Z) (carry : bool) (a b : Z) : Z * bool :=
  let temp := wrap w (Z.b2z carry + a) in
  let out := wrap w (temp + b) in
  (out, (out <? b) || (temp <? a)).
(** intrinsics.h 222-227 sub_borrow_naive. *)
Definition sub_borrow (w : Z) (carry : bool) (a b : Z) : Z * bool :=
  let temp := wrap w (a - Z.b2z carry) in
  let out := wrap w (temp - b) in
  (out, (temp <? out) || (a <? temp)).
(** intrinsics.h 405-409 umul_least_32: (low, high); 425-426 umulh_least_32. *)
Definition umul_least_32 (a b : Z) : Z * Z :=
  let v := wrap 64 (a * b) in (wrap 32 v, wrap 32 (Z.shiftr v 32)).
Definition umulh_least_32 (a b : Z) : Z := wrap 32 (Z.shiftr (wrap 64 (a * b)) 32).
(** intrinsics.h 450-451 unpack_ul64: (low, high); 498 pack_ul64. *)
Definition unpack_ul64 (a : Z) : Z * Z := (wrap 32 a, wrap 32 (Z.shiftr a 32)).
Definition pack_ul64 (low high : Z) : Z := Z.lor (wrap 64 (Z.shiftl high 32)) low.
(** intrinsics.h 502-525 umul_least_64_emulated: (low, high). *)
Definition umul_least_64_emulated (a b : Z) : Z * Z :=
  let '(a0, a1) := unpack_ul64 a in
  let '(b0, b1) := unpack_ul64 b in
  let '(c0, c1) := umul_least_32 a0 b0 in
  let '(a0b1l, a0b1h) := umul_least_32 a0 b1 in
  let '(a1b0l, a1b0h) := umul_least_32 a1 b0 in
  let '(c2, c3) := umul_least_32 a1 b1 in
  let '(c1, carry) := add_carry 32 false c1 a0b1l in
  let '(c2, carry) := add_carry 32 carry a0b1h c2 in
  let '(c3, _) := add_carry 32 carry 0 c3 in
  let '(c1, carry) := add_carry 32 false c1 a1b0l in
  let '(c2, carry) := add_carry 32 carry a1b0h c2 in
  let '(c3, _) := add_carry 32 carry 0 c3 in
  (pack_ul64 c0 c1, pack_ul64 c2 c3).
(** intrinsics.h 612-634 umul_least64_high_emulated. *)
Definition umul_least64_high_emulated (a b : Z) : Z :=
  let '(a0, a1) := unpack_ul64 a in
  let '(b0, b1) := unpack_ul64 b in
  let '(_, c1) := umul_least_32 a0 b0 in
  let '(a0b1l, a0b1h) := umul_least_32 a0 b1 in
  let '(a1b0l, a1b0h) := umul_least_32 a1 b0 in
  let '(c2, c3) := umul_least_32 a1 b1 in
  let '(c1, carry) := add_carry 32 false c1 a0b1l in
  let '(c2, carry) := add_carry 32 carry a0b1h c2 in
  let '(c3, _) := add_carry 32 carry 0 c3 in
  let '(_, carry) := add_carry 32 false c1 a1b0l in
  let '(c2, carry) := add_carry 32 carry a1b0h c2 in
  let '(c3, _) := add_carry 32 carry 0 c3 in
  pack_ul64 c2 c3.

(** Which of the three preprocessor branches a build takes. *)
Inductive die_build := die_msvc | die_builtin | die_fallback.
(** intrinsics.h 673-715 add_or_overflow_die on a [w]-bit size_t (__debugbreak, __builtin_trap and
    fast_terminate all stop the process; the _M_X64 branch uses _addcarry_u64). *)
Definition add_or_overflow_die (bd : die_build) (w a b : Z) : outcome Z :=
  match bd with
  | die_builtin => let '(s, o) := builtin_add_overflow w a b in if o then Terminated else Done s
  | _ => let s := wrap w (a + b) in if s <? a then Terminated else Done s
  end.
(** intrinsics.h 717-725 add_or_overflow_die_chain. *)
Fixpoint add_or_overflow_die_chain (bd : die_build) (w : Z) (size : Z) (args : list Z) : outcome Z :=
  match args with
  | [] => Done size
  | a :: args => let! r := add_or_overflow_die_chain bd w a args in add_or_overflow_die bd w size r
  end.
(** intrinsics.h 727-745 mul_or_overflow_die; the last branch (740-743) adds. *)
Definition mul_or_overflow_die (bd : die_build) (w a b : Z) : outcome Z :=
  match bd with
  | die_msvc => if b =? 0 then Undefined else
      if (2 ^ w - 1) / b <? a then Terminated else Done (wrap w (a * b))
  | die_builtin => let '(s, o) := builtin_mul_overflow w a b in if o then Terminated else Done s
  | die_fallback => let s := wrap w (a + b) in if s <? a then Terminated else Done s
  end.
(** intrinsics.h 780-788 mul_or_overflow_die_chain. *)
Fixpoint mul_or_overflow_die_chain (bd : die_build) (w : Z) (size : Z) (args : list Z) : outcome Z :=
  match args with
  | [] => Done size
  | a :: args => let! r := mul_or_overflow_die_chain bd w a args in mul_or_overflow_die bd w size r
  end.
(** intrinsics.h 790-808 cal_allocation_size_or_die<T>, [sz] = sizeof(T). *)
Definition cal_allocation_size_or_die (bd : die_build) (w sz size : Z) : outcome Z :=
  match bd with
  | die_builtin => let '(s, o) := builtin_mul_overflow w size sz in if o then Terminated else Done s
  | _ => if (2 ^ w - 1) / sz <? size then Terminated else Done (wrap w (size * sz))
  end.
(** intrinsics.h 753-766 sub_underflow_naive (always used: no compiler has
    __builtin_sub_underflow): [None] for "returned true, c not written". *)
Definition sub_underflow (w a b : Z) : outcome (option Z) :=
  let int_type_min := - 2 ^ (w - 1) in
  let int_type_max := 2 ^ (w - 1) - 1 in
  let! (lo, hi) :=
    (if 0 <? b then let! m := signed_result w (int_type_min + b) in Done (m, int_type_max)
     else let! m := signed_result w (int_type_max + b) in Done (int_type_min, m)) in
  if (a <? lo) || (hi <? a) then Done None
  else let! c := signed_result w (a - b) in Done (Some c).

(** intrinsics.h 819-827 shiftright_naive. *)
Definition shiftright_naive (w low high shift : Z) : Z :=
  let value := wrap w (wrap w (Z.shiftl 1 shift) - 1) in
  let v := Z.land high value in
  if shift =? 0 then low else Z.lor (Z.shiftr low shift) (wrap w (Z.shiftl v (w - shift))).
(** intrinsics.h 1032-1050: one iteration of the main loop. *)
Definition dudivmod_step (w dlow dhigh : Z) (st : Z * Z * Z * Z * Z) : Z * Z * Z * Z * Z :=
  let '(qlow, qhigh, rlow, rhigh, carry) := st in
  let rhigh := Z.lor (wrap w (Z.shiftl rhigh 1)) (Z.shiftr rlow (w - 1)) in
  let rlow := Z.lor (wrap w (Z.shiftl rlow 1)) (Z.shiftr qhigh (w - 1)) in
  let qhigh := Z.lor (wrap w (Z.shiftl qhigh 1)) (Z.shiftr qlow (w - 1)) in
  let qlow := Z.lor (wrap w (Z.shiftl qlow 1)) carry in
  let '(slow, bw) := sub_borrow w true dlow rlow in
  let '(shigh, _) := sub_borrow w bw dhigh rhigh in
  let slow := shiftright_naive w slow shigh (w - 1) in
  let shigh := Z.shiftr shigh (w - 1) in
  let carry := Z.land slow 1 in
  let slow := Z.land slow dlow in
  let shigh := Z.land shigh dhigh in
  let '(rlow, bw) := sub_borrow w false rlow slow in
  let '(rhigh, _) := sub_borrow w bw rhigh shigh in
  (qlow, qhigh, rlow, rhigh, carry).
Fixpoint dudivmod_loop (sr : nat) (w dlow dhigh : Z) (st : Z * Z * Z * Z * Z) : Z * Z * Z * Z * Z :=
  match sr with O => st | S sr => dudivmod_loop sr w dlow dhigh (dudivmod_step w dlow dhigh st) end.
(** intrinsics.h 1031-1053: the loop and the final shift. *)
Definition dudivmod_main (w dlow dhigh sr qlow qhigh rlow rhigh : Z) : outcome (Z * Z * Z * Z) :=
  let '(qlow, qhigh, rlow, rhigh, carry) :=
    dudivmod_loop (Z.to_nat sr) w dlow dhigh (qlow, qhigh, rlow, rhigh, 0) in
  let qhigh := Z.lor (wrap w (Z.shiftl qhigh 1)) (Z.shiftr qlow (w - 1)) in
  let qlow := Z.lor (wrap w (Z.shiftl qlow 1)) carry in
  Done (qlow, qhigh, rlow, rhigh).
(** [has_ctz]: the build has __builtin_ctzll; otherwise std::countl_zero is called where the
    trailing zeros are meant (intrinsics.h 890-898, 938-946). *)
Definition dctz (has_ctz : bool) (w x : Z) : Z := if has_ctz then ctz w x else clz w x.
(** intrinsics.h 854-1054 udivmod.  The 32-bit unsigned [sr] wraps when the difference of leading
    zero counts is negative.  A shift by [w] or more is undefined. *)
Definition dudivmod (has_ctz : bool) (w nlow nhigh dlow dhigh : Z) : outcome (Z * Z * Z * Z) :=
  if nhigh =? 0 then
    if dhigh =? 0 then
      if dlow =? 0 then Undefined else Done (nlow / dlow, 0, nlow mod dlow, 0)
    else Done (0, 0, nlow, 0)
  else if dlow =? 0 then
    if dhigh =? 0 then Terminated
    else if nlow =? 0 then Done (nhigh / dhigh, 0, 0, nhigh mod dhigh)
    else if Z.land dhigh (dhigh - 1) =? 0 then
      Done (Z.shiftr nhigh (dctz has_ctz w dhigh), 0, nlow, Z.land nhigh (dhigh - 1))
    else
      let sr := wrap 32 (clz w dhigh - clz w nhigh) in
      if w - 2 <? sr then Done (0, 0, nlow, nhigh)
      else
        let sr := sr + 1 in
        dudivmod_main w dlow dhigh sr 0 (wrap w (Z.shiftl nlow (w - sr)))
          (Z.lor (wrap w (Z.shiftl nhigh (w - sr))) (Z.shiftr nlow sr)) (Z.shiftr nhigh sr)
  else if dhigh =? 0 then
    if Z.land dlow (dlow - 1) =? 0 then
      let rem := Z.land nlow (dlow - 1) in
      if dlow =? 1 then Done (nlow, nhigh, rem, 0)
      else
        let sr := dctz has_ctz w dlow in
        if sr =? 0 then Undefined
        else Done (Z.lor (wrap w (Z.shiftl nhigh (w - sr))) (Z.shiftr nlow sr), Z.shiftr nhigh sr, rem, 0)
    else
      let sr := wrap 32 (1 + w + clz w dlow - clz w nhigh) in
      if sr =? w then dudivmod_main w dlow dhigh sr 0 nlow nhigh 0
      else if sr <? w then
        dudivmod_main w dlow dhigh sr 0 (wrap w (Z.shiftl nlow (w - sr)))
          (Z.lor (wrap w (Z.shiftl nhigh (w - sr))) (Z.shiftr nlow sr)) (Z.shiftr nhigh sr)
      else
        dudivmod_main w dlow dhigh sr (wrap w (Z.shiftl nlow (2 * w - sr)))
          (Z.lor (wrap w (Z.shiftl nhigh (2 * w - sr))) (Z.shiftr nlow (sr - w)))
          (Z.shiftr nhigh (sr - w)) 0
  else
    let sr := wrap 32 (clz w dhigh - clz w nhigh) in
    if w - 1 <? sr then Done (0, 0, nlow, nhigh)
    else
      let sr := sr + 1 in
      if sr =? w then dudivmod_main w dlow dhigh sr 0 nlow nhigh 0
      else dudivmod_main w dlow dhigh sr 0 (wrap w (Z.shiftl nlow (w - sr)))
          (Z.lor (wrap w (Z.shiftl nhigh (w - sr))) (Z.shiftr nlow sr)) (Z.shiftr nhigh sr).

(** ** Timestamp division in a build without __int128 (iso8601.h 90-98, 117-131 div_uint). *)
Definition stamp_div_no128 (has_ctz : bool) (a : stamp) (d : Z) : outcome stamp :=
  if d =? 0 then Terminated
  else
    let minus := ts_sec a <? 0 in
    let seconds := wrap 64 (ts_sec a) in
    let seconds := if minus then wrap 64 (0 - seconds) else seconds in
    let '(low, high) := umul_least_64_emulated seconds subseconds_per_second in
    let '(low, c) := add_carry 64 false low (ts_sub a) in
    let '(high, _) := add_carry 64 c high 0 in
    let mid := Z.shiftr d 1 in
    let! (qlow, qhigh, r, rhigh) := dudivmod has_ctz 64 low high d 0 in
    let '(qlow, qhigh) :=
      if (mid <? r) || ((mid =? r) && (Z.land qlow 1 =? 1)) then
        let '(qlow, c) := add_carry 64 false qlow 1 in
        let '(qhigh, _) := add_carry 64 c qhigh 0 in (qlow, qhigh)
      else (qlow, qhigh) in
    let! (slow, _, sublow, _) := dudivmod has_ctz 64 qlow qhigh subseconds_per_second 0 in
    let slow := if minus then wrap 64 (0 - slow) else slow in
    Done (mk_stamp (to_signed 64 slow) sublow).
