From Verif Require Import Base CharModel.
Open Scope Z_scope.

(** * Searching for a character (include/fast_io_core_impl/simd_find.h)

    A text is a list of code units (unsigned values below 2^w) and a pointer into it is the number
    of characters before it: each function takes the text from [first] to [last] and returns the distance
    that it advances.  The EBCDIC branches, the branch for wide_is_none_utf_endian and the
    constant-evaluated branches (which are the plain loops) are not modelled. *)

(** The build: code unit width; optimal_simd_vector_run_with_cpu_instruction_size
    (simd/is_all_zeros.h 46-51: 64, 32, 16 or 0 bytes); whether is_all_zeros of a 64-byte vector uses
    ptestmb512 (is_all_zeros.h 169-179: GCC with AVX512BW); whether the hosted glibc memchr is used
    (simd_find.h 424-433); sizeof(size_t); the byte order. *)
Record fcfg := mk_fcfg {
  f_w : Z; f_simd : nat; f_ptestm : bool; f_memchr : bool; f_word : nat; f_big : bool }.

(** ** Vectors: lists of lanes (simd/gcc_clang.h; lanes of a comparison are all ones or zero) *)

Definition lane_bool (w : Z) (b : bool) : Z := if b then 2 ^ w - 1 else 0.
Definition vec_map2 (f : Z -> Z -> Z) (a b : list Z) : list Z :=
  map (fun p => f (fst p) (snd p)) (combine a b).
(** gcc_clang.h 498-501 (a.value-b.value), 520-529 (&, ^), 562-565 (<), 586-595 (==, !=). *)
Definition vec_sub (w : Z) := vec_map2 (fun x y => (x - y) mod 2 ^ w).
Definition vec_and := vec_map2 Z.land.
Definition vec_xor := vec_map2 Z.lxor.
Definition vec_eq (w : Z) := vec_map2 (fun x y => lane_bool w (x =? y)).
Definition vec_ne (w : Z) := vec_map2 (fun x y => lane_bool w (negb (x =? y))).
(** The comparison of two vectors of an unsigned element type. *)
Definition vec_lt_unsigned (w : Z) := vec_map2 (fun x y => lane_bool w (x <? y)).

(** is_all_zeros.h 82-197: the test instructions agree that the result says whether every lane is zero
    (pmovmskb reads the sign bits, which tell on the all-ones/zero lanes it is applied to); but
    ptestmb512 returns the mask of the lanes that are NOT zero, which converts to true when there is one. *)
Definition is_all_zeros (c : fcfg) (v : list Z) : bool :=
  if (Nat.eqb (f_simd c) 64) && f_ptestm c
  then negb (forallb (Z.eqb 0) v)
  else forallb (Z.eqb 0) v.

(** N = vec_size/sizeof(char_type), simd_find.h 44 *)
Definition lanes (c : fcfg) : nat := Nat.div (f_simd c) (Z.to_nat (f_w c / 8)).

(** simd_find.h 5-22 create_find_simd_vector_with_unsigned_toggle: N copies of a value, shifted by the
    least signed value when [signed_disposition]. *)
Definition splat (c : fcfg) (signed_disposition : bool) (v : Z) : list Z :=
  repeat ((if signed_disposition then v + 2 ^ (f_w c - 1) else v) mod 2 ^ f_w c) (lanes c).

(** simd_find.h 41-57 find_simd_common_condition_impl: whole vectors until the condition holds. *)
Fixpoint simd_condition (n : nat) (stop : list Z -> bool) (fuel : nat) (s : list Z) : nat :=
  match fuel with
  | O => O
  | S fuel' =>
      if Nat.leb n (length s)
      then if stop (firstn n s) then O else (n + simd_condition n stop fuel' (skipn n s))%nat
      else O
  end.
Definition find_simd_condition (c : fcfg) (stop : list Z -> bool) (s : list Z) : nat :=
  simd_condition (lanes c) stop (length s) s.

(** simd_find.h 60-80 find_simd_common_all_impl. *)
Definition find_simd_all (c : fcfg) (findnot : bool) (func : list Z -> list Z) (s : list Z) : nat :=
  find_simd_condition c
    (fun v => if findnot
              then negb (is_all_zeros c (vec_eq (f_w c) (func v) (repeat 0 (lanes c))))
              else negb (is_all_zeros c (func v))) s.

(** simd_find.h 83-116: find_simd_constant_simd_common_impl. *)
Definition find_simd_constant (c : fcfg) (findnot : bool) (ch : Z) (s : list Z) : nat :=
  let charsvec := splat c false ch in
  find_simd_condition c
    (fun v => if findnot then negb (is_all_zeros c (vec_ne (f_w c) v charsvec))
              else negb (is_all_zeros c (vec_eq (f_w c) v charsvec))) s.

(** simd_find.h 119 use_signed_vector_type *)
Definition use_signed_vector_type : bool := true.
(** simd_find.h 213, 222: the type chosen when use_signed_vector_type is signed_char_type, which is
    declared as std::make_unsigned_t<unsigned_char_type>: an unsigned element type either way. *)
Definition decision_lt (c : fcfg) := vec_lt_unsigned (f_w c).

(** simd_find.h 204-353 find_space_simd_common_impl, the branch for ASCII-based types (313-352). *)
Definition space_lanes (c : fcfg) (ishtml : bool) (v : list Z) : list Z :=
  let w := f_w c in
  let spaces := splat c false 32 in
  let fives := splat c use_signed_vector_type 5 in
  let horizontaltabs := splat c use_signed_vector_type 9 in
  let verticaltabs := splat c false 11 in
  let range := decision_lt c (vec_sub w v horizontaltabs) fives in
  if ishtml then vec_xor (vec_eq w spaces v) (vec_and range (vec_ne w v verticaltabs))
  else vec_xor (vec_eq w spaces v) range.
Definition find_space_simd (c : fcfg) (ishtml findnot : bool) (s : list Z) : nat :=
  find_simd_all c findnot (space_lanes c ishtml) s.

(** ** The scalar loops *)

(** freestanding/algorithm.h 136-161 find, find_not; simd_find.h 526-553
    find_space_common_iterator_generic_impl: advance while the condition holds. *)
Fixpoint skip_while (p : Z -> bool) (s : list Z) : nat :=
  match s with
  | [] => O
  | x :: s' => if p x then S (skip_while p s') else O
  end.

(** The characters passed over by each search. *)
Definition pass_char (findnot : bool) (ch x : Z) : bool := if findnot then x =? ch else negb (x =? ch).
Definition pass_space (w : Z) (ishtml findnot : bool) (x : Z) : bool :=
  let b := if ishtml then is_html_whitespace x else is_c_space w x in
  if findnot then b else negb b.

(** ** The word-at-a-time search of musl (simd_find.h 356-408 find_characters_musl), one-byte types *)

(** memcpy of the first sizeof(size_t) characters into a size_t. *)
Fixpoint word_le (l : list Z) : Z := match l with [] => 0 | b :: l' => b + 256 * word_le l' end.
Definition load_word (c : fcfg) (l : list Z) : Z := word_le (if f_big c then rev l else l).
Definition word_bits (c : fcfg) : Z := 8 * Z.of_nat (f_word c).
(** ones = SIZE_MAX/255, highs = ones*128 *)
Definition musl_ones (c : fcfg) : Z := (2 ^ word_bits c - 1) / 255.
Definition musl_highs (c : fcfg) : Z := musl_ones c * 128.
(** v = (x-ones)&(~x)&highs *)
Definition musl_v (c : fcfg) (x : Z) : Z :=
  Z.land (Z.land ((x - musl_ones c) mod 2 ^ word_bits c) (2 ^ word_bits c - 1 - x)) (musl_highs c).
Fixpoint musl_loop (c : fcfg) (findnot : bool) (ch : Z) (fuel : nat) (s : list Z) : nat :=
  match fuel with
  | O => O
  | S fuel' =>
      if Nat.leb (f_word c) (length s)
      then let x := Z.lxor (load_word c (firstn (f_word c) s)) (musl_ones c * ch) in
           let v := musl_v c x in
           if (if findnot then negb (v =? musl_highs c) else negb (v =? 0)) then O
           else (f_word c + musl_loop c findnot ch fuel' (skipn (f_word c) s))%nat
      else O
  end.
Definition find_musl (c : fcfg) (findnot : bool) (ch : Z) (s : list Z) : nat :=
  let k := match s with
           | [] => O
           | x :: _ => if x =? ch then O else musl_loop c findnot ch (length s) s
           end in
  (k + skip_while (pass_char findnot ch) (skipn k s))%nat.

(** ** The searches *)

(** memchr / wmemchr (C standard): the first occurrence, or the end. *)
Definition libc_memchr (ch : Z) (s : list Z) : nat := skip_while (fun x => negb (x =? ch)) s.

(** simd_find.h 411-478 find_simd_constant_common_cold_impl. *)
Definition find_constant_cold (c : fcfg) (findnot : bool) (ch : Z) (s : list Z) : nat :=
  let one_byte := f_w c =? 8 in
  if (f_memchr c && negb findnot) && (one_byte || (f_w c =? 32)) then libc_memchr ch s
  else if negb (Nat.eqb (f_simd c) 0) then
    let k := find_simd_constant c findnot ch s in
    (k + skip_while (pass_char findnot ch) (skipn k s))%nat
  else if one_byte then find_musl c findnot ch s
  else skip_while (pass_char findnot ch) s.

(** simd_find.h 480-505 find_simd_small_optimization_common_impl<false>: with vectors of 16 bytes or more,
    the first (up to) that many characters one by one.  A count left over means that the search ended. *)
Definition small_first (c : fcfg) (pred : Z -> bool) (func : list Z -> nat) (s : list Z) : nat :=
  if Nat.ltb 2 (f_simd c) then
    let diff := Nat.min (f_simd c) (length s) in
    let k := skip_while pred (firstn diff s) in
    if negb (Nat.eqb (diff - k) 0) then k else (k + func (skipn k s))%nat
  else func s.

(** simd_find.h 507-524 find_simd_constant_common_impl; find_lf_simd_impl (609-612: '\n', false),
    find_none_zero_simd_impl (615-618: '0', true), find_ch_impl (652-683). *)
Definition find_constant (c : fcfg) (findnot : bool) (ch : Z) (s : list Z) : nat :=
  small_first c (pass_char findnot ch) (find_constant_cold c findnot ch) s.
Definition find_lf (c : fcfg) (s : list Z) : nat := find_constant c false 10 s.
Definition find_none_zero (c : fcfg) (s : list Z) : nat := find_constant c true 48 s.

(** simd_find.h 555-573 find_space_common_cold_impl. *)
Definition find_space_cold (c : fcfg) (ishtml findnot : bool) (s : list Z) : nat :=
  let k := if Nat.eqb (f_simd c) 0 then O else find_space_simd c ishtml findnot s in
  (k + skip_while (pass_space (f_w c) ishtml findnot) (skipn k s))%nat.
(** simd_find.h 575-606 find_space_common_impl. *)
Definition find_space (c : fcfg) (ishtml findnot : bool) (s : list Z) : nat :=
  small_first c (pass_space (f_w c) ishtml findnot) (find_space_cold c ishtml findnot) s.
(** char_category.h 472-498 *)
Definition find_none_c_space (c : fcfg) := find_space c false true.
Definition find_c_space (c : fcfg) := find_space c false false.
Definition find_none_html_whitespace (c : fcfg) := find_space c true true.
Definition find_html_whitespace (c : fcfg) := find_space c true false.
