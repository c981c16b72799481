(** Questions about vectors: include/fast_io_core_impl/simd/mask_countr.h, include/fast_io_core_impl/simd/is_all_zeros.h.
    A vector is the list of its bytes in memory; the machine is little endian (the vector instructions are x86, ARM
    and WebAssembly). *)
From Verif Require Import Base.

(** The 64 bit element made of eight bytes in memory. *)
Fixpoint little_endian (bytes : list Z) : Z := match bytes with [] => 0 | b :: r => b + 256 * little_endian r end.
Fixpoint elements (n : nat) (bytes : list Z) : list Z :=
  match n with O => [] | S n => little_endian (firstn 8 bytes) :: elements n (skipn 8 bytes) end.

(** std::countr_zero and std::countr_one of an [n] bit number; std::bit_width. *)
Fixpoint countr_zero (n : nat) (x : Z) : Z := match n with O => 0 | S n => if Z.odd x then 0 else 1 + countr_zero n (Z.div2 x) end.
Fixpoint countr_one (n : nat) (x : Z) : Z := match n with O => 0 | S n => if Z.odd x then 1 + countr_one n (Z.div2 x) else 0 end.
Definition countr (ctzero : bool) (n : nat) (x : Z) : Z := if ctzero then countr_zero n x else countr_one n x.
Definition bit_width (x : Z) : Z := if x =? 0 then 0 else Z.log2 x + 1.

(** mask_countr.h 9-60: vector_mask_countr_recursive_impl, from element [pos] on. *)
Fixpoint countr_recursive (ctzero : bool) (pos : Z) (v : list Z) : Z :=
  match v with
  | [] => 0
  | [element] => 64 * pos + countr ctzero 64 element
  | element :: rest =>
      if element =? (if ctzero then 0 else 2 ^ 64 - 1) then countr_recursive ctzero (pos + 1) rest
      else 64 * pos + countr ctzero 64 element
  end.

(** std::numeric_limits<char>::digits: the sign is not a digit. *)
Definition char_digits (char_is_signed : bool) : Z := if char_is_signed then 7 else 8.

(** mask_countr.h 62-73: vector_mask_countr_common_no_intrinsics_impl, for lanes of [size] bytes. *)
Definition countr_no_intrinsics (char_is_signed ctzero : bool) (size : Z) (bytes : list Z) : Z :=
  let d := countr_recursive ctzero 0 (elements (length bytes / 8) bytes) in
  Z.shiftr d (bit_width (size * char_digits char_is_signed)).

(** pmovmskb and its relatives: the top bits of all bytes. *)
Fixpoint movemask (bytes : list Z) : Z := match bytes with [] => 0 | b :: r => Z.b2z (128 <=? b) + 2 * movemask r end.

(** What the build has for a vector of this size at run time: a mask instruction (SSE2, AVX2 and WebAssembly), or
    nothing although the vector is accelerated (NEON), or no acceleration. *)
Inductive route := has_movemask | accelerated_without | not_accelerated.

(** mask_countr.h 92-188: vector_mask_countr_common_intrinsics_impl at run time. *)
Definition countr_intrinsics (r : route) (char_is_signed ctzero : bool) (size : Z) (bytes : list Z) : Z :=
  let d := match r with has_movemask => countr ctzero (length bytes) (movemask bytes) | _ => 0 end in
  if size =? 1 then d else Z.shiftr d (bit_width (size * char_digits char_is_signed) - 3).

(** mask_countr.h 190-201, 205-216: vector_mask_countr_one and vector_mask_countr_zero; [consteval]: the call is
    evaluated by the compiler (103-114). *)
Definition vector_mask_countr (r : route) (char_is_signed consteval ctzero : bool) (size : Z) (bytes : list Z) : Z :=
  match r with
  | not_accelerated => countr_no_intrinsics char_is_signed ctzero size bytes
  | _ => if consteval then countr_no_intrinsics char_is_signed ctzero size bytes else countr_intrinsics r char_is_signed ctzero size bytes
  end.

(** is_all_zeros.h 53-71: is_all_zeros_recursive_impl *)
Fixpoint all_zeros_recursive (v : list Z) : bool :=
  match v with
  | [] => true
  | [a] => a =? 0
  | [a; b] => (a =? 0) && (b =? 0)
  | a :: r => (a =? 0) && all_zeros_recursive r
  end.

(** is_all_zeros.h 73-199: is_all_zeros_impl: the test instructions ptest, ptestm of AVX-512 (a mask of the bytes
    that are not zero, returned as it is), vmaxvq_u32 of NEON (the largest of the 32 bit lanes), the mask
    instructions where there is only SSE2 or WebAssembly, and the recursion. *)
Inductive zero_route := z_ptest | z_ptestm | z_max | z_movemask | z_recursive.
Fixpoint ptestm (bytes : list Z) : Z := match bytes with [] => 0 | b :: r => Z.b2z (negb (b =? 0)) + 2 * ptestm r end.
Fixpoint lanes32 (n : nat) (bytes : list Z) : list Z :=
  match n with O => [] | S n => little_endian (firstn 4 bytes) :: lanes32 n (skipn 4 bytes) end.
Definition is_all_zeros (r : zero_route) (bytes : list Z) : bool :=
  match r with
  | z_ptest => forallb (fun b => Z.land b b =? 0) bytes
  | z_ptestm => negb (ptestm bytes =? 0)
  | z_max => fold_right Z.max 0 (lanes32 (length bytes / 4) bytes) =? 0
  | z_movemask => movemask bytes =? 0
  | z_recursive => all_zeros_recursive (elements (length bytes / 8) bytes)
  end.
