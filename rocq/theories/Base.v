(** Shared vocabulary of the model: machine words as [Z], texts as [list Z],
    result codes.  No proofs about the code live here. *)
From Coq Require Export ZArith List Bool Lia.
Export ListNotations.
#[global] Open Scope Z_scope.

(** A fixed width unsigned word is its value in [0, 2^w).  [wrap w x] is the C++
    conversion of the mathematical integer [x] to a [w]-bit unsigned type. *)
Definition wrap (w x : Z) : Z := x mod 2 ^ w.

(** Two's complement reading of a [w]-bit pattern. *)
Definition to_signed (w x : Z) : Z :=
  let u := wrap w x in if u <? 2 ^ (w - 1) then u else u - 2 ^ w.

(** include/fast_io_core_impl/concepts/parse_code.h: enum class parse_code. *)
Inductive parse_code := pc_ok | pc_end_of_file | pc_partial | pc_invalid | pc_overflow.

Definition parse_code_eqb (a b : parse_code) : bool :=
  match a, b with
  | pc_ok, pc_ok | pc_end_of_file, pc_end_of_file | pc_partial, pc_partial
  | pc_invalid, pc_invalid | pc_overflow, pc_overflow => true
  | _, _ => false
  end.

(** The built-in integer types of the library: width in bits and signedness. *)
Record int_type := mk_int { iw : Z; isigned : bool }.

Definition int_widths : list Z := [8; 16; 32; 64; 128].
Definition valid_int (ty : int_type) : Prop := In (iw ty) int_widths.
Definition int_min (ty : int_type) : Z := if isigned ty then - 2 ^ (iw ty - 1) else 0.
Definition int_max (ty : int_type) : Z :=
  if isigned ty then 2 ^ (iw ty - 1) - 1 else 2 ^ iw ty - 1.
Definition in_range (ty : int_type) (x : Z) : Prop := int_min ty <= x <= int_max ty.

Definition zlen {A} (l : list A) : Z := Z.of_nat (length l).
