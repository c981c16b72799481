(** Printing complex numbers (include/fast_io_unit/complex.h). *)
From Verif Require Import Base Outcome FloatModel FloatTextModel.
Local Open Scope Z_scope.

(** complex.h 365-379 print_reserve_complex_impl, called by 389-394 print_reserve_define: the parts of the number are
    the bit patterns [re] and [im]. Only base 10 has a print_reserve_define. *)
Definition print_complex (sizet : Z) (f : fmt) (fl : fflags) (mt : format) (re im : Z) (st : cursor) : outcome cursor :=
  let! st := emit [40] st in
  let! st := print_rsvflt_define sizet f fl mt re st in
  let! st := emit [if ff_comma fl then 46 else 44] st in
  let! st := print_rsvflt_define sizet f fl mt im st in
  emit [41] st.

(** complex.h 381-387 print_reserve_size. *)
Definition print_complex_size (f : fmt) (mt : format) : Z :=
  let v := print_rsvflt_size f mt in v * 2 + 3.
