(** Printing arrays of characters and strings that end with a NUL (include/fast_io_core_impl/integers/pointer.h,
    freestanding/cstr_len.h). Characters are the values of their unsigned types; the memory from a pointer on is the
    list of the cells that may be read. *)
From Verif Require Import Base Outcome.
Local Open Scope Z_scope.

(** cstr_len.h 9-18 dummy_cstr_len; 31-64 cstr_len calls it or strlen, which computes the same. *)
Fixpoint cstr_len_loop (m : list Z) (n : Z) : outcome Z :=
  match m with
  | [] => Undefined
  | c :: m' => if c =? 0 then Done n else cstr_len_loop m' (n + 1)
  end.
Definition cstr_len (m : list Z) : outcome Z := cstr_len_loop m 0.

(** cstr_len.h 20-27 dummy_cstr_nlen; 66-101 cstr_nlen calls it or strnlen, which computes the same. *)
Fixpoint cstr_nlen_loop (m : list Z) (maxn n : Z) : outcome Z :=
  if n =? maxn then Done n else
  match m with
  | [] => Undefined
  | c :: m' => if c =? 0 then Done n else cstr_nlen_loop m' maxn (n + 1)
  end.
Definition cstr_nlen (m : list Z) (maxn : Z) : outcome Z := cstr_nlen_loop m maxn 0.

(** The output of a scatter: the [len] characters at a pointer (print_freestanding.h writes them unchanged). *)
Definition scatter (m : list Z) (len : Z) : outcome (list Z) :=
  if (0 <=? len) && (len <=? zlen m) then Done (firstn (Z.to_nat len) m) else Undefined.

(** pointer.h 40-46 print_alias_define of os_c_str(ch). *)
Definition print_os_c_str (m : list Z) : outcome (list Z) := let! n := cstr_len m in scatter m n.
(** pointer.h 61-66 os_c_str(ch, n), 55-60 its print_alias_define. *)
Definition print_os_c_str_n (m : list Z) (n : Z) : outcome (list Z) := let! k := cstr_nlen m n in scatter m k.
(** pointer.h 68-74 os_c_str_carr: [m] is the whole array. *)
Definition print_os_c_str_carr (m : list Z) : outcome (list Z) := print_os_c_str_n m (zlen m - 1).
(** pointer.h 136-144 os_c_str(range). *)
Definition print_os_c_str_range (m : list Z) : outcome (list Z) := print_os_c_str_n m (zlen m).

(** pointer.h 217-232 chvw: one character of any character type on a stream of [w]-bit characters. *)
Definition print_chvw (w c : Z) : list Z := [wrap w c].
(** The first cell of an array. *)
Definition head_of (m : list Z) : outcome Z := match m with c :: _ => Done c | [] => Undefined end.

(** pointer.h 186-208 print_alias_define of an array; [same] says that its character type is that of the stream. [None]:
    the program is rejected when it is compiled (an array of no cells, or the scatter of another character type). *)
Definition print_array (w : Z) (same : bool) (m : list Z) : option (outcome (list Z)) :=
  let n := zlen m in
  if n =? 0 then None
  else if n =? 2 then Some (let! c := head_of m in Done (print_chvw w c))
  else if same then Some (scatter m (n - 1)) else None.

(** pointer.h 234-277: a small_scatter_t<char_type, N> reserves [N] characters and copies its [len] there; a print that
    has less room than reserved asks for the precise size, which is [len], and copies the same. *)
Definition print_small_scatter_t (N : Z) (m : list Z) (len : Z) : outcome (list Z) :=
  if len <=? N then scatter m len else Undefined.
(** pointer.h 90-117 small_scatter. *)
Definition print_small_scatter (w : Z) (same : bool) (m : list Z) : option (outcome (list Z)) :=
  let n := zlen m in
  if n =? 0 then None
  else if n =? 2 then Some (let! c := head_of m in Done (print_chvw w c))
  else if same then Some (if n <? 65 then print_small_scatter_t 64 m (n - 1) else scatter m (n - 1)) else None.
