(** Model of the errors that are thrown and compared.
    Sources: include/fast_io_core_impl/error.h, parse_code.h; include/fast_io_hosted/posix_error.h, platforms/win32_error.h,
    platforms/win32_code.h, platforms/nt/nt_code.h, posix_error_scatter/impl.h, generic.h, platforms/linux/system_call.h. *)
From Coq Require Import String.
From Coq Require Import List.
From Verif Require Import Base ErrTables ErrSpec.
Local Open Scope Z_scope.

(** error.h 6-11. *)
Record error := mk_error { e_domain : Z; e_code : Z }.
(** error.h 13-16 operator==. *)
Definition error_eqb (a b : error) : bool := (e_domain a =? e_domain b) && (e_code a =? e_code b).

(** The widths of uintptr_t and of int. *)
Record abi := mk_abi { ptr_bits : Z; int_bits : Z }.

(** posix_error.h 7-15, parse_code.h 90-98, win32_code.h 11-19, nt_code.h 11-19: domain_define. *)
Definition pick (a : abi) (d16 d32 d64 : Z) : Z := if ptr_bits a <=? 16 then d16 else if ptr_bits a <=? 32 then d32 else d64.
Definition posix_domain a := pick a 52386 1105291838 11138730069487200664.
Definition parse_domain a := pick a 19339 2666707100 17020429607921007685.
Definition win32_domain a := pick a 8987 588553401 12911969238956088748.
Definition nt_domain a := pick a 63612 3776340491 17311375720795711021.

(** posix_error.h 19-44 throw_posix_error. *)
Definition throw_posix (a : abi) (err : Z) : error := mk_error (posix_domain a) (wrap (ptr_bits a) (wrap (int_bits a) err)).
(** parse_code.h 102-114 throw_parse_code. *)
Definition throw_parse (a : abi) (code : Z) : error := mk_error (parse_domain a) (wrap (ptr_bits a) code).
(** win32_code.h 148-160 throw_win32_error. *)
Definition throw_win32 (a : abi) (err : Z) : error := mk_error (win32_domain a) (wrap (ptr_bits a) err).
(** nt_code.h 23-35 throw_nt_error. *)
Definition throw_nt (a : abi) (err : Z) : error := mk_error (nt_domain a) (wrap (ptr_bits a) err).

(** parse_code.h 119-129 parse_code_equivalent_impl, equivalent_define. *)
Definition parse_equivalent (a : abi) (e : error) (code : Z) : bool :=
  (e_domain e =? parse_domain a) && (e_code e =? wrap (ptr_bits a) code).

(** ** POSIX systems *)
(** posix_error.h 54-63 posix_code_equivalent_impl, 82-85. *)
Definition posix_equivalent (a : abi) (e : error) (p : Z) : bool :=
  if negb (posix_domain a =? e_domain e) then false else e_code e =? wrap (int_bits a) p.
(** posix_error.h 65-79 to_posix_code_impl, 87-90; [E] tells EOTHER and EINVAL. *)
Definition to_posix_code (a : abi) (E : errno_numbers) (e : error) : option Z :=
  if negb (posix_domain a =? e_domain e) then match E "EOTHER"%string with Some v => Some v | None => E "EINVAL"%string end
  else Some (to_signed (int_bits a) (wrap (int_bits a) (e_code e))).

(** posix_error_scatter/impl.h 27-41 get_posix_errno_scatter with generic.h 1-395: the compiled cases of the switch. *)
Fixpoint errno_text_in (l : list (string * option string * string)) (E : errno_numbers) (errn : Z) : string :=
  match l with
  | [] => "Unknown"%string
  | (n, g, t) :: l' =>
    match E n with
    | Some x =>
      let compiled := match g with None => true | Some m => match E m with Some y => negb (x =? y) | None => true end end in
      if compiled && (x =? errn) then t else errno_text_in l' E errn
    | None => errno_text_in l' E errn
    end
  end.
Definition errno_text (E : errno_numbers) (errn : Z) : string := if errn =? 0 then "Success"%string else errno_text_in errno_texts E errn.
(** posix_error.h 94-97 print_alias_define, 47-50 status_io_print_forward: an error prints as the text of its code. *)
Definition print_error (a : abi) (E : errno_numbers) (e : error) : option string := option_map (errno_text E) (to_posix_code a E e).

(** ** Windows *)
(** win32_error.h 9-15 eother_value. *)
Definition eother_value (E : errno_numbers) : Z := match E "EOTHER"%string with Some v => v | None => 131 end.
(** win32_error.h 17-25 win32_code_to_errno with win32_code_to_errno.h. *)
Fixpoint errno_in (l : list (string * list Z)) (E : errno_numbers) (code : Z) : Z :=
  match l with
  | [] => eother_value E
  | (n, cs) :: l' =>
    match E n with
    | Some x => if existsb (Z.eqb code) cs then x else errno_in l' E code
    | None => errno_in l' E code
    end
  end.
Definition win32_code_to_errno (E : errno_numbers) (code : Z) : Z := if code =? 0 then 0 else errno_in codes_of_errno E code.
(** win32_error.h 27-35 errno_to_win32_code with errno_to_win32_code.h. *)
Fixpoint code_in (l : list (string * Z)) (E : errno_numbers) (errn : Z) : Z :=
  match l with
  | [] => 87
  | (n, w) :: l' => match E n with Some x => if x =? errn then w else code_in l' E errn | None => code_in l' E errn end
  end.
Definition errno_to_win32_code (E : errno_numbers) (errn : Z) : Z := if errn =? 0 then 0 else code_in code_of_errno E errn.
(** win32_error.h 37-45. *)
Definition win32_code_equals_errno (E : errno_numbers) (code ec : Z) : bool :=
  let e := win32_code_to_errno E code in
  if e =? eother_value E then false else e =? ec.

Section Windows.
(** [dos] is RtlNtStatusToDosError; [old]: _WIN32_WINDOWS is defined, a build for Windows 9x. *)
Variables (a : abi) (E : errno_numbers) (dos : Z -> Z) (old : bool).
Definition as_int (code : Z) : Z := to_signed (int_bits a) (wrap (int_bits a) code).

(** win32_error.h 47-69 nt_code_equivalent_impl, 184-187. *)
Definition nt_equivalent (err : error) (e : Z) : bool :=
  let domain := e_domain err in let code := e_code err in
  if nt_domain a =? domain then code =? e
  else if (win32_domain a =? domain) || (posix_domain a =? domain) then
    let lasterr := dos e in
    if win32_domain a =? domain then lasterr =? code else win32_code_equals_errno E lasterr (as_int code)
  else false.
(** win32_error.h 71-94 win32_code_equivalent_impl, 179-182. *)
Definition win32_equivalent (err : error) (e : Z) : bool :=
  let domain := e_domain err in let code := e_code err in
  if win32_domain a =? domain then code =? e
  else if nt_domain a =? domain then (if old then false else dos (wrap 32 code) =? e)
  else if posix_domain a =? domain then win32_code_equals_errno E e (as_int code)
  else false.
(** win32_error.h 96-124 posix_code_equivalent_impl, 189-192. *)
Definition win_posix_equivalent (err : error) (e : Z) : bool :=
  let domain := e_domain err in let code := e_code err in
  if posix_domain a =? domain then wrap (int_bits a) e =? code
  else if (win32_domain a =? domain) || (nt_domain a =? domain) then
    let win32cd := if nt_domain a =? domain then (if old then 87 else dos (wrap 32 code)) else wrap 32 code in
    win32_code_equals_errno E win32cd (as_int (wrap (int_bits a) e))
  else false.
(** win32_error.h 126-148 to_win32_code_impl, 199-202. *)
Definition to_win32_code (err : error) : Z :=
  let domain := e_domain err in let code := e_code err in
  if win32_domain a =? domain then wrap 32 code
  else if nt_domain a =? domain then (if old then 87 else dos (wrap 32 code))
  else if posix_domain a =? domain then errno_to_win32_code E (as_int code)
  else 87.
(** win32_error.h 150-176 to_posix_code_impl, 194-197. *)
Definition win_to_posix_code (err : error) : Z :=
  let domain := e_domain err in let code := e_code err in
  if posix_domain a =? domain then win32_code_to_errno E (wrap 32 code)
  else if (win32_domain a =? domain) || (nt_domain a =? domain) then
    if nt_domain a =? domain then (if old then 87 else win32_code_to_errno E (dos (wrap 32 code)))
    else win32_code_to_errno E (wrap 32 code)
  else eother_value E.
End Windows.

(** ** Linux system calls *)
(** system_call.h 24-29 linux_system_call_fails; [w] is the width of the type of the result. *)
Definition system_call_fails (w v : Z) : bool := wrap w (wrap w v + wrap w 4096) <? wrap w 4096.
(** system_call.h 33-47 system_call_throw_error: the code that is thrown, if any. *)
Definition system_call_throw_error (w v : Z) : option Z :=
  if wrap w (wrap w v + wrap w 4096) <? wrap w 4096 then Some (to_signed 32 (wrap 32 (- v))) else None.
