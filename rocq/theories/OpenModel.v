(** Model of open modes and permissions.
    Source: include/fast_io_core_impl/mode.h 178-259 (open_mode), 308-405 (c_supported, to_c_mode),
    include/fast_io_core_impl/perms.h, include/fast_io_hosted/platforms/posix.h 149-276 (calculate_posix_open_mode).
    Target: Linux x86-64 with glibc; all O_ macros that the code tests for are defined there (O_BINARY, O_TTY_INIT and
    _O_SEQUENTIAL are not, O_LARGEFILE is 0).  An open_mode is its 64-bit value. *)
From Coq Require Import String List.
From Verif Require Import Base.
Import ListNotations.
Open Scope Z_scope.

(** mode.h 178-259: the bit numbers. *)
Definition b_app := 0. Definition b_creat := 4. Definition b_direct := 5. Definition b_directory := 6. Definition b_excl := 8.
Definition b_follow := 9. Definition b_in := 11. Definition b_inherit := 12. Definition b_no_atime := 13. Definition b_no_block := 14.
Definition b_no_ctty := 15. Definition b_out := 21. Definition b_path := 22. Definition b_sync := 27. Definition b_temporary := 29.
Definition b_text := 30. Definition b_trunc := 31.
Definition om (bit : Z) : Z := 2 ^ bit.
(** (value & open_mode::x) != open_mode::none *)
Definition has (value bit : Z) : bool := negb (Z.land value (om bit) =? 0).

(** asm-generic/fcntl.h, the values on x86-64. *)
Definition O_RDONLY := 0. Definition O_WRONLY := 1. Definition O_RDWR := 2. Definition O_CREAT := 64. Definition O_EXCL := 128.
Definition O_NOCTTY := 256. Definition O_TRUNC := 512. Definition O_APPEND := 1024. Definition O_NONBLOCK := 2048.
Definition O_DIRECT := 16384. Definition O_DIRECTORY := 65536. Definition O_NOFOLLOW := 131072. Definition O_NOATIME := 262144.
Definition O_CLOEXEC := 524288. Definition O_SYNC := 1052672. Definition O_PATH := 2097152. Definition O_TMPFILE := 4259840.

(** posix.h 149-276. *)
Definition set_if (c : bool) (flag mode : Z) : Z := if c then Z.lor mode flag else mode.
Definition calculate_posix_open_mode (value : Z) : Z :=
  let mode := if has value b_follow then 0 else O_NOFOLLOW in
  let mode := set_if (negb (has value b_inherit)) O_CLOEXEC mode in
  let mode := set_if (has value b_creat) O_CREAT mode in
  let mode := set_if (has value b_excl) O_EXCL mode in
  let mode := set_if (has value b_trunc) O_TRUNC mode in
  let mode := set_if (has value b_direct) O_DIRECT mode in
  let mode := set_if (has value b_sync) O_SYNC mode in
  let mode := set_if (has value b_no_ctty) O_NOCTTY mode in
  let mode := set_if (has value b_path) O_PATH mode in
  let mode := set_if (has value b_no_atime) O_NOATIME mode in
  let mode := set_if (has value b_no_block) O_NONBLOCK mode in
  let mode := set_if (has value b_temporary) O_TMPFILE mode in
  let mode := set_if (has value b_directory) O_DIRECTORY mode in
  let s := Z.land value (Z.lor (om b_out) (Z.lor (om b_app) (om b_in))) in
  if s =? om b_in then Z.lor mode O_RDONLY
  else if s =? om b_out then Z.lor mode (Z.lor O_WRONLY (Z.lor O_CREAT O_TRUNC))
  else if (s =? om b_app) || (s =? Z.lor (om b_out) (om b_app)) then Z.lor mode (Z.lor O_WRONLY (Z.lor O_CREAT O_APPEND))
  else if s =? Z.lor (om b_out) (om b_in) then Z.lor mode O_RDWR
  else if (s =? Z.lor (om b_out) (Z.lor (om b_in) (om b_app))) || (s =? Z.lor (om b_in) (om b_app)) then Z.lor mode (Z.lor O_RDWR (Z.lor O_CREAT O_APPEND))
  else mode.

(** mode.h 308-405. *)
Definition c_supported (m : Z) : Z :=
  Z.land m (Z.lor (om b_text) (Z.lor (om b_excl) (Z.lor (om b_out) (Z.lor (om b_app) (Z.lor (om b_in) (om b_trunc)))))).
Definition ors (bits : list Z) : Z := fold_right (fun b a => Z.lor (om b) a) 0 bits.
(** The case labels of the switch, in order: any of the values gives the string. *)
Definition c_mode_cases : list (list (list Z) * string) :=
  [ ([[b_in; b_text]], "r");
    ([[b_out; b_text]; [b_out; b_trunc; b_text]], "w");
    ([[b_app; b_text]; [b_out; b_app; b_text]], "a");
    ([[b_out; b_in; b_text]], "r+");
    ([[b_out; b_in; b_trunc; b_text]], "w+");
    ([[b_out; b_in; b_app; b_text]; [b_in; b_app; b_text]], "a+");
    ([[b_out; b_excl; b_text]; [b_out; b_trunc; b_excl; b_text]], "wx");
    ([[b_app; b_excl; b_text]; [b_out; b_app; b_excl; b_text]], "ax");
    ([[b_out; b_in; b_trunc; b_excl; b_text]], "w+x");
    ([[b_out; b_in; b_app; b_excl; b_text]; [b_in; b_app; b_excl; b_text]], "a+x");
    ([[b_in]], "rb");
    ([[b_out]; [b_out; b_trunc]], "wb");
    ([[b_app]; [b_out; b_app]], "ab");
    ([[b_out; b_in]], "r+b");
    ([[b_out; b_in; b_trunc]], "w+b");
    ([[b_out; b_in; b_app]; [b_in; b_app]], "a+b");
    ([[b_out; b_excl]; [b_out; b_trunc; b_excl]], "wxb");
    ([[b_app; b_excl]; [b_out; b_app; b_excl]], "axb");
    ([[b_out; b_in; b_trunc; b_excl]], "w+xb");
    ([[b_out; b_in; b_app; b_excl]; [b_in; b_app; b_excl]], "a+xb") ]%string.
Fixpoint find_case (s : Z) (cases : list (list (list Z) * string)) : option string :=
  match cases with
  | [] => None
  | (labels, str) :: rest => if existsb (fun l => s =? ors l) labels then Some str else find_case s rest
  end.
Definition to_c_mode (m : Z) : string :=
  let s := c_supported m in
  match find_case s c_mode_cases with
  | Some str => str
  | None => if s =? 0 then (if has m b_directory then "r" else "")%string else ""%string
  end.

(** perms.h 62-112: one character per bit; the octal constants 8-30. *)
Definition perm_check (fill p checked : Z) : Z := if Z.land p checked =? 0 then 45 else fill.
Definition print_perms (p : Z) : list Z :=
  [perm_check 114 p 256; perm_check 119 p 128; perm_check 120 p 64; perm_check 114 p 32; perm_check 119 p 16; perm_check 120 p 8;
   perm_check 114 p 4; perm_check 119 p 2; perm_check 120 p 1].
Definition perms_reserve_size : Z := 9.
