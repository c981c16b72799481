(** Model of the conversion of names handed to the operating system.
    Sources: include/fast_io_hosted/api_encoding_converter/posix.h, nt.h, win32.h, std_filesystem_pseudo.h;
    include/fast_io_hosted/platforms/nt/nt_path.h; include/fast_io_hosted/filesystem/nt.h.
    char and wchar_t are taken to be UTF-8, UTF-16 or UTF-32 by their size; sizes do not overflow. *)
From Verif Require Import Base UtfModel OsNameSpec.

(** freestanding/cstr_len.h 9-18 dummy_cstr_len: [None] when there is no NUL in the known memory. *)
Fixpoint cstr_len (m : list Z) : option nat :=
  match m with [] => None | u :: m' => if u =? 0 then Some O else option_map Datatypes.S (cstr_len m') end.
(** utils.h 913-916 cal_array_size. *)
Definition cal_array_size (units : list Z) : nat := Nat.pred (length units).

(** api_encoding_converter/posix.h 15-27, nt.h 15-27: the constructor of the converter and its terminating NUL.  [old] is the
    content of the allocated buffer, one unit longer than its capacity; [None]: a write outside it. *)
Definition capacity (scw dcw : Z) (s : list Z) : Z := decorated_reserve scw dcw (zlen s).
Definition converter (sse : bool) (scw dcw : Z) (s old : list Z) : option (list Z * nat) :=
  let out := code_cvt_full sse scw true dcw true s old in
  if (length out <? length old)%nat then Some (out ++ 0 :: skipn (Datatypes.S (length out)) old, length out) else None.

(** posix.h 83-167 posix_api_common ([native] = 8) and win32.h 21-99 nt_api_common ([native] = 16), which are the same text for
    two widths: the memory and the size passed to the callback; the size is only computed when the callback takes one.  In the
    case of c_str() the three ways to find the size (contiguous range, path of the standard library, cstr_len) are [Some n]
    for the first two and [None] for the last. *)
Definition api_common (sse : bool) (native : Z) (has_size : bool) (t : os_name) (old : list Z) : option (list Z * nat) :=
  match t with
  | NArray w units =>
      if w =? native then Some (units, if has_size then cal_array_size units else O)
      else converter sse w native (firstn (cal_array_size units) units) old
  | NCstr w memory size =>
      if w =? native then
        if has_size then
          match size with
          | Some n => Some (memory, n)
          | None => match cstr_len memory with Some n => Some (memory, n) | None => None end
          end
        else Some (memory, O)
      else
        match (match size with Some n => Some n | None => cstr_len memory end) with
        | Some n => converter sse w native (firstn n memory) old
        | None => None
        end
  (* std_filesystem_pseudo.h 23-36 api_common_copy_append0_strvw_case_impl *)
  | NView w units => if w =? native then Some (units ++ [0], length units) else converter sse w native units old
  end.
(** The source units a conversion of [t] reads. *)
Definition source (native : Z) (t : os_name) : option (Z * list Z) :=
  match t with
  | NArray w units => if w =? native then None else Some (w, firstn (cal_array_size units) units)
  | NCstr w memory size =>
      if w =? native then None
      else match (match size with Some n => Some n | None => cstr_len memory end) with Some n => Some (w, firstn n memory) | None => None end
  | NView w units => if w =? native then None else Some (w, units)
  end.
(** [old] has the size the converter allocates: posix.h 19-20, nt.h 18-19. *)
Definition allocated (native : Z) (t : os_name) (old : list Z) : Prop :=
  match source native t with Some (w, s) => zlen old = capacity w native s + 1 | None => True end.

(** What a POSIX system call reads: platforms/posix.h 1154-1170, filesystem/posix_at.h 359-372. *)
Definition posix_path (sse has_size : bool) (t : os_name) (old : list Z) : option (list Z) :=
  match api_common sse 8 has_size t old with Some (m, _) => c_string m | None => None end.

(** nt_path.h 6-15 nt_filename_bytes: [None] throws STATUS_NAME_TOO_LONG. *)
Definition nt_filename_bytes (n : nat) : option Z :=
  if 32767 <? Z.of_nat n then None else Some (wrap 16 (Z.shiftl (Z.of_nat n) 1)).
(** nt_path.h 35-62, 127-135: the UNICODE_STRING is Length / 2 units at the pointer. *)
Definition counted (directory : Z) (m : list Z) (n : nat) : nt_request :=
  match nt_filename_bytes n with
  | None => Threw name_too_long
  | Some bytes => Below directory (firstn (Z.to_nat (bytes / 2)) m)
  end.
(** nt_path.h 64-89, 17-33: RtlDosPathNameToNtPathName takes a C string. *)
Definition translated (m : list Z) : nt_request := match c_string m with Some s => Translate s | None => Unterminated end.
(** nt_path.h 105-113 nt_call_callback, for names already in 16-bit units. *)
Definition nt_call_callback (directory : Z) (m : list Z) (n : nat) : nt_request :=
  if directory =? 0 then Threw invalid_handle
  else if directory =? at_fdcwd then translated m
  else counted directory m n.
(** nt_path.h 139-151 nt_call_kernel_callback. *)
Definition nt_call_kernel_callback (directory : Z) (m : list Z) (n : nat) : nt_request :=
  if directory =? 0 then Threw invalid_handle
  else counted (if directory =? at_fdcwd then 0 else directory) m n.

(** platforms/nt.h 291-319 nt_create_file_impl. *)
Definition nt_open (sse : bool) (t : os_name) (old : list Z) : nt_request :=
  match api_common sse 16 false t old with Some (m, _) => translated m | None => Unterminated end.
(** platforms/nt.h 320-334, 378-400 nt_create_file_at_impl; filesystem/nt_at.h 200-213 hand over the same arguments. *)
Definition nt_open_at (sse kernel : bool) (directory : Z) (t : os_name) (old : list Z) : nt_request :=
  match api_common sse 16 true t old with
  | Some (m, n) => if kernel then nt_call_kernel_callback directory m n else nt_call_callback directory m n
  | None => Unterminated
  end.
(** platforms/nt.h 349-377 nt_create_file_kernel_impl. *)
Definition nt_open_kernel (sse : bool) (t : os_name) (old : list Z) : nt_request :=
  match api_common sse 16 true t old with Some (m, n) => counted 0 m n | None => Unterminated end.

(** filesystem/nt.h 20-28 nt_dirent: the two name buffers of a directory entry. *)
Definition native_name_units : Z := 8193.      (* 0x2001 *)
Definition u8_name_units : Z := 32772.         (* 0x8004 *)
Record dirent_names := mk_names { dn_native : list Z; dn_native_len : nat; dn_u8 : list Z; dn_u8_len : nat }.
(** filesystem/nt.h 128-138 of set_nt_dirent: the name the system reports, [bytes] long, over the names of the previous entry.
    [None]: a write outside a buffer. *)
Definition set_names (sse : bool) (prev : dirent_names) (bytes : Z) (name : list Z) : option dirent_names :=
  let n := Z.to_nat (bytes / 2) in
  if (n <? length (dn_native prev))%nat then
    let native := firstn n name ++ 0 :: skipn (Datatypes.S n) (dn_native prev) in
    match converter sse 16 8 (firstn n native) (dn_u8 prev) with
    | Some (u8, k) => Some (mk_names native n u8 k)
    | None => None
    end
  else None.
