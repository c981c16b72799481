(** Model of the status of files.
    Sources: include/fast_io_core_impl/perms.h, mode.h; include/fast_io_hosted/posix_status.h, platforms/posix.h.
    Only ASCII code units (char, wchar_t, char16_t, char32_t and char8_t all select the same texts; EBCDIC is not modelled). *)
From Coq Require Import String.
From Coq Require Import List.
From Verif Require Import Base NumSpec IntPrintModel TimeSpec TimeTextModel ClockSpec ClockModel StSpec.

(** perms.h 7-31: the enumerators. *)
Definition owner_read := 256.
Definition owner_write := 128.
Definition owner_exec := 64.
Definition group_read := 32.
Definition group_write := 16.
Definition group_exec := 8.
Definition others_read := 4.
Definition others_write := 2.
Definition others_exec := 1.

(** perms.h 63-75 print_perm_per_check. *)
Definition print_perm_per_check (fillch p checked : Z) : list Z :=
  if Z.land p checked =? 0 then [45] else [fillch].
(** perms.h 79-83. *)
Definition perms_reserve_size : Z := 9.
(** perms.h 87-101 print_status_impl, 104-108. *)
Definition print_perms (p : Z) : list Z :=
  print_perm_per_check 114 p owner_read ++ print_perm_per_check 119 p owner_write ++ print_perm_per_check 120 p owner_exec ++
  print_perm_per_check 114 p group_read ++ print_perm_per_check 119 p group_write ++ print_perm_per_check 120 p group_exec ++
  print_perm_per_check 114 p others_read ++ print_perm_per_check 119 p others_write ++ print_perm_per_check 120 p others_exec.

(** mode.h 11-15: the values of file_type, a signed char. *)
Definition kind_code (k : file_kind) : Z :=
  match k with
  | KNone => 0 | KNotFound => -1 | KRegular => 1 | KDirectory => 2 | KSymlink => 3 | KBlock => 4 | KCharacter => 5 | KFifo => 6
  | KSocket => 7 | KUnknown => 8 | KRemote => 9
  end.
(** mode.h 17-21. *)
Definition file_type_reserve_size : Z := 20.
(** mode.h 26-169 print_file_status_impl: any signed char. *)
Definition print_file_type (f : Z) : list Z :=
  if f =? 0 then text "none" else if f =? -1 then text "not_found" else if f =? 1 then text "regular"
  else if f =? 2 then text "directory" else if f =? 3 then text "symlink" else if f =? 4 then text "block"
  else if f =? 5 then text "character" else if f =? 6 then text "fifo" else if f =? 7 then text "socket"
  else if f =? 9 then text "remote" else text "unknown".

Definition uintmax_ty : int_type := mk_int 64 false.
Definition print_uintmax (v : Z) : option (list Z) := print_int default_pflags uintmax_ty v.

(** posix_status.h 42-57: sizeof a literal counts its NUL; the sum is corrected by 16. *)
Definition sizeof_literal (s : list Z) : Z := zlen s + 1.
Definition status_reserve_size : Z :=
  reserved_size default_pflags uintmax_ty * 11 +
  fold_right (fun s n => sizeof_literal s + n) 0
    [text "dev:"; 10 :: text "ino:"; 10 :: text "perm:"; 10 :: text "type:"; 10 :: text "nlink:"; 10 :: text "uid:"; 10 :: text "gid:";
     10 :: text "rdev:"; 10 :: text "size:"; 10 :: text "blksize:"; 10 :: text "blocks:"; 10 :: text "atim:"; 10 :: text "mtim:";
     10 :: text "ctim:"; 10 :: text "btim:"; 10 :: text "flags:"; 10 :: text "gen:"] - 16 +
  perms_reserve_size + file_type_reserve_size + stamp_reserve_size * 4.

(** posix_status.h 62-277 print_file_status_impl, 280-284. *)
Definition print_status (s : file_status) : option (list Z) :=
  opt_app (Some (text "dev:")) (opt_app (print_uintmax (s_dev s))
  (opt_app (Some (10 :: text "ino:")) (opt_app (print_uintmax (s_ino s))
  (opt_app (Some (10 :: text "perm:")) (opt_app (Some (print_perms (s_perm s)))
  (opt_app (Some (10 :: text "type:")) (opt_app (Some (print_file_type (kind_code (s_type s))))
  (opt_app (Some (10 :: text "nlink:")) (opt_app (print_uintmax (s_nlink s))
  (opt_app (Some (10 :: text "uid:")) (opt_app (print_uintmax (s_uid s))
  (opt_app (Some (10 :: text "gid:")) (opt_app (print_uintmax (s_gid s))
  (opt_app (Some (10 :: text "rdev:")) (opt_app (print_uintmax (s_rdev s))
  (opt_app (Some (10 :: text "size:")) (opt_app (print_uintmax (s_size s))
  (opt_app (Some (10 :: text "blksize:")) (opt_app (print_uintmax (s_blksize s))
  (opt_app (Some (10 :: text "blocks:")) (opt_app (print_uintmax (s_blocks s))
  (opt_app (Some (10 :: text "atim:")) (opt_app (print_stamp (s_atim s))
  (opt_app (Some (10 :: text "mtim:")) (opt_app (print_stamp (s_mtim s))
  (opt_app (Some (10 :: text "ctim:")) (opt_app (print_stamp (s_ctim s))
  (opt_app (Some (10 :: text "btim:")) (opt_app (print_stamp (s_btim s))
  (opt_app (Some (10 :: text "flags:")) (opt_app (print_uintmax (s_flags s))
  (opt_app (Some (10 :: text "gen:")) (print_uintmax (s_gen s)))))))))))))))))))))))))))))))))).

(** posix.h 750-753 st_mode_to_perms: the whole mode. *)
Definition st_mode_to_perms (m : Z) : Z := wrap 32 m.

(** posix.h 755-832 st_mode_to_file_type, 811-831: S_ISREG and the others of the C library compare the bits under S_IFMT
    (octal 170000). *)
Definition s_ifmt := 61440.
Definition st_mode_to_file_type (m : Z) : file_kind :=
  let is v := Z.land m s_ifmt =? v in
  if is 32768 then KRegular else if is 16384 then KDirectory else if is 8192 then KCharacter else if is 24576 then KBlock
    else if is 4096 then KFifo else if is 40960 then KSymlink else if is 49152 then KSocket else KUnknown.
(** posix.h 786-809: the same with the numbers of the Windows runtime. *)
Definition win_mode_to_file_type (m : Z) : file_kind :=
  let is v := Z.land m 61440 =? v in
  if is 32768 then KRegular else if is 16384 then KDirectory else if is 8192 then KCharacter else if is 12288 then KBlock
    else if is 4096 then KFifo else KUnknown.

(** posix.h 835-885 struct_stat_to_posix_file_status, the branch of Linux (863-871, 882-883). *)
Definition status_of_stat (r : stat_result) : file_status :=
  mk_status (wrap 64 (st_dev r)) (wrap 64 (st_ino r)) (st_mode_to_perms (st_mode r)) (st_mode_to_file_type (st_mode r))
    (wrap 64 (st_nlink r)) (wrap 64 (st_uid r)) (wrap 64 (st_gid r)) (wrap 64 (st_rdev r)) (wrap 64 (st_size r))
    (wrap 64 (st_blksize r)) (wrap 64 (st_blocks r))
    (timespec_to_stamp (st_atim r)) (timespec_to_stamp (st_mtim r)) (timespec_to_stamp (st_ctim r)) (mk_stamp 0 0) 0 0.

(** filesystem/posix.h 195-245 type(posix_directory_entry): d_type as the kernel numbers it, both branches. *)
Definition dirent_type (d : Z) : file_kind :=
  if d =? 6 then KBlock else if d =? 2 then KCharacter else if d =? 4 then KDirectory else if d =? 1 then KFifo
  else if d =? 10 then KSymlink else if d =? 8 then KRegular else if d =? 12 then KSocket else if d =? 0 then KUnknown else KNotFound.

(** filesystem/nt.h 152-162: the attributes of a directory entry. *)
Definition nt_dirent_type (attribute : Z) : file_kind :=
  let has b := negb (Z.land attribute b =? 0) in
  if has 1024 then KSymlink else if has 64 then KCharacter else if has 16 then KDirectory else if has 4096 then KRemote else KRegular.

(** win32.h 1111-1138 file_type_impl: what GetFileType and GetLastError return; [Error] is a throw. *)
Definition win_file_type (ftvalue errcd : Z) : thrown file_kind :=
  if ftvalue =? 2 then Value KCharacter else if ftvalue =? 1 then Value KRegular else if ftvalue =? 3 then Value KFifo
  else if ftvalue =? 32768 then Value KRemote
  else if ftvalue =? 0 then (if errcd =? 0 then Value KUnknown else Error errcd)
  else Value KUnknown.

Definition filetime (p : Z * Z) : stamp := filetime_to_unix (fst p) (snd p).
(** win32.h 1140-1174 win32_status_impl: [handle] as a number, the answer of GetFileInformationByHandle ([None]: it failed, with
    last error [errcd]), whose FILETIMEs are numbers of ticks. *)
Definition win_status (handle ftvalue errcd : Z) (info : option win_info) : thrown file_status :=
  match win_file_type ftvalue errcd with
  | Error e => Error e
  | Value ft =>
    if match ft with KFifo | KCharacter => true | _ => false end then
      Value (mk_status 0 0 436 ft 1 0 0 handle 0 131072 0 (mk_stamp 0 0) (mk_stamp 0 0) (mk_stamp 0 0) (mk_stamp 0 0) 0 0)
    else
      match info with
      | None => Error errcd
      | Some i =>
        let file_size := Z.lor (Z.shiftl (wi_size_high i) 32) (wi_size_low i) in
        let pm := if Z.land (wi_attributes i) 1 =? 0 then Z.lor 292 146 else 292 in
        let ft := if Z.land (wi_attributes i) 1024 =? 1024 then KSymlink
                  else if Z.land (wi_attributes i) 16 =? 16 then KDirectory else ft in
        Value (mk_status (wi_volume i) (Z.lor (Z.shiftl (wi_index_high i) 32) (wi_index_low i)) pm ft (wi_links i) 0 0 0
                 file_size 131072 (Z.shiftr file_size 9)
                 (filetime (wi_access i)) (filetime (wi_write i)) (filetime (wi_write i))
                 (filetime (wi_creation i)) 0 0)
      end
  end.
