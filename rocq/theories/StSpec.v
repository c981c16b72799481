(** What a file's status means and how it is written, without reference to the library's code.
    Texts are ASCII code units. *)
From Coq Require Import String.
From Coq Require Import List.
From Verif Require Import Base NumSpec TimeSpec TimeTextSpec ClockSpec.

(** The kinds of files. *)
Inductive file_kind := KNone | KNotFound | KRegular | KDirectory | KSymlink | KBlock | KCharacter | KFifo | KSocket | KUnknown | KRemote.
Definition kind_name (k : file_kind) : list Z :=
  match k with
  | KNone => text "none" | KNotFound => text "not_found" | KRegular => text "regular" | KDirectory => text "directory"
  | KSymlink => text "symlink" | KBlock => text "block" | KCharacter => text "character" | KFifo => text "fifo"
  | KSocket => text "socket" | KUnknown => text "unknown" | KRemote => text "remote"
  end.

(** The permission string of ls: three letters each for the owner, the group and others. *)
Definition is_mode_text (p : Z) (t : list Z) : Prop :=
  length t = 9%nat /\ forall i, (i < 9)%nat ->
    nth i t 0 = if Z.testbit p (8 - Z.of_nat i) then nth i (text "rwxrwxrwx") 0 else 45.

(** What stat tells of a file. *)
Record file_status := mk_status {
  s_dev : Z; s_ino : Z; s_perm : Z; s_type : file_kind; s_nlink : Z; s_uid : Z; s_gid : Z; s_rdev : Z; s_size : Z;
  s_blksize : Z; s_blocks : Z; s_atim : stamp; s_mtim : stamp; s_ctim : stamp; s_btim : stamp; s_flags : Z; s_gen : Z }.
Definition is_u64 (v : Z) : Prop := 0 <= v < 2 ^ 64.
Definition status_ok (s : file_status) : Prop :=
  Forall is_u64 [s_dev s; s_ino s; s_nlink s; s_uid s; s_gid s; s_rdev s; s_size s; s_blksize s; s_blocks s; s_flags s; s_gen s] /\
  0 <= s_perm s < 2 ^ 32 /\ Forall valid_stamp [s_atim s; s_mtim s; s_ctim s; s_btim s].

(** The value of a field and a text that denotes it. *)
Inductive field := FNum (v : Z) | FMode (p : Z) | FKind (k : file_kind) | FTime (t : stamp).
Definition field_text (f : field) (t : list Z) : Prop :=
  match f with
  | FNum v => is_numeral 10 false v t
  | FMode p => is_mode_text p t
  | FKind k => t = kind_name k
  | FTime x => unix_text x t
  end.
Definition status_fields (s : file_status) : list (list Z * field) :=
  [(text "dev", FNum (s_dev s)); (text "ino", FNum (s_ino s)); (text "perm", FMode (s_perm s)); (text "type", FKind (s_type s));
   (text "nlink", FNum (s_nlink s)); (text "uid", FNum (s_uid s)); (text "gid", FNum (s_gid s)); (text "rdev", FNum (s_rdev s));
   (text "size", FNum (s_size s)); (text "blksize", FNum (s_blksize s)); (text "blocks", FNum (s_blocks s));
   (text "atim", FTime (s_atim s)); (text "mtim", FTime (s_mtim s)); (text "ctim", FTime (s_ctim s)); (text "btim", FTime (s_btim s));
   (text "flags", FNum (s_flags s)); (text "gen", FNum (s_gen s))].
(** One line "name:value" per field. *)
Inductive lines_of : list (list Z * field) -> list Z -> Prop :=
| line_last n f t : field_text f t -> lines_of [(n, f)] (n ++ 58 :: t)
| line_more n f t fs o : field_text f t -> lines_of fs o -> lines_of ((n, f) :: fs) (n ++ 58 :: t ++ 10 :: o).
Definition status_text (s : file_status) (o : list Z) : Prop := lines_of (status_fields s) o.

(** ** The mode of a file: four bits of kind above twelve of permissions *)
Definition mode_kind (m : Z) : file_kind :=
  match (m / 4096) mod 16 with
  | 1 => KFifo | 2 => KCharacter | 4 => KDirectory | 6 => KBlock | 8 => KRegular | 10 => KSymlink | 12 => KSocket
  | _ => KUnknown
  end.
(** The Windows runtime has fewer kinds and other numbers. *)
Definition windows_kind (m : Z) : file_kind :=
  match (m / 4096) mod 16 with
  | 1 => KFifo | 2 => KCharacter | 3 => KBlock | 4 => KDirectory | 8 => KRegular | _ => KUnknown
  end.
(** The permissions are those twelve bits. *)
Definition mode_perms (m : Z) : Z := m mod 4096.

(** What the system call reports. *)
Record stat_result := mk_stat {
  st_dev : Z; st_ino : Z; st_mode : Z; st_nlink : Z; st_uid : Z; st_gid : Z; st_rdev : Z; st_size : Z; st_blksize : Z; st_blocks : Z;
  st_atim : timespec; st_mtim : timespec; st_ctim : timespec }.
Definition stat_ok (r : stat_result) : Prop :=
  Forall is_u64 [st_dev r; st_ino r; st_nlink r; st_uid r; st_gid r; st_rdev r; st_size r; st_blksize r; st_blocks r] /\
  0 <= st_mode r < 2 ^ 32 /\ Forall valid_timespec [st_atim r; st_mtim r; st_ctim r].

(** What Windows reports of an open file: the two halves of 64-bit numbers, attributes, and times in
    ticks of 100 ns since 1601, high half first. *)
Record win_info := mk_info {
  wi_volume : Z; wi_index_high : Z; wi_index_low : Z; wi_attributes : Z; wi_links : Z; wi_size_high : Z; wi_size_low : Z;
  wi_access : Z * Z; wi_write : Z * Z; wi_creation : Z * Z }.
Definition is_u32 (v : Z) : Prop := 0 <= v < 2 ^ 32.
Definition info_ok (i : win_info) : Prop :=
  Forall is_u32 [wi_volume i; wi_index_high i; wi_index_low i; wi_attributes i; wi_links i; wi_size_high i; wi_size_low i] /\
  Forall (fun p => is_u32 (fst p) /\ is_u32 (snd p)) [wi_access i; wi_write i; wi_creation i].
(** Two halves. *)
Definition joined (high low : Z) : Z := high * 2 ^ 32 + low.
