(** What the operating systems say about byte range locks: fcntl(2) of POSIX and NtLockFile / NtUnlockFile of
    Windows.  This is the environment of the code modelled in FlockModel.v, not a model of fast_io. *)
From Verif Require Import Base.

Inductive kind := Shared | Exclusive.
Inductive whence := from_beg | from_cur | from_end.

(** Where the range of a request starts to count from, given the position of the descriptor and the size. *)
Definition origin (w : whence) (pos size : Z) : Z :=
  match w with from_beg => 0 | from_cur => pos | from_end => size end.

(** fcntl(2): the bytes of a range: [len] bytes from [base] on, to the end of all files if [len] is 0, and the
    [-len] bytes before [base] if [len] is negative. *)
Definition covers (base len b : Z) : bool :=
  if len =? 0 then base <=? b
  else if 0 <? len then (base <=? b) && (b <? base + len)
  else (base + len <=? b) && (b <? base).

(** The locks of a file: which process holds which byte in which way. *)
Definition table := nat -> Z -> option kind.
Definition same (t t' : table) : Prop := forall p b, t' p b = t p b.

(** A lock of another process that does not agree with a lock of kind [k]. *)
Definition against (k : kind) (other : option kind) : Prop :=
  match k, other with _, Some Exclusive => True | Exclusive, Some Shared => True | _, _ => False end.

(** struct flock *)
Record flock := mk_flock { l_type : option kind (* None: F_UNLCK *); l_whence : whence; l_start : Z; l_len : Z }.
Inductive command := F_SETLK | F_SETLKW.
Inductive outcome := Succeeds | Fails | Blocks.

Definition range_of (fl : flock) (pos size b : Z) : bool := covers (origin (l_whence fl) pos size + l_start fl) (l_len fl) b.
Definition conflict (p : nat) (fl : flock) (pos size : Z) (t : table) : Prop :=
  exists k q b, l_type fl = Some k /\ q <> p /\ 0 <= b /\ range_of fl pos size b = true /\ against k (t q b).

(** fcntl(2), F_SETLK and F_SETLKW: take, change or release the range at once; if a lock of another process is
    against it, F_SETLK fails and F_SETLKW blocks.  The call may also fail for reasons of its own (EBADF, EINTR,
    ENOLCK, EDEADLK, EINVAL, EOVERFLOW); then nothing changes.  A blocked call is tried again later. *)
Inductive fcntl (p : nat) (c : command) (fl : flock) (pos size : Z) (t : table) : table -> outcome -> Prop :=
| fcntl_done t' : ~ conflict p fl pos size t ->
    (forall b, t' p b = if range_of fl pos size b then l_type fl else t p b) ->
    (forall q b, q <> p -> t' q b = t q b) -> fcntl p c fl pos size t t' Succeeds
| fcntl_fails t' : same t t' -> fcntl p c fl pos size t t' Fails
| fcntl_again t' : c = F_SETLK -> conflict p fl pos size t -> same t t' -> fcntl p c fl pos size t t' Fails
| fcntl_blocks t' : c = F_SETLKW -> conflict p fl pos size t -> same t t' -> fcntl p c fl pos size t t' Blocks.

(** Windows: a list of granted locks; an exclusive lock excludes every other one of the range, also of the same
    handle; an unlock names one lock by its exact range. *)
Record nt_lock := mk_nt { nt_owner : nat; nt_start : Z; nt_len : Z; nt_exclusive : bool }.

Definition overlap (a b : nt_lock) : bool := (nt_start a <? nt_start b + nt_len b) && (nt_start b <? nt_start a + nt_len a).
Definition nt_conflict (l : nt_lock) (t : list nt_lock) : Prop :=
  exists x, In x t /\ overlap l x = true /\ (nt_exclusive l = true \/ nt_exclusive x = true).

Inductive nt_lock_file (l : nt_lock) (at_once : bool) (t : list nt_lock) : list nt_lock -> outcome -> Prop :=
| ntl_done : ~ nt_conflict l t -> nt_lock_file l at_once t (l :: t) Succeeds
| ntl_fails : nt_lock_file l at_once t t Fails
| ntl_again : at_once = true -> nt_conflict l t -> nt_lock_file l at_once t t Fails
| ntl_blocks : at_once = false -> nt_conflict l t -> nt_lock_file l at_once t t Blocks.

Fixpoint drop_lock (p : nat) (start len : Z) (t : list nt_lock) : list nt_lock :=
  match t with
  | [] => []
  | x :: r => if Nat.eqb (nt_owner x) p && (nt_start x =? start) && (nt_len x =? len) then r else x :: drop_lock p start len r
  end.
Definition locks_of (p : nat) (t : list nt_lock) : list nt_lock := filter (fun x => Nat.eqb (nt_owner x) p) t.
