(** File locks: include/fast_io_core_impl/enums/flock.h, include/fast_io_hosted/platforms/posix_file_lock.h,
    the locks of include/fast_io_hosted/platforms/nt.h 677-941 and of buffered files,
    include/fast_io_freestanding_impl/io_buffer/output.h 141-229. *)
From Verif Require Import Base FlockSpec.

(** enums/flock.h 6-11: enum class file_lock_mode *)
Inductive lock_mode := shared_lock | exclusive_lock | unlock.

(** enums/flock.h 13-21: basic_flock_request; its integers have [ib] bits and are signed. *)
Record request := mk_req { r_type : lock_mode; r_whence : whence; r_start : Z; r_len : Z }.
Definition default_request : request := mk_req exclusive_lock from_cur 0 0.

(** posix_file_lock.h 25-42: flock_type_to_native *)
Definition flock_type_to_native (m : lock_mode) : option kind :=
  match m with shared_lock => Some Shared | unlock => None | _ => Some Exclusive end.

(** The test of posix_file_lock.h 48-57, 81-90 and 106-115: only compiled if off_t ([ob] bits) is smaller than the
    integers of the request ([ib] bits). *)
Definition out_of_range (ob ib : Z) (r : request) : bool :=
  let mn := - 2 ^ (ob - 1) in let mx := 2 ^ (ob - 1) - 1 in
  (ob <? ib) && ((r_start r <? mn) || (mx <? r_start r) || (r_len r <? mn) || (mx <? r_len r)).

(** posix_file_lock.h 58-63, 91-96, 116-121: the struct flock handed to the kernel. *)
Definition flock_of (ob : Z) (r : request) : flock :=
  mk_flock (flock_type_to_native (r_type r)) (r_whence r) (to_signed ob (r_start r)) (to_signed ob (r_len r)).

(** What a member function does: a system call whose failure is thrown ([Call_or_throw]), reported as false
    ([Call_or_false]) or ignored ([Call_quietly]), or no call at all. *)
Inductive action :=
| Call_or_throw (c : command) (fl : flock) | Call_or_false (c : command) (fl : flock) | Call_quietly (c : command) (fl : flock)
| Throw_einval | Return_false | Return_nothing.

(** posix_file_lock.h 44-65: posix_file_lock_lock_impl, and 11-23 posix_file_lock_lock_common_impl.  The variant
    without the Linux system call passes the address of a pointer to fcntl and is not modelled. *)
Definition lock_impl (ob ib : Z) (r : request) : action :=
  if out_of_range ob ib r then Throw_einval else Call_or_throw F_SETLKW (flock_of ob r).

(** posix_file_lock.h 77-98: posix_file_lock_try_lock_impl, and 67-75 *)
Definition try_lock_impl (ob ib : Z) (r : request) : action :=
  if out_of_range ob ib r then Return_false else Call_or_false F_SETLK (flock_of ob r).

(** posix_file_lock.h 101-127: posix_file_lock_unlock_impl *)
Definition unlock_impl (ob ib : Z) (r : request) : action :=
  if out_of_range ob ib r then Return_nothing else Call_quietly F_SETLKW (flock_of ob r).

(** posix_file_lock.h 131-148: the members of posix_file_lock. *)
Inductive member := m_lock | m_unlock | m_try_lock.
Definition posix_file_lock (m : member) (ob ib : Z) (r : request) : action :=
  match m with
  | m_lock => lock_impl ob ib r
  | m_unlock => unlock_impl ob ib r
  | m_try_lock => lock_impl ob ib r
  end.

(** How a call of a member ends. *)
Inductive ending := Returns | Returns_false | Throws | Waits.

Inductive performs (p : nat) (pos size : Z) (t : table) : action -> table -> ending -> Prop :=
| perf_throw c fl t' o : fcntl p c fl pos size t t' o ->
    performs p pos size t (Call_or_throw c fl) t' (match o with Succeeds => Returns | Fails => Throws | Blocks => Waits end)
| perf_false c fl t' o : fcntl p c fl pos size t t' o ->
    performs p pos size t (Call_or_false c fl) t' (match o with Succeeds => Returns | Fails => Returns_false | Blocks => Waits end)
| perf_quiet c fl t' o : fcntl p c fl pos size t t' o ->
    performs p pos size t (Call_quietly c fl) t' (match o with Succeeds => Returns | Fails => Returns | Blocks => Waits end)
| perf_einval : performs p pos size t Throw_einval t Throws
| perf_ret_false : performs p pos size t Return_false t Returns_false
| perf_nothing : performs p pos size t Return_nothing t Returns.

(** Processes that share a file: each has a position, and calls members of posix_file_lock, reads, writes and
    seeks (which only move its position and change the size).  A call that waits is one that is tried again. *)
Record state := mk_state { locks : table; position : nat -> Z; fsize : Z }.
Definition no_locks : table := fun _ _ => None.

Inductive step (who : nat -> Prop) (p : nat) (s : state) : state -> Prop :=
| step_call m ob ib r t' e : who p -> performs p (position s p) (fsize s) (locks s) (posix_file_lock m ob ib r) t' e ->
    step who p s (mk_state t' (position s) (fsize s))
| step_move x n : 0 <= x -> 0 <= n ->
    step who p s (mk_state (locks s) (fun q => if Nat.eqb q p then x else position s q) n).

(** Only the processes with [who] call members of posix_file_lock; all of them read, write and seek. *)
Inductive steps (who : nat -> Prop) : state -> state -> Prop :=
| steps_none s : steps who s s
| steps_more s s1 s2 p : step who p s s1 -> steps who s1 s2 -> steps who s s2.

(** * Windows, nt.h *)

(** nt.h 680-717: nt_get_file_position_impl; the two queries may fail ([None]). *)
Definition nt_get_file_position (pos size : option Z) (offset : Z) (w : whence) : option Z :=
  let clamp fp := if 2 ^ 63 - 1 <? fp then 0 else fp in
  match w with
  | from_cur => match pos with None => None | Some fps => Some (clamp (wrap 64 (wrap 64 offset + fps))) end
  | from_end => match size with None => None | Some eof => Some (clamp (wrap 64 (wrap 64 offset + eof))) end
  | from_beg => Some (clamp (wrap 64 offset))
  end.

(** nt.h 786-789: a length of 0 stands for the rest of the file. *)
Definition nt_length (len : Z) : Z := if len =? 0 then 2 ^ 63 - 1 else len.

(** nt.h 777-804: nt_family_file_lock_common_impl: the request is rewritten to the absolute range. *)
Inductive nt_common (p : nat) (pos size : option Z) (r : request) (at_once : bool) (t : list nt_lock) :
  request -> list nt_lock -> outcome -> Prop :=
| ntc_no_position : nt_get_file_position pos size (r_start r) (r_whence r) = None -> nt_common p pos size r at_once t r t Fails
| ntc_unlock fp : nt_get_file_position pos size (r_start r) (r_whence r) = Some fp -> r_type r = unlock ->
    nt_common p pos size r at_once t (mk_req (r_type r) from_beg fp (nt_length (r_len r))) (drop_lock p fp (nt_length (r_len r)) t) Succeeds
| ntc_lock fp t' o : nt_get_file_position pos size (r_start r) (r_whence r) = Some fp -> r_type r <> unlock ->
    nt_lock_file (mk_nt p fp (nt_length (r_len r)) (match r_type r with shared_lock => false | _ => true end)) at_once t t' o ->
    nt_common p pos size r at_once t (mk_req (r_type r) from_beg fp (nt_length (r_len r))) t' o.

(** nt.h 830-852: nt_family_file_lock_impl; with 64 bit integers its range test never fails. *)
Definition nt_lock_member (p : nat) (pos size : option Z) (r : request) (t : list nt_lock) (r' : request) (t' : list nt_lock) (e : ending) : Prop :=
  exists o, nt_common p pos size r false t r' t' o /\ e = match o with Succeeds => Returns | Fails => Throws | Blocks => Waits end.

(** nt.h 869-893: nt_family_file_try_lock_impl *)
Definition nt_try_lock_member (p : nat) (pos size : option Z) (r : request) (t : list nt_lock) (r' : request) (t' : list nt_lock) (e : ending) : Prop :=
  exists o, nt_common p pos size r true t r' t' o /\ e = match o with Succeeds => Returns | Fails => Returns_false | Blocks => Waits end.

(** nt.h 806-827: nt_family_file_unlock_common_impl *)
Definition nt_unlock_member (p : nat) (pos size : option Z) (r : request) (t : list nt_lock) : list nt_lock :=
  let '(fp, len) := match nt_get_file_position pos size (r_start r) (r_whence r) with Some fp => (fp, r_len r) | None => (0, 0) end in
  drop_lock p fp (nt_length len) t.

(** What the other handles may do to the table meanwhile. *)
Inductive nt_others (p : nat) : list nt_lock -> list nt_lock -> Prop :=
| nto_none t : nt_others p t t
| nto_lock t l t' : nt_owner l <> p -> nt_others p (l :: t) t' -> nt_others p t t'
| nto_unlock t q s n t' : q <> p -> nt_others p (drop_lock q s n t) t' -> nt_others p t t'.

(** * Buffered files, io_buffer/output.h *)

(** What reaches the file and its lock, in order. *)
Inductive event := Ev_write (data : list Z) | Ev_lock | Ev_unlock.

(** The flush of the buffer (an empty one writes nothing; here: the empty text): all of it is written, or it fails after some of it ([n] characters) is written; the
    buffer is then unchanged (output_normal.h 91-99: the pointer is reset after the write). *)
Inductive flushes (buf : list Z) : list event -> list Z -> bool -> Prop :=
| flush_ok : flushes buf [Ev_write buf] [] true
| flush_fails n : flushes buf [Ev_write (firstn n buf)] buf false.

(** output.h 160-168: lock: flush, then lock. *)
Inductive buffer_lock (buf : list Z) : list event -> list Z -> ending -> Prop :=
| bl_ok ev buf' : flushes buf ev buf' true -> buffer_lock buf (ev ++ [Ev_lock]) buf' Returns
| bl_flush_fails ev buf' : flushes buf ev buf' false -> buffer_lock buf ev buf' Throws
| bl_lock_fails ev buf' : flushes buf ev buf' true -> buffer_lock buf ev buf' Throws.

(** output.h 169-191: unlock: flush, whose exception is swallowed, then unlock. *)
Inductive buffer_unlock (buf : list Z) : list event -> list Z -> Prop :=
| bu ev buf' ok : flushes buf ev buf' ok -> buffer_unlock buf (ev ++ [Ev_unlock]) buf'.

(** Printing to the buffered file: the text is appended to the buffer, and any part from the front of the buffer
    may be written at any time. *)
Inductive buffer_prints : list Z -> list Z -> list event -> list Z -> Prop :=
| bp_none buf : buffer_prints [] buf [] buf
| bp_put data rest buf ev buf' : buffer_prints rest (buf ++ data) ev buf' -> buffer_prints (data ++ rest) buf ev buf'
| bp_drain n rest buf ev buf' : buffer_prints rest (skipn n buf) ev buf' -> buffer_prints rest buf (Ev_write (firstn n buf) :: ev) buf'.

(** What all the writes of a list of events put into the file. *)
Fixpoint written (ev : list event) : list Z :=
  match ev with [] => [] | Ev_write d :: r => d ++ written r | _ :: r => written r end.
