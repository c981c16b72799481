(** Buffered streams with a decorator: include/fast_io_freestanding_impl/io_buffer/input_deco.h, output_deco.h, main.h
    (write_with_deco, close_throw_impl), input.h, output.h. A decorator converts what is between the buffer and the
    device; it is handed on by reference (io_deco_ref.h), so its state lives as long as the stream. *)
From Verif Require Import Base.
Local Open Scope nat_scope.

(** io_deco_ref.h 37-57: what a decorator has: deco_reserve_size of a number of units, and deco_reserve_define, which
    converts a piece and changes the state. *)
Record decorator (St : Type) := Deco { size : nat -> nat; conv : St -> list Z -> St * list Z }.
Arguments Deco {St}. Arguments size {St}. Arguments conv {St}.

(** The device below, for reading: the pieces it will deliver, one at a time; read(t, first, last) gives the first of
    them, or what fits of it; nothing at the end. *)
Definition device := list (list Z).
Definition dev_read (n : nat) (d : device) : list Z * device :=
  match d with [] => ([], []) | p :: r => (firstn n p, match skipn n p with [] => r | q => q :: r end) end.

(** input_deco.h 13-27, 75-91: the buffer of the device is filled by reading until it is full or nothing comes.
    ([fuel]: every round but the last reads something.) *)
Fixpoint fill (fuel n : nat) (d : device) : list Z * device :=
  match fuel with
  | O => ([], d)
  | S fuel =>
      if n =? 0 then ([], d)
      else let '(x, d1) := dev_read n d in
           match x with [] => ([], d1) | _ => let '(y, d2) := fill fuel (n - length x) d1 in (x ++ y, d2) end
  end.

(** The reading side: what is converted and not yet read (buffer_curr to buffer_end), the size of the buffer
    (buffer_cap), the state of the decorator, the device. *)
Record istate (St : Type) := IS { unread : list Z; cap : nat; istate_of : St; dev : device }.
Arguments IS {St}. Arguments unread {St}. Arguments cap {St}. Arguments istate_of {St}. Arguments dev {St}.

(** input_deco.h 6-46: ibuffer_underflow_rl_impl_deco. [None]: something was written past the end of a buffer. *)
Definition underflow {St} (bfs : nat) (d : decorator St) (st : istate St) : option (bool * istate St) :=
  let '(raw, d1) := fill bfs bfs (dev st) in
  match raw with
  | [] => Some (false, IS (unread st) (cap st) (istate_of st) d1)
  | _ =>
      let new_size := size d (length raw) in
      let c := if cap st <? new_size then new_size else cap st in
      let '(s1, out) := conv d (istate_of st) raw in
      if c <? length out then None
      else Some (match out with [] => false | _ => true end, IS out c s1 d1)
  end.

(** input_deco.h 64-126: iobuf_read_unhappy_decay_impl_deco; [want]: last - first. ([fuel]: every round takes
    something from the device.) *)
Fixpoint read_loop {St} (fuel bfs : nat) (d : decorator St) (want : nat) (st : istate St) : option (list Z * istate St) :=
  match fuel with
  | O => Some ([], st)
  | S fuel =>
      if want =? 0 then Some ([], st)
      else
        let '(raw, d1) := fill bfs bfs (dev st) in
        match raw with
        | [] => Some ([], IS (unread st) (cap st) (istate_of st) d1)
        | _ =>
            let new_size := size d (length raw) in
            let '(s1, out) := conv d (istate_of st) raw in
            if new_size <? want then
              if want <? length out then None
              else match read_loop fuel bfs d (want - length out) (IS (unread st) (cap st) s1 d1) with
                   | Some (rest, st') => Some (out ++ rest, st')
                   | None => None
                   end
            else
              let c := if cap st <? new_size then new_size else cap st in
              if c <? length out then None
              else match out with
                   | [] => Some ([], IS [] c s1 d1)
                   | _ =>
                       let k := if want <? length out then want else length out in
                       match read_loop fuel bfs d (want - k) (IS (skipn k out) c s1 d1) with
                       | Some (rest, st') => Some (firstn k out ++ rest, st')
                       | None => None
                       end
                   end
        end
  end.

(** input.h 84-106, 111-145: read, iobuf_read_unhappy_impl *)
Definition read {St} (bfs : nat) (d : decorator St) (want : nat) (st : istate St) : option (list Z * istate St) :=
  if length (unread st) <? want then
    match read_loop (S (length (concat (dev st)))) bfs d (want - length (unread st)) (IS [] (cap st) (istate_of st) (dev st)) with
    | Some (rest, st') => Some (unread st ++ rest, st')
    | None => None
    end
  else Some (firstn want (unread st), IS (skipn want (unread st)) (cap st) (istate_of st) (dev st)).

(** input.h 18-79: what a scan does with the buffer: it asks for more (ibuffer_underflow) when all is read, and takes
    at most [k] units of what is there (ibuffer_curr, ibuffer_end, ibuffer_set_curr). *)
Definition take {St} (k : nat) (st : istate St) : list Z * istate St :=
  (firstn k (unread st), IS (skipn k (unread st)) (cap st) (istate_of st) (dev st)).
Definition scan {St} (bfs : nat) (d : decorator St) (k : nat) (st : istate St) : option (list Z * istate St) :=
  match unread st with
  | [] => match underflow bfs d st with
          | Some (true, st') => Some (take k st')
          | Some (false, st') => Some ([], st')
          | None => None
          end
  | _ => Some (take k st)
  end.

Inductive iop := op_read (n : nat) | op_scan (k : nat).
Definition istep {St} (bfs : nat) (d : decorator St) (o : iop) (st : istate St) : option (list Z * istate St) :=
  match o with op_read n => read bfs d n st | op_scan k => scan bfs d k st end.
Fixpoint irun {St} (bfs : nat) (d : decorator St) (os : list iop) (st : istate St) : option (list (list Z) * istate St) :=
  match os with
  | [] => Some ([], st)
  | o :: r =>
      match istep bfs d o st with
      | Some (x, st1) => match irun bfs d r st1 with Some (xs, st2) => Some (x :: xs, st2) | None => None end
      | None => None
      end
  end.
Definition opened {St} (s : St) (d : device) : istate St := IS [] 0 s d.

(** The writing side: the buffer (none before the first use), the size of the buffer of the device (none before the
    first use), the state of the decorator, and what was written to the device, call by call. *)
Record ostate (St : Type) := OS { obuf : option (list Z); ext : option nat; ostate_of : St; written : list (list Z) }.
Arguments OS {St}. Arguments obuf {St}. Arguments ext {St}. Arguments ostate_of {St}. Arguments written {St}.

(** main.h 91-101: the loop of write_with_deco ([fuel]: every round converts something). *)
Fixpoint deco_loop {St} (fuel bfs e : nat) (d : decorator St) (x : list Z) (st : ostate St) : option (ostate St) :=
  match x, fuel with
  | [], _ | _, O => Some st
  | _, S fuel =>
      let this_round := if length x <? bfs then length x else bfs in
      let '(s1, out) := conv d (ostate_of st) (firstn this_round x) in
      if e <? length out then None
      else deco_loop fuel bfs e d (skipn this_round x) (OS (obuf st) (ext st) s1 (written st ++ [out]))
  end.
(** main.h 57-103: write_with_deco *)
Definition write_with_deco {St} (bfs : nat) (d : decorator St) (x : list Z) (st : ostate St) : option (ostate St) :=
  let e := match ext st with None => size d bfs | Some e => e end in
  deco_loop (length x) bfs e d x (OS (obuf st) (Some e) (ostate_of st) (written st)).

Definition set_obuf {St} (b : option (list Z)) (st : ostate St) : ostate St := OS b (ext st) (ostate_of st) (written st).

(** output_deco.h 6-24: iobuf_write_unhappy_decay_no_alloc_impl_deco *)
Definition write_no_alloc {St} (bfs : nat) (d : decorator St) (b x : list Z) (st : ostate St) : option (ostate St) :=
  let room := bfs - length b in
  match write_with_deco bfs d (b ++ firstn room x) st with
  | None => None
  | Some st1 =>
      let rest := skipn room x in
      if bfs <? length rest then
        match write_with_deco bfs d rest (set_obuf (Some []) st1) with Some st2 => Some st2 | None => None end
      else Some (set_obuf (Some rest) st1)
  end.

(** output_deco.h 25-45: iobuf_write_unhappy_decay_impl_deco; output_normal.h 23-31 *)
Definition write_unhappy {St} (bfs : nat) (d : decorator St) (x : list Z) (st : ostate St) : option (ostate St) :=
  match obuf st with
  | None => if length x <? bfs then Some (set_obuf (Some x) st) else write_with_deco bfs d x st
  | Some b => write_no_alloc bfs d b x st
  end.

(** output.h 29-71: write; [direct]: the mode deco_out_no_internal, without a buffer. *)
Definition write {St} (direct : bool) (bfs : nat) (d : decorator St) (x : list Z) (st : ostate St) : option (ostate St) :=
  if direct then write_with_deco bfs d x st
  else
    let room := match obuf st with None => 0 | Some b => bfs - length b end in
    if room <? length x then write_unhappy bfs d x st
    else Some (match obuf st with None => st | Some b => set_obuf (Some (b ++ x)) st end).

(** output_deco.h 47-59: iobuf_output_flush_impl_deco *)
Definition flush {St} (bfs : nat) (d : decorator St) (st : ostate St) : option (ostate St) :=
  match obuf st with
  | None | Some [] => Some st
  | Some b => match write_with_deco bfs d b st with Some st1 => Some (set_obuf (Some []) st1) | None => None end
  end.

(** output_deco.h 61-87: iobuf_output_constant_flush_prepare_impl_deco, iobuf_overflow_impl_deco: one unit when the
    buffer is full. *)
Definition overflow {St} (bfs : nat) (d : decorator St) (c : Z) (st : ostate St) : option (ostate St) :=
  match obuf st with
  | None => Some (set_obuf (Some [c]) st)
  | Some _ => match flush bfs d st with Some st1 => Some (set_obuf (Some [c]) st1) | None => None end
  end.

(** main.h 220-242: close_throw_impl, at the end of the stream. *)
Definition close {St} (direct : bool) (bfs : nat) (d : decorator St) (st : ostate St) : option (ostate St) :=
  if direct then Some st
  else match obuf st with
       | None | Some [] => Some st
       | Some b => write_with_deco bfs d b st
       end.

Inductive oop := op_write (x : list Z) | op_overflow (c : Z).
Definition text_of (o : oop) : list Z := match o with op_write x => x | op_overflow c => [c] end.
(** A stream without a buffer has no obuffer_overflow (output.h 117-131). *)
Definition ostep {St} (direct : bool) (bfs : nat) (d : decorator St) (o : oop) (st : ostate St) : option (ostate St) :=
  match o with
  | op_write x => write direct bfs d x st
  | op_overflow c => if direct then write direct bfs d [c] st else overflow bfs d c st
  end.
Fixpoint orun {St} (direct : bool) (bfs : nat) (d : decorator St) (os : list oop) (st : ostate St) : option (ostate St) :=
  match os with
  | [] => Some st
  | o :: r => match ostep direct bfs d o st with Some st1 => orun direct bfs d r st1 | None => None end
  end.
Definition created {St} (s : St) : ostate St := OS None None s [].

(** What a stream is left with when the device fails at the first call of write(t, ...) in write_with_deco (main.h 98):
    the piece is converted, the state of the decorator changed, nothing written, and the exception leaves the buffer as
    it was (output_deco.h 13-18: buffer_curr is set after write_with_deco). *)
Definition first_write_throws {St} (bfs : nat) (d : decorator St) (x : list Z) (st : ostate St) : ostate St :=
  let e := match ext st with None => size d bfs | Some e => e end in
  let this_round := if length x <? bfs then length x else bfs in
  OS (obuf st) (Some e) (fst (conv d (ostate_of st) (firstn this_round x))) (written st).
(** output_deco.h 6-45: a write of [x] that goes to the device and fails there *)
Definition write_throws {St} (bfs : nat) (d : decorator St) (x : list Z) (st : ostate St) : ostate St :=
  match obuf st with
  | None => first_write_throws bfs d x st
  | Some b => first_write_throws bfs d (b ++ firstn (bfs - length b) x) st
  end.
