(** Model of write_some, write_all, scatter_write_some_bytes and scatter_write_all_bytes
    (include/fast_io_core_impl/rwreflect/reflectwrite.h), and of their reading twins in reflectread.h.
    The template argument F is represented by the set of customisation points it has ([caps]).  A stream that offers
    an "all" customisation point fulfils it (that is its contract); a "some" one transfers what the schedule says. *)
From Verif Require Import Base BufModel.

Record caps := mk_caps {
  has_obuffer : bool;              (* obuffer_* and obuffer_write_all_overflow_define *)
  has_write_all : bool; has_scatter_write_all : bool;
  has_write_some : bool; has_scatter_write_some : bool;
  has_write_all_bytes : bool; has_write_some_bytes : bool;
  has_scatter_write_all_bytes : bool; has_scatter_write_some_bytes : bool }.

(** The stream: the device, the pending characters and the size of an output buffer (only with [has_obuffer]). *)
Record wst := mk_wst { w_dev : dev; w_buf : list Z; w_cap : nat }.

(** A schedule: how many of the [n] characters offered in its [k]-th call the device takes (at most [n]). *)
Definition sched := nat -> nat -> nat.
(** write_some_define / write_some_bytes_define: the number taken. *)
Definition some_define (a : sched) (s : wst) (data : list Z) : wst * nat :=
  let k := Nat.min (a (length (d_log (w_dev s))) (length data)) (length data) in
  (mk_wst (mk_dev (d_log (w_dev s) ++ [Wrote (firstn k data)]) (d_src (w_dev s))) (w_buf s) (w_cap s), k).
(** write_all_define / write_all_bytes_define / scatter_write_all_*define. *)
Definition all_define (s : wst) (data : list Z) : wst :=
  mk_wst (mk_dev (d_log (w_dev s) ++ [Wrote data]) (d_src (w_dev s))) (w_buf s) (w_cap s).
(** obuffer_write_all_overflow_define of a buffered stream: everything pending and the data go out. *)
Definition overflow_define (s : wst) (data : list Z) : wst :=
  mk_wst (mk_dev (d_log (w_dev s) ++ [Wrote (w_buf s ++ data)]) (d_src (w_dev s))) [] (w_cap s).

(** 331 and 291-293: while((first=write_some(...first,last))!=last).  None: the fuel ran out. *)
Fixpoint some_loop (fuel : nat) (a : sched) (s : wst) (data : list Z) : option wst :=
  match fuel with
  | O => None
  | S fuel =>
      let '(s, k) := some_define a s data in
      if Nat.eqb k (length data) then Some s else some_loop fuel a s (skipn k data)
  end.

(** 296-359 write_all_common_chtypeptr_impl.  [smtp]: the elements are of the stream's char_type (false: std::byte).
    The test of 307 has no "else": 314 is executed in both cases. *)
Definition write_all_impl (fuel : nat) (cp : caps) (smtp : bool) (a : sched) (s : wst) (data : list Z) : option wst :=
  if smtp && has_obuffer cp then
    let s := if Nat.ltb (length data) (w_cap s - length (w_buf s))
             then mk_wst (w_dev s) (w_buf s ++ data) (w_cap s) else s in
    Some (overflow_define s data)
  else if smtp && (has_write_all cp || has_scatter_write_all cp) then Some (all_define s data)
  else if smtp && (has_write_some cp || has_scatter_write_some cp) then some_loop fuel a s data
  else if has_write_all_bytes cp then Some (all_define s data)
  else if has_write_some_bytes cp then some_loop fuel a s data
  else Some s.

(** 161-257 write_some_common_chtypeptr_impl for one-byte characters: the number of characters taken. *)
Definition write_some_impl (cp : caps) (smtp : bool) (a : sched) (s : wst) (data : list Z) : wst * nat :=
  if smtp && has_obuffer cp then
    if Nat.ltb (length data) (w_cap s - length (w_buf s))
    then (mk_wst (w_dev s) (w_buf s ++ data) (w_cap s), length data)
    else (overflow_define s data, length data)
  else if smtp && (has_write_some cp || has_scatter_write_some cp) then some_define a s data
  else if smtp && (has_write_all cp || has_scatter_write_all cp) then (all_define s data, length data)
  else if has_write_some_bytes cp then some_define a s data
  else if has_write_all_bytes cp then (all_define s data, length data)
  else (s, 0%nat).

(** 111-126: bytes are written until a whole number of [n]-byte units went out; the result is the offset reached.
    [off]: the offset reached so far. *)
Fixpoint unit_loop (fuel : nat) (a : sched) (s : wst) (n : nat) (data : list Z) (off : nat) : option (wst * nat) :=
  match fuel with
  | O => None
  | S fuel =>
      let '(s, k) := some_define a s (skipn off data) in
      let off := (off + k)%nat in
      if Nat.eqb off (length data) then Some (s, off)
      else if Nat.eqb (off mod n) 0 then Some (s, off)
      else unit_loop fuel a s n data off
  end.
(** 211-244: the result in units.  The outer loop (226-236) ends after its first round, because the inner one stops at
    a multiple of the unit or at the end; it is modelled as written. *)
Fixpoint wide_outer (fuel : nat) (a : sched) (s : wst) (n : nat) (data : list Z) (off : nat) : option (wst * nat) :=
  match fuel with
  | O => None
  | S fuel =>
      match unit_loop (S fuel) a s n (skipn off data) 0 with
      | None => None
      | Some (s, k) =>
          let off := (off + k)%nat in
          if Nat.eqb (off mod n) 0 then Some (s, off / n)%nat
          else if Nat.eqb off (length data) then Some (s, off / n)%nat
          else wide_outer fuel a s n data off
      end
  end.

(** 6-17 scatter_size_to_status: total size, index of the scatter reached, offset in it. *)
Fixpoint size_to_status (total : nat) (scatters : list (list Z)) : nat * nat :=
  match scatters with
  | [] => (0, 0)%nat
  | b :: rest =>
      if Nat.ltb total (length b) then (0%nat, total)
      else let '(i, p) := size_to_status (total - length b) rest in (S i, p)
  end.
(** scatter_write_some_bytes_define of a device: it takes a part of the concatenation and reports with the above. *)
Definition scatter_some_define (a : sched) (s : wst) (scatters : list (list Z)) : wst * (nat * nat * nat) :=
  let '(s, k) := some_define a s (concat scatters) in
  let '(i, p) := size_to_status k scatters in (s, (k, i, p)).

(** 397-419: without a scatter customisation point, one write_some_bytes per scatter. *)
Fixpoint scatter_each_some (a : sched) (s : wst) (scatters : list (list Z)) : wst * (nat * nat * nat) :=
  match scatters with
  | [] => (s, (0, 0, 0)%nat)
  | b :: rest =>
      let '(s, k) := some_define a s b in
      if Nat.eqb k (length b) then
        let '(s, (total, i, p)) := scatter_each_some a s rest in (s, ((k + total)%nat, S i, p))
      else (s, (k, 0%nat, k))
  end.
(** 384-435 scatter_write_some_bytes_impl. *)
Definition scatter_write_some_impl (cp : caps) (a : sched) (s : wst) (scatters : list (list Z)) : wst * (nat * nat * nat) :=
  if has_scatter_write_some_bytes cp then scatter_some_define a s scatters
  else if has_scatter_write_all_bytes cp then
    (all_define s (concat scatters), (length (concat scatters), length scatters, 0%nat))
  else if has_write_some_bytes cp then scatter_each_some a s scatters
  else if has_write_all_bytes cp then
    (fold_left all_define scatters s, (length (concat scatters), length scatters, 0%nat))
  else (s, (0, 0, 0)%nat).

(** 437-483 scatter_write_all_bytes_impl.  The rest of a half-written scatter goes through write_all as std::byte. *)
Fixpoint scatter_all_loop (fuel : nat) (cp : caps) (a : sched) (s : wst) (scatters : list (list Z)) : option wst :=
  match scatters with
  | [] => Some s
  | _ =>
      match fuel with
      | O => None
      | S fuel =>
          let '(s, (_, position, inpos)) := scatter_some_define a s scatters in
          if Nat.eqb position (length scatters) then Some s
          else
            match skipn position scatters with
            | [] => Some s
            | b :: rest =>
                if Nat.eqb inpos 0 then scatter_all_loop fuel cp a s (b :: rest)
                else match write_all_impl (S fuel) cp false a s (skipn inpos b) with
                     | None => None
                     | Some s => scatter_all_loop fuel cp a s rest
                     end
            end
      end
  end.
Fixpoint each_all (fuel : nat) (cp : caps) (a : sched) (s : wst) (scatters : list (list Z)) : option wst :=
  match scatters with
  | [] => Some s
  | b :: rest => match write_all_impl fuel cp false a s b with None => None | Some s => each_all fuel cp a s rest end
  end.
Definition scatter_write_all_impl (fuel : nat) (cp : caps) (a : sched) (s : wst) (scatters : list (list Z)) : option wst :=
  if has_scatter_write_all_bytes cp then Some (all_define s (concat scatters))
  else if has_scatter_write_some_bytes cp then scatter_all_loop fuel cp a s scatters
  else if has_write_some_bytes cp || has_write_all_bytes cp then each_all fuel cp a s scatters
  else Some s.

(** reflectread.h 265-271 and 307-310: while((first=read_some(...first,last))!=last).  Nothing stops it at the end of
    the input.  None: the fuel ran out. *)
Fixpoint read_some_loop (fuel : nat) (a : sched) (d : dev) (n : nat) : option (dev * list Z) :=
  match fuel with
  | O => None
  | S fuel =>
      let got := firstn (Nat.min (a (length (d_log d)) n) n) (d_src d) in
      let d := mk_dev (d_log d ++ [Asked n]) (skipn (length got) (d_src d)) in
      if Nat.eqb (length got) n then Some (d, got)
      else match read_some_loop fuel a d (n - length got) with
           | Some (d, more) => Some (d, got ++ more)
           | None => None
           end
  end.
