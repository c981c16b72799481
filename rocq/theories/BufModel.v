(** Model of the buffered streams: basic_io_buffer over a handle (device), the raw device, temporary_buffer.
    Source: include/fast_io_freestanding_impl/io_buffer/{output,output_normal,input,input_normal,general,main}.h,
    include/fast_io_core_impl/{overflow,read_all,temporary_buffer}.h.
    Simplifications: the stream has no decorators (basic_decorators<char_type> with empty_decorator, the default of
    every basic_*buf file); a buffer is the list of the characters between begin and curr (output) or between curr
    and end (input), with its capacity [c_bfs] checked at every store; memory allocation never fails; the device
    reads from one stream and writes to another one (a terminal, a pipe pair, a socket).  Lengths are [nat]. *)
From Verif Require Import Base.

(** How a member function ends. *)
Inductive res (S : Type) :=
| Fine (s : S)          (* returned *)
| Raised (s : S)        (* an exception left the function; the object is in state [s] *)
| Died (s : S)          (* std::terminate or fast_terminate *)
| Smashed.              (* a store or load outside the buffer, or through a null pointer *)
Arguments Fine {S}. Arguments Raised {S}. Arguments Died {S}. Arguments Smashed {S}.

Definition bindr {S : Type} (x : res S) (f : S -> res S) : res S :=
  match x with Fine s => f s | Raised s => Raised s | Died s => Died s | Smashed => Smashed end.
Notation "'then!' s := a 'in' b" := (bindr a (fun s => b)) (at level 200, s pattern, a at level 100, b at level 200).

(** ** The device *)
(** What the handle did so far: characters it took from us, and requests for input. *)
Inductive event := Wrote (l : list Z) | Asked (n : nat).
Record dev := mk_dev { d_log : list event; d_src : list Z }.

(** The behaviour of the device: for its [k]-th call with a request of [n] characters, how many it transfers and
    whether it returns (true) or throws (false).  posix.h 542-567: a device may take only a part of a write. *)
Definition answers := nat -> nat -> nat * bool.

(** What has been delivered: the characters taken, in order. *)
Fixpoint delivered (log : list event) : list Z :=
  match log with
  | [] => []
  | Wrote l :: log' => l ++ delivered log'
  | Asked _ :: log' => delivered log'
  end.

(** write(handle,first,last): the returned iterator is not looked at by any caller modelled here. *)
Definition dev_write (a : answers) (d : dev) (data : list Z) : dev * bool :=
  let '(k, ok) := a (length (d_log d)) (length data) in
  (mk_dev (d_log d ++ [Wrote (firstn k data)]) (d_src d), ok).

(** read(handle,first,first+n): the characters stored.  A read that throws transfers nothing. *)
Definition dev_read (a : answers) (d : dev) (n : nat) : dev * list Z * bool :=
  let '(k, ok) := a (length (d_log d)) n in
  let got := if ok then firstn (Nat.min k n) (d_src d) else [] in
  (mk_dev (d_log d ++ [Asked n]) (skipn (length got) (d_src d)), got, ok).

(** ** basic_io_buffer *)
(** Template arguments: buffer_size, scatter_output_stream<handle>, the mode flags in, out, tie. *)
Record config := mk_config { c_bfs : nat; c_scatter : bool; c_in : bool; c_out : bool; c_tie : bool }.

(** basic_io_buffer_pointers for input.  [ITorn]: buffer_curr is null while buffer_begin and buffer_end are not
    (input_normal.h 34-39 when the read that follows the allocation throws). *)
Inductive ibuf := INull | IHas (unread : list Z) | ITorn.
Record bios := mk_bios { b_dev : dev; b_out : option (list Z); b_in : ibuf }.

Definition set_dev (s : bios) (d : dev) : bios := mk_bios d (b_out s) (b_in s).
Definition set_out (s : bios) (o : option (list Z)) : bios := mk_bios (b_dev s) o (b_in s).
Definition set_in (s : bios) (i : ibuf) : bios := mk_bios (b_dev s) (b_out s) i.
Definition pending (s : bios) : list Z := match b_out s with Some l => l | None => [] end.

(** write(io_ref(handle),data). *)
Definition handle_write (a : answers) (s : bios) (data : list Z) : res bios :=
  let '(d, ok) := dev_write a (b_dev s) data in
  if ok then Fine (set_dev s d) else Raised (set_dev s d).

(** buffer_end-buffer_curr of the output buffer (both null: 0). *)
Definition out_room (c : config) (s : bios) : nat :=
  match b_out s with None => 0 | Some l => c_bfs c - length l end.
(** A store of [text] at buffer_curr which then moves behind it. *)
Definition out_store (c : config) (s : bios) (text : list Z) : res bios :=
  match b_out s with
  | None => if Nat.eqb (length text) 0 then Fine s else Smashed
  | Some l => if Nat.leb (length l + length text) (c_bfs c) then Fine (set_out s (Some (l ++ text))) else Smashed
  end.
(** output_normal.h 17-21 iobuf_write_allocate_buffer_impl. *)
Definition out_alloc (s : bios) : bios := set_out s (Some []).

(** output_normal.h 33-71 iobuf_write_unhappy_decay_no_alloc_impl (the branch that is compiled). *)
Definition write_unhappy_alloc (c : config) (a : answers) (s : bios) (data : list Z) : res bios :=
  then! s := (if c_scatter c then handle_write a s (pending s ++ data)
              else then! s := handle_write a s (pending s) in handle_write a s data) in
  Fine (set_out s (Some [])).
(** output_normal.h 73-86 iobuf_write_unhappy_decay_impl; 23-31 iobuf_write_unhappy_nullptr_case_impl. *)
Definition write_unhappy (c : config) (a : answers) (s : bios) (data : list Z) : res bios :=
  match b_out s with
  | None =>
      if Nat.ltb (length data) (c_bfs c) then out_store c (out_alloc s) data
      else handle_write a s data
  | Some _ => write_unhappy_alloc c a s data
  end.
(** output.h 29-70 write. *)
Definition ob_write (c : config) (a : answers) (s : bios) (data : list Z) : res bios :=
  if Nat.ltb (out_room c s) (length data) then write_unhappy c a s data
  else out_store c s data.

(** output_normal.h 88-99 iobuf_output_flush_impl. *)
Definition out_flush (a : answers) (s : bios) : res bios :=
  if Nat.eqb (length (pending s)) 0 then Fine s
  else then! s := handle_write a s (pending s) in Fine (set_out s (Some [])).
(** output_normal.h 101-113 iobuf_output_constant_flush_prepare_impl. *)
Definition out_prepare (a : answers) (s : bios) : res bios :=
  match b_out s with None => Fine (out_alloc s) | Some _ => out_flush a s end.
(** output_normal.h 115-122 iobuf_overflow_impl. *)
Definition ob_overflow (c : config) (a : answers) (s : bios) (ch : Z) : res bios :=
  then! s := out_prepare a s in out_store c s [ch].
(** overflow.h 6-34 put. *)
Definition ob_put (c : config) (a : answers) (s : bios) (ch : Z) : res bios :=
  if Nat.eqb (out_room c s) 0 then ob_overflow c a s ch else out_store c s [ch].

(** Discarding of the input buffer: buffer_end=buffer_curr=buffer_begin. *)
Definition in_discard (s : bios) : bios :=
  match b_in s with INull => s | IHas _ | ITorn => set_in s (IHas []) end.
(** general.h 6-18 flush. *)
Definition io_flush (c : config) (a : answers) (s : bios) : res bios :=
  then! s := (if c_out c then out_flush a s else Fine s) in
  Fine (if c_in c then in_discard s else s).
(** general.h 30-45 obuffer_constant_flush_prepare: declared noexcept. *)
Definition io_prepare (c : config) (a : answers) (s : bios) : res bios :=
  match (if c_out c then out_prepare a s else Fine s) with
  | Fine s => Fine (if c_in c then in_discard s else s)
  | Raised s => Died s
  | r => r
  end.
(** main.h 220-240 close_throw_impl. *)
Definition close_throw (c : config) (a : answers) (s : bios) : res bios :=
  if c_out c then
    if Nat.eqb (length (pending s)) 0 then Fine s else handle_write a s (pending s)
  else Fine s.
(** main.h 344-356 close (the closing of the handle itself is not modelled); 350-351 empties the input buffer. *)
Definition io_close (c : config) (a : answers) (s : bios) : res bios :=
  then! s := close_throw c a s in
  let s := match b_in s with IHas _ | ITorn => if c_in c then set_in s (IHas []) else s | INull => s end in
  Fine (match b_out s with Some _ => set_out s (Some []) | None => s end).
(** main.h 241-261 close_impl (catches everything), 401-406 destructor: what the device has afterwards. *)
Definition io_destroy (c : config) (a : answers) (s : bios) : option dev :=
  match close_throw c a s with
  | Fine s | Raised s | Died s => Some (b_dev s)
  | Smashed => None
  end.

(** ** Input *)
(** read(handle,first,last) with the exception turned into a result. *)
Definition handle_read (a : answers) (s : bios) (n : nat) : bios * list Z * bool :=
  let '(d, got, ok) := dev_read a (b_dev s) n in (set_dev s d, got, ok).
Definition in_room (s : bios) : nat := match b_in s with IHas l => length l | INull | ITorn => 0 end.

(** The result of an input operation carries the characters handed to the caller. *)
Inductive rres :=
| RFine (s : bios) (got : list Z)
| RRaised (s : bios) (got : list Z)   (* [got]: already stored in the caller's range *)
| REof (s : bios) (got : list Z)      (* throw_parse_code(parse_code::end_of_file) *)
| RSmashed
| RStuck.                             (* the fuel of a model loop ran out: proved impossible *)

(** input_normal.h 25-47 iobuf_read_unhappy_decay_impl; [n] characters are still wanted. *)
Definition read_unhappy_decay (c : config) (a : answers) (s : bios) (n : nat) : rres :=
  if Nat.leb (c_bfs c) n then
    let '(s, got, ok) := handle_read a s n in if ok then RFine s got else RRaised s []
  else
    let s := match b_in s with INull => set_in s ITorn | _ => s end in
    let '(s, got, ok) := handle_read a s (c_bfs c) in
    if ok then RFine (set_in s (IHas (skipn (Nat.min (length got) n) got))) (firstn (Nat.min (length got) n) got)
    else RRaised s [].
(** input.h 84-107 iobuf_read_unhappy_impl: the tied output is flushed first, then the buffer is emptied. *)
Definition tie_flush (c : config) (a : answers) (s : bios) : res bios :=
  if c_out c && c_tie c then out_flush a s else Fine s.
Definition read_unhappy (c : config) (a : answers) (s : bios) (n : nat) : rres :=
  match tie_flush c a s with
  | Fine s =>
      match b_in s with
      | ITorn => RSmashed
      | INull => read_unhappy_decay c a s n
      | IHas l =>
          match read_unhappy_decay c a (set_in s (IHas [])) (n - length l) with
          | RFine s got => RFine s (l ++ got)
          | RRaised s got => RRaised s (l ++ got)
          | REof s got => REof s (l ++ got)
          | r => r
          end
      end
  | Raised s => RRaised s []
  | Died s => RSmashed
  | Smashed => RSmashed
  end.
(** input.h 111-145 read.  With a torn buffer the subtraction end-curr is not a distance inside an array. *)
Definition io_read (c : config) (a : answers) (s : bios) (n : nat) : rres :=
  match b_in s with
  | ITorn => RSmashed
  | _ =>
      if Nat.ltb (in_room s) n then read_unhappy c a s n
      else match b_in s with
           | IHas l => RFine (set_in s (IHas (skipn n l))) (firstn n l)
           | _ => RFine s []
           end
  end.
(** input_normal.h 6-14 ibuffer_underflow_rl_impl: the state, the returned flag, and whether it returned at all. *)
Definition underflow (c : config) (a : answers) (s : bios) : bios * bool * bool :=
  let s := match b_in s with INull => set_in s (IHas []) | _ => s end in
  let '(s, got, ok) := handle_read a s (c_bfs c) in
  if ok then (set_in s (IHas got), negb (Nat.eqb (length got) 0), true) else (s, false, false).
(** input.h 59-78 ibuffer_underflow. *)
Inductive ures := UFine (s : bios) (more : bool) | URaised (s : bios) | USmashed.
Definition io_underflow (c : config) (a : answers) (s : bios) : ures :=
  match tie_flush c a s with
  | Fine s => let '(s, more, ok) := underflow c a s in if ok then UFine s more else URaised s
  | Raised s => URaised s
  | Died _ | Smashed => USmashed
  end.
(** Direct consumption of the buffer: ibuffer_set_curr(in,ibuffer_curr(in)+k), input.h 48-56. *)
Definition io_take (s : bios) (k : nat) : rres :=
  match b_in s with
  | IHas l => if Nat.leb k (length l) then RFine (set_in s (IHas (skipn k l))) (firstn k l) else RSmashed
  | _ => if Nat.eqb k 0 then RFine s [] else RSmashed
  end.

(** ** read_all *)
(** read_all.h 8-34 read_all_impl_decay_cold over a stream whose read is [rd]. *)
Fixpoint read_all_cold (rd : bios -> nat -> rres) (fuel : nat) (s : bios) (n : nat) : rres :=
  match n with
  | O => RFine s []
  | _ =>
      match fuel with
      | O => RStuck
      | S fuel =>
          match rd s n with
          | RFine s got =>
              if Nat.eqb (length got) 0 then REof s []
              else match read_all_cold rd fuel s (n - length got) with
                   | RFine s more => RFine s (got ++ more)
                   | RRaised s more => RRaised s (got ++ more)
                   | REof s more => REof s (got ++ more)
                   | r => r
                   end
          | r => r
          end
      end
  end.
(** read_all.h 131-153 read_all_impl_decay for a buffered stream. *)
Definition read_all (c : config) (a : answers) (s : bios) (n : nat) : rres :=
  match b_in s with
  | ITorn => RSmashed
  | _ =>
      if Nat.ltb n (in_room s) then
        match b_in s with
        | IHas l => RFine (set_in s (IHas (skipn n l))) (firstn n l)
        | _ => RSmashed
        end
      else read_all_cold (io_read c a) n s n
  end.
(** read_all.h 149-152: a stream without buffer, i.e. the device itself. *)
Definition raw_read (a : answers) (s : bios) (n : nat) : rres :=
  let '(s, got, ok) := handle_read a s n in if ok then RFine s got else RRaised s got.
Definition read_all_raw (a : answers) (s : bios) (n : nat) : rres := read_all_cold (raw_read a) n s n.

(** ** temporary_buffer over the device (temporary_buffer.h): the state is the device and the characters below pos. *)
Record tbuf := mk_tbuf { t_dev : dev; t_buf : list Z }.
Definition tb_size : nat := 512.
Definition tb_room (s : tbuf) : nat := tb_size - length (t_buf s).
Definition tb_store (s : tbuf) (text : list Z) : res tbuf :=
  if Nat.leb (length (t_buf s) + length text) tb_size then Fine (mk_tbuf (t_dev s) (t_buf s ++ text)) else Smashed.
(** write(out.out,first,last). *)
Definition tb_send (a : answers) (s : tbuf) (data : list Z) : res tbuf :=
  let '(d, ok) := dev_write a (t_dev s) data in
  if ok then Fine (mk_tbuf d (t_buf s)) else Raised (mk_tbuf d (t_buf s)).
(** 41-49 flush. *)
Definition tb_flush (a : answers) (s : tbuf) : res tbuf :=
  if Nat.eqb (length (t_buf s)) 0 then Fine s
  else then! s := tb_send a s (t_buf s) in Fine (mk_tbuf (t_dev s) []).
(** 51-61 obuffer_overflow: writes the whole array, whatever pos is; [put] calls it only when pos is the end. *)
Definition tb_overflow (a : answers) (s : tbuf) (ch : Z) : res tbuf :=
  if Nat.eqb (length (t_buf s)) tb_size then
    then! s := tb_send a s (t_buf s) in Fine (mk_tbuf (t_dev s) [ch])
  else Smashed.
(** overflow.h 6-34 put. *)
Definition tb_put (a : answers) (s : tbuf) (ch : Z) : res tbuf :=
  if Nat.eqb (tb_room s) 0 then tb_overflow a s ch else tb_store s [ch].
(** 63-131 temporary_buffer_write_cold_path<false>, 133-149 write. *)
Definition tb_write_cold (a : answers) (s : tbuf) (data : list Z) : res tbuf :=
  let room := tb_room s in
  then! s := tb_send a s (t_buf s ++ firstn room data) in
  let s := mk_tbuf (t_dev s) [] in
  let data := skipn room data in
  if Nat.ltb (length data) tb_size then tb_store s data else tb_send a s data.
Definition tb_write (a : answers) (s : tbuf) (data : list Z) : res tbuf :=
  if Nat.leb (tb_room s) (length data) then tb_write_cold a s data else tb_store s data.
