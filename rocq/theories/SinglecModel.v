(** Input one character at a time over an unbuffered stream (include/fast_io_core_impl/unit_character_input_buffer.h). *)
From Verif Require Import Base.
Local Open Scope nat_scope.

(** The unbuffered stream: what is still to be read, and how its reads will go: [None] throws, [Some k] reads up to [k]
    characters, at least one when there is one and one is asked for. When the list is over, reads read what is asked for. *)
Record source := mk_source { rest : list Z; reads : list (option nat) }.
Definition src_read (n : nat) (s : source) : option (list Z) * source :=
  match reads s with
  | None :: o => (None, mk_source (rest s) o)
  | Some k :: o => let k := Nat.min n (Nat.max 1 k) in (Some (firstn k (rest s)), mk_source (skipn k (rest s)) o)
  | [] => (Some (firstn n (rest s)), mk_source (skipn n (rest s)) [])
  end.

(** unit_character_input_buffer.h 6-15 single_character_input_buffer. *)
Record ibuf := mk_ibuf { reference : source; single_character : Z; pos : bool; pos_end : bool }.
Definition fresh (s : source) : ibuf := mk_ibuf s 0 false false.

(** 17-38 read; [None]: it throws. *)
Definition read (n : nat) (b : ibuf) : option (list Z) * ibuf :=
  if Bool.eqb (pos b) (pos_end b) then
    let '(r, s) := src_read n (reference b) in (r, mk_ibuf s (single_character b) (pos b) (pos_end b))
  else if n =? 0 then (Some [], b)
  else
    let '(r, s) := src_read (n - 1) (reference b) in
    (option_map (cons (single_character b)) r, mk_ibuf s (single_character b) (pos_end b) (pos_end b)).

(** 62-68 ibuffer_underflow; [None]: it throws. *)
Definition underflow (b : ibuf) : option bool * ibuf :=
  match src_read 1 (reference b) with
  | (None, s) => (None, mk_ibuf s (single_character b) (pos b) (pos_end b))
  | (Some [], s) => (Some false, mk_ibuf s (single_character b) false false)
  | (Some (c :: _), s) => (Some true, mk_ibuf s c false true)
  end.

(** A scan's step over the buffer: 40-60 ibuffer_curr, ibuffer_end, ibuffer_set_curr. When the buffer is empty it is filled;
    then the character is looked at ([take] false) or taken. [Some []]: the end of the file. *)
Definition step (take : bool) (b : ibuf) : option (list Z) * ibuf :=
  let '(r, b) := (if Bool.eqb (pos b) (pos_end b) then underflow b else (Some true, b)) in
  match r with
  | None => (None, b)
  | Some false => (Some [], b)
  | Some true => if take then (Some [single_character b], mk_ibuf (reference b) (single_character b) true (pos_end b)) else (Some [], b)
  end.

Inductive op := Peek | Take | Read (n : nat).
Definition run_op (o : op) (b : ibuf) : option (list Z) * ibuf :=
  match o with Peek => step false b | Take => step true b | Read n => read n b end.
(** A history; the characters it gave, and whether an operation threw, which ends it. *)
Fixpoint run (ops : list op) (b : ibuf) : list Z * bool * ibuf :=
  match ops with
  | [] => ([], false, b)
  | o :: l =>
    match run_op o b with
    | (None, b) => ([], true, b)
    | (Some t, b) => let '(t', x, b) := run l b in (t ++ t', x, b)
    end
  end.
