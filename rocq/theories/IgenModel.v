(** Loops over the characters of a buffered input stream (include/fast_io_core_impl/igenerator.h). *)
From Verif Require Import Base.
Local Open Scope nat_scope.

(** A stream: the characters between ibuffer_curr and ibuffer_end, and what the coming fills of the buffer will find. A
    fill that finds nothing is the end of the file for now; when the list is over, so are all the others. Fills that
    throw are not modelled. *)
Record stream := mk_stream { buf : list Z; later : list (list Z) }.
(** ibuffer_underflow of the buffered streams (io_buffer/istream.h): false when nothing was read. *)
Definition underflow (s : stream) : bool * stream :=
  match later s with
  | [] => (false, mk_stream [] [])
  | c :: l => (match c with [] => false | _ => true end, mk_stream c l)
  end.
Definition at_end (s : stream) : bool := match buf s with [] => true | _ => false end.

(** igenerator.h 93-109 igenerator: whether the generator's pointer is set. [contiguous]: contiguous_input_stream. *)
Definition igenerator (contiguous : bool) (s : stream) : bool * stream :=
  if contiguous then (true, s)
  else if at_end s then underflow s else (true, s).

(** igenerator.h 27-31 operator*. *)
Definition deref (s : stream) : option Z := match buf s with [] => None | c :: _ => Some c end.

(** igenerator.h 32-42 operator++ and 13-25 deal_with_underflow: whether the iterator's pointer is still set. *)
Definition advance (contiguous : bool) (s : stream) : bool * stream :=
  let s := mk_stream (tl (buf s)) (later s) in
  if contiguous then (true, s)
  else if at_end s then underflow s else (true, s).

(** igenerator.h 44-78 the comparisons with the sentinel. *)
Definition not_end (contiguous : bool) (ptr : bool) (s : stream) : bool :=
  if contiguous then negb (at_end s) else ptr.

(** What a loop comes to: the characters its body was given, the stream after it, and whether the body left the loop. *)
Inductive result := Finished (seen : list Z) (s : stream) (left : bool) | Out_of_steps | Undefined_behaviour.

(** for (auto c : igenerator(in)) body: the body leaves the loop (break, return, throw) when [leave] says so of all the
    characters it was given up to now. *)
Fixpoint for_loop (n : nat) (contiguous : bool) (leave : list Z -> bool) (seen : list Z) (ptr : bool) (s : stream) : result :=
  match n with
  | O => Out_of_steps
  | S n =>
    if not_end contiguous ptr s then
      match deref s with
      | None => Undefined_behaviour
      | Some c =>
        let seen := seen ++ [c] in
        if leave seen then Finished seen s true
        else let '(ptr, s) := advance contiguous s in for_loop n contiguous leave seen ptr s
      end
    else Finished seen s false
  end.
Definition range_for (n : nat) (contiguous : bool) (leave : list Z -> bool) (s : stream) : result :=
  let '(ptr, s) := igenerator contiguous s in for_loop n contiguous leave [] ptr s.
