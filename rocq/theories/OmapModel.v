(** Streams over memory maps: include/fast_io_hosted/platforms/omap.h. The mapping is the list of its bytes; addresses
    are counted from its beginning (native_memory_map_file address_begin). *)
From Verif Require Import Base.
Local Open Scope nat_scope.

(** omap.h 6-13, 75-81: begin_ptr, curr_ptr, end_ptr, in bytes. [cs]: sizeof(char_type). *)
Record stream := Stream { begin_ptr : nat; curr_ptr : nat; end_ptr : nat }.
Definition open_map (cs size offset : nat) : stream := Stream offset offset (offset + cs * (size / cs)).
(** omap.h 15-18: written_bytes *)
Definition written_bytes (cs : nat) (s : stream) : nat := (curr_ptr s - begin_ptr s) / cs * cs.

(** What a call comes to: it returns; the program is ended (fast_terminate), the mapping being what it is then; bytes
    outside of the mapping are accessed. *)
Inductive outcome (A : Type) := Returns (a : A) | Terminates (mapping : list Z) | Outside.
Arguments Returns {A}. Arguments Terminates {A}. Arguments Outside {A}.

(** omap.h 24-32: omemory_map_write_impl; [x]: the characters, each the list of its [cs] bytes. Printing into the buffer
    (obuffer_curr, obuffer_end, obuffer_set_curr, 41-61) stores what fits in the same place. *)
Definition write (cs : nat) (x : list (list Z)) (s : stream) (mapping : list Z) : outcome (stream * list Z) :=
  let to_write := length x in
  if (end_ptr s - curr_ptr s) / cs <? to_write then Terminates mapping
  else if (1 <=? to_write) && (length mapping <? curr_ptr s + cs * to_write) then Outside
  else Returns (Stream (begin_ptr s) (curr_ptr s + cs * to_write) (end_ptr s),
                firstn (curr_ptr s) mapping ++ concat x ++ skipn (curr_ptr s + cs * to_write) mapping).
Fixpoint writes (cs : nat) (xs : list (list (list Z))) (s : stream) (mapping : list Z) : outcome (stream * list Z) :=
  match xs with
  | [] => Returns (s, mapping)
  | x :: r => match write cs x s mapping with
              | Returns (s1, m1) => writes cs r s1 m1
              | Terminates m => Terminates m
              | Outside => Outside
              end
  end.

(** omap.h 84-94: read of at most [n] characters: their bytes *)
Definition read (cs n : nat) (s : stream) (mapping : list Z) : outcome (list Z * stream) :=
  let remain_space := (end_ptr s - curr_ptr s) / cs in
  let to_read := if remain_space <? n then remain_space else n in
  if (1 <=? to_read) && (length mapping <? curr_ptr s + cs * to_read) then Outside
  else Returns (firstn (cs * to_read) (skipn (curr_ptr s) mapping), Stream (begin_ptr s) (curr_ptr s + cs * to_read) (end_ptr s)).
Fixpoint reads (cs : nat) (ns : list nat) (s : stream) (mapping : list Z) : outcome (list (list Z) * stream) :=
  match ns with
  | [] => Returns ([], s)
  | n :: r => match read cs n s mapping with
              | Returns (x, s1) =>
                  match reads cs r s1 mapping with Returns (xs, s2) => Returns (x :: xs, s2) | Terminates m => Terminates m | Outside => Outside end
              | Terminates m => Terminates m
              | Outside => Outside
              end
  end.
