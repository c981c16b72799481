(** Model of basic_obuffer_view, basic_ibuffer_view (include/fast_io_core_impl/buffer_view.h), of print and println to a
    contiguous_output_stream (include/fast_io_core_impl/print_freestanding.h) and of dynamic_io_buffer
    (include/fast_io_core_impl/dynamic_io_buffer.h).
    Simplifications: memory is one array of characters indexed by nat and a view keeps three indices into it; a store
    through a pointer changes that memory wherever the pointer leads (so that stores outside the view are visible);
    iterators are pointers; the status and mutex forms of print are not modelled; for a dynamic_reserve_printable
    argument the four-argument print_reserve_define that lines 352 calls is supposed to exist and to print like the
    three-argument one (no type of the library has it, so that such a print does not compile). *)
From Verif Require Import Base BufModel PrintModel.
Local Open Scope nat_scope.

Definition memory := nat -> Z.
(** Copying [l] to the addresses [p], [p+1], ... *)
Definition store_at (m : memory) (p : nat) (l : list Z) : memory :=
  fun i => if andb (Nat.leb p i) (Nat.ltb i (p + length l)) then nth (i - p) l 0%Z else m i.
(** The [n] characters from address [p] on. *)
Definition chars (m : memory) (p n : nat) : list Z := map m (seq p n).

(** ** basic_obuffer_view *)
(** 76-79: begin_ptr, curr_ptr, end_ptr and the memory they point into. *)
Record view := mk_view { v_mem : memory; v_begin : nat; v_curr : nat; v_end : nat }.
(** 83-85: the constructor. *)
Definition view_of (m : memory) (first last : nat) : view := mk_view m first first last.
(** 89-92. *)
Definition view_clear (v : view) : view := mk_view (v_mem v) (v_begin v) (v_begin v) (v_end v).
(** 127-135 size, capacity. *)
Definition view_size (v : view) : nat := v_curr v - v_begin v.
Definition view_capacity (v : view) : nat := v_end v - v_begin v.
(** 93-126: the characters between begin() and end(). *)
Definition view_content (v : view) : list Z := chars (v_mem v) (v_begin v) (view_size v).
Definition room (v : view) : nat := v_end v - v_curr v.
(** A store of [t] at curr_ptr which then moves behind it; nothing checks that it stays inside. *)
Definition view_push (v : view) (t : list Z) : view :=
  mk_view (store_at (v_mem v) (v_curr v) t) (v_begin v) (v_curr v + length t) (v_end v).

(** 138-147 write. *)
Definition view_write (v : view) (t : list Z) : res view :=
  if Nat.ltb (room v) (length t) then Died v else Fine (view_push v t).
(** overflow.h 6-39 put, with buffer_view.h 173-177 obuffer_overflow. *)
Definition view_put (v : view) (ch : Z) : res view :=
  if Nat.leb (v_end v) (v_curr v) then Died v else Fine (view_push v [ch]).

(** print_freestanding.h 200-396 print_control on a contiguous_output_stream. *)
Definition vprint_control (line : bool) (v : view) (p : parg) : res view :=
  match p with
  | PScatter t =>
      if line then                                                                              (* 215-227 *)
        if (Z.of_nat (v_end v) - Z.of_nat (v_curr v) - 1 <? Z.of_nat (length t))%Z then Died v
        else Fine (view_push v (t ++ [lf]))
      else view_write v t                                                                       (* 256 *)
  | PReserve real t =>                                                                          (* 261-278 *)
      let size := real + eol_size line in
      if Nat.ltb (room v) size then Died v else Fine (view_push v (t ++ eol line))
  | PDynamic real t =>                                                                          (* 334-362 *)
      if dynamic_size_ok line real then
        let size := real + eol_size line in
        let m := store_at (v_mem v) (v_curr v) t in
        let v' := mk_view m (v_begin v) (v_curr v) (v_end v) in
        if Nat.ltb (room v) size then Died v' else Fine (view_push v' (t ++ eol line))
      else Died v
  | PDefine ws =>                                                                               (* 385-390 *)
      then! v := do_writes view_write v ws in if line then view_put v lf else Fine v
  end.

(** print_freestanding.h 476-566 print_controls_line_multi_impl<line,n>; a view is no constant_buffer_output_stream, so that
    joined arguments are printed into a local array and written. *)
Fixpoint vprint_multi (line : bool) (skip : nat) (v : view) (args : list parg) : res view :=
  match args with
  | [] => Fine v
  | t :: rest =>
      match skip with
      | S k => vprint_multi line k v rest
      | O =>
          let one := fun v => match rest with
                              | [] => vprint_control line v t
                              | _ => then! v := vprint_control false v t in vprint_multi line 0 v rest
                              end in
          match t with
          | PReserve sz text =>
              let '(n, total) := multi_size sz rest in
              if Nat.eqb n 0 then one v
              else
                let last := Nat.eqb (length rest) n in
                let size := total + eol_size (last && line) in
                let text := text ++ partition_text n rest ++ eol (last && line) in
                then! v := in_local size text (view_write v text) in
                if last then Fine v else vprint_multi line n v rest
          | _ => one v
          end
      end
  end.
(** 574-595 print_controls_line without optimisation, and 770-777. *)
Fixpoint vprint_plain (line : bool) (v : view) (args : list parg) : res view :=
  match args with
  | [] => Fine v
  | [t] => vprint_control line v t
  | t :: rest => then! v := vprint_control false v t in vprint_plain line v rest
  end.
(** 748-780 print_freestanding_decay_no_status; [opt] is __OPTIMIZE__. *)
Definition view_print (opt line : bool) (v : view) (args : list parg) : res view :=
  match args with
  | [] => if line then view_put v lf else Fine v
  | _ => if opt then vprint_multi line 0 v args else vprint_plain line v args
  end.

(** What a program does with a view. *)
Inductive vop := VWrite (l : list Z) | VPut (ch : Z) | VPrint (opt line : bool) (args : list parg) | VClear.
Definition do_vop (v : view) (x : vop) : res view :=
  match x with
  | VWrite l => view_write v l
  | VPut ch => view_put v ch
  | VPrint opt line args => view_print opt line v args
  | VClear => Fine (view_clear v)
  end.
Fixpoint do_vops (v : view) (xs : list vop) : res view :=
  match xs with [] => Fine v | x :: xs => then! v := do_vop v x in do_vops v xs end.

(** ** basic_ibuffer_view *)
(** 5-24; the same three pointers. *)
(** 26-37 read(view,first,last): the new view (over the memory after the copy) and the returned iterator. *)
Definition iview_read (v : view) (first last : nat) : view * nat :=
  let diff := last - first in
  let view_diff := v_end v - v_curr v in
  let diff := if Nat.ltb view_diff diff then view_diff else diff in
  (mk_view (store_at (v_mem v) first (chars (v_mem v) (v_curr v) view_diff))
           (v_begin v) (v_curr v + diff) (v_end v),
   first + view_diff).
(** What can still be read: the characters between curr_ptr and end_ptr. *)
Definition iview_unread (v : view) : list Z := chars (v_mem v) (v_curr v) (v_end v - v_curr v).

(** ** dynamic_io_buffer *)
(** 9-25: the characters between buffer_begin and buffer_curr, and buffer_end-buffer_begin.  Fresh: three null pointers. *)
Record dbuf := mk_dbuf { db_text : list Z; db_cap : nat }.
Definition db_fresh : dbuf := mk_dbuf [] 0.
Definition size_max : Z := (2 ^ 64 - 1)%Z.
(** 54-64 dynamic_io_buffer_oreallocate_impl; copying more characters than the new space has is a store outside. *)
Definition db_reallocate (b : dbuf) (size : nat) : res dbuf :=
  if Nat.leb (length (db_text b)) size then Fine (mk_dbuf (db_text b) size) else Smashed.
(** 70-74 / 84-88: the doubled capacity. *)
Definition db_double (cap : nat) : nat :=
  if (size_max / 2 <? Z.of_nat cap)%Z then Z.to_nat size_max else cap * 2.
(** 66-78 dynamic_io_buffer_grow_with_new_size. *)
Definition db_grow (b : dbuf) (new_size : nat) : res dbuf :=
  let c := db_double (db_cap b) in
  db_reallocate b (if Nat.ltb c new_size then new_size else c).
(** A store of [t] at buffer_curr which then moves behind it. *)
Definition db_store (b : dbuf) (t : list Z) : res dbuf :=
  if Nat.leb (length (db_text b) + length t) (db_cap b) then Fine (mk_dbuf (db_text b ++ t) (db_cap b)) else Smashed.
(** 80-92, 132-136 obuffer_overflow. *)
Definition db_overflow (b : dbuf) (ch : Z) : res dbuf :=
  then! b := db_reallocate b (db_double (db_cap b)) in db_store b [ch].
(** overflow.h 6-39 put. *)
Definition db_put (b : dbuf) (ch : Z) : res dbuf :=
  if Nat.leb (db_cap b) (length (db_text b)) then db_overflow b ch else db_store b [ch].
(** 138-164 write; 162 copies to buffer_begin. *)
Definition db_write (b : dbuf) (t : list Z) : res dbuf :=
  if Nat.ltb (db_cap b - length (db_text b)) (length t) then
    then! b := db_grow b (db_cap b + length t) in db_store b t
  else Fine (mk_dbuf t (db_cap b)).
(** 116-122 oreserve. *)
Definition db_reserve (b : dbuf) (new_capacity : nat) : res dbuf :=
  if Nat.leb (db_cap b) new_capacity then Fine b else db_reallocate b new_capacity.
(** 124-130 oshrink_to_fit. *)
Definition db_shrink (b : dbuf) : res dbuf :=
  if Nat.eqb (length (db_text b)) (db_cap b) then Fine b else db_reallocate b (length (db_text b)).
(** print_control (200-396) reaches the buffer through the same operations. *)
Inductive dop := DWrite (t : list Z) | DPut (ch : Z) | DReserve (n : nat) | DShrink.
Definition do_dop (b : dbuf) (x : dop) : res dbuf :=
  match x with
  | DWrite t => db_write b t | DPut ch => db_put b ch | DReserve n => db_reserve b n | DShrink => db_shrink b
  end.
Fixpoint do_dops (b : dbuf) (xs : list dop) : res dbuf :=
  match xs with [] => Fine b | x :: xs => then! b := do_dop b x in do_dops b xs end.
