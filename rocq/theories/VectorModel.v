(** Model of [fast_io::vector] (include/fast_io_dsal/impl/vector.h) with the
    helpers it uses (include/fast_io_dsal/impl/freestanding.h,
    include/fast_io_dsal/impl/common.h 104-129 and the typed allocator adapter
    include/fast_io_core_impl/allocation/adapters.h 1175-1251).

    The storage [begin_ptr, end_ptr) is a list of cells, one per element slot.
    A cell is raw storage, holds a live object with a value, or holds an object
    that has been moved from and has not been destroyed.  [curr_ptr] is the
    number of slots counted as elements.  The run time (not the constant
    evaluated) branches are modelled; move and copy constructors and destructors
    of elements do not throw.  The allocator is an oracle: asked for a number of
    bytes it refuses (the library then terminates) or answers with the number of
    bytes it really allocated. *)
From Verif Require Import Base.

(** How a call can end. *)
Inductive vres (X : Type) : Type :=
| VFine (x : X)   (* normal return *)
| VBounds         (* fast_terminate() from an index / emptiness check *)
| VNoMem          (* size overflow trap or allocation refused: the process stops *)
| VSmashed.       (* undefined behaviour: access outside the block, use of a
                     slot without an object, double destruction, freed storage *)
Arguments VFine {X} x.
Arguments VBounds {X}.
Arguments VNoMem {X}.
Arguments VSmashed {X}.

Definition vbind {X Y} (o : vres X) (k : X -> vres Y) : vres Y :=
  match o with VFine x => k x | VBounds => VBounds | VNoMem => VNoMem | VSmashed => VSmashed end.
Notation "'let%v' x ':=' o 'in' k" := (vbind o (fun x => k))
  (at level 200, x pattern, right associativity).

(** What the templates dispatch on: [sizeof(T)],
    [is_trivially_relocatable_v<T>], [is_trivially_destructible_v<T>], and
    [is_nothrow_constructible_v<T, Args...>]. *)
Record kind := mk_kind { k_size : Z; k_reloc : bool; k_tdtor : bool; k_nothrow : bool }.

(** The allocator: bytes asked -> bytes given. *)
Definition alloc := Z -> option Z.

Inductive cell (A : Type) : Type := Raw | Live (x : A) | Moved.
Arguments Raw {A}.
Arguments Live {A} x.
Arguments Moved {A}.

Section Vec.
Context {A : Type}.

(** vector.h 194-200 [vector_internal] : [begin_ptr] = start of [v_store],
    [curr_ptr] = [v_size], [end_ptr] = [length v_store].  [v_lost] counts
    objects whose storage was reused or released without running their
    destructor, [v_block] counts the blocks allocated so far (it identifies the
    block the iterators point into). *)
Record vec := mk_vec { v_store : list (cell A); v_size : nat; v_lost : nat; v_block : nat }.

Definition v_cap (v : vec) : nat := length (v_store v).

(** vector.h 231, 197-199: the default constructed vector. *)
Definition v_empty : vec := mk_vec [] 0 0 0.

Definition is_object (c : cell A) : bool := match c with Raw => false | _ => true end.

Fixpoint set_cell (i : nat) (c : cell A) (st : list (cell A)) : list (cell A) :=
  match st, i with
  | [], _ => []
  | _ :: r, O => c :: r
  | d :: r, S i => d :: set_cell i c r
  end.

(** Number of objects lost when the cells [l] are overwritten or freed. *)
Definition objects (kd : kind) (l : list (cell A)) : nat :=
  if k_tdtor kd then 0 else length (filter is_object l).

(** A slot and its bookkeeping: (storage, lost). *)
Definition mem : Type := list (cell A) * nat.

(** [std::construct_at(p, x)]: the previous object, if any, is overwritten. *)
Definition construct_at (kd : kind) (i : nat) (c : cell A) (m : mem) : vres mem :=
  let (st, lost) := m in
  match nth_error st i with
  | None => VSmashed
  | Some old => VFine (set_cell i c st, lost + objects kd [old])%nat
  end.

(** [std::destroy_at(p)], compiled only when the destructor is not trivial. *)
Definition destroy_at (kd : kind) (i : nat) (m : mem) : vres mem :=
  if k_tdtor kd then VFine m else
  let (st, lost) := m in
  match nth_error st i with
  | None | Some Raw => VSmashed
  | Some _ => VFine (set_cell i Raw st, lost)
  end.

(** [std::destroy(first, last)] with [n = last - first]. *)
Fixpoint destroy_n (kd : kind) (i n : nat) (m : mem) : vres mem :=
  match n with
  | O => VFine m
  | S n => let%v m := destroy_at kd i m in destroy_n kd (S i) n m
  end.

(** [std::construct_at(dest, std::move( *src))], source and destination in the
    same block. *)
Definition construct_move (kd : kind) (src dest : nat) (m : mem) : vres mem :=
  if (src =? dest)%nat then VSmashed else
  match nth_error (fst m) src with
  | None | Some Raw => VSmashed
  | Some c => construct_at kd dest c (set_cell src Moved (fst m), snd m)
  end.

(** Bytes of a run of cells copied with memmove/memcpy inside one block
    (freestanding.h 46, 161).  The bytes left behind stay readable for a
    trivially destructible type; for a type with a destructor the object has
    gone with its bytes. *)
Definition memmove (kd : kind) (first n dest : nat) (m : mem) : vres mem :=
  let (st, lost) := m in
  if (first + n <=? length st)%nat && (dest + n <=? length st)%nat then
    let c := firstn n (skipn first st) in
    let st1 := if k_tdtor kd then st
               else firstn first st ++ repeat Raw n ++ skipn (first + n) st in
    VFine (firstn dest st1 ++ c ++ skipn (dest + n) st1,
           lost + objects kd (firstn n (skipn dest st1)))%nat
  else VSmashed.

(** freestanding.h 50-66: the element by element loop of
    [uninitialized_relocate]. *)
Fixpoint relocate_loop (kd : kind) (first n dest : nat) (m : mem) : vres mem :=
  match n with
  | O => VFine m
  | S n => let%v m := construct_move kd first dest m in
           let%v m := destroy_at kd first m in
           relocate_loop kd (S first) n (S dest) m
  end.

(** freestanding.h 9-69 [uninitialized_relocate(first, last, dest)] inside one
    block, [n = last - first]; it returns [dest + n]. *)
Definition uninitialized_relocate (kd : kind) (first n dest : nat) (m : mem) : vres mem :=
  if k_reloc kd then memmove kd first n dest m else relocate_loop kd first n dest m.

(** freestanding.h 165-168: the loop of [uninitialized_move_backward], [last]
    and [d_last] moving down together. *)
Fixpoint move_backward_loop (kd : kind) (n last d_last : nat) (m : mem) : vres mem :=
  match n with
  | O => VFine m
  | S n => let%v m := construct_move kd (last - 1) (d_last - 1) m in
           move_backward_loop kd n (last - 1) (d_last - 1) m
  end.

(** freestanding.h 122-171 [uninitialized_move_backward(first, last, d_last)],
    with [first = last - n]. *)
Definition uninitialized_move_backward (kd : kind) (n last d_last : nat) (m : mem) : vres mem :=
  if k_reloc kd then memmove kd (last - n) n (d_last - n) m
  else move_backward_loop kd n last d_last m.

(** The elements carried to a new block: bytes for a relocatable type
    (vector.h 38-41), otherwise moved and destroyed one by one
    (freestanding.h 50-66), which needs an object in every slot. *)
Definition carry (kd : kind) (l : list (cell A)) : vres (list (cell A)) :=
  if k_reloc kd || forallb is_object l then VFine l else VSmashed.

(** vector.h 29-47 [grow_to_byte_size_iter_impl] and 488-506
    [grow_to_size_iter_impl]: allocate [bytes], copy [0,iter) to the front and
    [iter,size) one gap further, free the old block, keep the size. *)
Definition regrow (kd : kind) (al : alloc) (v : vec) (iter gap : nat) (bytes : Z) : vres vec :=
  match al bytes with
  | None => VNoMem
  | Some count =>
      let newcap := Z.to_nat (count / k_size kd) in
      let%v a := carry kd (firstn iter (v_store v)) in
      let%v b := carry kd (firstn (v_size v - iter) (skipn iter (v_store v))) in
      if (length a + (match b with [] => 0 | _ => gap + length b end) <=? newcap)%nat then
        VFine (mk_vec (match b with
                       | [] => a ++ repeat Raw (newcap - length a)
                       | _ => a ++ repeat Raw gap ++ b ++ repeat Raw (newcap - (length a + (gap + length b)))
                       end)
                      (v_size v)
                      (v_lost v + objects kd (skipn (v_size v) (v_store v)))
                      (S (v_block v)))
      else VSmashed
  end.

Definition size_max : Z := 2 ^ 64 - 1.

(** common.h 104-129 [cal_grow_twice_size<size, false>]. *)
Definition cal_grow_twice_size (sz : Z) (cap : nat) : vres Z :=
  let mx_value := size_max / sz in
  let mx_half_value := mx_value / 2 in
  let c := Z.of_nat cap in
  if c =? mx_value then VNoMem
  else if mx_half_value <? c then VFine 1
  else if c =? 0 then VFine sz
  else VFine (2 * c).

(** vector.h 78-101 (relocatable types, in bytes) and 512-530 (others, in
    elements; adapters.h 1238-1250 checks the multiplication by the element
    size). *)
Definition grow_twice_iter (kd : kind) (al : alloc) (v : vec) (iter : nat) : vres vec :=
  if k_reloc kd then
    let diff := Z.of_nat (v_cap v) * k_size kd in
    if diff =? 0 then regrow kd al v iter 1 (k_size kd)
    else if size_max <? 2 * diff then VNoMem
    else regrow kd al v iter 1 (2 * diff)
  else
    let%v n := cal_grow_twice_size (k_size kd) (v_cap v) in
    if size_max / k_size kd <? n then VNoMem
    else regrow kd al v iter 1 (n * k_size kd).

(** vector.h 578-597 [grow_twice_impl]: the same with [iter = curr_ptr]. *)
Definition grow_twice (kd : kind) (al : alloc) (v : vec) : vres vec :=
  grow_twice_iter kd al v (v_size v).

(** vector.h 556-574 [grow_to_size_impl] with 50-66 (multiplication checked)
    and adapters.h 1238-1250. *)
Definition grow_to_size (kd : kind) (al : alloc) (v : vec) (n : Z) : vres vec :=
  if size_max <? k_size kd * n then VNoMem
  else regrow kd al v (v_size v) 1 (k_size kd * n).

(** vector.h 600-607 *)
Definition reserve (kd : kind) (al : alloc) (v : vec) (n : Z) : vres vec :=
  if n <=? Z.of_nat (v_cap v) then VFine v else grow_to_size kd al v n.

(** vector.h 609-616 *)
Definition shrink_to_fit (kd : kind) (al : alloc) (v : vec) : vres vec :=
  if (v_size v =? v_cap v)%nat then VFine v else grow_to_size kd al v (Z.of_nat (v_size v)).

(** The argument a new element is built from: an object outside the vector, or
    a reference to element number [i] of this very vector. *)
Inductive arg := Own (x : A) | Elem (i : nat).

(** Reading the argument.  [moved] says that the block was replaced since the
    reference was formed: it then refers to freed storage. *)
Definition read_arg (v : vec) (moved : bool) (a : arg) : vres (cell A) :=
  match a with
  | Own x => VFine (Live x)
  | Elem i => if moved then VSmashed else
              match nth_error (v_store v) i with
              | None | Some Raw => VSmashed
              | Some c => VFine c
              end
  end.

Definition store_at (kd : kind) (v : vec) (i : nat) (c : cell A) : vres vec :=
  let%v m := construct_at kd i c (v_store v, v_lost v) in
  VFine (mk_vec (fst m) (v_size v) (snd m) (v_block v)).

Definition bump (v : vec) : vec := mk_vec (v_store v) (S (v_size v)) (v_lost v) (v_block v).

(** vector.h 878-892 [emplace_back] and 636-643 [push_back]. *)
Definition emplace_back (kd : kind) (al : alloc) (v : vec) (a : arg) : vres vec :=
  let full := (v_size v =? v_cap v)%nat in
  let%v v := (if full then grow_twice kd al v else VFine v) in
  let%v c := read_arg v full a in
  let%v v := store_at kd v (v_size v) c in
  VFine (bump v).

(** vector.h 462-469 [emplace_back_unchecked], 644-651 [push_back_unchecked]. *)
Definition emplace_back_unchecked (kd : kind) (v : vec) (a : arg) : vres vec :=
  let%v c := read_arg v false a in
  let%v v := store_at kd v (v_size v) c in
  VFine (bump v).

(** vector.h 531-554 [move_backward_common_impl] and 113-123. *)
Definition move_backward_common (kd : kind) (al : alloc) (v : vec) (iter : nat) : vres vec :=
  if (v_size v =? v_cap v)%nat then grow_twice_iter kd al v iter
  else let%v m := uninitialized_move_backward kd (v_size v - iter) (v_size v) (S (v_size v))
                    (v_store v, v_lost v) in
       VFine (mk_vec (fst m) (v_size v) (snd m) (v_block v)).

(** vector.h 895-942 [emplace] / [insert_impl], 957-965 [insert]. *)
Definition emplace (kd : kind) (al : alloc) (v : vec) (iter : nat) (a : arg) : vres vec :=
  let full := (v_size v =? v_cap v)%nat in
  if k_nothrow kd then
    let%v v := move_backward_common kd al v iter in
    let%v c := read_arg v full a in
    let%v v := store_at kd v iter c in
    VFine (bump v)
  else
    let%v c := read_arg v false a in
    let%v v := move_backward_common kd al v iter in
    let%v v := store_at kd v iter c in
    VFine (bump v).

(** vector.h 944-955 [emplace_index], 967-975 [insert_index]. *)
Definition emplace_index (kd : kind) (al : alloc) (v : vec) (idx : nat) (a : arg) : vres vec :=
  if (v_size v <? idx)%nat then VBounds else emplace kd al v idx a.

(** vector.h 631-634 [pop_back_unchecked]; [--curr_ptr] below [begin_ptr] is an
    access outside the block. *)
Definition pop_back_unchecked (kd : kind) (v : vec) : vres vec :=
  match v_size v with
  | O => VSmashed
  | S n => let%v m := destroy_at kd n (v_store v, v_lost v) in
           VFine (mk_vec (fst m) n (snd m) (v_block v))
  end.

(** vector.h 622-629 [pop_back] *)
Definition pop_back (kd : kind) (v : vec) : vres vec :=
  if (v_size v =? 0)%nat then VBounds else pop_back_unchecked kd v.

(** vector.h 670-677 [clear] *)
Definition clear (kd : kind) (v : vec) : vres vec :=
  let%v m := destroy_n kd 0 (v_size v) (v_store v, v_lost v) in
  VFine (mk_vec (fst m) 0 (snd m) (v_block v)).

(** vector.h 234-246 [destroy] (and 457-460 [~vector]), 872-876
    [clear_destroy]: the block is released; what still is an object in it is
    lost. *)
Definition clear_destroy (kd : kind) (v : vec) : vres vec :=
  let%v v := clear kd v in
  VFine (mk_vec [] 0 (v_lost v + objects kd (v_store v)) (S (v_block v))).

(** vector.h 978-988 [erase_common] (1002-1016 [erase(it)]). *)
Definition erase (kd : kind) (v : vec) (it : nat) : vres vec :=
  let lastele := v_size v in
  let%v m := destroy_at kd it (v_store v, v_lost v) in
  let%v m := uninitialized_relocate kd (S it) (lastele - S it) it m in
  VFine (mk_vec (fst m) lastele (snd m) (v_block v)).

(** vector.h 1018-1028 [erase_index(idx)] *)
Definition erase_index (kd : kind) (v : vec) (idx : nat) : vres vec :=
  if (v_size v <=? idx)%nat then VBounds else erase kd v idx.

(** vector.h 990-999 [erase_iters_common] (1030-1044 [erase(first, last)]). *)
Definition erase_range (kd : kind) (v : vec) (first last : nat) : vres vec :=
  let%v m := destroy_n kd first (last - first) (v_store v, v_lost v) in
  let%v m := uninitialized_relocate kd last (v_size v - last) first m in
  VFine (mk_vec (fst m) (first + (v_size v - last)) (snd m) (v_block v)).

(** vector.h 1046-1056 [erase_index(firstidx, lastidx)] *)
Definition erase_index_range (kd : kind) (v : vec) (first last : nat) : vres vec :=
  if (last <? first)%nat || (v_size v <=? last)%nat then VBounds else erase_range kd v first last.

(** vector.h 718-742 [operator[]]; the value is read through the reference. *)
Definition index_unchecked (v : vec) (i : nat) : vres A :=
  match nth_error (v_store v) i with
  | Some (Live x) => VFine x
  | _ => VSmashed
  end.
Definition index (v : vec) (i : nat) : vres A :=
  if (v_size v <=? i)%nat then VBounds else index_unchecked v i.

(** vector.h 749-773 [front], 779-803 [back]. *)
Definition front (v : vec) : vres A :=
  if (v_size v =? 0)%nat then VBounds else index_unchecked v 0.
Definition back (v : vec) : vres A :=
  if (v_size v =? 0)%nat then VBounds else index_unchecked v (v_size v - 1).

(** Copying [n] elements of a source one by one with [construct_at(p, *i)]:
    each of them must be an object. *)
Definition copy_cells (l : list (cell A)) : vres (list (cell A)) :=
  if forallb is_object l then VFine l else VSmashed.

(** adapters.h 1199-1217 [allocate(n)]: exactly [n] slots are used. *)
Definition allocate (kd : kind) (al : alloc) (n : nat) : vres nat :=
  if size_max / k_size kd <? Z.of_nat n then VNoMem
  else match al (Z.of_nat n * k_size kd) with None => VNoMem | Some _ => VFine n end.

(** vector.h 399-435: the copy constructor (a new vector; [vec] is unchanged). *)
Definition copy_construct (kd : kind) (al : alloc) (v : vec) : vres vec :=
  if (v_size v =? 0)%nat then VFine v_empty
  else let%v n := allocate kd al (v_size v) in
       let%v l := copy_cells (firstn (v_size v) (v_store v)) in
       VFine (mk_vec l n 0 1).

(** vector.h 445-449: the move constructor: (new vector, source afterwards). *)
Definition move_construct (v : vec) : vec * vec := (v, mk_vec [] 0 (v_lost v) (v_block v)).

(** vector.h 375-386 [vector(n, val)]. *)
Definition construct_fill (kd : kind) (al : alloc) (n : nat) (x : A) : vres vec :=
  let%v n := allocate kd al n in VFine (mk_vec (repeat (Live x) n) n 0 1).

(** vector.h 394-397 with 278-341 for a forward range of values. *)
Definition construct_list (kd : kind) (al : alloc) (l : list A) : vres vec :=
  let%v n := allocate kd al (length l) in VFine (mk_vec (map Live l) n 0 1).

(** vector.h 388-392 with 331-339 for a single pass range: one [emplace_back]
    per element. *)
Fixpoint append_range (kd : kind) (al : alloc) (v : vec) (l : list A) : vres vec :=
  match l with
  | [] => VFine v
  | x :: l => let%v v := emplace_back kd al v (Own x) in append_range kd al v l
  end.
Definition construct_input (kd : kind) (al : alloc) (l : list A) : vres vec :=
  append_range kd al v_empty l.

(** vector.h 1059-1064 [operator==] ([std::equal] on both element ranges). *)
Fixpoint equal_cells (eqb : A -> A -> bool) (a b : list (cell A)) : vres bool :=
  match a, b with
  | [], [] => VFine true
  | Live x :: a, Live y :: b => if eqb x y then equal_cells eqb a b else VFine false
  | [], _ :: _ | _ :: _, [] => VFine false
  | _, _ => VSmashed
  end.
Definition vec_eq (eqb : A -> A -> bool) (v w : vec) : vres bool :=
  if (v_size v =? v_size w)%nat
  then equal_cells eqb (firstn (v_size v) (v_store v)) (firstn (v_size w) (v_store w))
  else VFine false.

(** The operations a history is made of. *)
Inductive op :=
| OPush (a : arg)                       (* push_back / emplace_back *)
| OInsert (pos : nat) (a : arg)         (* insert / emplace at begin() + pos *)
| OInsertIndex (pos : nat) (a : arg)    (* insert_index / emplace_index *)
| OPop
| OErase (pos : nat)                    (* erase(begin() + pos) *)
| OEraseIndex (pos : nat)
| OEraseRange (first last : nat)        (* erase(begin() + first, begin() + last) *)
| OEraseIndexRange (first last : nat)
| OReserve (n : Z)
| OShrink
| OClear
| OClearDestroy
| OCopy                                 (* go on with a copy, the original is destroyed *)
| OMove.                                (* go on with a vector moved from this one *)

Definition exec (kd : kind) (al : alloc) (v : vec) (o : op) : vres vec :=
  match o with
  | OPush a => emplace_back kd al v a
  | OInsert pos a => emplace kd al v pos a
  | OInsertIndex pos a => emplace_index kd al v pos a
  | OPop => pop_back kd v
  | OErase pos => erase kd v pos
  | OEraseIndex pos => erase_index kd v pos
  | OEraseRange first last => erase_range kd v first last
  | OEraseIndexRange first last => erase_index_range kd v first last
  | OReserve n => reserve kd al v n
  | OShrink => shrink_to_fit kd al v
  | OClear => clear kd v
  | OClearDestroy => clear_destroy kd v
  | OCopy => let%v w := copy_construct kd al v in
             let%v d := clear_destroy kd v in
             VFine (mk_vec (v_store w) (v_size w) (v_lost d + v_lost w) (v_block d + v_block w))
  | OMove => VFine (fst (move_construct v))
  end.

Fixpoint run (kd : kind) (al : alloc) (v : vec) (os : list op) : vres vec :=
  match os with
  | [] => VFine v
  | o :: os => let%v v := exec kd al v o in run kd al v os
  end.

End Vec.
Arguments vec A : clear implicits.
Arguments op A : clear implicits.
Arguments arg A : clear implicits.
