From Verif Require Import Base IntPrintModel.
Open Scope Z_scope.

(** * The width manipulators (include/fast_io_freestanding_impl/width.h)

    The destination buffer is a list of cells; pointers are positions in it; [None] is an access
    outside of the buffer.  [first] is position 0. *)

(** integers/impl.h 31-34 scalar_placement *)
Inductive placement := pl_none | pl_left | pl_middle | pl_right | pl_internal.

(** freestanding/algorithm.h 359-411 my_copy, my_copy_n: memmove at run time *)
Definition mem_move (cells : list Z) (src n dst : nat) : option (list Z) :=
  if Nat.leb (src + n) (length cells) && Nat.leb (dst + n) (length cells)
  then Some (firstn dst cells ++ firstn n (skipn src cells) ++ skipn (dst + n) cells)
  else None.
(** ... and copy_n, a loop that goes forward, during constant evaluation (algorithm.h 361-370, 40-66). *)
Fixpoint copy_forward (cells : list Z) (src n dst : nat) : option (list Z) :=
  match n with
  | O => Some cells
  | S n' =>
      if Nat.ltb src (length cells) && Nat.ltb dst (length cells)
      then copy_forward (firstn dst cells ++ [nth src cells 0] ++ skipn (S dst) cells) (S src) n' (S dst)
      else None
  end.
Definition my_copy (constant_evaluated : bool) (cells : list Z) (src n dst : nat) : option (list Z) :=
  if constant_evaluated then copy_forward cells src n dst else mem_move cells src n dst.
(** utils.h 384-416 my_fill_n *)
Definition my_fill_n (cells : list Z) (at_ n : nat) (ch : Z) : option (list Z) :=
  if Nat.leb (at_ + n) (length cells)
  then Some (firstn at_ cells ++ repeat ch n ++ skipn (at_ + n) cells)
  else None.
(** copy_scatter (utils.h 450-454) of the text, or print_reserve_define of the object: the text at the
    begin of the buffer. *)
Definition put_text (cells text : list Z) : option (list Z) :=
  if Nat.leb (length text) (length cells) then Some (text ++ skipn (length text) cells) else None.

Definition bind {A B} (o : option A) (f : A -> option B) : option B :=
  match o with Some a => f a | None => None end.

(** width.h 275-303 handle_common_ch<placement>: buffer and one past the last character.  (The last
    branch serves right; none and internal do not get here.) *)
Definition handle_common (ce : bool) (pl : placement) (cells : list Z) (last wd : nat) (ch : Z) : option (list Z * nat) :=
  let diff := last in
  if Nat.leb wd diff then Some (cells, last)
  else
    let to_fill := (wd - diff)%nat in
    match pl with
    | pl_left => bind (my_fill_n cells last to_fill ch) (fun c => Some (c, wd))
    | pl_middle =>
        let left_indent := Nat.div2 to_fill in
        let right_indent := (to_fill - left_indent)%nat in
        bind (my_copy ce cells 0 last left_indent) (fun c =>
        bind (my_fill_n c 0 left_indent ch) (fun c =>
        bind (my_fill_n c (wd - right_indent) right_indent ch) (fun c => Some (c, wd))))
    | _ =>
        bind (my_copy ce cells 0 last to_fill) (fun c =>
        bind (my_fill_n c 0 to_fill ch) (fun c => Some (c, wd)))
    end.

(** width.h 305-318 handle_common_internal_ch *)
Definition handle_internal (ce : bool) (cells : list Z) (last wd : nat) (ch : Z) (internal_len : nat) : option (list Z * nat) :=
  let diff1 := last in
  if Nat.leb wd diff1 || Nat.ltb diff1 internal_len then Some (cells, last)
  else
    let first := internal_len in
    let wd' := (wd - internal_len)%nat in
    let diff := (last - first)%nat in
    let to_fill := (wd' - diff)%nat in
    bind (my_copy ce cells first (last - first) (first + to_fill)) (fun c =>
    bind (my_fill_n c first to_fill ch) (fun c => Some (c, (first + wd')%nat))).

(** width.h 371-410 handle_common_rt_ch *)
Definition handle_common_rt (ce : bool) (pl : placement) (cells : list Z) (last wd : nat) (ch : Z) : option (list Z * nat) :=
  let diff := last in
  if Nat.leb wd diff then Some (cells, last)
  else
    let to_fill := (wd - diff)%nat in
    match pl with
    | pl_left => bind (my_fill_n cells last to_fill ch) (fun c => Some (c, wd))
    | pl_middle =>
        let left_indent := Nat.div2 to_fill in
        let right_indent := (to_fill - left_indent)%nat in
        bind (my_copy ce cells 0 last left_indent) (fun c =>
        bind (my_fill_n c 0 left_indent ch) (fun c =>
        bind (my_fill_n c (wd - right_indent) right_indent ch) (fun c => Some (c, wd))))
    | pl_right =>
        bind (my_copy ce cells 0 last to_fill) (fun c =>
        bind (my_fill_n c 0 to_fill ch) (fun c => Some (c, wd)))
    | _ => Some (cells, last)
    end.

(** What width is applied to: its text, the size that it reserves, its internal shift (print_define_internal_shift)
    if it has one, and whether the manipulator holds it by reference (objects of more than 16 bytes that
    are not manipulators or not trivially copyable). *)
Record wvalue := mk_wvalue { v_text : list Z; v_reserve : nat; v_shift : option nat; v_byref : bool }.
(** Held by reference, the object is passed on as parameter<T>; the print_define_internal_shift of parameter<T>
    (concepts/operation.h 134-139) takes one more argument, so that parameter<T> is not
    printable_internal_shift (operation.h 37-41). *)
Definition shift_seen (v : wvalue) : option nat := if v_byref v then None else v_shift v.

(** width.h 248-273 print_reserve_size_width_impl *)
Definition width_reserve (v : wvalue) (wid : nat) : nat := if Nat.ltb wid (v_reserve v) then v_reserve v else wid.

(** width.h 320-360 print_reserve_define_width_ch_impl<placement> *)
Definition width_define (ce : bool) (pl : placement) (v : wvalue) (wd : nat) (ch : Z) (cells : list Z) : option (list Z * nat) :=
  bind (put_text cells (v_text v)) (fun c =>
  let last := length (v_text v) in
  match pl with
  | pl_internal => match shift_seen v with
                   | Some k => handle_internal ce c last wd ch k
                   | None => handle_common ce pl_right c last wd ch
                   end
  | _ => handle_common ce pl c last wd ch
  end).
(** width.h 412-451 print_reserve_define_width_rt_ch_impl *)
Definition width_define_rt (ce : bool) (pl : placement) (v : wvalue) (wd : nat) (ch : Z) (cells : list Z) : option (list Z * nat) :=
  bind (put_text cells (v_text v)) (fun c =>
  let last := length (v_text v) in
  match pl with
  | pl_internal => match shift_seen v with
                   | Some k => handle_internal ce c last wd ch k
                   | None => handle_common_rt ce pl_right c last wd ch
                   end
  | _ => handle_common_rt ce pl c last wd ch
  end).

(** The manipulators of width.h 9-243: what is printed.  width_t fills with spaces (362-367, 454-461);
    left(t,n,ch) with t held by reference is width_ch_t{t,n}, whose ch is zero (line 168). *)
Inductive wmanip :=
| Wplace (pl : placement) (v : wvalue) (n : nat)               (* left(v,n), middle, right, internal *)
| Wplace_ch (pl : placement) (v : wvalue) (n : nat) (ch : Z)   (* left(v,n,ch), ... *)
| Wrun (pl : placement) (v : wvalue) (n : nat)                 (* width(pl,v,n) *)
| Wrun_ch (pl : placement) (v : wvalue) (n : nat) (ch : Z).    (* width(pl,v,n,ch) *)
Definition wm_value (m : wmanip) : wvalue :=
  match m with Wplace _ v _ | Wplace_ch _ v _ _ | Wrun _ v _ | Wrun_ch _ v _ _ => v end.
Definition wm_width (m : wmanip) : nat :=
  match m with Wplace _ _ n | Wplace_ch _ _ n _ | Wrun _ _ n | Wrun_ch _ _ n _ => n end.
Definition print_width_size (m : wmanip) : nat := width_reserve (wm_value m) (wm_width m).
Definition print_width (ce : bool) (m : wmanip) (cells : list Z) : option (list Z * nat) :=
  match m with
  | Wplace pl v n => width_define ce pl v n 32 cells
  | Wplace_ch pl v n ch =>
      let ch' := match pl with pl_left => if v_byref v then 0 else ch | _ => ch end in
      width_define ce pl v n ch' cells
  | Wrun pl v n => width_define_rt ce pl v n 32 cells
  | Wrun_ch pl v n ch => width_define_rt ce pl v n ch cells
  end.

(** integers/impl.h 1756-1770: the shift of integers, which are held by value. *)
Definition int_shift (fl : pflags) (ty : int_type) (t : Z) : option nat :=
  if pf_showpos fl || isigned ty
  then Some (if pf_showpos fl then 1%nat else if t <? 0 then 1%nat else 0%nat)
  else None.
Definition int_value (fl : pflags) (ty : int_type) (t : Z) : option wvalue :=
  bind (print_int fl ty t) (fun text =>
  Some (mk_wvalue text (Z.to_nat (reserved_size fl ty)) (int_shift fl ty t) false)).
