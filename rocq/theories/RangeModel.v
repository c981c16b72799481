(** Model of include/fast_io_core_impl/range_view.h: rgvw(range, separator).
    An element is what it prints; [None] is an element or a place outside of the range or of the space reserved. *)
From Verif Require Import Base BufModel PrintModel.
Local Open Scope nat_scope.

(** What a manipulator of a range of elements prints with: sized_range_view_t (4-13), for elements with a static reserve size [R] (each
    element a text), or range_view_t (17-25), for any elements. *)
Inductive rview :=
| Sized (R : nat) (sep : list Z) (elems : list (list Z)) (size : nat)
| Unsized (sep : list Z) (elems : list parg).

(** 30-37 print_reserve_size of a sized view whose elements have a static reserve size; [w] the width of size_t: nothing checks the
    multiplication. *)
Definition sized_reserve (w : Z) (R : nat) (seplen size : nat) : Z :=
  if size =? 0 then 0%Z else wrap w (wrap w (Z.of_nat R + Z.of_nat seplen) * Z.of_nat size).
(** 38-46: the branch for elements with a dynamic reserve size; no function of the library makes such a view. *)
Definition dynamic_reserve (w : Z) (seplen : nat) (sizes : list nat) : Z :=
  if length sizes =? 0 then 0%Z
  else fold_left (fun r s => wrap w (r + Z.of_nat s)) sizes (wrap w (wrap w (Z.of_nat seplen * Z.of_nat (length sizes)) - 1)).

(** 57-63: the loop, [k] iterations left, [cur] the iterator. *)
Fixpoint define_loop (sep : list Z) (elems : list (list Z)) (k cur : nat) : option (list Z) :=
  match k with
  | O => Some []
  | S k => match nth_error elems cur, define_loop sep elems k (cur + 1) with
           | Some t, Some r => Some (sep ++ t ++ r)
           | _, _ => None
           end
  end.
(** 48-65 print_reserve_define of a sized view. *)
Definition sized_define (sep : list Z) (elems : list (list Z)) (size : nat) : option (list Z) :=
  if size =? 0 then Some []
  else match nth_error elems 0, define_loop sep elems (size - 1) 1 with Some t, Some r => Some (t ++ r) | _, _ => None end.
(** A sized view as an argument of print: the place reserved and the text stored there; [None] when it is stored outside. *)
Definition sized_arg (w : Z) (R : nat) (sep : list Z) (elems : list (list Z)) (size : nat) : option parg :=
  match sized_define sep elems size with
  | Some t => let n := sized_reserve w R (length sep) size in
              if (Z.of_nat (length t) <=? n)%Z then Some (PDynamic (Z.to_nat n) t) else None
  | None => None
  end.

(** 67-78 print_define of an unsized view on a buffered stream: one print for the first element, one for each separator and element. *)
Definition unsized_print {S} (B : ostream S) (opt : bool) (s : S) (sep : list Z) (elems : list parg) : res S :=
  match elems with
  | [] => Fine s
  | e :: r => then! s := print_buffered B opt false s [e] in
              fold_left (fun q e => then! s := q in print_buffered B opt false s [PScatter sep; e]) r (Fine s)
  end.

(** 81-113 rgvw(r, sep) for a separator of one character, 115-144 for a separator that is a string: which view is made.
    [elem_reserve] the static reserve size of the element type if it has one; [sized] the number of elements is known in
    constant time (size(r), or the difference of the pointers of a contiguous range). *)
Definition rgvw (elem_reserve : option nat) (sized : bool) (sep : list Z) (elems : list parg) : rview :=
  match elem_reserve with
  | Some R => if sized then Sized R sep (map text_of elems) (length elems) else Unsized sep elems
  | None => Unsized sep elems
  end.
(** print(out, rgvw(...)) on a buffered stream. *)
Definition print_rgvw {S} (w : Z) (B : ostream S) (opt : bool) (s : S) (v : rview) : option (res S) :=
  match v with
  | Sized R sep elems size => match sized_arg w R sep elems size with Some a => Some (print_buffered B opt false s [a]) | None => None end
  | Unsized sep elems => Some (unsized_print B opt s sep elems)
  end.
