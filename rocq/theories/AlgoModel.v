(** Model of the freestanding algorithms: include/fast_io_core_impl/freestanding/algorithm.h and bytes.h.

    A range of objects is a list of cells, an iterator into it is a position.  Reading or writing
    a position outside of the list is undefined behaviour (None).  Two ranges that may overlap are two pairs
    of positions into the same list.  A `for (; first != last; ++first)` loop is a recursion on last - first. *)
From Coq Require Import List.
From Verif Require Import Base.
Import ListNotations.
Local Open Scope nat_scope.

Section Algo.
Context {A : Type}.

(** *p and *p = v *)
Definition load (m : list A) (i : nat) : option A := nth_error m i.
Fixpoint store (m : list A) (i : nat) (v : A) : option (list A) :=
  match m, i with
  | [], _ => None
  | _ :: t, O => Some (v :: t)
  | x :: t, S j => match store t j v with Some t' => Some (x :: t') | None => None end
  end.

(** ** Searching *)
(** algorithm.h 28-39 find_if *)
Fixpoint find_if_loop (q : A -> bool) (m : list A) (n first : nat) : option nat :=
  match n with
  | O => Some first
  | S n' => match load m first with
            | None => None
            | Some x => if q x then Some first else find_if_loop q m n' (S first)
            end
  end.
Definition find_if (q : A -> bool) (m : list A) (first last : nat) : option nat := find_if_loop q m (last - first) first.

Context (eqb : A -> A -> bool).

(** algorithm.h 133-146 find *)
Fixpoint find_loop (t : A) (m : list A) (n first : nat) : option nat :=
  match n with
  | O => Some first
  | S n' => match load m first with
            | None => None
            | Some x => if eqb x t then Some first else find_loop t m n' (S first)
            end
  end.
Definition find (t : A) (m : list A) (first last : nat) : option nat := find_loop t m (last - first) first.

(** algorithm.h 148-161 find_not for integers, 741-748 for other types: the same loop written in two ways *)
Fixpoint find_not_loop (t : A) (m : list A) (n first : nat) : option nat :=
  match n with
  | O => Some first
  | S n' => match load m first with
            | None => None
            | Some x => if negb (eqb x t) then Some first else find_not_loop t m n' (S first)
            end
  end.
Definition find_not (t : A) (m : list A) (first last : nat) : option nat := find_not_loop t m (last - first) first.

(** algorithm.h 750-762 find_last: n = it - first *)
Fixpoint find_last_loop (t : A) (m : list A) (n it last : nat) : option nat :=
  match n with
  | O => Some last
  | S n' => match load m (it - 1) with
            | None => None
            | Some x => if eqb x t then Some (it - 1) else find_last_loop t m n' (it - 1) last
            end
  end.
Definition find_last (t : A) (m : list A) (first last : nat) : option nat := find_last_loop t m (last - first) last last.

(** algorithm.h 764-776 find_last_not *)
Fixpoint find_last_not_loop (t : A) (m : list A) (n it last : nat) : option nat :=
  match n with
  | O => Some last
  | S n' => match load m (it - 1) with
            | None => None
            | Some x => if negb (eqb x t) then Some (it - 1) else find_last_not_loop t m n' (it - 1) last
            end
  end.
Definition find_last_not (t : A) (m : list A) (first last : nat) : option nat :=
  find_last_not_loop t m (last - first) last last.

(** The inner loop over the set of 784-787 and 819-822: `for (; it2 != slast && *it2 != *first; ++it2)`,
    then the test `it2 == slast`.  s is the set's memory.  Some true: no element of the set is equal. *)
Fixpoint none_of_loop (x : A) (s : list A) (n it2 : nat) : option bool :=
  match n with
  | O => Some true
  | S n' => match load s it2 with
            | None => None
            | Some y => if negb (eqb y x) then none_of_loop x s n' (S it2) else Some false
            end
  end.
(** The inner loop of find_last_of, 801-807: Some true: some element of the set is equal. *)
Fixpoint some_of_loop (x : A) (s : list A) (n it2 : nat) : option bool :=
  match n with
  | O => Some false
  | S n' => match load s it2 with
            | None => None
            | Some y => if eqb x y then Some true else some_of_loop x s n' (S it2)
            end
  end.

(** algorithm.h 778-793 find_first_not_of *)
Fixpoint find_first_not_of_loop (s : list A) (sfirst slast : nat) (m : list A) (n first : nat) : option nat :=
  match n with
  | O => Some first
  | S n' => match load m first with
            | None => None
            | Some x => match none_of_loop x s (slast - sfirst) sfirst with
                        | None => None
                        | Some true => Some first
                        | Some false => find_first_not_of_loop s sfirst slast m n' (S first)
                        end
            end
  end.
Definition find_first_not_of (m : list A) (first last : nat) (s : list A) (sfirst slast : nat) : option nat :=
  find_first_not_of_loop s sfirst slast m (last - first) first.

(** algorithm.h 795-810 find_last_of *)
Fixpoint find_last_of_loop (s : list A) (sfirst slast : nat) (m : list A) (n it last : nat) : option nat :=
  match n with
  | O => Some last
  | S n' => match load m (it - 1) with
            | None => None
            | Some x => match some_of_loop x s (slast - sfirst) sfirst with
                        | None => None
                        | Some true => Some (it - 1)
                        | Some false => find_last_of_loop s sfirst slast m n' (it - 1) last
                        end
            end
  end.
Definition find_last_of (m : list A) (first last : nat) (s : list A) (sfirst slast : nat) : option nat :=
  find_last_of_loop s sfirst slast m (last - first) last last.

(** algorithm.h 812-828 find_last_not_of *)
Fixpoint find_last_not_of_loop (s : list A) (sfirst slast : nat) (m : list A) (n it last : nat) : option nat :=
  match n with
  | O => Some last
  | S n' => match load m (it - 1) with
            | None => None
            | Some x => match none_of_loop x s (slast - sfirst) sfirst with
                        | None => None
                        | Some true => Some (it - 1)
                        | Some false => find_last_not_of_loop s sfirst slast m n' (it - 1) last
                        end
            end
  end.
Definition find_last_not_of (m : list A) (first last : nat) (s : list A) (sfirst slast : nat) : option nat :=
  find_last_not_of_loop s sfirst slast m (last - first) last last.

(** ** Comparing two ranges *)
(** algorithm.h 170-178 my_mismatch *)
Fixpoint mismatch_loop (m1 m2 : list A) (n1 n2 first1 first2 : nat) : option (nat * nat) :=
  match n1, n2 with
  | S n1', S n2' => match load m1 first1, load m2 first2 with
                    | Some x, Some y => if eqb x y then mismatch_loop m1 m2 n1' n2' (S first1) (S first2)
                                        else Some (first1, first2)
                    | _, _ => None
                    end
  | _, _ => Some (first1, first2)
  end.
Definition my_mismatch (m1 : list A) (first1 last1 : nat) (m2 : list A) (first2 last2 : nat) : option (nat * nat) :=
  mismatch_loop m1 m2 (last1 - first1) (last2 - first2) first1 first2.

(** algorithm.h 524-532 equal *)
Definition equal (m1 : list A) (first1 last1 : nat) (m2 : list A) (first2 last2 : nat) : option bool :=
  match mismatch_loop m1 m2 (last1 - first1) (last2 - first2) first1 first2 with
  | Some (p1, p2) => Some ((p1 =? last1) && (p2 =? last2))
  | None => None
  end.

Context (ltb : A -> A -> bool).

(** algorithm.h 506-522 lexicographical_compare *)
Fixpoint lexicographical_loop (m1 m2 : list A) (n1 n2 first1 first2 : nat) : option bool :=
  match n1, n2 with
  | S n1', S n2' => match load m1 first1, load m2 first2 with
                    | Some x, Some y => if ltb x y then Some true
                                        else if ltb y x then Some false
                                        else lexicographical_loop m1 m2 n1' n2' (S first1) (S first2)
                    | _, _ => None
                    end
  | O, S _ => Some true
  | _, O => Some false
  end.
Definition lexicographical_compare (m1 : list A) (first1 last1 : nat) (m2 : list A) (first2 last2 : nat) : option bool :=
  lexicographical_loop m1 m2 (last1 - first1) (last2 - first2) first1 first2.

(** algorithm.h 534-558 lower_bound; c = comp( . , value).  The answer carries the number of comparisons.
    The fuel bounds the loop, None when it runs out. *)
Fixpoint lower_bound_loop (fuel : nat) (c : A -> bool) (m : list A) (count first calls : nat) : option (nat * nat) :=
  match count with
  | O => Some (first, calls)
  | _ =>
      match fuel with
      | O => None
      | S fuel' =>
          let step := count / 2 in
          match load m (first + step) with
          | None => None
          | Some x => if c x then lower_bound_loop fuel' c m (count - (step + 1)) (S (first + step)) (S calls)
                      else lower_bound_loop fuel' c m step first (S calls)
          end
      end
  end.
Definition lower_bound (c : A -> bool) (m : list A) (first last : nat) : option (nat * nat) :=
  lower_bound_loop (last - first) c m (last - first) first 0.

(** ** Changing a range *)
(** algorithm.h 91-108 fill, fill_n; bytes.h 190-243 bytes_clear, bytes_fill (val = 0 and val), where memset does the same at run time *)
Fixpoint fill_loop (v : A) (m : list A) (n first : nat) : option (list A) :=
  match n with
  | O => Some m
  | S n' => match store m first v with None => None | Some m' => fill_loop v m' n' (S first) end
  end.
Definition fill (m : list A) (first last : nat) (v : A) : option (list A) := fill_loop v m (last - first) first.
Definition fill_n (m : list A) (first n : nat) (v : A) : option (list A) := fill_loop v m n first.

(** algorithm.h 180-197 remove *)
Fixpoint remove_loop (t : A) (m : list A) (n i first : nat) : option (list A * nat) :=
  match n with
  | O => Some (m, first)
  | S n' => match load m i with
            | None => None
            | Some x => if negb (eqb x t)
                        then match store m first x with
                             | None => None
                             | Some m' => remove_loop t m' n' (S i) (S first)
                             end
                        else remove_loop t m n' (S i) first
            end
  end.
Definition remove (m : list A) (first last : nat) (t : A) : option (list A * nat) :=
  match find t m first last with
  | None => None
  | Some p => if p =? last then Some (m, p)
              else remove_loop t m (last - S p) (S p) p
  end.

(** std::ranges::swap( *p, *q) *)
Definition swap (m : list A) (i j : nat) : option (list A) :=
  match load m i, load m j with
  | Some x, Some y => match store m i y with Some m' => store m' j x | None => None end
  | _, _ => None
  end.

(** algorithm.h 712-739 rotate: the loop (n = last - read), then the recursive call *)
Fixpoint rotate_loop (m : list A) (n write next_read read : nat) : option (list A * nat * nat) :=
  match n with
  | O => Some (m, write, next_read)
  | S n' => let next_read' := if write =? next_read then read else next_read in
            match swap m write read with
            | None => None
            | Some m' => rotate_loop m' n' (S write) next_read' (S read)
            end
  end.
Fixpoint rotate_rec (fuel : nat) (m : list A) (first middle last : nat) : option (list A * nat) :=
  if first =? middle then Some (m, last)
  else if middle =? last then Some (m, first)
  else match fuel with
       | O => None
       | S fuel' =>
           match rotate_loop m (last - middle) first first middle with
           | None => None
           | Some (m', write, next_read) =>
               match rotate_rec fuel' m' write next_read last with
               | None => None
               | Some (m'', _) => Some (m'', write)
               end
           end
       end.
Definition rotate (m : list A) (first middle last : nat) : option (list A * nat) :=
  rotate_rec (last - first) m first middle last.

(** ** Copying *)
(** What `if constexpr` knows of an element type: std::byte, an integer type of some size, anything else
    (trivially copyable or not, with its size).  tag tells types of one size apart. *)
Inductive ety := EByte | EInt (size tag : nat) | EObj (trivial : bool) (size tag : nat).
Definition size_of (t : ety) : nat := match t with EByte => 1 | EInt s _ => s | EObj _ s _ => s end.
Definition trivial (t : ety) : bool := match t with EObj b _ _ => b | _ => true end.
Definition same_as (a b : ety) : bool :=
  match a, b with
  | EByte, EByte => true
  | EInt s t, EInt s' t' => (s =? s') && (t =? t')
  | EObj b s t, EObj b' s' t' => Bool.eqb b b' && (s =? s') && (t =? t')
  | _, _ => false
  end.
Definition is_byte (t : ety) : bool := match t with EByte => true | _ => false end.
Definition integral (t : ety) : bool := match t with EInt _ _ => true | _ => false end.

(** cast: the conversion of a value of the input type to the output type that `*result = *first`, static_cast and,
    between types of one size, the copying of the object representation make (bool is left out: there the
    last one differs). *)
Context (cast : A -> A).

(** algorithm.h 41-66 copy_n: all three branches store the converted value; bytes.h 10-18 bytes_copy_naive_n_impl *)
Fixpoint copy_n_loop (m : list A) (n first result : nat) : option (list A * nat) :=
  match n with
  | O => Some (m, result)
  | S n' => match load m first with
            | None => None
            | Some x => match store m result (cast x) with
                        | None => None
                        | Some m' => copy_n_loop m' n' (S first) (S result)
                        end
            end
  end.
Definition copy_n (m : list A) (first count result : nat) : option (list A * nat) := copy_n_loop m count first result.

(** algorithm.h 68-88 copy: two of the three branches of copy_n; there is no `else *result = *first;` *)
Definition copy_stores (ti to : ety) : bool :=
  (is_byte ti && integral to) || ((size_of to =? 1) && is_byte to && integral ti).
Definition copy (ti to : ety) (m : list A) (first last result : nat) : option (list A * nat) :=
  if copy_stores ti to then copy_n_loop m (last - first) first result
  else Some (m, result + (last - first)).

(** algorithm.h 110-124 copy_backward, move_backward *)
Fixpoint copy_backward_loop (m : list A) (n last d_last : nat) : option (list A * nat) :=
  match n with
  | O => Some (m, d_last)
  | S n' => match load m (last - 1) with
            | None => None
            | Some x => match d_last with
                        | O => None
                        | S d => match store m d (cast x) with
                                 | None => None
                                 | Some m' => copy_backward_loop m' n' (last - 1) d
                                 end
                        end
            end
  end.
Definition copy_backward (m : list A) (first last d_last : nat) : option (list A * nat) :=
  copy_backward_loop m (last - first) last d_last.

(** memmove of n elements (C standard: as if through a temporary); memcpy is undefined when the ranges overlap *)
Definition memmove (m : list A) (dest src n : nat) : option (list A) :=
  if (src + n <=? length m) && (dest + n <=? length m)
  then Some (firstn dest m ++ map cast (firstn n (skipn src m)) ++ skipn (dest + n) m)
  else None.
Definition overlap (a b n : nat) : bool := (a <? b + n) && (b <? a + n).
Definition memcpy (m : list A) (dest src n : nat) : option (list A) :=
  if (overlap dest src n) then None else memmove m dest src n.

(** the condition of 300-305, 337-342 (byte counts as an integer) and of 375-380, 435-440, 482-487, 580-585 (it does not) *)
Definition bitwise (contiguous byte_too : bool) (ti to : ety) : bool :=
  let int t := integral t || (byte_too && is_byte t) in
  contiguous && trivial ti && trivial to && (same_as ti to || (int ti && int to && (size_of ti =? size_of to))).
(** 401-406 (my_copy): both sizes are sizeof(bool) *)
Definition bitwise_my_copy (contiguous : bool) (ti to : ety) : bool :=
  contiguous && trivial ti && trivial to && (same_as ti to || (integral ti && integral to)).

(** algorithm.h 283-317 non_overlapped_copy_n.  ce: during constant evaluation *)
Definition non_overlapped_copy_n (ce contiguous : bool) (ti to : ety) (m : list A) (first count result : nat)
  : option (list A * nat) :=
  if ce then copy_n m first count result
  else if bitwise contiguous true ti to then
    if count =? 0 then Some (m, result + count)
    else match memcpy m result first count with Some m' => Some (m', result + count) | None => None end
  else copy_n m first count result.

(** algorithm.h 320-356 non_overlapped_copy *)
Definition non_overlapped_copy (ce contiguous : bool) (ti to : ety) (m : list A) (first last result : nat)
  : option (list A * nat) :=
  if ce then copy ti to m first last result
  else if bitwise contiguous true ti to then
    let count := last - first in
    if count =? 0 then Some (m, result + count)
    else match memcpy m result first count with Some m' => Some (m', result + count) | None => None end
  else copy ti to m first last result.

(** algorithm.h 358-392 my_copy_n; bytes.h 26-57 bytes_copy_n is the case std::byte, std::byte *)
Definition my_copy_n (ce contiguous : bool) (ti to : ety) (m : list A) (first count result : nat)
  : option (list A * nat) :=
  if ce then copy_n m first count result
  else if bitwise contiguous false ti to then
    if count =? 0 then Some (m, result + count)
    else match memmove m result first count with Some m' => Some (m', result + count) | None => None end
  else copy_n m first count result.

(** algorithm.h 394-415 my_copy *)
Definition my_copy (ce contiguous : bool) (ti to : ety) (m : list A) (first second result : nat)
  : option (list A * nat) :=
  if bitwise_my_copy contiguous ti to then
    match my_copy_n ce contiguous ti to m first (second - first) result with
    | Some (m', _) => Some (m', result + (second - first))
    | None => None
    end
  else copy ti to m first second result.

(** algorithm.h 417-454 my_copy_backward *)
Definition my_copy_backward (ce contiguous : bool) (ti to : ety) (m : list A) (first last d_last : nat)
  : option (list A * nat) :=
  if ce then copy_backward m first last d_last
  else if bitwise contiguous false ti to then
    let count := last - first in
    if d_last <? count then None
    else if count =? 0 then Some (m, d_last - count)
    else match memmove m (d_last - count) first count with Some m' => Some (m', d_last - count) | None => None end
  else copy_backward m first last d_last.

(** algorithm.h 456-503 my_compare_iter_n.  bytes: the object representation of an element.
    At run time, for the bitwise types, memcmp compares n BYTES.  The last branch (elements that
    are not bitwise comparable, at run time) compares `*first != outier`, an element with an iterator, which does
    not compile for any type the callers use: it is None here. *)
Fixpoint compare_loop (m1 m2 : list A) (n first outier : nat) : option bool :=
  match n with
  | O => Some true
  | S n' => match load m1 first, load m2 outier with
            | Some x, Some y => if negb (eqb x y) then Some false else compare_loop m1 m2 n' (S first) (S outier)
            | _, _ => None
            end
  end.
Definition memcmp_zero (bytes : A -> list Z) (m1 m2 : list A) (first outier n : nat) : bool :=
  let rep m p := firstn n (concat (map bytes (skipn p m))) in
  if list_eq_dec Z.eq_dec (rep m1 first) (rep m2 outier) then true else false.
Definition my_compare_iter_n (ce contiguous : bool) (ti to : ety) (bytes : A -> list Z)
  (m1 : list A) (first n : nat) (m2 : list A) (outier : nat) : option bool :=
  if ce then compare_loop m1 m2 n first outier
  else if bitwise contiguous false ti to then
    if (first + n <=? length m1) && (outier + n <=? length m2)
    then Some (memcmp_zero bytes m1 m2 first outier n) else None
  else None.

(** ** Constructing *)
(** Storage whose cells hold an object or nothing.  Constructing over an object and destroying nothing are errors (None). *)
Definition construct (d : list (option A)) (i : nat) (v : A) : option (list (option A)) :=
  match nth_error d i with
  | Some None => Some (firstn i d ++ Some v :: skipn (S i) d)
  | _ => None
  end.
Definition destroy (d : list (option A)) (i : nat) : option (list (option A)) :=
  match nth_error d i with
  | Some (Some _) => Some (firstn i d ++ None :: skipn (S i) d)
  | _ => None
  end.
Inductive outcome := Built (d : list (option A)) (it : nat) | Threw (d : list (option A)) | Undefined.

(** algorithm.h 564-575, 620-631: the destructor of struct destroyer; n = current - d_first *)
Fixpoint destroy_loop (d : list (option A)) (n d_first : nat) : option (list (option A)) :=
  match n with
  | O => Some d
  | S n' => match destroy d d_first with Some d' => destroy_loop d' n' (S d_first) | None => None end
  end.
(** algorithm.h 601-610, 657-667: the loop and the disarming of the guard.
    throws x: the copy constructor throws when it copies x. *)
Fixpoint construct_loop (throws : A -> bool) (m : list A) (d : list (option A)) (n first d_first current : nat) : outcome :=
  match n with
  | O => match destroy_loop d (d_first - d_first) d_first with Some d' => Built d' current | None => Undefined end
  | S n' => match load m first with
            | None => Undefined
            | Some x =>
                if throws x
                then match destroy_loop d (current - d_first) d_first with Some d' => Threw d' | None => Undefined end
                else match construct d current x with
                     | Some d' => construct_loop throws m d' n' (S first) d_first (S current)
                     | None => Undefined
                     end
            end
  end.
(** algorithm.h 560-612 uninitialized_copy and 614-668 uninitialized_copy_n (n = last - first): bitwise at run time,
    where no constructor runs: the same cells with the loop of a type that never throws *)
Definition uninitialized_copy (ce contiguous : bool) (ti to : ety) (throws : A -> bool) (m : list A) (d : list (option A))
  (first n d_first : nat) : outcome :=
  if bitwise contiguous false ti to && negb ce
  then construct_loop (fun _ => false) m d n first d_first d_first
  else construct_loop throws m d n first d_first d_first.
End Algo.
