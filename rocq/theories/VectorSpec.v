(** What a user of the vector expects: the operations on the mathematical
    sequence of its elements.  Nothing here mentions storage. *)
From Verif Require Import Base VectorModel.

Section Spec.
Context {A : Type}.

(** The value an argument denotes when the call is made. *)
Definition value_of (l : list A) (a : arg A) : option A :=
  match a with Own x => Some x | Elem i => nth_error l i end.

(** The sequence after one operation; [None]: the operation is out of range. *)
Definition spec_op (l : list A) (o : op A) : option (list A) :=
  match o with
  | OPush a => option_map (fun x => l ++ [x]) (value_of l a)
  | OInsert pos a | OInsertIndex pos a =>
      if (pos <=? length l)%nat
      then option_map (fun x => firstn pos l ++ [x] ++ skipn pos l) (value_of l a)
      else None
  | OPop => match l with [] => None | _ => Some (removelast l) end
  | OErase pos | OEraseIndex pos =>
      if (pos <? length l)%nat then Some (firstn pos l ++ skipn (S pos) l) else None
  | OEraseRange first last | OEraseIndexRange first last =>
      if (first <=? last)%nat && (last <=? length l)%nat
      then Some (firstn first l ++ skipn last l) else None
  | OReserve _ | OShrink | OCopy | OMove => Some l
  | OClear | OClearDestroy => Some []
  end.

Fixpoint spec_run (l : list A) (os : list (op A)) : option (list A) :=
  match os with
  | [] => Some l
  | o :: os => match spec_op l o with Some l => spec_run l os | None => None end
  end.

(** The vector shows exactly the sequence [l]: its size, and every element
    through [operator[]]; and the size is within the capacity. *)
Definition shows (v : vec A) (l : list A) : Prop :=
  v_size v = length l /\ (v_size v <= v_cap v)%nat /\
  forall i, index v i = match nth_error l i with Some x => VFine x | None => VBounds end.

(** Every object that left the vector was destroyed, and there is none in the
    unused part of the block. *)
Definition tidy (kd : kind) (v : vec A) : Prop :=
  k_tdtor kd = true \/
  (v_lost v = 0%nat /\ forall i, (v_size v <= i < v_cap v)%nat -> nth_error (v_store v) i = Some Raw).

(** An element type: positive size; a trivially copyable type is trivially
    destructible, both are independent of relocatability otherwise. *)
Definition good_kind (kd : kind) : Prop := 0 < k_size kd.

(** An allocator never gives less than it was asked for, and blocks are
    smaller than half of the address space (as malloc guarantees). *)
Definition sane (al : alloc) : Prop :=
  forall n c, 0 <= n -> al n = Some c -> n <= c < 2 ^ 63.

(** An allocator that grants every request of at most [m] bytes. *)
Definition willing (al : alloc) (m : Z) : Prop :=
  forall n, 0 <= n <= m -> al n <> None.

(** The operations the implementation gets right.  Excluded: [erase] of one
    element; pushing a reference to one of the vector's own elements;
    inserting such a reference when the constructor is noexcept;
    [erase(it, it)] in the middle for types that are not relocatable;
    [erase_index(first, last)] with [last] equal to the size. *)
Definition supported (kd : kind) (l : list A) (o : op A) : Prop :=
  match o with
  | OPush (Elem _) => False
  | OInsert _ (Elem _) | OInsertIndex _ (Elem _) => k_nothrow kd = false
  | OErase _ | OEraseIndex _ => False
  | OEraseRange first last =>
      k_reloc kd = true \/ (first < last)%nat \/ last = length l
  | OEraseIndexRange first last =>
      (last < length l)%nat /\ (k_reloc kd = true \/ (first < last)%nat)
  | _ => True
  end.

Fixpoint supported_run (kd : kind) (l : list A) (os : list (op A)) : Prop :=
  match os with
  | [] => True
  | o :: os => supported kd l o /\
               match spec_op l o with Some l => supported_run kd l os | None => False end
  end.

(** The operations that destroy everything they should: all of the above except
    inserting before an existing element of a type that is not relocatable. *)
Definition careful (kd : kind) (l : list A) (o : op A) : Prop :=
  match o with
  | OInsert pos _ | OInsertIndex pos _ => k_reloc kd = true \/ pos = length l
  | _ => True
  end.

Fixpoint careful_run (kd : kind) (l : list A) (os : list (op A)) : Prop :=
  match os with
  | [] => True
  | o :: os => careful kd l o /\
               match spec_op l o with Some l => careful_run kd l os | None => False end
  end.

(** Every intermediate length, and every reservation, is at most [m]. *)
Fixpoint modest (m : nat) (l : list A) (os : list (op A)) : Prop :=
  match os with
  | [] => True
  | o :: os => match o with OReserve n => n <= Z.of_nat m | _ => True end /\
               match spec_op l o with
               | Some l => (length l <= m)%nat /\ modest m l os
               | None => False end
  end.

End Spec.
