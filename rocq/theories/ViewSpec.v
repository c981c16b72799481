(** What users expect of a view over an array of characters and of a growing buffer, stated without the pointers. *)
From Verif Require Import Base BufModel PrintModel BufSpec ViewModel.
Local Open Scope nat_scope.

(** begin_ptr <= curr_ptr <= end_ptr. *)
Definition view_ok (v : view) : Prop := v_begin v <= v_curr v <= v_end v.
(** A print_reserve_define of an argument with a run-time bound is not among the arguments. *)
Definition no_dynamic (p : parg) : Prop := match p with PDynamic _ _ => False | _ => True end.
Definition vop_ok (x : vop) : Prop :=
  match x with VPrint _ _ args => Forall arg_ok args /\ Forall no_dynamic args | _ => True end.
(** The text the view should show after the operations when it showed [before]. *)
Fixpoint shown (before : list Z) (xs : list vop) : list Z :=
  match xs with
  | [] => before
  | VWrite l :: xs => shown (before ++ l) xs
  | VPut ch :: xs => shown (before ++ [ch]) xs
  | VPrint _ line args :: xs => shown (before ++ printed line args) xs
  | VClear :: xs => shown [] xs
  end.
(** The length of the text of an argument, as far as it is known before it is printed. *)
Definition announced (p : parg) : nat :=
  match p with PScatter t => length t | PReserve sz _ => sz | PDynamic sz _ => sz | PDefine ws => length (concat ws) end.
Definition announced_all (line : bool) (args : list parg) : nat :=
  fold_right (fun p n => announced p + n) 0 args + eol_size line.
(** Every operation finds room for what it announces, in an array of [cap] characters of which [used] are used. *)
Fixpoint fits (cap used : nat) (xs : list vop) : Prop :=
  match xs with
  | [] => True
  | VWrite l :: xs => used + length l <= cap /\ fits cap (used + length l) xs
  | VPut ch :: xs => used + 1 <= cap /\ fits cap (used + 1) xs
  | VPrint _ line args :: xs =>
      used + announced_all line args <= cap /\ fits cap (used + length (printed line args)) xs
  | VClear :: xs => fits cap 0 xs
  end.
(** Every text fits. *)
Fixpoint text_fits (cap used : nat) (xs : list vop) : Prop :=
  match xs with
  | [] => True
  | VWrite l :: xs => used + length l <= cap /\ text_fits cap (used + length l) xs
  | VPut ch :: xs => used + 1 <= cap /\ text_fits cap (used + 1) xs
  | VPrint _ line args :: xs =>
      used + length (printed line args) <= cap /\ text_fits cap (used + length (printed line args)) xs
  | VClear :: xs => text_fits cap 0 xs
  end.
(** No argument announces more than its text. *)
Definition exact_op (x : vop) : Prop :=
  match x with VPrint _ _ args => Forall (fun p => announced p = length (text_of p)) args | _ => True end.
(** Outside the array that the view was made over, memory is as it was. *)
Definition same_outside (v v' : view) : Prop :=
  v_begin v' = v_begin v /\ v_end v' = v_end v /\
  forall i, i < v_begin v \/ v_end v <= i -> v_mem v' i = v_mem v i.

(** ** dynamic_io_buffer *)
Definition dsaid (x : dop) : list Z := match x with DWrite t => t | DPut ch => [ch] | _ => [] end.
(** The operations that keep the text: a write finds the buffer empty or too small; a put finds a buffer that has been
    allocated; oreserve does not ask for less than what is stored. *)
Definition careful (b : dbuf) (x : dop) : Prop :=
  match x with
  | DWrite t => db_text b = [] \/ db_cap b - length (db_text b) < length t
  | DPut _ => 0 < db_cap b /\ (Z.of_nat (db_cap b) < 2 ^ 64 - 1)%Z
  | DReserve n => length (db_text b) <= n
  | DShrink => True
  end.
Fixpoint careful_run (b : dbuf) (xs : list dop) : Prop :=
  match xs with
  | [] => True
  | x :: xs => careful b x /\ forall b', do_dop b x = Fine b' -> careful_run b' xs
  end.
