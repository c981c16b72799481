(** Model of auto_indent (include/fast_io_freestanding_impl/auto_indent.h, include/fast_io_hosted/auto_indent.h) and of
    cond (include/fast_io_freestanding_impl/cond.h).
    Simplifications: ASCII execution character set; the container of widths is a list and its growth never fails; the
    pointers into the text are the rest of the text and the length (or the characters) of the cell read so far. *)
From Verif Require Import Base PrintModel.
Local Open Scope nat_scope.

Definition tab_ch : Z := 9%Z.
Definition lf_ch : Z := 10%Z.
Definition space_ch : Z := 32%Z.

(** 69-75 / 88-94: cont[pos]=max(cont[pos],w), or emplace_back. *)
Definition bump (cont : list nat) (pos w : nat) : list nat :=
  if Nat.ltb pos (length cont) then
    if Nat.ltb (nth pos cont 0) w then firstn pos cont ++ w :: skipn (S pos) cont else cont
  else cont ++ [w].
(** 65-96: the loop and the last cell; [n] is first-last_tab.  The result is the container and [lines]. *)
Fixpoint calc_loop (l : list Z) (n pos lines : nat) (cont : list nat) : list nat * nat :=
  match l with
  | [] => if Nat.eqb n 0 then (cont, lines) else (bump cont pos n, lines + 1)
  | c :: l =>
      if orb (Z.eqb c tab_ch) (Z.eqb c lf_ch) then
        let cont := bump cont pos n in
        if Z.eqb c lf_ch then calc_loop l 0 0 (lines + 1) cont else calc_loop l 0 (pos + 1) lines cont
      else calc_loop l (n + 1) pos lines cont
  end.
(** intrinsics::add_or_overflow_die_chain and mul_or_overflow_die on std::size_t (C10): None when the process is terminated. *)
Definition checked (x : Z) : option Z := if Z.ltb x (2 ^ 64)%Z then Some x else None.
Definition bindo {A B : Type} (x : option A) (f : A -> option B) : option B :=
  match x with Some a => f a | None => None end.
(** 97-99. *)
Fixpoint total_width (acc : Z) (cont : list nat) : option Z :=
  match cont with
  | [] => Some acc
  | e :: cont => bindo (checked (acc + Z.of_nat e)) (fun a => bindo (checked (a + 1)) (fun a => total_width a cont))
  end.
(** 54-102 calculate_auto_width_result: the widths and total_size. *)
Definition calculate (text : list Z) : option (list nat * Z) :=
  let '(cont, lines) := calc_loop text 0 0 0 [] in
  bindo (total_width 1 cont) (fun t => bindo (checked (t * Z.of_nat lines)) (fun t => Some (cont, t))).

(** 116-141 the loop of print_reserve_define_auto_indent and the last cell; [cell] holds the characters from last_tab to
    first.  None: line_ptr[pos_this_line] is read outside the container or the number of spaces wraps around. *)
Fixpoint indent_loop (cont : list nat) (l cell : list Z) (pos : nat) : option (list Z) :=
  match l with
  | [] => Some cell
  | c :: l =>
      if Z.eqb c tab_ch then
        match nth_error cont pos with
        | None => None
        | Some w =>
            if Nat.ltb w (length cell) then None
            else bindo (indent_loop cont l [] (pos + 1))
                   (fun out => Some (cell ++ repeat space_ch (w - length cell) ++ [tab_ch] ++ out))
        end
      else if Z.eqb c lf_ch then bindo (indent_loop cont l [] 0) (fun out => Some (cell ++ [lf_ch] ++ out))
      else indent_loop cont l (cell ++ [c]) pos
  end.
(** 104-142 print_reserve_define_auto_indent. *)
Definition indent_print (text : list Z) (cont : list nat) : option (list Z) := indent_loop cont text [] 0.
(** 149-155 print_reserve_size and 157-164 print_reserve_define: print(auto_indent(text)) as an argument of print. *)
Definition auto_indent (text : list Z) : option parg :=
  bindo (calculate text) (fun '(cont, total) =>
    bindo (indent_print text cont) (fun out => Some (PDynamic (Z.to_nat total) out))).

(** ** cond *)
(** cond.h 20-48: the alias types differ, so that a condition<T1,T2> (larger one first, 39-46) is printed; the type offers the
    most specific of the four ways that both alternatives allow: 52-80 print_reserve_size of both, print_scatter_define of both,
    126-156 otherwise a run-time size, 158-172 print_define if one of them only has print_define. *)
Definition cond_size (p : parg) : nat :=                                                        (* 93-109 *)
  match p with PScatter t => length t | PReserve sz _ => sz | PDynamic sz _ => sz | PDefine _ => 0 end.
Definition condition (pred : bool) (t1 t2 : parg) : parg :=
  match t1, t2 with
  | PDefine _, _ | _, PDefine _ => PDefine [text_of (if pred then t1 else t2)]
  | PScatter a, PScatter b => PScatter (if pred then a else b)
  | PReserve s1 a, PReserve s2 b => PReserve (if Nat.ltb s1 s2 then s2 else s1) (if pred then a else b)
  | _, _ => PDynamic (if pred then cond_size t1 else cond_size t2) (if pred then text_of t1 else text_of t2)
  end.
(** 20-48 cond; [same]: the alias types are the same; [smaller]: the first one is smaller. *)
Definition cond (same smaller : bool) (pred : bool) (t1 t2 : parg) : parg :=
  if same then if pred then t1 else t2
  else if smaller then condition (negb pred) t2 t1
  else condition pred t1 t2.
