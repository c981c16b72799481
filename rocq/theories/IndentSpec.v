(** What auto_indent should print. *)
From Verif Require Import Base PrintModel IndentModel.
Local Open Scope nat_scope.

(** The pieces of [l] between the characters [sep]. *)
Fixpoint split (sep : Z) (l : list Z) : list (list Z) :=
  match l with
  | [] => [[]]
  | c :: r => if Z.eqb c sep then [] :: split sep r
              else match split sep r with h :: t => (c :: h) :: t | [] => [[c]] end
  end.
Fixpoint join (sep : Z) (ls : list (list Z)) : list Z :=
  match ls with [] => [] | [x] => x | x :: ls => x ++ [sep] ++ join sep ls end.
(** The text as a table: lines of cells. *)
Definition table (text : list Z) : list (list (list Z)) := map (split 9) (split 10 text).
(** The width of column [k]: that of the longest cell in it. *)
Definition width (text : list Z) (k : nat) : nat :=
  fold_right (fun cells m => Nat.max (length (nth k cells [])) m) 0 (table text).
(** A line: every cell but the last is filled with spaces to the width of its column. *)
Fixpoint aligned_line (w : nat -> nat) (k : nat) (cells : list (list Z)) : list (list Z) :=
  match cells with
  | [] => []
  | [c] => [c]
  | c :: cells => (c ++ repeat 32%Z (w k - length c)) :: aligned_line w (S k) cells
  end.
Definition aligned (text : list Z) : list Z :=
  join 10 (map (fun cells => join 9 (aligned_line (width text) 0 cells)) (table text)).
(** The positions of the tabs in a line. *)
Fixpoint tabs_at (i : nat) (line : list Z) : list nat :=
  match line with [] => [] | c :: r => if Z.eqb c 9 then i :: tabs_at (S i) r else tabs_at (S i) r end.
