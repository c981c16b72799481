(** Independent specification of numerals with thousands separators (POSIX LC_NUMERIC: thousands_sep, grouping). *)
From Verif Require Import Base RangeSpec.
Local Open Scope nat_scope.

(** What is left of a grouping after its first entry: the last entry is used again and again. *)
Definition later (g : list Z) : list Z := match g with _ :: e :: r => e :: r | _ => g end.
(** The digits, least significant first, cut into groups; [n] at least their number.  An entry 0 ends the grouping. *)
Fixpoint cut_groups (n : nat) (g : list Z) (rds : list Z) : list (list Z) :=
  match n, g with
  | S n, e :: _ => if (e =? 0)%Z || (Z.of_nat (length rds) <=? e)%Z then [rds]
                   else firstn (Z.to_nat e) rds :: cut_groups n (later g) (skipn (Z.to_nat e) rds)
  | _, _ => [rds]
  end.
(** A numeral with [sep] between its groups. *)
Definition grouped (g sep digits : list Z) : list Z :=
  join sep (rev (map (@rev Z) (cut_groups (length digits) g (rev digits)))).
