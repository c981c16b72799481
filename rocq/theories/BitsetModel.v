(** Printing std::bitset (include/fast_io_unit/bitset.h). *)
From Verif Require Import Base Outcome.
Local Open Scope nat_scope.

(** bitset.h 35-45 pr_vs_iter_impl: writes the [bits] cells before [acc], the last of them first. *)
Fixpoint pr_vs_iter (bits : nat) (p : Z) (acc : list Z) : list Z :=
  match bits with
  | O => acc
  | S k => pr_vs_iter k (Z.shiftr p 1) ((48 + Z.land p 1)%Z :: acc)
  end.

(** The storage words that may be read. *)
Definition word (words : list Z) (k : nat) : outcome Z :=
  match nth_error words k with Some w => Done w | None => Undefined end.

(** bitset.h 60, the loop over the words from the last to the first. *)
Fixpoint whole_words (W : nat) (words : list Z) (counts : nat) : outcome (list Z) :=
  match counts with
  | O => Done []
  | S k => let! w := word words k in let! r := whole_words W words k in Done (pr_vs_iter W w [] ++ r)
  end.

(** bitset.h 47-62 prv_rsv_bitset_impl, [W] the bits of a storage word; 66-70 print_reserve_define and 72-78
    print_alias_define pass the address and the size of the bitset. *)
Definition print_bitset (W : nat) (words : list Z) (bits : nat) : outcome (list Z) :=
  let counts := Nat.div bits W in
  let remain_bits := Nat.modulo bits W in
  let! head := (if remain_bits =? 0 then Done [] else let! w := word words counts in Done (pr_vs_iter remain_bits w [])) in
  let! rest := whole_words W words counts in
  Done (head ++ rest).

(** bitset.h 25-30 print_reserve_size. *)
Definition print_bitset_size (bits : nat) : nat := bits.
