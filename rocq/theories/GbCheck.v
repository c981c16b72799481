(** Facts about the contents of the GB18030 tables, by computation. *)
From Verif Require Import Base GbSpec GbTables GbModel GbTrie.

(** Number of a four-byte entry (least significant byte first) in the numbering of linear_18030. *)
Definition entry_linear (v : Z) : Z :=
  (((Z.land v 255) * 10 + Z.land (Z.shiftr v 8) 255) * 126 + Z.land (Z.shiftr v 16) 255) * 10 + Z.shiftr v 24.
Definition in_range (lo hi x : Z) : bool := (lo <=? x) && (x <=? hi).
(** The entry is a well-formed character of two or four bytes. *)
Definition entry_wf (v : Z) : bool :=
  let a := Z.land v 255 in
  if v <? 65536 then let b := Z.shiftr v 8 in in_range 129 254 a && in_range 64 254 b && negb (b =? 127)
  else in_range 129 254 a && in_range 48 57 (Z.land (Z.shiftr v 8) 255) && in_range 129 254 (Z.land (Z.shiftr v 16) 255) && in_range 48 57 (Z.shiftr v 24).

Lemma all_wf : walk (fun v _ => entry_wf v) 0 (Z.to_nat 32781) (concat uni_to_gb) = true.
Proof. vm_compute. reflexivity. Qed.

Definition opt_is (o : option Z) (u : Z) : bool := match o with Some x => x =? u | None => false end.

(** The code points from 0x80, cut where the encoder changes between table and arithmetic: from, to (exclusive), arithmetic,
    and what to add to get the number (of a four-byte character) or the index (in the table). *)
Definition pieces : list (Z * Z * bool * Z) := [
  (0x80, 0x452, false, -128);
  (0x452, 0x2010, true, -286);
  (0x2010, 0x2643, false, -7230);
  (0x2643, 0x2E81, true, -576);
  (0x2E81, 0x361B, false, -9340);
  (0x361B, 0x3918, true, -878);
  (0x3918, 0x3CE1, false, -10105);
  (0x3CE1, 0x4056, true, -887);
  (0x4056, 0x4160, false, -10990);
  (0x4160, 0x4337, true, -889);
  (0x4337, 0x44D7, false, -11461);
  (0x44D7, 0x464C, true, -894);
  (0x464C, 0x478E, false, -11834);
  (0x478E, 0x4947, true, -900);
  (0x4947, 0x49B8, false, -12275);
  (0x49B8, 0x4C77, true, -911);
  (0x4C77, 0x9FA6, false, -12978);
  (0x9FA6, 0xD800, true, -21827);
  (0xD800, 0xE865, false, -27404);
  (0xE865, 0xF92C, true, -25943);
  (0xF92C, 0xFA2A, false, -31699);
  (0xFA2A, 0xFE30, true, -25964);
  (0xFE30, 0xFFE6, false, -32729);
  (0xFFE6, 0x10000, true, -26116);
  (0x10000, 0x110000, true, 123464)].

(** Each table entry decodes to its code point exactly when the code point is not lost. *)
Fixpoint in_sorted (l : list (Z * Z)) (u : Z) : bool :=
  match l with [] => false | (a, b) :: l' => if u <? a then false else if u <=? b then true else in_sorted l' u end.
Definition surrogate (u : Z) : bool := in_range 0xD800 0xDFFF u.
Definition back_ok (t2 t4 : tree) (v u : Z) : bool :=
  if surrogate u then true
  else
    let bs := entry_bytes v in
    match advance_checked (at_ t4) (at_ t2) bs with
    | Some (Some (x, n)) => if Nat.eqb n (length bs) then (if x =? u then negb (in_sorted lost u) else in_sorted lost u) else false
    | _ => false
    end.
Definition check_piece (t2 t4 : tree) (l : list Z) (p : Z * Z * bool * Z) : bool :=
  let '(lo, hi, arith, off) := p in
  if arith then true else walk (back_ok t2 t4) lo (Z.to_nat (hi - lo)) (skipn (Z.to_nat (lo + off)) l).
Lemma pieces_back : forallb (check_piece (trie (concat gb_to_uni2)) (trie (concat gb_to_uni4)) (concat uni_to_gb)) pieces = true.
Proof. vm_compute. reflexivity. Qed.

(** U+0080 ... U+0451: the code point or U+FFFD comes back. *)
Definition latin_back (t2 t4 : tree) (v u : Z) : bool :=
  match advance_checked (at_ t4) (at_ t2) (entry_bytes v) with Some (Some (x, _)) => (x =? u) || (x =? 0xFFFD) | _ => false end.
Lemma latin_check : walk (latin_back (trie (concat gb_to_uni2)) (trie (concat gb_to_uni4))) 128 (Z.to_nat 978) (concat uni_to_gb) = true.
Proof. vm_compute. reflexivity. Qed.

(** The surrogates U+D800 ... U+DFFF have the entry of U+FFFD. *)
Lemma surrogate_check : walk (fun v _ => v =? 0x37A43184) 55296 (Z.to_nat 2048) (skipn (Z.to_nat 27892) (concat uni_to_gb)) = true.
Proof. vm_compute. reflexivity. Qed.

(** What decoding can give. *)
Definition is_scalar (u : Z) : bool := in_range 0 0x10FFFF u && negb (in_range 0xD800 0xDFFF u).
Lemma two_scalar : walk (fun v _ => is_scalar v) 0 (Z.to_nat 23940) (concat gb_to_uni2) = true.
Proof. vm_compute. reflexivity. Qed.
Lemma four_scalar : walk (fun v _ => is_scalar v) 0 (Z.to_nat 5974) (concat gb_to_uni4) = true.
Proof. vm_compute. reflexivity. Qed.

(** No two entries are equal, surrogates apart; no four-byte entry lies in a range, except that of U+E7C7 (index 31931). *)
Fixpoint index_tree (l : list Z) (i : Z) (t : tree) : tree :=
  match l with [] => t | v :: l' => index_tree l' (i + 1) (match v with Zpos p => put1 p i t | _ => t end) end.
Definition surrogate_index (i : Z) : bool := in_range 27892 29939 i.
Definition unique_at (t : tree) (v i : Z) : bool :=
  if surrogate_index i then true else match v with Zpos p => opt_is (get p t) i | _ => false end.
Definition range_numbers : list (Z * Z) := [
  (1688038, 1695139); (1696437, 1698546); (1700191, 1700955); (1701916, 1702800); (1703065, 1703535); (1703947, 1704319); (1704636, 1705076); (1705179, 1705881); (1706261, 1720686); (1720768, 1725062); (1725296, 1726325); (1726612, 1726637); (1876218, 2924793)].
Definition outside_ranges (v i : Z) : bool :=
  if v <? 65536 then true
  else if surrogate_index i || (i =? 31931) then true
  else let x := entry_linear v in forallb (fun r => if fst r <=? x then snd r <? x else true) range_numbers.
Lemma unique_check : walk (unique_at (index_tree (concat uni_to_gb) 0 Leaf)) 0 (Z.to_nat 32781) (concat uni_to_gb) = true.
Proof. vm_compute. reflexivity. Qed.
Lemma outside_check : walk outside_ranges 0 (Z.to_nat 32781) (concat uni_to_gb) = true.
Proof. vm_compute. reflexivity. Qed.
