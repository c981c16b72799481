(** Independent specification: the ChaCha20 block function (RFC 8439), the AES key expansion (FIPS 197 5.2) and block padding
    (RFC 5652 6.3).  Nothing here mentions the code. *)
From Verif Require Import Base ByteSpec HashSpec.
Local Open Scope nat_scope.

(** ** RFC 8439 2.1-2.3.  A state is sixteen 32 bit words. *)
Definition w32 (x y : Z) : Z := ((x + y) mod 2 ^ 32)%Z.
(** 2.1: one quarter round of four numbers. *)
Definition quarter (a b c d : Z) : Z * Z * Z * Z :=
  let a := w32 a b in let d := rotl 32 16 (Z.lxor d a) in
  let c := w32 c d in let b := rotl 32 12 (Z.lxor b c) in
  let a := w32 a b in let d := rotl 32 8 (Z.lxor d a) in
  let c := w32 c d in let b := rotl 32 7 (Z.lxor b c) in
  (a, b, c, d).
(** 2.2: QUARTERROUND(x,y,z,w) on the state. *)
Definition quarterround (s : list Z) (q : nat * nat * nat * nat) : list Z :=
  let '(x, y, z, w) := q in
  let '(a, b, c, d) := quarter (nth x s 0%Z) (nth y s 0%Z) (nth z s 0%Z) (nth w s 0%Z) in
  map (fun i => if i =? x then a else if i =? y then b else if i =? z then c else if i =? w then d else nth i s 0%Z) (seq 0 16).
(** 2.3: a column round and a diagonal round. *)
Definition inner_block (s : list Z) : list Z :=
  fold_left quarterround [(0, 4, 8, 12); (1, 5, 9, 13); (2, 6, 10, 14); (3, 7, 11, 15); (0, 5, 10, 15); (1, 6, 11, 12); (2, 7, 8, 13); (3, 4, 9, 14)] s.
Definition chacha20_block (s : list Z) : list Z :=
  concat (map (le_bytes 4) (sum_words 32 s (Nat.iter 10 inner_block s))).

(** ** FIPS 197.  Bytes as polynomials over GF(2) modulo x^8+x^4+x^3+x+1. *)
Definition xtime (b : Z) : Z := let c := (2 * b)%Z in if (c <? 256)%Z then c else Z.lxor c 283.
Fixpoint gmul_n (n : nat) (a b : Z) : Z :=
  match n with O => 0%Z | S n => Z.lxor (if Z.odd b then a else 0%Z) (gmul_n n (xtime a) (b / 2)%Z) end.
Definition gmul (a b : Z) : Z := gmul_n 8 a b.
(** The multiplicative inverse, 0 for 0: the power 254. *)
Definition ginv (a : Z) : Z := let a2 := gmul a a in let a4 := gmul a2 a2 in let a8 := gmul a4 a4 in let a16 := gmul a8 a8 in
  let a32 := gmul a16 a16 in let a64 := gmul a32 a32 in let a128 := gmul a64 a64 in
  gmul a128 (gmul a64 (gmul a32 (gmul a16 (gmul a8 (gmul a4 a2))))).
(** 5.1.1: the affine transformation, bit by bit. *)
Definition sbox (x : Z) : Z :=
  let b := ginv x in let bit i := Z.b2z (Z.testbit b (Z.of_nat (i mod 8))) in
  fold_left (fun acc i => (acc + 2 ^ Z.of_nat i * Z.lxor (Z.lxor (Z.lxor (Z.lxor (Z.lxor (bit i) (bit (i + 4)%nat)) (bit (i + 5)%nat)) (bit (i + 6)%nat)) (bit (i + 7)%nat))
    (Z.b2z (Z.testbit 99 (Z.of_nat i))))%Z) (seq 0 8) 0%Z.
(** A word is four bytes. *)
Definition xor4 (a b : list Z) : list Z := map (fun p => Z.lxor (fst p) (snd p)) (combine a b).
Definition sub_word (w : list Z) : list Z := map sbox w.
Definition rot_word (w : list Z) : list Z := match w with [a; b; c; d] => [b; c; d; a] | _ => w end.
Definition rcon (i : nat) : list Z := [Nat.iter (i - 1) xtime 1%Z; 0; 0; 0]%Z.
(** 5.2: the words of the schedule so far, in order, and [n] more; [sub] is SubWord, [nk] the words of the key. *)
Fixpoint expand (sub : list Z -> list Z) (nk n : nat) (w : list (list Z)) : list (list Z) :=
  match n with
  | O => w
  | S n => let w := expand sub nk n w in
           let i := length w in
           let temp := nth (i - 1) w [] in
           let temp := if i mod nk =? 0 then xor4 (sub (rot_word temp)) (rcon (i / nk))
                       else if (6 <? nk) && (i mod nk =? 4) then sub temp else temp in
           w ++ [xor4 (nth (i - nk) w []) temp]
  end.
Definition key_words (key : list Z) : list (list Z) := blocks 4 key.
(** Nb*(Nr+1) words: 44, 52 or 60. *)
Definition aes_schedule (key : list Z) : list (list Z) :=
  let nk := length key / 4 in expand sub_word nk (4 * (nk + 7) - nk) (key_words key).

(** ** Padding. *)
(** RFC 5652 6.3: r bytes of value r, so that the length is a multiple of the block size; r is at least 1. *)
Definition pkcs7_block (n : nat) (m : list Z) : list Z := m ++ repeat (Z.of_nat (n - length m)) (n - length m).
