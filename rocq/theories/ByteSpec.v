(** Independent specification of byte order: an integer as its base 256 digits. *)
From Verif Require Import Base.

(** [n] bytes of [x], least significant first. *)
Fixpoint le_bytes (n : nat) (x : Z) : list Z :=
  match n with O => [] | S k => x mod 256 :: le_bytes k (x / 256) end.
(** ... most significant first. *)
Definition be_bytes (n : nat) (x : Z) : list Z := rev (le_bytes n x).

Fixpoint of_le (bs : list Z) : Z := match bs with [] => 0 | b :: r => b + 256 * of_le r end.
Definition of_be (bs : list Z) : Z := of_le (rev bs).

Definition is_byte (b : Z) : Prop := 0 <= b < 256.

(** Byte orders. *)
Inductive endian := little | big.
Definition bytes_of (e : endian) (n : nat) (x : Z) : list Z := match e with little => le_bytes n x | big => be_bytes n x end.
Definition of_bytes (e : endian) (bs : list Z) : Z := match e with little => of_le bs | big => of_be bs end.
