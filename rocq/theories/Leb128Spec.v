(** Independent specification of LEB128 (no reference to the model). *)
From Verif Require Import Base.

(** Every byte but the last has the continuation bit, the last has not. *)
Fixpoint leb_wf (bs : list Z) : Prop :=
  match bs with
  | [] => False
  | [b] => 0 <= b < 128
  | b :: bs' => 128 <= b < 256 /\ leb_wf bs'
  end.

(** The unsigned integer denoted: little endian base 128 digits. *)
Fixpoint uleb (bs : list Z) : Z :=
  match bs with [] => 0 | b :: bs' => b mod 128 + 128 * uleb bs' end.
(** The signed integer denoted: bit 6 of the last byte is the sign. *)
Definition sleb (bs : list Z) : Z :=
  if 64 <=? last bs 0 mod 128 then uleb bs - 128 ^ zlen bs else uleb bs.

Definition leb_denotes (sgn : bool) (bs : list Z) : Z := if sgn then sleb bs else uleb bs.
