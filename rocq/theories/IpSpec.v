(** Textual forms of internet addresses: dotted decimal, RFC 4291 and RFC 5952, independent of the model. *)
From Coq Require Import String.
From Verif Require Import Base NumSpec ScanSpec ByteSpec.

Definition octet (x : Z) : Prop := 0 <= x < 256.

(** a.b.c.d *)
Definition v4_text (a b c d : Z) (txt : list Z) : Prop :=
  exists ta tb tc td, is_numeral 10 false a ta /\ is_numeral 10 false b tb /\ is_numeral 10 false c tc /\ is_numeral 10 false d td /\
    txt = ta ++ text "." ++ tb ++ text "." ++ tc ++ text "." ++ td.

(** Pieces separated by colons. *)
Inductive joined (P : Z -> list Z -> Prop) : list Z -> list Z -> Prop :=
| joined_none : joined P [] []
| joined_one g t : P g t -> joined P [g] t
| joined_more g t h gs s : P g t -> joined P (h :: gs) s -> joined P (g :: h :: gs) (t ++ text ":" ++ s).

(** A piece of RFC 4291: one to four hexadecimal digits, in either case. *)
Definition hex_piece (g : Z) (t : list Z) : Prop :=
  exists ds, digit_string 16 t ds /\ 1 <= zlen ds <= 4 /\ value_of 16 ds = g.

(** RFC 4291 2.2: eight groups, or a single "::" standing for one or more groups of zeros. *)
Definition v6_denotes (txt : list Z) (gs : list Z) : Prop :=
  length gs = 8%nat /\
  (joined hex_piece gs txt \/
   exists l r n tl tr, (1 <= n)%nat /\ gs = l ++ repeat 0 n ++ r /\ joined hex_piece l tl /\ joined hex_piece r tr /\
     txt = tl ++ text "::" ++ tr).

(** A run of zero groups. *)
Definition zero_run (gs : list Z) (p n : nat) : Prop :=
  (p + n <= 8)%nat /\ forall i, (p <= i < p + n)%nat -> nth i gs 1 = 0.
(** RFC 5952 4.2: the longest run of at least two groups, the first of them if there are several. *)
Definition best_run (gs : list Z) (p n : nat) : Prop :=
  zero_run gs p n /\ (2 <= n)%nat /\ forall q m, zero_run gs q m -> (m < n)%nat \/ (m = n /\ (p <= q)%nat).

(** The shortened form. *)
Definition shortened (P : Z -> list Z -> Prop) (gs : list Z) (txt : list Z) : Prop :=
  ((forall p n, zero_run gs p n -> (n < 2)%nat) /\ joined P gs txt) \/
  (exists p n tl tr, best_run gs p n /\ joined P (firstn p gs) tl /\ joined P (skipn (p + n) gs) tr /\
     txt = tl ++ text "::" ++ tr).

(** The eight groups of an IPv6 address. *)
Definition group (g : Z) : Prop := 0 <= g < 65536.
(** A group as it is kept in memory: two bytes, the high one first, read by the host. *)
Definition stored (host : endian) (g : Z) : Z := of_bytes host (be_bytes 2 g).
Definition v6_groups (gs : list Z) : Prop := length gs = 8%nat /\ Forall group gs.
