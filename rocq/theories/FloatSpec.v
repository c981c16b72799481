(** What a decimal number means for a binary floating point format: IEEE 754 rounding to
    nearest, ties to even, and the shortest decimals that read back as a given number.
    Nothing here refers to the library's code. *)
From Coq Require Import QArith Qabs.
From Verif Require Import Base.

(** The decimal number d * 10^e and the binary number m * 2^e. *)
Definition dec (d e : Z) : Q := inject_Z d * Qpower (10 # 1) e.
Definition bin (m e : Z) : Q := inject_Z m * Qpower (2 # 1) e.

(** The magnitudes of a format with [p] significant bits and least exponent [emin]
    (53 and -1074 for double, 24 and -149 for float).  As IEEE 754 defines rounding, the
    exponent is not bounded above. *)
Definition in_format (p emin m e : Z) : Prop := 0 <= m < 2 ^ p /\ emin <= e.
(** One representation of each: no leading zero unless the exponent is the least. *)
Definition canonical (p emin m e : Z) : Prop :=
  in_format p emin m e /\ (e = emin \/ 2 ^ (p - 1) <= m).

(** Rounding to nearest, ties to even, turns [x] into m * 2^e: every other number of the
    format is farther from [x], or as far and then [m] is even. *)
Definition rounds_to (p emin : Z) (x : Q) (m e : Z) : Prop :=
  canonical p emin m e /\
  forall m' e', in_format p emin m' e' -> ~ (bin m' e' == bin m e)%Q ->
    (Qabs (x - bin m e) < Qabs (x - bin m' e'))%Q \/
    ((Qabs (x - bin m e) == Qabs (x - bin m' e'))%Q /\ Z.even m = true).

(** [d] has [n] decimal digits. *)
Definition has_digits (d n : Z) : Prop := 0 < n /\ 10 ^ (n - 1) <= d < 10 ^ n.

(** d * 10^e is the best decimal for m * 2^f: it reads back as m * 2^f, no decimal that does
    has fewer digits, and none with as many digits is closer. *)
Definition best_decimal (p emin : Z) (d e m f : Z) : Prop :=
  rounds_to p emin (dec d e) m f /\
  exists n, has_digits d n /\
    forall d' e' n', has_digits d' n' -> rounds_to p emin (dec d' e') m f ->
      n <= n' /\
      (n' = n -> Qle (Qabs (dec d e - bin m f)) (Qabs (dec d' e' - bin m f))).

(** A finite number with mantissa field [mf] and exponent field [ef] is m * 2^e for these
    (52 and 1023 for double, 23 and 127 for float). *)
Definition significand (mbits mf ef : Z) : Z := if ef =? 0 then mf else mf + 2 ^ mbits.
Definition exponent (mbits bias ef : Z) : Z := Z.max ef 1 - bias - mbits.
