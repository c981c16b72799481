From Verif Require Import Base.
Open Scope Z_scope.

(** * The character classes of the "C" locale on an ASCII-based execution character set,
    as ranges of code points (ISO C 7.4; ASCII chart). *)

Definition C_digit (c : Z) : Prop := 48 <= c <= 57.                  (* '0'..'9' *)
Definition C_upper (c : Z) : Prop := 65 <= c <= 90.                  (* 'A'..'Z' *)
Definition C_lower (c : Z) : Prop := 97 <= c <= 122.                 (* 'a'..'z' *)
Definition C_alpha (c : Z) : Prop := C_upper c \/ C_lower c.
Definition C_alnum (c : Z) : Prop := C_alpha c \/ C_digit c.
Definition C_xdigit (c : Z) : Prop := C_digit c \/ 65 <= c <= 70 \/ 97 <= c <= 102.
Definition C_print (c : Z) : Prop := 32 <= c <= 126.                 (* has a printing position *)
Definition C_graph (c : Z) : Prop := C_print c /\ c <> 32.
Definition C_punct (c : Z) : Prop := C_graph c /\ ~ C_alnum c.
Definition C_space (c : Z) : Prop := c = 32 \/ 9 <= c <= 13.         (* space \t \n \v \f \r *)
Definition HTML_whitespace (c : Z) : Prop := C_space c /\ c <> 11.   (* all of these but \v *)
(** Unicode: the full-width forms U+FF01..U+FF5E of the printing characters U+0021..U+007E. *)
Definition fullwidth (c : Z) : Prop := 65281 <= c <= 65374.
Definition halfwidth (c : Z) : Prop := 33 <= c <= 126.

(** The code units of a character type of [w] bits. *)
Definition code_unit (w c : Z) : Prop := 0 <= c < 2 ^ w.
Definition char_width (w : Z) : Prop := w = 8 \/ w = 16 \/ w = 32.
