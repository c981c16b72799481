(** GB 18030: the form of the characters, written without the converter. *)
From Verif Require Import Base UtfSpec.

(** GB 18030-2005, section 5: one byte below 0x80; two bytes, a lead and a trail other than 0x7F and 0xFF; four bytes,
    lead, digit, lead, digit. *)
Definition lead (b : Z) : Prop := 0x81 <= b <= 0xFE.
Definition trail (b : Z) : Prop := 0x40 <= b <= 0xFE /\ b <> 0x7F.
Definition gb_digit (b : Z) : Prop := 0x30 <= b <= 0x39.
Inductive gb_char : list Z -> Prop :=
| gb_one a : 0 <= a <= 0x7F -> gb_char [a]
| gb_two a b : lead a -> trail b -> gb_char [a; b]
| gb_four a b c d : lead a -> gb_digit b -> lead c -> gb_digit d -> gb_char [a; b; c; d].
(** A text of such characters. *)
Inductive gb_text : list Z -> Prop :=
| gb_nil : gb_text []
| gb_app s t : gb_char s -> gb_text t -> gb_text (s ++ t).

(** Four-byte characters in their order: 81308130 is number 0. *)
Definition gb_number (a b c d : Z) : Z := (((a - 0x81) * 10 + (b - 0x30)) * 126 + (c - 0x81)) * 10 + (d - 0x30).

(** The replacement character U+FFFD is 8431A437. *)
Definition gb_replacement : list Z := [0x84; 0x31; 0xA4; 0x37].

(** An unfinished character at the end of a text: one to three bytes that begin a character of two or four bytes, the
    second byte of a four-byte character being in the wider range 0x30 ... 0x3F the converter takes for a digit. *)
Definition gb_unfinished (s : list Z) : Prop :=
  match s with
  | [a] => lead a
  | [a; b] => lead a /\ 0x30 <= b <= 0x3F
  | [a; b; c] => lead a /\ 0x30 <= b <= 0x3F /\ 0 <= c <= 255
  | _ => False
  end.

(** The scalar values that do not survive conversion to GB18030 and back, as closed intervals: of U+0080 ... U+0451 all that
    have four bytes; some private-use and compatibility characters. *)
Definition lost : list (Z * Z) := [
  (0x80, 0xA3); (0xA5, 0xA6); (0xA9, 0xAF); (0xB2, 0xB6); (0xB8, 0xD6); (0xD8, 0xDF); (0xE2, 0xE7);
  (0xEB, 0xEB); (0xEE, 0xF1); (0xF4, 0xF6); (0xF8, 0xF8); (0xFB, 0xFB); (0xFD, 0x100); (0x102, 0x112);
  (0x114, 0x11A); (0x11C, 0x12A); (0x12C, 0x143); (0x145, 0x147); (0x149, 0x14C); (0x14E, 0x16A); (0x16C, 0x1CD);
  (0x1CF, 0x1CF); (0x1D1, 0x1D1); (0x1D3, 0x1D3); (0x1D5, 0x1D5); (0x1D7, 0x1D7); (0x1D9, 0x1D9); (0x1DB, 0x1DB);
  (0x1DD, 0x1F8); (0x1FA, 0x250); (0x252, 0x260); (0x262, 0x2C6); (0x2C8, 0x2C8); (0x2CC, 0x2D8); (0x2DA, 0x390);
  (0x3A2, 0x3A2); (0x3AA, 0x3B0); (0x3C2, 0x3C2); (0x3CA, 0x400); (0x402, 0x40F); (0x450, 0x450); (0xE78D, 0xE796);
  (0xE7C7, 0xE7C8); (0xE7E7, 0xE7F3); (0xE815, 0xE864); (0xF92D, 0xF978); (0xF97A, 0xF994); (0xF996, 0xF9E6); (0xF9E8, 0xF9F0);
  (0xF9F2, 0xFA0B); (0xFA10, 0xFA10); (0xFA12, 0xFA12); (0xFA15, 0xFA17); (0xFA19, 0xFA1E); (0xFA22, 0xFA22); (0xFA25, 0xFA26);
  (0xFE32, 0xFE32); (0xFE45, 0xFE48); (0xFE53, 0xFE53); (0xFE58, 0xFE58); (0xFE67, 0xFE67); (0xFE6C, 0xFF00); (0xFF5F, 0xFFDF)].
Definition is_lost (c : Z) : Prop := exists a b, In (a, b) lost /\ a <= c <= b.

(** How a text of bytes is read, [m] giving the code point of a character.  Bytes that begin no character are replaced by
    U+FFFD, at most four at a time; an unfinished character at the end is left over.  [read_loose]: the converter also takes
    0x3A ... 0x3F for digits (not in GB 18030). *)
Definition no_gb_char (s : list Z) : Prop := forall p q, s = p ++ q -> ~ gb_char p.
Inductive gb_reading (m : list Z -> Z) : list Z -> list Z -> list Z -> Prop :=
| read_end : gb_reading m [] [] []
| read_unfinished s : gb_unfinished s -> gb_reading m s [] s
| read_ascii b t cs left : 0 <= b <= 0x7F -> gb_reading m t cs left -> gb_reading m (b :: t) (b :: cs) left
| read_char s t cs left : gb_char s -> (1 < length s)%nat -> gb_reading m t cs left -> gb_reading m (s ++ t) (m s :: cs) left
| read_euro t cs left : gb_reading m t cs left -> gb_reading m (0x80 :: t) (0x20AC :: cs) left
| read_bad s t cs left : s <> [] -> (length s <= 4)%nat -> no_gb_char (s ++ t) -> gb_reading m t cs left -> gb_reading m (s ++ t) (0xFFFD :: cs) left
| read_loose a b c d t cs left : lead a -> 0x30 <= b <= 0x3F -> lead c -> 0x30 <= d <= 0x3F -> ~ gb_char [a; b; c; d] ->
    gb_reading m t cs left -> gb_reading m (a :: b :: c :: d :: t) (m [a; b; c; d] :: cs) left.
