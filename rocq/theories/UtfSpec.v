(** Independent specification of the Unicode encoding forms. *)
From Verif Require Import Base.

(** Unicode scalar values: code points that are not surrogates. *)
Definition scalar (c : Z) : Prop := 0 <= c <= 1114111 /\ ~ (55296 <= c <= 57343).

(** Table 3-6: UTF-8 bit distribution, as arithmetic. *)
Definition utf8 (c : Z) : list Z :=
  if c <? 128 then [c]
  else if c <? 2048 then [192 + c / 64; 128 + c mod 64]
  else if c <? 65536 then [224 + c / 4096; 128 + c / 64 mod 64; 128 + c mod 64]
  else [240 + c / 262144; 128 + c / 4096 mod 64; 128 + c / 64 mod 64; 128 + c mod 64].
(** Table 3-5: UTF-16. *)
Definition utf16 (c : Z) : list Z :=
  if c <? 65536 then [c] else [55296 + (c - 65536) / 1024; 56320 + (c - 65536) mod 1024].

Definition utf_units (cw : Z) (c : Z) : list Z := if cw =? 8 then utf8 c else if cw =? 16 then utf16 c else [c].
Definition utf_text (cw : Z) (cs : list Z) : list Z := flat_map (utf_units cw) cs.

(** Table 3-7: well-formed UTF-8 byte sequences. *)
Inductive wf8_seq : list Z -> Prop :=
| wf8_1 a : 0 <= a <= 127 -> wf8_seq [a]
| wf8_2 a b : 194 <= a <= 223 -> 128 <= b <= 191 -> wf8_seq [a; b]
| wf8_3a b c : 160 <= b <= 191 -> 128 <= c <= 191 -> wf8_seq [224; b; c]
| wf8_3b a b c : 225 <= a <= 236 -> 128 <= b <= 191 -> 128 <= c <= 191 -> wf8_seq [a; b; c]
| wf8_3c b c : 128 <= b <= 159 -> 128 <= c <= 191 -> wf8_seq [237; b; c]
| wf8_3d a b c : 238 <= a <= 239 -> 128 <= b <= 191 -> 128 <= c <= 191 -> wf8_seq [a; b; c]
| wf8_4a b c d : 144 <= b <= 191 -> 128 <= c <= 191 -> 128 <= d <= 191 -> wf8_seq [240; b; c; d]
| wf8_4b a b c d : 241 <= a <= 243 -> 128 <= b <= 191 -> 128 <= c <= 191 -> 128 <= d <= 191 -> wf8_seq [a; b; c; d]
| wf8_4c b c d : 128 <= b <= 143 -> 128 <= c <= 191 -> 128 <= d <= 191 -> wf8_seq [244; b; c; d].
(** Well-formed UTF-8 text. *)
Inductive wf8 : list Z -> Prop :=
| wf8_nil : wf8 []
| wf8_app s t : wf8_seq s -> wf8 t -> wf8 (s ++ t).
(** A proper prefix of a well-formed character. *)
Definition wf8_prefix (s : list Z) : Prop := s <> [] /\ exists t, t <> [] /\ wf8_seq (s ++ t).

(** No well-formed character starts at [s]. *)
Definition no_char_at (s : list Z) : Prop := forall p q, s = p ++ q -> ~ wf8_seq p.

(** The bytes consumed with a replacement: a lone bad byte, or a maximal prefix of a character plus the byte
    that does not continue it. *)
Definition bad_run (bad : list Z) : Prop :=
  bad <> [] /\ (length bad <= 4)%nat /\ (forall t, no_char_at (bad ++ t)) /\ (length bad = 1%nat \/ wf8_prefix (removelast bad)).



(** [decodes s cs left]: the bytes [s] read as the code points [cs], each either the character whose encoding
    stands there or U+FFFD for an ill-formed run; [left] is empty or an unfinished character. *)
Inductive decodes : list Z -> list Z -> list Z -> Prop :=
| dec_end : decodes [] [] []
| dec_unfinished s : wf8_prefix s -> decodes s [] s
| dec_char c t cs left : scalar c -> decodes t cs left -> decodes (utf8 c ++ t) (c :: cs) left
| dec_bad bad t cs left : bad_run bad -> decodes t cs left -> decodes (bad ++ t) (65533 :: cs) left.

(** 16-bit units: high and low surrogates. *)
Definition hi_unit (u : Z) : Prop := 55296 <= u <= 56319.
Definition lo_unit (u : Z) : Prop := 56320 <= u <= 57343.
(** Well-formed UTF-16: surrogates only in pairs, high then low. *)
Inductive wf16 : list Z -> Prop :=
| wf16_nil : wf16 []
| wf16_bmp u s : 0 <= u < 65536 -> ~ hi_unit u -> ~ lo_unit u -> wf16 s -> wf16 (u :: s)
| wf16_pair h l s : hi_unit h -> lo_unit l -> wf16 s -> wf16 (h :: l :: s).
(** Every high surrogate that has a following unit is followed by a low surrogate. *)
Definition paired16 (s : list Z) : Prop := forall p h l q, s = p ++ h :: l :: q -> hi_unit h -> lo_unit l.
Definition is_u16 (u : Z) : Prop := 0 <= u < 65536.
