(** UTF-EBCDIC (Unicode Technical Report 16), written without the converter. *)
From Verif Require Import Base UtfSpec.

(** Step 1: UTF-8-Mod ("I8"), groups of five bits. *)
Definition i8 (c : Z) : list Z :=
  if c <? 0xA0 then [c]
  else if c <? 0x400 then [0xC0 + c / 32; 0xA0 + c mod 32]
  else if c <? 0x4000 then [0xE0 + c / 1024; 0xA0 + c / 32 mod 32; 0xA0 + c mod 32]
  else if c <? 0x40000 then [0xF0 + c / 32768; 0xA0 + c / 1024 mod 32; 0xA0 + c / 32 mod 32; 0xA0 + c mod 32]
  else [0xF8 + c / 1048576; 0xA0 + c / 32768 mod 32; 0xA0 + c / 1024 mod 32; 0xA0 + c / 32 mod 32; 0xA0 + c mod 32].
(** Step 2: a permutation of the bytes that puts letters, digits and the space where EBCDIC has them. *)
Definition ebcdic_page (page : Z -> Z) : Prop :=
  (forall b, 0 <= b < 256 -> 0 <= page b < 256) /\ (forall b b', 0 <= b < 256 -> 0 <= b' < 256 -> page b = page b' -> b = b') /\
  page 0x20 = 0x40 /\
  (forall k, 0 <= k < 10 -> page (0x30 + k) = 0xF0 + k) /\
  (forall k, 0 <= k < 9 -> page (0x41 + k) = 0xC1 + k /\ page (0x4A + k) = 0xD1 + k /\ page (0x61 + k) = 0x81 + k /\ page (0x6A + k) = 0x91 + k) /\
  (forall k, 0 <= k < 8 -> page (0x53 + k) = 0xE2 + k /\ page (0x73 + k) = 0xA2 + k).
Definition ebcdic_text (page : Z -> Z) (cs : list Z) : list Z := flat_map (fun c => map page (i8 c)) cs.

(** Reading of any I8 bytes: bytes 0xA0 ... 0xBF follow, the others begin a sequence of one to seven bytes. *)
Definition follows (b : Z) : Prop := 0xA0 <= b <= 0xBF.
Definition i8_length (b : Z) : nat :=
  if b <? 0xA0 then 1 else if b <? 0xE0 then 2 else if b <? 0xF0 then 3 else if b <? 0xF8 then 4 else if b <? 0xFC then 5 else if b <? 0xFE then 6 else 7.
(** The number in a sequence of two to five bytes (of the first of five, one bit counts). *)
Definition i8_value (b : Z) (fs : list Z) : Z :=
  let top := if b <? 0xE0 then b - 0xC0 else if b <? 0xF0 then b - 0xE0 else if b <? 0xF8 then b - 0xF0 else b mod 2 in
  fold_left (fun r f => r * 32 + (f - 0xA0)) fs top.
Inductive i8_reading : list Z -> list Z -> list Z -> Prop :=
| i8_end : i8_reading [] [] []
| i8_unfinished b s : 0xC0 <= b -> (length (b :: s) < i8_length b)%nat -> i8_reading (b :: s) [] (b :: s)
| i8_single b t cs left : b < 0xA0 -> i8_reading t cs left -> i8_reading (b :: t) (b :: cs) left
| i8_stray b t cs left : follows b -> i8_reading t cs left -> i8_reading (b :: t) (0xFFFD :: cs) left
| i8_char b fs t cs left : 0xC0 <= b < 0xFC -> length (b :: fs) = i8_length b -> Forall follows fs -> i8_reading t cs left ->
    i8_reading ((b :: fs) ++ t) (i8_value b fs :: cs) left
| i8_long b fs t cs left : 0xFC <= b -> length (b :: fs) = i8_length b -> Forall follows fs -> i8_reading t cs left ->
    i8_reading ((b :: fs) ++ t) (0xFFFD :: cs) left
| i8_broken b fs x t cs left : 0xC0 <= b -> (length (b :: fs) < i8_length b)%nat -> Forall follows fs -> ~ follows x ->
    (i8_length b <= length ((b :: fs) ++ x :: t))%nat -> i8_reading (x :: t) cs left -> i8_reading ((b :: fs) ++ x :: t) (0xFFFD :: cs) left.
