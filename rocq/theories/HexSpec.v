(** Independent specification for the hexadecimal text of bytes, of digests and of UUIDs.  Nothing here mentions the code. *)
From Verif Require Import Base ByteSpec HashSpec.

(** The value of a hexadecimal digit, either case. *)
Definition hex_value (c : Z) : option Z :=
  if (48 <=? c) && (c <=? 57) then Some (c - 48)
  else if (97 <=? c) && (c <=? 102) then Some (c - 87)
  else if (65 <=? c) && (c <=? 70) then Some (c - 55) else None.
(** What any hexadecimal decoder does: two digits, the more significant first, for each byte. *)
Fixpoint unhex (t : list Z) : option (list Z) :=
  match t with
  | [] => Some []
  | a :: b :: t => match hex_value a, hex_value b, unhex t with
                   | Some x, Some y, Some r => Some (16 * x + y :: r)
                   | _, _, _ => None
                   end
  | _ => None
  end.
Definition lower_digit (c : Z) : Prop := 48 <= c <= 57 \/ 97 <= c <= 102.
Definition upper_digit (c : Z) : Prop := 48 <= c <= 57 \/ 65 <= c <= 70.

Inductive form := lower | upper | raw_bytes.
(** The text [t] shows the bytes [m] in the form [f]. *)
Definition shows (f : form) (m t : list Z) : Prop :=
  match f with
  | raw_bytes => t = m
  | lower => unhex t = Some m /\ Forall lower_digit t
  | upper => unhex t = Some m /\ Forall upper_digit t
  end.
(** The number of characters it takes. *)
Definition shown_size (f : form) (n : nat) : nat := match f with raw_bytes => n | _ => (2 * n)%nat end.

(** RFC 4122 section 3: 8-4-4-4-12 digits; the bytes are in the order of the digits. *)
Definition uuid_text (up : bool) (m t : list Z) : Prop :=
  exists a b c d e, t = a ++ [45] ++ b ++ [45] ++ c ++ [45] ++ d ++ [45] ++ e /\
    length a = 8%nat /\ length b = 4%nat /\ length c = 4%nat /\ length d = 4%nat /\ length e = 12%nat /\
    shows (if up then upper else lower) m (a ++ b ++ c ++ d ++ e).

(** The hash functions offered, and what each must compute. *)
Inductive algorithm := MD5 | SHA1 | SHA224 | SHA256 | SHA384 | SHA512 | SHA512_224 | SHA512_256 | CRC32 | CRC32C.
Definition hash_of (a : algorithm) : list Z -> list Z :=
  match a with
  | MD5 => md5_spec | SHA1 => sha1_spec | SHA224 => sha224_spec | SHA256 => sha256_spec | SHA384 => sha384_spec | SHA512 => sha512_spec
  | SHA512_224 => sha512_224_spec | SHA512_256 => sha512_256_spec
  | CRC32 => fun m => be_bytes 4 (crc_spec poly_crc32 m) | CRC32C => fun m => be_bytes 4 (crc_spec poly_crc32c m)
  end.
Definition hash_bytes (a : algorithm) : nat :=
  match a with
  | MD5 => 16 | SHA1 => 20 | SHA224 => 28 | SHA256 => 32 | SHA384 => 48 | SHA512 => 64 | SHA512_224 => 28 | SHA512_256 => 32 | CRC32 | CRC32C => 4
  end.
