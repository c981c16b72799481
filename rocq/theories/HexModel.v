(** Model of include/fast_io_core_impl/integers/crypto_hash.h: hex_encode, UUIDs, hash_digest, hash_compress and as_file.
    A function that writes through an output pointer returns the characters it writes; [None] is an out of bounds read or
    the call of fast_terminate.  Characters of ASCII based execution character sets. *)
From Verif Require Import Base ByteSpec LebeModel HashSpec HashTables HashModel IntPrintModel HexSpec.
Local Open Scope nat_scope.

(** crypto_hash.h 10-18 crypto_hash_pr_df_impl: two characters of the base 16 digits table for each byte. *)
Fixpoint pr_df (up : bool) (bytes : list Z) : option (list Z) :=
  match bytes with
  | [] => Some []
  | b :: r => match tb_pair 16 up b, pr_df up r with Some p, Some q => Some (p ++ q) | _, _ => None end
  end.

(** 48-57 hex_encoding_prv_size_cal: [n] bytes; [w] the width of size_t in bits. *)
Definition hex_size (w : Z) (n : Z) : option Z :=
  if ((2 ^ w - 1) / 2 <? n)%Z then None else Some (wrap w (Z.shiftl n 1)).
(** 145-186, 67-83: hex_encode and hex_encode_upper view the elements as bytes; reserve size and text. *)
Definition hex_encode (w : Z) (up : bool) (bytes : list Z) : option (Z * list Z) :=
  match hex_size w (Z.of_nat (length bytes)), pr_df up bytes with Some n, Some t => Some (n, t) | _, _ => None end.

(** [first,last) of the memory that starts at the first byte of [mem]. *)
Definition bytes_at (mem : list Z) (first last : nat) : option (list Z) :=
  if (first <=? last) && (last <=? length mem) then Some (firstn (last - first) (skipn first mem)) else None.
Definition pr_range (up : bool) (mem : list Z) (first last : nat) : option (list Z) :=
  match bytes_at mem first last with Some b => pr_df up b | None => None end.
(** 34-42: the loop of pr_rsv_uuid, [k] iterations left; [next] the offset next_it; returns what it wrote and next_it. *)
Fixpoint uuid_loop (up : bool) (mem : list Z) (k next : nat) : option (list Z * nat) :=
  match k with
  | O => Some ([], next)
  | S k => let uuid := next in let next := next + 2 in
      match pr_range up mem uuid next, uuid_loop up mem k next with
      | Some t, Some (r, e) => Some (45%Z :: t ++ r, e)
      | _, _ => None
      end
  end.
(** 29-46 pr_rsv_uuid; boost/uuid.h 9-15: 36 characters are reserved for it. *)
Definition pr_rsv_uuid (up : bool) (mem : list Z) : option (list Z) :=
  match pr_range up mem 0 4, uuid_loop up mem 3 4 with
  | Some a, Some (b, next) => match pr_range up mem next (next + 6) with Some c => Some (a ++ b ++ 45%Z :: c) | None => None end
  | _, _ => None
  end.
Definition uuid_reserve : nat := 36.

(** 340-347 cal_crypto_hash_resrv_size. *)
Definition resrv_size (d : form) (digest_size : nat) : nat := match d with raw_bytes => digest_size | _ => digest_size * 2 end.
(** 352-382 copy_to_hash_df_commom_impl, run time branch: [buffer] the bytes, [n] how many. *)
Definition copy_to_hash (d : form) (buffer : list Z) (n : nat) : option (list Z) :=
  match bytes_at buffer 0 n with
  | None => None
  | Some b => match d with raw_bytes => Some b | lower => pr_df false b | upper => pr_df true b end
  end.
(** 385-421, 424-471: printing the digest of a context whose digest size is a constant and whose digest_to_byte_ptr returns
    nothing (all the contexts of fast_io_crypto/hash); [digest] what digest_to_byte_ptr stores.  With one-byte characters and raw_bytes
    the digest is stored directly in the output (450-460), the same characters.  Not modelled: contexts with runtime_digest_size. *)
Definition print_digest (d : form) (dsz : nat) (digest : list Z) : option (list Z) := copy_to_hash d digest dsz.

(** The work arrays, byte order and code path a context runs with: see HashModel.v. *)
Record machine := { m_impl : sha2_impl; m_host : endian; m_junk : list Z -> list Z -> list Z; m_tmp : Z; m_buf : nat -> list Z }.
(** A context of each kind, constructed, given [chunks] by update, do_final, digest_to_byte_ptr (HashModel.v; fast_io_crypto/hash/). *)
Definition digest_of (a : algorithm) (M : machine) (chunks : list (list Z)) : list Z :=
  match a with
  | MD5 => md5_digest (m_host M) (m_tmp M) (m_buf M 64) chunks
  | SHA1 => sha1_digest (m_host M) (m_buf M 64) chunks
  | SHA224 => sha224_digest (m_impl M) (m_host M) (m_junk M) (m_buf M 64) chunks
  | SHA256 => sha256_digest (m_impl M) (m_host M) (m_junk M) (m_buf M 64) chunks
  | SHA384 => sha384_digest (m_impl M) (m_host M) (m_junk M) (m_buf M 128) chunks
  | SHA512 => sha512_digest (m_impl M) (m_host M) (m_junk M) (m_buf M 128) chunks
  | SHA512_224 => sha512_224_digest (m_impl M) (m_host M) (m_junk M) (m_buf M 128) chunks
  | SHA512_256 => sha512_256_digest (m_impl M) (m_host M) (m_junk M) (m_buf M 128) chunks
  | CRC32 => crc_digest_bytes (m_host M) (crc_run crc32_tb chunks)
  | CRC32C => crc_digest_bytes (m_host M) (crc_run crc32c_tb chunks)
  end.
(** md5.h 392, sha1.h 750, sha256.h 208 218, sha512.h 243-273, crc32.h 69: digest_size. *)
Definition digest_size (a : algorithm) : nat :=
  match a with
  | MD5 => 16 | SHA1 => 20 | SHA224 => 28 | SHA256 => 32 | SHA384 => 48 | SHA512 => 64 | SHA512_224 => 28 | SHA512_256 => 32 | CRC32 | CRC32C => 4
  end.

(** What a user does to as_file(ctx). *)
Inductive put :=
| Write (w : nat) (chars : list Z)      (* write of characters of [w] bytes each *)
| ScatterWrite (blocks : list (list Z)). (* scatter_write of blocks of bytes *)
(** 20-28 update_multiple_blocks, 108-140: the calls of update made; [ce]: constant evaluation, one update a character. *)
Definition put_updates (ce : bool) (host : endian) (p : put) : list (list Z) :=
  match p with
  | Write w cs => if ce then map (bytes_of host w) cs else [concat (map (bytes_of host w) cs)]
  | ScatterWrite bs => bs
  end.
(** as_file(ctx) written to, ctx.do_final(), print(hash_digest…(ctx)) (244-262, 568-607). *)
Definition hash_file (a : algorithm) (M : machine) (d : form) (puts : list put) : option (list Z) :=
  print_digest d (digest_size a) (digest_of a M (concat (map (put_updates false (m_host M)) puts))).

(** 272-321 hash_compress, hash_compress_upper, hash_compress_raw_bytes: the length in bytes of the view made of a range of [n]
    elements; [is_byte] the element is std::byte, [elem] its size, [range] the size of the range object itself. *)
Definition compress_len (d : form) (is_byte : bool) (elem range n : nat) : nat :=
  if is_byte then n else match d with lower => n * elem | upper => n * range | raw_bytes => n * range end.
(** 474-564, 610-628: hash the view, print the digest; [mem] what is readable from the range's first byte on. *)
Definition hash_compress (a : algorithm) (M : machine) (d : form) (is_byte : bool) (elem range n : nat) (mem : list Z) : option (list Z) :=
  match bytes_at mem 0 (compress_len d is_byte elem range n) with
  | Some b => print_digest d (digest_size a) (digest_of a M [b])
  | None => None
  end.
