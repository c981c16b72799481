(** Independent specification of the hash functions: FIPS 180-4 (SHA-1, SHA-2), RFC 1321 (MD5) and the bitwise
    definition of CRC-32.  Nothing here mentions the code.  Words are integers in [0, 2^w). *)
From Verif Require Import Base ByteSpec.

(** Consecutive pieces of [n] elements, as many as fit. *)
Fixpoint pieces {A} (k n : nat) (l : list A) : list (list A) :=
  match k with O => [] | S k => firstn n l :: pieces k n (skipn n l) end.
Definition blocks {A} (n : nat) (l : list A) : list (list A) := pieces (length l / n) n l.
(** A block of bytes as words of [n] bytes. *)
Definition words (e : endian) (n : nat) (l : list Z) : list Z := map (of_bytes e) (blocks n l).

(** ** Padding (FIPS 180-4 5.1, RFC 1321 3.1-3.2).  [bs] block size in bytes, [cnt] size of the length field. *)
Definition pad_zeros (bs cnt len : Z) : nat := Z.to_nat ((bs - cnt - 1 - len) mod bs).
Definition pad (en : endian) (bs cnt : Z) (m : list Z) : list Z :=
  m ++ [128] ++ repeat 0 (pad_zeros bs cnt (zlen m)) ++ bytes_of en (Z.to_nat cnt) (8 * zlen m).
(** The iterated hash: every block of the padded message through the compression function. *)
Definition md_hash (en : endian) (bs cnt : Z) (wb dsz : nat) (compress : list Z -> list Z -> list Z) (iv m : list Z) : list Z :=
  firstn dsz (concat (map (bytes_of en wb) (fold_left compress (blocks (Z.to_nat bs) (pad en bs cnt m)) iv))).

(** ** Word operations (FIPS 180-4 2.2.2, 3.2). *)
Definition add_w (w x y : Z) : Z := (x + y) mod 2 ^ w.
Definition rotr (w n x : Z) : Z := Z.lor (Z.shiftr x n) (Z.shiftl x (w - n) mod 2 ^ w).
Definition rotl (w n x : Z) : Z := Z.lor (Z.shiftl x n mod 2 ^ w) (Z.shiftr x (w - n)).
Definition not_w (w x : Z) : Z := 2 ^ w - 1 - x.
(** (x /\ y) xor (not x /\ z) *)
Definition Ch x y z := Z.lxor (Z.land x y) (Z.ldiff z x).
Definition Maj x y z := Z.lxor (Z.lxor (Z.land x y) (Z.land x z)) (Z.land y z).
Definition Parity x y z := Z.lxor (Z.lxor x y) z.

(** ** Constants. *)
Definition is_prime (n : nat) : bool := forallb (fun d => negb (Nat.eqb (n mod d) 0)) (seq 2 (n - 2)).
Definition primes : list Z := map Z.of_nat (filter is_prime (seq 2 408)).
(** Largest x < 2^k with acc + x ^ e <= n, digit by digit. *)
Fixpoint root (k : nat) (e n acc : Z) : Z :=
  match k with
  | O => acc
  | S k => let t := acc + 2 ^ Z.of_nat k in if t ^ e <=? n then root k e n t else root k e n acc
  end.
(** First [b] bits of the fractional part of the e-th root of p. *)
Definition frac_root (e b p : Z) : Z := root (Z.to_nat b + 5) e (p * 2 ^ (e * b)) 0 mod 2 ^ b.

(** ** SHA-2 (FIPS 180-4 4.1.2, 4.1.3, 6.2, 6.4). *)
Record sha2 := mk_sha2 { w2 : Z; bigS0 : Z -> Z; bigS1 : Z -> Z; smallS0 : Z -> Z; smallS1 : Z -> Z; K2 : list Z }.
Definition sha2_32 : sha2 := {|
  w2 := 32;
  bigS0 x := Z.lxor (Z.lxor (rotr 32 2 x) (rotr 32 13 x)) (rotr 32 22 x);
  bigS1 x := Z.lxor (Z.lxor (rotr 32 6 x) (rotr 32 11 x)) (rotr 32 25 x);
  smallS0 x := Z.lxor (Z.lxor (rotr 32 7 x) (rotr 32 18 x)) (Z.shiftr x 3);
  smallS1 x := Z.lxor (Z.lxor (rotr 32 17 x) (rotr 32 19 x)) (Z.shiftr x 10);
  K2 := map (frac_root 3 32) (firstn 64 primes) |}.
Definition sha2_64 : sha2 := {|
  w2 := 64;
  bigS0 x := Z.lxor (Z.lxor (rotr 64 28 x) (rotr 64 34 x)) (rotr 64 39 x);
  bigS1 x := Z.lxor (Z.lxor (rotr 64 14 x) (rotr 64 18 x)) (rotr 64 41 x);
  smallS0 x := Z.lxor (Z.lxor (rotr 64 1 x) (rotr 64 8 x)) (Z.shiftr x 7);
  smallS1 x := Z.lxor (Z.lxor (rotr 64 19 x) (rotr 64 61 x)) (Z.shiftr x 6);
  K2 := map (frac_root 3 64) (firstn 80 primes) |}.

(** The message schedule W_0 .. W_(15+n). *)
Fixpoint sha2_schedule (p : sha2) (n : nat) (M : list Z) : list Z :=
  match n with
  | O => M
  | S n => let W := sha2_schedule p n M in
           let t := length W in
           W ++ [(smallS1 p (nth (t - 2) W 0) + nth (t - 7) W 0 + smallS0 p (nth (t - 15) W 0) + nth (t - 16) W 0) mod 2 ^ w2 p]
  end.
Definition sha2_round (p : sha2) (v : list Z) (KW : Z * Z) : list Z :=
  match v with
  | [a; b; c; d; e; f; g; h] =>
      let T1 := h + bigS1 p e + Ch e f g + fst KW + snd KW in
      let T2 := bigS0 p a + Maj a b c in
      [(T1 + T2) mod 2 ^ w2 p; a; b; c; (d + T1) mod 2 ^ w2 p; e; f; g]
  | _ => v
  end.
Definition sum_words (w : Z) (xs ys : list Z) : list Z := map (fun p => (fst p + snd p) mod 2 ^ w) (combine xs ys).
Definition sha2_compress (p : sha2) (H block : list Z) : list Z :=
  let M := words big (Z.to_nat (w2 p / 8)) block in
  let W := sha2_schedule p (length (K2 p) - 16) M in
  sum_words (w2 p) H (fold_left (sha2_round p) (combine (K2 p) W) H).

(** Initial values (FIPS 180-4 5.3): square roots of the first eight primes; SHA-384: 64 bits of the square roots of
    the 9th to 16th primes; SHA-224: the second 32 bits of those; SHA-512/t: the SHA-512/t IV generation function. *)
Definition iv_sha256 : list Z := map (frac_root 2 32) (firstn 8 primes).
Definition iv_sha224 : list Z := map (fun p => frac_root 2 64 p mod 2 ^ 32) (firstn 8 (skipn 8 primes)).
Definition iv_sha512 : list Z := map (frac_root 2 64) (firstn 8 primes).
Definition iv_sha384 : list Z := map (frac_root 2 64) (firstn 8 (skipn 8 primes)).

Definition sha256_spec := md_hash big 64 8 4 32 (sha2_compress sha2_32) iv_sha256.
Definition sha224_spec := md_hash big 64 8 4 28 (sha2_compress sha2_32) iv_sha224.
Definition sha512_spec := md_hash big 128 16 8 64 (sha2_compress sha2_64) iv_sha512.
Definition sha384_spec := md_hash big 128 16 8 48 (sha2_compress sha2_64) iv_sha384.
(** "SHA-512/" followed by the digits of t, hashed from the SHA-512 initial value xored with a5a5... *)
Definition sha512_t_iv (name : list Z) : list Z :=
  words big 8 (md_hash big 128 16 8 64 (sha2_compress sha2_64) (map (Z.lxor 0xa5a5a5a5a5a5a5a5) iv_sha512) name).
Definition iv_sha512_224 : list Z := sha512_t_iv [83; 72; 65; 45; 53; 49; 50; 47; 50; 50; 52].
Definition iv_sha512_256 : list Z := sha512_t_iv [83; 72; 65; 45; 53; 49; 50; 47; 50; 53; 54].
Definition sha512_224_spec := md_hash big 128 16 8 28 (sha2_compress sha2_64) iv_sha512_224.
Definition sha512_256_spec := md_hash big 128 16 8 32 (sha2_compress sha2_64) iv_sha512_256.

(** ** SHA-1 (FIPS 180-4 4.1.1, 4.2.1, 6.1). *)
Definition sha1_f (t : nat) x y z : Z :=
  if (t <? 20)%nat then Ch x y z else if (t <? 40)%nat then Parity x y z else if (t <? 60)%nat then Maj x y z else Parity x y z.
(** floor (2^30 * sqrt 2, 3, 5, 10). *)
Definition sha1_K (t : nat) : Z :=
  root 32 2 ((if (t <? 20)%nat then 2 else if (t <? 40)%nat then 3 else if (t <? 60)%nat then 5 else 10) * 2 ^ 60) 0.
Fixpoint sha1_schedule (n : nat) (M : list Z) : list Z :=
  match n with
  | O => M
  | S n => let W := sha1_schedule n M in
           let t := length W in
           W ++ [rotl 32 1 (Z.lxor (Z.lxor (Z.lxor (nth (t - 3) W 0) (nth (t - 8) W 0)) (nth (t - 14) W 0)) (nth (t - 16) W 0))]
  end.
Definition sha1_round (v : list Z) (tW : nat * Z) : list Z :=
  match v with
  | [a; b; c; d; e] =>
      [(rotl 32 5 a + sha1_f (fst tW) b c d + e + sha1_K (fst tW) + snd tW) mod 2 ^ 32; a; rotl 32 30 b; c; d]
  | _ => v
  end.
Definition sha1_compress (H block : list Z) : list Z :=
  sum_words 32 H (fold_left sha1_round (combine (seq 0 80) (sha1_schedule 64 (words big 4 block))) H).
Definition iv_sha1 : list Z := [0x67452301; 0xefcdab89; 0x98badcfe; 0x10325476; 0xc3d2e1f0].
Definition sha1_spec := md_hash big 64 8 4 20 sha1_compress iv_sha1.

(** ** MD5 (RFC 1321 3.4).  T[i] = floor (2^32 |sin (i+1)|), tabulated in the RFC. *)
Definition md5_T : list Z :=
  [3614090360; 3905402710; 606105819; 3250441966; 4118548399; 1200080426; 2821735955; 4249261313;
   1770035416; 2336552879; 4294925233; 2304563134; 1804603682; 4254626195; 2792965006; 1236535329;
   4129170786; 3225465664; 643717713; 3921069994; 3593408605; 38016083; 3634488961; 3889429448;
   568446438; 3275163606; 4107603335; 1163531501; 2850285829; 4243563512; 1735328473; 2368359562;
   4294588738; 2272392833; 1839030562; 4259657740; 2763975236; 1272893353; 4139469664; 3200236656;
   681279174; 3936430074; 3572445317; 76029189; 3654602809; 3873151461; 530742520; 3299628645;
   4096336452; 1126891415; 2878612391; 4237533241; 1700485571; 2399980690; 4293915773; 2240044497;
   1873313359; 4264355552; 2734768916; 1309151649; 4149444226; 3174756917; 718787259; 3951481745].
Definition md5_f (i : nat) x y z : Z :=
  if (i <? 16)%nat then Z.lor (Z.land x y) (Z.ldiff z x)
  else if (i <? 32)%nat then Z.lor (Z.land x z) (Z.ldiff y z)
  else if (i <? 48)%nat then Z.lxor (Z.lxor x y) z
  else Z.lxor y (Z.lor x (not_w 32 z)).
Definition md5_k (i : nat) : nat :=
  if (i <? 16)%nat then i else if (i <? 32)%nat then (5 * i + 1) mod 16 else if (i <? 48)%nat then (3 * i + 5) mod 16 else (7 * i) mod 16.
Definition md5_s (i : nat) : Z :=
  nth (i mod 4) (nth (i / 16) [[7; 12; 17; 22]; [5; 9; 14; 20]; [4; 11; 16; 23]; [6; 10; 15; 21]] []) 0.
Definition md5_round (X : list Z) (v : list Z) (i : nat) : list Z :=
  match v with
  | [a; b; c; d] =>
      [d; (b + rotl 32 (md5_s i) ((a + md5_f i b c d + nth (md5_k i) X 0 + nth i md5_T 0) mod 2 ^ 32)) mod 2 ^ 32; b; c]
  | _ => v
  end.
Definition md5_compress (H block : list Z) : list Z :=
  sum_words 32 H (fold_left (md5_round (words little 4 block)) (seq 0 64) H).
Definition iv_md5 : list Z := [0x67452301; 0xefcdab89; 0x98badcfe; 0x10325476].
Definition md5_spec := md_hash little 64 8 4 16 md5_compress iv_md5.

(** ** CRC-32 (reflected), one bit at a time: [poly] is the reversed generator polynomial. *)
Definition crc_bit (poly c : Z) : Z := if Z.odd c then Z.lxor (Z.shiftr c 1) poly else Z.shiftr c 1.
Definition crc_byte (poly c b : Z) : Z := Nat.iter 8 (crc_bit poly) (Z.lxor c b).
Definition crc_spec (poly : Z) (m : list Z) : Z := Z.lxor (fold_left (crc_byte poly) m (2 ^ 32 - 1)) (2 ^ 32 - 1).
Definition poly_crc32 : Z := 0xEDB88320.
Definition poly_crc32c : Z := 0x82F63B78.

(** The same as division of polynomials over GF(2): a polynomial is the list of its coefficients, highest power first.
    [divide n g d] carries out [n] steps of the long division of [d] by the polynomial with leading coefficient 1 and
    further coefficients [g]; what is left is the remainder. *)
Fixpoint xor_prefix (g d : list bool) : list bool :=
  match g, d with x :: g, y :: d => xorb x y :: xor_prefix g d | _, _ => d end.
Fixpoint divide (n : nat) (g d : list bool) : list bool :=
  match n, d with
  | S n, b :: d => divide n g (if b then xor_prefix g d else d)
  | _, _ => d
  end.
(** Bits, least significant first. *)
Definition lsb (n : nat) (x : Z) : list bool := map (fun i => Z.testbit x (Z.of_nat i)) (seq 0 n).
(** CRC-32 as the catalogues define it: the message bits (least significant bit of each byte first) times x^32, the
    first 32 coefficients complemented, divided by the generator; the complement of the remainder, whose highest
    coefficient is the least significant bit of the checksum. *)
Definition crc_dividend (m : list Z) : list bool := xor_prefix (repeat true 32) (flat_map (lsb 8) m ++ repeat false 32).
Definition crc_remainder (poly : Z) (m : list Z) : list bool := map negb (divide (8 * length m) (lsb 32 poly) (crc_dividend m)).
