(** Model of byte_swap and of the fixed width endian serialisation.
    Sources: include/fast_io_core_impl/utils.h 183-330,
             include/fast_io_freestanding_impl/serializations/lebe.h.
    The memory image of an integer on a host of order [host] is [bytes_of host n x]: that is the meaning
    of std::bit_cast / memcpy between an unsigned integer and an array of bytes. *)
From Verif Require Import Base ByteSpec.

(** utils.h 183-187 calculate_byteswap_ff. *)
Definition ffmask (i : Z) : Z := Z.shiftl 255 (8 * i).
Definition mshr (a i s : Z) : Z := Z.shiftr (Z.land a (ffmask i)) s.
Definition mshl (a i s : Z) : Z := Z.shiftl (Z.land a (ffmask i)) s.

(** utils.h 193-234 byte_swap_naive_impl; also the meaning of __builtin_bswap16/32/64/128.
    [n] = sizeof(U).  The mask constants of the 8, 4 and 2 byte cases are ffmask 7 .. ffmask 0 written in hex. *)
Definition byte_swap_naive (n : nat) (a : Z) : Z :=
  match n with
  | 16%nat =>
      Z.lor (Z.lor (Z.lor (Z.lor (Z.lor (Z.lor (Z.lor (Z.lor (Z.lor (Z.lor (Z.lor (Z.lor (Z.lor (Z.lor (Z.lor
        (mshr a 15 120) (mshr a 14 104)) (mshr a 13 88)) (mshr a 12 72)) (mshr a 11 56)) (mshr a 10 40))
        (mshr a 9 24)) (mshr a 8 8)) (mshl a 7 8)) (mshl a 6 24)) (mshl a 5 40)) (mshl a 4 56))
        (mshl a 3 72)) (mshl a 2 88)) (mshl a 1 104)) (mshl a 0 120)
  | 8%nat =>
      Z.lor (Z.lor (Z.lor (Z.lor (Z.lor (Z.lor (Z.lor
        (mshr a 7 56) (mshr a 6 40)) (mshr a 5 24)) (mshr a 4 8)) (mshl a 3 8)) (mshl a 2 24)) (mshl a 1 40)) (mshl a 0 56)
  | 4%nat => Z.lor (Z.lor (Z.lor (mshr a 3 24) (mshr a 2 8)) (mshl a 1 8)) (mshl a 0 24)
  | 2%nat => Z.lor (mshr a 1 8) (mshl a 0 8)
  | _ => a
  end.

(** utils.h 236-293 byte_swap.  The 128 bit case without __builtin_bswap128 (253-257) swaps two halves. *)
Definition byte_swap128_halves (a : Z) : Z :=
  let high := byte_swap_naive 8 (wrap 64 (Z.shiftr a 64)) in
  let low := byte_swap_naive 8 (wrap 64 a) in
  Z.lor (Z.shiftl low 64) high.
Definition byte_swap (n : nat) (a : Z) : Z := if Nat.eqb n 1 then a else byte_swap_naive n a.

Definition endian_eqb (a b : endian) : bool := match a, b with little, little | big, big => true | _, _ => false end.

(** utils.h 295-330 big_endian / little_endian, on a host of order [host]. *)
Definition to_big_endian (host : endian) (n : nat) (u : Z) : Z :=
  if Nat.eqb n 1 || endian_eqb host big then u else byte_swap n u.
Definition to_little_endian (host : endian) (n : nat) (u : Z) : Z :=
  if Nat.eqb n 1 || endian_eqb host little then u else byte_swap n u.

(** lebe.h 125-150 lebe_put<en,sz>(t): the proxy value, or None for throw_parse_code(invalid). *)
Definition lebe_put (sz : Z) (ty : int_type) (t : Z) : option Z :=
  let u := wrap (iw ty) t in
  if sz <? iw ty then
    let half := wrap (iw ty) (Z.shiftl 1 (sz - 1)) in
    let mx := wrap (iw ty) (wrap (iw ty) (half - 1) + half) in
    if mx <? u then None else Some (wrap sz u)
  else Some (wrap sz u).

(** lebe.h 500-548 print_reserve_define_integer_lebe_common_impl: the units written, given the previous
    content [old] of the destination.  [n] = sizeof(uint_type).  At run time a one byte integer is copied by
    memcpy(iter,&u,1) (the test is on sizeof(uint_type), not sizeof(char_type)): for a code unit wider than a
    byte only one byte of the first unit changes (the low one on a little endian host). *)
Definition lebe_print (host en : endian) (cw : Z) (n : nat) (u : Z) (old : list Z) : list Z :=
  let u := if endian_eqb host en then u else byte_swap n u in
  match n with
  | 1%nat =>
      if cw =? 8 then bytes_of host 1 u
      else match old with
           | o :: _ => let bs := bytes_of host (Z.to_nat (cw / 8)) o in
                       [of_bytes host (match bs with _ :: r => hd 0 (bytes_of host 1 u) :: r | [] => [] end)]
           | [] => []
           end
  | _ => bytes_of host n u
  end.

(** lebe.h 272-323 (wide units: every unit must be at most 255) and 325-372 (bytes): the proxy integer. *)
Definition lebe_read (host en : endian) (cw : Z) (n : nat) (s : list Z) : option Z :=
  let bs := firstn n s in
  if (8 <? cw) && existsb (fun c => 255 <? c) bs then None
  else
    let t := of_bytes host bs in
    Some (if endian_eqb host en then t else byte_swap n t).

(** lebe.h 374-424 scan_precise_reserve_define_integer_impl: None models parse_code::invalid.
    When the destination is narrower than n bits and char_type is one byte the function does not compile
    (it returns parse_code from a void function); the model covers the case for wider code units. *)
Definition lebe_get (host en : endian) (cw sz : Z) (ty : int_type) (s : list Z) : option Z :=
  match lebe_read host en cw (Z.to_nat (sz / 8)) s with
  | None => None
  | Some temp =>
      let conv u := if isigned ty then to_signed (iw ty) u else u in
      if iw ty <? sz then
        if 2 ^ iw ty - 1 <? temp then None else Some (conv (wrap (iw ty) temp))
      else Some (conv (wrap (iw ty) temp))
  end.
