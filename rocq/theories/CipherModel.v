(** Model of include/fast_io_crypto/streamcipher/chacha/ (scalar.h, simd16.h), cipher/aes.h and padding/.  None of these headers is
    included by another header of the library; users include them directly.  [None] is an access outside of an object. *)
From Verif Require Import Base ByteSpec LebeModel HashModel.
Local Open Scope nat_scope.

(** ** scalar.h *)
(** 11-31 chachaqr on the words at four places of the array. *)
Definition chachaqr (x : list Z) (i j k l : nat) : list Z :=
  let x := upd x i (wadd 32 (get x i) (get x j)) in
  let x := upd x l (Z.lxor (get x l) (get x i)) in
  let x := upd x l (std_rotl 32 (get x l) 16) in
  let x := upd x k (wadd 32 (get x k) (get x l)) in
  let x := upd x j (Z.lxor (get x j) (get x k)) in
  let x := upd x j (std_rotl 32 (get x j) 12) in
  let x := upd x i (wadd 32 (get x i) (get x j)) in
  let x := upd x l (Z.lxor (get x l) (get x i)) in
  let x := upd x l (std_rotl 32 (get x l) 8) in
  let x := upd x k (wadd 32 (get x k) (get x l)) in
  let x := upd x j (Z.lxor (get x j) (get x k)) in
  upd x j (std_rotl 32 (get x j) 7).
(** 63-75: the loop's body. *)
Definition chacha_two_rounds (x : list Z) : list Z :=
  let x := chachaqr x 0 4 8 12 in
  let x := chachaqr x 1 5 9 13 in
  let x := chachaqr x 2 6 10 14 in
  let x := chachaqr x 3 7 11 15 in
  let x := chachaqr x 0 5 10 15 in
  let x := chachaqr x 1 6 11 12 in
  let x := chachaqr x 2 7 8 13 in
  chachaqr x 3 4 9 14.
(** 77-105: word [i] of the output; run time and constant evaluation store the same bytes. *)
Definition chacha_out (host : endian) (x indata : list Z) (i : nat) : list Z :=
  let res := wadd 32 (get x i) (get indata i) in
  bytes_of host 4 (if endian_eqb host little then res else byte_swap 4 res).
(** 36-107 chacha_main_routine. *)
Definition chacha_scalar (host : endian) (indata : list Z) : list Z :=
  let x := Nat.iter 10 chacha_two_rounds indata in
  concat (map (chacha_out host x indata) (seq 0 16)).

(** ** simd16.h; vectors of four lanes (simd/gcc_clang.h: + ^ << >> lane by lane). *)
Definition vadd := lanes2 (wadd 32).
Definition vxor := lanes2 Z.lxor.
Definition vshl (n : Z) (v : list Z) := map (fun x => wshl 32 x n) v.
Definition vshr (n : Z) (v : list Z) := map (fun x => Z.shiftr x n) v.
Definition vrot (l r : Z) (v : list Z) := vadd (vshl l v) (vshr r v).
Definition shuffle (v : list Z) (p : list nat) : list Z := map (get v) p.
Definition rows := (list Z * list Z * list Z * list Z)%type.
(** 33-50: chacha_simd16_qr4_round_impl<0>. *)
Definition simd_odd (r : rows) : rows :=
  let '(a, b, c, d) := r in
  let a := vadd a b in let d := vxor d a in let d := vrot 16 16 d in
  let c := vadd c d in let b := vxor b c in let b := vrot 12 20 b in
  let a := vadd a b in let d := vxor d a in let d := vrot 8 24 d in
  let c := vadd c d in let b := vxor b c in let b := vrot 7 25 b in
  (a, b, c, d).
(** 23-31: chacha_simd16_qr4_round_impl<1>.  __builtin_shufflevector(v,v,...): lane i of the result is lane p(i) of v. *)
Definition simd_even (r : rows) : rows :=
  let '(a, b, c, d) := r in
  let b := shuffle b [3; 0; 1; 2] in let c := shuffle c [2; 3; 0; 1] in let d := shuffle d [1; 2; 3; 0] in
  let '(a, b, c, d) := simd_odd (a, b, c, d) in
  let b := shuffle b [1; 2; 3; 0] in let c := shuffle c [2; 3; 0; 1] in let d := shuffle d [3; 0; 1; 2] in
  (a, b, c, d).
(** 68-74: the loop's body. *)
Definition simd_four_rounds (r : rows) : rows := simd_even (simd_odd (simd_even (simd_odd r))).
(** 84-91: swap_endian and store of a row. *)
Definition store_row (host : endian) (v : list Z) : list Z :=
  concat (map (fun x => bytes_of host 4 (if endian_eqb host little then x else byte_swap 4 x)) v).
(** 57-92 chacha_runtime_routine. *)
Definition chacha_simd (host : endian) (indata : list Z) : list Z :=
  let a0 := slice indata 0 4 in let b0 := slice indata 4 4 in let c0 := slice indata 8 4 in let d0 := slice indata 12 4 in
  let '(a, b, c, d) := Nat.iter 5 simd_four_rounds (a0, b0, c0, d0) in
  store_row host (vadd a a0) ++ store_row host (vadd b b0) ++ store_row host (vadd c c0) ++ store_row host (vadd d d0).

(** ** aes.h.  A __m128i is four words, lowest first, of four bytes; [sub] is SubWord of the aeskeygenassist instruction. *)
Section Aes.
Variable sub : list Z -> list Z.
Definition zero4 : list Z := [0; 0; 0; 0]%Z.
Definition xorw (a b : list Z) : list Z := map (fun p => Z.lxor (fst p) (snd p)) (combine a b).
Definition lane (v : list (list Z)) (i : nat) : list Z := nth i v [].
Definition xor128 (a b : list (list Z)) : list (list Z) := map (fun p => xorw (fst p) (snd p)) (combine a b).
(** _mm_slli_si128(v,4), _mm_srli_si128(v,8). *)
Definition slli4 (v : list (list Z)) : list (list Z) := [zero4; lane v 0; lane v 1; lane v 2].
Definition srli8 (v : list (list Z)) : list (list Z) := [lane v 2; lane v 3; zero4; zero4].
(** _mm_shuffle_epi32 with 0xff or _MM_SHUFFLE(3,3,3,3) (k=3), 0x55 (k=1): lane k everywhere. *)
Definition bcast (v : list (list Z)) (k : nat) : list (list Z) := [lane v k; lane v k; lane v k; lane v k].
(** _mm_aeskeygenassist_si128 (Intel manual). *)
Definition rotw (w : list Z) : list Z := match w with [a; b; c; d] => [b; c; d; a] | _ => w end.
Definition keygenassist (v : list (list Z)) (rc : Z) : list (list Z) :=
  let rcw := [rc; 0; 0; 0]%Z in
  [sub (lane v 1); xorw (rotw (sub (lane v 1))) rcw; sub (lane v 3); xorw (rotw (sub (lane v 3))) rcw].
(** aes.h 12-17 *)
Definition exp_common (key : list (list Z)) : list (list Z) :=
  let key := xor128 key (slli4 key) in let key := xor128 key (slli4 key) in xor128 key (slli4 key).
(** 19-27 *)
Definition exp_128 (k : list (list Z)) (rc : Z) : list (list Z) := xor128 (exp_common k) (bcast (keygenassist k rc) 3).
(** 29-36 *)
Definition exp_192_2 (key key2 : list (list Z)) : list (list Z) := xor128 (bcast key 3) (xor128 key2 (slli4 key2)).
Definition exp_192 (key key2 : list (list Z)) (rc : Z) : list (list Z) := xor128 (exp_common key) (bcast (keygenassist key2 rc) 1).
(** 38-44 *)
Definition exp_256 (key key2 : list (list Z)) (rc : Z) : list (list Z) := xor128 (exp_common key) (bcast (keygenassist key2 rc) 3).
Definition exp_256_2 (key key2 : list (list Z)) : list (list Z) := xor128 (exp_common key) (bcast (keygenassist key2 0) 3).
(** _mm_shuffle_pd(a,b,0) and (a,b,1). *)
Definition pd0 (a b : list (list Z)) : list (list Z) := [lane a 0; lane a 1; lane b 0; lane b 1].
Definition pd1 (a b : list (list Z)) : list (list Z) := [lane a 2; lane a 3; lane b 0; lane b 1].
(** _mm_loadu_si128 at offset [o]. *)
Definition load128 (key : list Z) (o : nat) : list (list Z) := map (fun i => slice key (o + 4 * i) 4) (seq 0 4).

(** 62-72: the values stored in key_schedule[0..10]. *)
Definition aes128_values (key : list Z) : list (list (list Z)) :=
  let k0 := load128 key 0 in
  let k1 := exp_128 k0 1 in let k2 := exp_128 k1 2 in let k3 := exp_128 k2 4 in let k4 := exp_128 k3 8 in let k5 := exp_128 k4 16 in
  let k6 := exp_128 k5 32 in let k7 := exp_128 k6 64 in let k8 := exp_128 k7 128 in let k9 := exp_128 k8 27 in let k10 := exp_128 k9 54 in
  [k0; k1; k2; k3; k4; k5; k6; k7; k8; k9; k10].
(** 76-102: key_schedule[0..12]. *)
Definition aes192_values (key : list Z) : list (list (list Z)) :=
  let k0 := load128 key 0 in
  let k1 := srli8 (load128 key 8) in
  let t0 := exp_192 k0 k1 1 in let t1 := exp_192_2 t0 k1 in
  let k1 := pd0 k1 t0 in let k2 := pd1 t0 t1 in
  let k3 := exp_192 t0 t1 2 in let k4 := exp_192_2 k3 t1 in
  let t0 := exp_192 k3 k4 4 in let t1 := exp_192_2 t0 k4 in
  let k4 := pd0 k4 t0 in let k5 := pd1 t0 t1 in
  let k6 := exp_192 t0 t1 8 in let k7 := exp_192_2 k6 t1 in
  let t0 := exp_192 k6 k7 16 in let t1 := exp_192_2 t0 k7 in
  let k7 := pd0 k7 t0 in let k8 := pd1 t0 t1 in
  let k9 := exp_192 t0 t1 32 in let k10 := exp_192_2 k9 t1 in
  let t0 := exp_192 k9 k10 64 in let t1 := exp_192_2 t0 k10 in
  let k10 := pd0 k10 t0 in let k11 := pd1 t0 t1 in
  let k12 := exp_192 t0 t1 128 in
  [k0; k1; k2; k3; k4; k5; k6; k7; k8; k9; k10; k11; k12].
(** 105-119: key_schedule[0..14]. *)
Definition aes256_values (key : list Z) : list (list (list Z)) :=
  let k0 := load128 key 0 in let k1 := load128 key 16 in
  let k2 := exp_256 k0 k1 1 in let k3 := exp_256_2 k1 k2 in let k4 := exp_256 k2 k3 2 in let k5 := exp_256_2 k3 k4 in
  let k6 := exp_256 k4 k5 4 in let k7 := exp_256_2 k5 k6 in let k8 := exp_256 k6 k7 8 in let k9 := exp_256_2 k7 k8 in
  let k10 := exp_256 k8 k9 16 in let k11 := exp_256_2 k9 k10 in let k12 := exp_256 k10 k11 32 in let k13 := exp_256_2 k11 k12 in
  let k14 := exp_256 k12 k13 64 in
  [k0; k1; k2; k3; k4; k5; k6; k7; k8; k9; k10; k11; k12; k13; k14].
(** 52-55: key_schedule_size. *)
Definition key_schedule_size (keysize : nat) : nat := if keysize =? 16 then 10 else if keysize =? 24 then 12 else 15.
(** 57-121: the constructor stores the values one by one; the last index is outside of the array if there are too many. *)
Definition aes_values (keysize : nat) (key : list Z) : list (list (list Z)) :=
  if keysize =? 16 then aes128_values key else if keysize =? 24 then aes192_values key else aes256_values key.
Definition aes_construct (keysize : nat) (key : list Z) : option (list (list (list Z))) :=
  let v := aes_values keysize key in if length v <=? key_schedule_size keysize then Some v else None.
(** 122-125: operator()(from,blocks,to) has an empty body: the memory at [to] afterwards. *)
Definition aes_apply (schedule : list (list (list Z))) (from : list Z) (blocks : nat) (to : list Z) : list Z := to.
End Aes.

(** ** padding/ *)
(** my_copy(inp.begin(), inp.end(), text.data()) into an array of [n] zeros. *)
Definition copy_in (n : nat) (inp : list Z) : option (list Z) := if length inp <=? n then Some (blit (repeat 0%Z n) 0 inp) else None.
(** zero_padding.h 11-16 *)
Definition zero_padding (n : nat) (inp : list Z) (remaining : nat) : option (list Z) := copy_in n inp.
(** pkcs7_padding.h 14-15: for(i=n-1; i>=n-r; --i) text[i]=pad, with i and n-r of type size_t ([w] bits); at most [fuel] iterations. *)
Fixpoint pad_loop (w : Z) (fuel : nat) (text : list Z) (i low pad : Z) : option (list Z) :=
  match fuel with
  | O => None
  | S fuel => if (i >=? low)%Z then
                if (i <? Z.of_nat (length text))%Z then pad_loop w fuel (upd text (Z.to_nat i) pad) (wrap w (i - 1)) low pad else None
              else Some text
  end.
(** 9-18 *)
Definition pkcs7_padding (w : Z) (n : nat) (inp : list Z) (remaining : nat) : option (list Z) :=
  match copy_in n inp with
  | Some text => pad_loop w (n + 2) text (wrap w (Z.of_nat n - 1)) (wrap w (Z.of_nat n - Z.of_nat remaining)) (Z.land (Z.of_nat remaining) 255)
  | None => None
  end.
