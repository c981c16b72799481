(** Model of the block routines that use vector units: include/fast_io_crypto/hash/sha256_x86_sha_extensions.h (GCC and
    clang, x86 SHA extensions), sha256_x86_sha_extensions_msvc.h (the same with the _mm_ intrinsics) and
    sha512_simd32_shuffle.h (AVX2).
    A 128 bit register is the list of its four 32 bit lanes, lane 0 (the lowest) first, each a number in [0, 2^32).
    The instructions follow their pseudo code in the Intel manual (SHA256RNDS2, SHA256MSG1, SHA256MSG2, PSHUFD, PALIGNR,
    PBLENDW, PSHUFB). *)
From Verif Require Import Base ByteSpec LebeModel HashTables HashModel.

(** ** The instructions. *)
(** One round as in the pseudo code of SHA256RNDS2: (A, B, C, D, E, F, G, H) and WK. *)
Definition intel_round (v : list Z) (wk : Z) : list Z :=
  let F := sha256_fns in
  match v with
  | [a; b; c; d; e; f; g; h] =>
      let t := wadd 32 (wadd 32 (wadd 32 (fCh F e f g) (fS1 F e)) wk) h in
      [wadd 32 (wadd 32 t (fMaj F a b c)) (fS0 F a); a; b; c; wadd 32 t d; e; f; g]
  | _ => v
  end.
(** SHA256RNDS2 src1, src2, xmm0: src1 = (H, G, D, C), src2 = (F, E, B, A), the new (F, E, B, A) is returned. *)
Definition sha256rnds2 (src1 src2 wk : list Z) : list Z :=
  let v := [get src2 3; get src2 2; get src1 3; get src1 2; get src2 1; get src2 0; get src1 1; get src1 0] in
  let v := intel_round (intel_round v (get wk 0)) (get wk 1) in
  [get v 5; get v 4; get v 1; get v 0].
Definition sha256msg1 (a b : list Z) : list Z :=
  let s0 := fs0 sha256_fns in
  [wadd 32 (get a 0) (s0 (get a 1)); wadd 32 (get a 1) (s0 (get a 2)); wadd 32 (get a 2) (s0 (get a 3)); wadd 32 (get a 3) (s0 (get b 0))].
Definition sha256msg2 (a b : list Z) : list Z :=
  let s1 := fs1 sha256_fns in
  let w16 := wadd 32 (get a 0) (s1 (get b 2)) in
  let w17 := wadd 32 (get a 1) (s1 (get b 3)) in
  let w18 := wadd 32 (get a 2) (s1 w16) in
  let w19 := wadd 32 (get a 3) (s1 w17) in
  [w16; w17; w18; w19].
(** PSHUFD: lane i is the lane of the source named by bits 2i, 2i+1 of the immediate. *)
Definition pshufd (v : list Z) (imm : Z) : list Z := map (fun i => get v (Z.to_nat (Z.shiftr imm (2 * i) mod 4))) [0; 1; 2; 3].
(** PALIGNR x, y, 4n bytes: the lanes n .. n+3 of y followed by x. *)
Definition palignr (x y : list Z) (n : nat) : list Z := firstn 4 (skipn n (y ++ x)).
(** PBLENDW x, y, imm for immediates that treat both halves of a lane alike. *)
Definition pblend (x y : list Z) (imm : Z) : list Z :=
  map (fun i => if Z.testbit imm (2 * Z.of_nat i) then get y i else get x i) [0; 1; 2; 3]%nat.
(** PSHUFB on sixteen bytes. *)
Definition pshufb (v mask : list Z) : list Z := map (fun k => get v (Z.to_nat k)) mask.
(** _mm_set_epi64x(hi, lo) as lanes. *)
Definition set_epi64x (hi lo : Z) : list Z := [lo mod 2 ^ 32; lo / 2 ^ 32; hi mod 2 ^ 32; hi / 2 ^ 32].

(** ** The routines as straight line programs.
    [NLoad m k]: msg<m>.load(block+16*k); msg<m>.swap_endian();
    [NLoadB m k]: MSG<m> = _mm_shuffle_epi8(_mm_loadu_si128(block+16*k), MASK);
    [NAddK m c]: msg = wrap_add(msg<m>, c);  [NShuf imm]: msg = pshufd(msg, imm);
    [NRnds1]: state1 = sha256rnds2(state1,state0,msg);  [NRnds0]: state0 = sha256rnds2(state0,state1,msg);
    [NMsg1 a b]: msg<a> = sha256msg1(msg<a>,msg<b>);  [NMsg2 a b] likewise;
    [NAlign n p q]: msg<n> += palignr(msg<p>,msg<q>) by four bytes (compiler_magic: 4 for clang, which counts bytes, 32 for
    GCC, which counts bits). *)
Inductive ninstr :=
| NLoad (m k : nat) | NLoadB (m k : nat) | NAddK (m : nat) (c : list Z) | NShuf (imm : Z) | NRnds1 | NRnds0
| NMsg1 (a b : nat) | NMsg2 (a b : nat) | NAlign (n p q : nat).
Record nstate := { n_msgs : list (list Z); n_msg : list Z; n_s0 : list Z; n_s1 : list Z }.
Definition msg_at (s : nstate) (m : nat) : list Z := nth m (n_msgs s) [].
Definition set_msg (l : list (list Z)) (m : nat) (v : list Z) : list (list Z) := firstn m l ++ v :: skipn (S m) l.

(** sha256_x86_sha_extensions_msvc.h 13 MASK: the bytes of the two literals, the low one first. *)
Definition ni_mask : list Z := le_bytes 8 0x0405060700010203 ++ le_bytes 8 0x0c0d0e0f08090a0b.
Definition ni_step (block : list Z) (s : nstate) (i : ninstr) : nstate :=
  match i with
  | NLoad m k =>
      let v := map (fun j => load_word little big 4 block (4 * k + j)) (seq 0 4) in
      {| n_msgs := set_msg (n_msgs s) m v; n_msg := n_msg s; n_s0 := n_s0 s; n_s1 := n_s1 s |}
  | NLoadB m k =>
      let bytes := pshufb (firstn 16 (skipn (16 * k) block)) ni_mask in
      let v := map (fun j => of_bytes little (firstn 4 (skipn (4 * j) bytes))) (seq 0 4) in
      {| n_msgs := set_msg (n_msgs s) m v; n_msg := n_msg s; n_s0 := n_s0 s; n_s1 := n_s1 s |}
  | NAddK m c => {| n_msgs := n_msgs s; n_msg := lanes2 (wadd 32) (msg_at s m) c; n_s0 := n_s0 s; n_s1 := n_s1 s |}
  | NShuf imm => {| n_msgs := n_msgs s; n_msg := pshufd (n_msg s) imm; n_s0 := n_s0 s; n_s1 := n_s1 s |}
  | NRnds1 => {| n_msgs := n_msgs s; n_msg := n_msg s; n_s0 := n_s0 s; n_s1 := sha256rnds2 (n_s1 s) (n_s0 s) (n_msg s) |}
  | NRnds0 => {| n_msgs := n_msgs s; n_msg := n_msg s; n_s0 := sha256rnds2 (n_s0 s) (n_s1 s) (n_msg s); n_s1 := n_s1 s |}
  | NMsg1 a b => {| n_msgs := set_msg (n_msgs s) a (sha256msg1 (msg_at s a) (msg_at s b)); n_msg := n_msg s; n_s0 := n_s0 s; n_s1 := n_s1 s |}
  | NMsg2 a b => {| n_msgs := set_msg (n_msgs s) a (sha256msg2 (msg_at s a) (msg_at s b)); n_msg := n_msg s; n_s0 := n_s0 s; n_s1 := n_s1 s |}
  | NAlign n p q =>
      {| n_msgs := set_msg (n_msgs s) n (lanes2 (wadd 32) (msg_at s n) (palignr (msg_at s p) (msg_at s q) 1)); n_msg := n_msg s; n_s0 := n_s0 s; n_s1 := n_s1 s |}
  end.

(** sha256_x86_sha_extensions.h 29-231: the body of the loop, extracted from the text by a script.  The constants are
    signed ints in the source; lanes are unsigned, additions wrap, so a negative constant c acts as c + 2^32. *)
Definition ni_prog : list ninstr :=
  [NLoad 0 0; NAddK 0 [1116352408; 1899447441; -1245643825; -373957723]; NRnds1; NShuf 14; NRnds0;
   NLoad 1 1; NAddK 1 [961987163; 1508970993; -1841331548; -1424204075]; NRnds1; NShuf 14; NRnds0; NMsg1 0 1;
   NLoad 2 2; NAddK 2 [-670586216; 310598401; 607225278; 1426881987]; NRnds1; NShuf 14; NRnds0; NMsg1 1 2;
   NLoad 3 3; NAddK 3 [1925078388; -2132889090; -1680079193; -1046744716]; NRnds1; NAlign 0 3 2; NMsg2 0 3; NShuf 14; NRnds0; NMsg1 2 3;
   NAddK 0 [-459576895; -272742522; 264347078; 604807628]; NRnds1; NAlign 1 0 3; NMsg2 1 0; NShuf 14; NRnds0; NMsg1 3 0;
   NAddK 1 [770255983; 1249150122; 1555081692; 1996064986]; NRnds1; NAlign 2 1 0; NMsg2 2 1; NShuf 14; NRnds0; NMsg1 0 1;
   NAddK 2 [-1740746414; -1473132947; -1341970488; -1084653625]; NRnds1; NAlign 3 2 1; NMsg2 3 2; NShuf 14; NRnds0; NMsg1 1 2;
   NAddK 3 [-958395405; -710438585; 113926993; 338241895]; NRnds1; NAlign 0 3 2; NMsg2 0 3; NShuf 14; NRnds0; NMsg1 2 3;
   NAddK 0 [666307205; 773529912; 1294757372; 1396182291]; NRnds1; NAlign 1 0 3; NMsg2 1 0; NShuf 14; NRnds0; NMsg1 3 0;
   NAddK 1 [1695183700; 1986661051; -2117940946; -1838011259]; NRnds1; NAlign 2 1 0; NMsg2 2 1; NShuf 14; NRnds0; NMsg1 0 1;
   NAddK 2 [-1564481375; -1474664885; -1035236496; -949202525]; NRnds1; NAlign 3 2 1; NMsg2 3 2; NShuf 14; NRnds0; NMsg1 1 2;
   NAddK 3 [-778901479; -694614492; -200395387; 275423344]; NRnds1; NAlign 0 3 2; NMsg2 0 3; NShuf 14; NRnds0; NMsg1 2 3;
   NAddK 0 [430227734; 506948616; 659060556; 883997877]; NRnds1; NAlign 1 0 3; NMsg2 1 0; NShuf 14; NRnds0; NMsg1 3 0;
   NAddK 1 [958139571; 1322822218; 1537002063; 1747873779]; NRnds1; NAlign 2 1 0; NMsg2 2 1; NShuf 14; NRnds0;
   NAddK 2 [1955562222; 2024104815; -2067236844; -1933114872]; NRnds1; NAlign 3 2 1; NMsg2 3 2; NShuf 14; NRnds0;
   NAddK 3 [-1866530822; -1538233109; -1090935817; -965641998]; NRnds1; NShuf 14; NRnds0].
(** sha256_x86_sha_extensions_msvc.h 29-174, extracted by a script. *)
Definition msvc_prog : list ninstr :=
  [NLoadB 0 0; NAddK 0 (set_epi64x 0xE9B5DBA5B5C0FBCF 0x71374491428A2F98); NRnds1; NShuf 14; NRnds0;
   NLoadB 1 1; NAddK 1 (set_epi64x 0xAB1C5ED5923F82A4 0x59F111F13956C25B); NRnds1; NShuf 14; NRnds0; NMsg1 0 1;
   NLoadB 2 2; NAddK 2 (set_epi64x 0x550C7DC3243185BE 0x12835B01D807AA98); NRnds1; NShuf 14; NRnds0; NMsg1 1 2;
   NLoadB 3 3; NAddK 3 (set_epi64x 0xC19BF1749BDC06A7 0x80DEB1FE72BE5D74); NRnds1; NAlign 0 3 2; NMsg2 0 3; NShuf 14; NRnds0; NMsg1 2 3;
   NAddK 0 (set_epi64x 0x240CA1CC0FC19DC6 0xEFBE4786E49B69C1); NRnds1; NAlign 1 0 3; NMsg2 1 0; NShuf 14; NRnds0; NMsg1 3 0;
   NAddK 1 (set_epi64x 0x76F988DA5CB0A9DC 0x4A7484AA2DE92C6F); NRnds1; NAlign 2 1 0; NMsg2 2 1; NShuf 14; NRnds0; NMsg1 0 1;
   NAddK 2 (set_epi64x 0xBF597FC7B00327C8 0xA831C66D983E5152); NRnds1; NAlign 3 2 1; NMsg2 3 2; NShuf 14; NRnds0; NMsg1 1 2;
   NAddK 3 (set_epi64x 0x1429296706CA6351 0xD5A79147C6E00BF3); NRnds1; NAlign 0 3 2; NMsg2 0 3; NShuf 14; NRnds0; NMsg1 2 3;
   NAddK 0 (set_epi64x 0x53380D134D2C6DFC 0x2E1B213827B70A85); NRnds1; NAlign 1 0 3; NMsg2 1 0; NShuf 14; NRnds0; NMsg1 3 0;
   NAddK 1 (set_epi64x 0x92722C8581C2C92E 0x766A0ABB650A7354); NRnds1; NAlign 2 1 0; NMsg2 2 1; NShuf 14; NRnds0; NMsg1 0 1;
   NAddK 2 (set_epi64x 0xC76C51A3C24B8B70 0xA81A664BA2BFE8A1); NRnds1; NAlign 3 2 1; NMsg2 3 2; NShuf 14; NRnds0; NMsg1 1 2;
   NAddK 3 (set_epi64x 0x106AA070F40E3585 0xD6990624D192E819); NRnds1; NAlign 0 3 2; NMsg2 0 3; NShuf 14; NRnds0; NMsg1 2 3;
   NAddK 0 (set_epi64x 0x34B0BCB52748774C 0x1E376C0819A4C116); NRnds1; NAlign 1 0 3; NMsg2 1 0; NShuf 14; NRnds0; NMsg1 3 0;
   NAddK 1 (set_epi64x 0x682E6FF35B9CCA4F 0x4ED8AA4A391C0CB3); NRnds1; NAlign 2 1 0; NMsg2 2 1; NShuf 14; NRnds0;
   NAddK 2 (set_epi64x 0x8CC7020884C87814 0x78A5636F748F82EE); NRnds1; NAlign 3 2 1; NMsg2 3 2; NShuf 14; NRnds0;
   NAddK 3 (set_epi64x 0xC67178F2BEF9A3F7 0xA4506CEB90BEFFFA); NRnds1; NShuf 14; NRnds0].

(** One iteration of the loop: the rounds and "Combine state" (233-237; msvc 176-178).  [junk] is what the registers msg,
    msg0 .. msg3 hold before it. *)
Definition ni_iter (prog : list ninstr) (junk : list (list Z) * list Z) (s01 : list Z * list Z) (block : list Z) : list Z * list Z :=
  let s := fold_left (ni_step block) prog {| n_msgs := fst junk; n_msg := snd junk; n_s0 := fst s01; n_s1 := snd s01 |} in
  (lanes2 (wadd 32) (fst s01) (n_s0 s), lanes2 (wadd 32) (snd s01) (n_s1 s)).
(** The loop over the blocks of [block, blocks_last), which the callers pass as a whole number of blocks.  [junk i] are
    the registers before iteration i. *)
Fixpoint ni_loop (prog : list ninstr) (junk : nat -> list (list Z) * list Z) (k : nat) (s01 : list Z * list Z) (l : list Z) : list Z * list Z :=
  match k with
  | O => s01
  | S k => ni_loop prog (fun i => junk (S i)) k (ni_iter prog (junk 0%nat) s01 (firstn 64 l)) (skipn 64 l)
  end.
(** sha256_x86_sha_extensions.h 9-249 sha256_runtime_routine. *)
Definition ni_routine (junk : nat -> list (list Z) * list Z) (st l : list Z) : list Z :=
  let s0 := [get st 5; get st 4; get st 1; get st 0] in
  let s1 := [get st 7; get st 6; get st 3; get st 2] in
  let '(s0, s1) := ni_loop ni_prog junk (length l / 64) (s0, s1) l in
  [get s0 3; get s0 2; get s1 3; get s1 2; get s0 1; get s0 0; get s1 1; get s1 0].
(** sha256_x86_sha_extensions_msvc.h 6-190 sha256_runtime_routine.  The state is loaded and stored as two registers. *)
Definition msvc_routine (junk : nat -> list (list Z) * list Z) (st l : list Z) : list Z :=
  let tmp := firstn 4 st in
  let s1 := firstn 4 (skipn 4 st) in
  let tmp := pshufd tmp 0xB1 in
  let s1 := pshufd s1 0x1B in
  let s0 := palignr tmp s1 2 in
  let s1 := pblend s1 tmp 0xF0 in
  let '(s0, s1) := ni_loop msvc_prog junk (length l / 64) (s0, s1) l in
  let tmp := pshufd s0 0x1B in
  let s1 := pshufd s1 0xB1 in
  let s0 := pblend tmp s1 0xF0 in
  let s1 := palignr s1 tmp 2 in
  s0 ++ s1.
(** The two as block functions of a context (sha256.h 187-204): update_blocks calls the routine on all its blocks; the
    contexts of HashModel call it block by block, which C103 proves to be the same. *)
Inductive sha_ni := Builtins | Intrinsics.
Definition ni_run (v : sha_ni) := match v with Builtins => ni_routine | Intrinsics => msvc_routine end.
Definition ni_hasher (v : sha_ni) (junk : list Z -> list Z -> nat -> list (list Z) * list Z) : hasher :=
  {| h_bs := 64; h_cnt := 8; h_en := big; h_compress := fun st b => ni_run v (junk st b) st b |}.
Definition sha256_ni_digest v junk := hash_run (ni_hasher v junk) little 4 32 K_sha256_iv.
Definition sha224_ni_digest v junk := hash_run (ni_hasher v junk) little 4 28 K_sha224_iv.

(** ** SHA-512 with 256 bit registers: sha512_simd32_shuffle.h. *)
(** 204-254: the sigma functions as five terms. *)
Definition s1_512_terms (s : Z) : Z :=
  Z.lxor (Z.lxor (Z.lxor (Z.lxor (Z.shiftr s 19) (wshl 64 s 45)) (Z.shiftr s 61)) (wshl 64 s 3)) (Z.shiftr s 6).
Definition s0_512_terms (s : Z) : Z :=
  Z.lxor (Z.lxor (Z.lxor (Z.lxor (Z.shiftr s 1) (wshl 64 s 63)) (Z.shiftr s 8)) (wshl 64 s 56)) (Z.shiftr s 7).
(** 200-323, the vector part of sha512_simd32_compute_message_4rounds (the else branch; the other one is under
    if constexpr(false)).  [s1] is the previous vector of four words: the code keeps its upper half simd2 (377 and
    s1 in 278-306), here the half is taken when it is used. *)
Definition comp512x4 (w s1 : list Z) (r : nat) : list Z :=
  let s1 := [get s1 2; get s1 3] in
  let s0 := slice w (r - 15) 4 in
  let s1 := map s1_512_terms s1 in
  let s0 := map s0_512_terms s0 in
  let s2 := slice w (r - 16) 4 in
  let s2 := lanes2 (wadd 64) s2 s0 in
  let s0 := slice w (r - 7) 4 in
  let s2 := lanes2 (wadd 64) s2 s0 in
  let s2low := lanes2 (wadd 64) [get s2 0; get s2 1] s1 in
  let s1 := [get s2 2; get s2 3] in
  let s3 := map s1_512_terms s2low in
  let s1 := lanes2 (wadd 64) s1 s3 in
  s2low ++ s1.
(** 202-238 (and 239-272, 273-310, 311-342): one of the four scalar rounds inside that function, in the order of the
    text.  The statements of the vector part in between touch none of its variables. *)
Definition inline_round (F : sha_fns) (wt : Z) (pat : list nat) (rb : list Z * Z) : list Z * Z :=
  let '(r, bpc) := rb in
  match pat with
  | [ia; ib; id; ie; i_f; ig; ih] =>
      let a := get r ia in let b := get r ib in let d := get r id in
      let e := get r ie in let f := get r i_f in let g := get r ig in let h := get r ih in
      let T1k := wadd (fw F) h wt in
      let T1k := wadd (fw F) T1k (fS1 F e) in
      let T1k := wadd (fw F) T1k (Z.lxor (Z.land (Z.lxor f g) e) g) in
      let h := fS0 F a in
      let apb := Z.lxor a b in
      let h := wadd (fw F) h (Z.lxor (Z.land apb bpc) b) in
      let bpc := apb in
      let d := wadd (fw F) d T1k in
      let h := wadd (fw F) h T1k in
      (upd (upd r id d) ih h, bpc)
  | _ => rb
  end.
(** The programs: the instructions of the 16 byte routines and the inlined rounds. *)
Inductive xinstr := XI (i : instr) | XRound (src pat : nat).
Definition x_step (host : endian) (block : list Z) (s : mstate) (i : xinstr) : mstate :=
  match i with
  | XI i => simd_step sha512_fns 4 comp512x4 K512 host block s i
  | XRound src pat =>
      {| m_w := m_w s; m_wt := m_wt s; m_s1 := m_s1 s; m_rb := inline_round sha512_fns (get (m_wt s) src) (nth pat reg_pats []) (m_rb s) |}
  end.
(** 374-398: wt0 is wt[0..3], wt1 is wt[4..7].  A call compute_message_4rounds(simd2,w,wt_in,wt_out,r,regs): three rounds,
    the vector part (its last store is in the middle of the fourth round), the fourth round. *)
Definition call4 (src dst r pat : nat) : list xinstr :=
  [XRound src pat; XRound (src + 1) (pat + 1); XRound (src + 2) (pat + 2); XI (IComp dst r); XRound (src + 3) (pat + 3)]%nat.
Definition prog512x4 : list xinstr :=
  (map XI [ILoad 0 0; ILoad 4 4; IRound 0 0; IRound 1 1; IRound 2 2; IRound 3 3; ILoad 0 8; IRound 4 4; IRound 5 5; IRound 6 6; IRound 7 7;
     ILoad 4 12; IRound 0 0; IRound 1 1; IRound 2 2; IRound 3 3] ++
   flat_map (fun i => call4 4 0 i 4 ++ call4 0 4 (i + 4) 0 ++ call4 4 0 (i + 8) 4 ++ call4 0 4 (i + 12) 0) [16; 32; 48; 64] ++
   map XI [IRound 4 4; IRound 5 5; IRound 6 6; IRound 7 7])%nat.
(** 345-410 sha512_runtime_routine: one block; the work arrays hold [w0], [wt0] and the register [s0]. *)
Definition avx2_block (host : endian) (w0 wt0 s0 state block : list Z) : list Z :=
  let s := fold_left (x_step host block) prog512x4
             {| m_w := w0; m_wt := wt0; m_s1 := s0; m_rb := (state, Z.lxor (get state 1) (get state 2)) |} in
  add_state 64 state (fst (m_rb s)).
Definition avx2_hasher (host : endian) (junk : list Z -> list Z -> list Z) : hasher :=
  {| h_bs := 128; h_cnt := 16; h_en := big;
     h_compress := fun st b => avx2_block host (firstn 80 (junk st b)) (firstn 8 (junk st b)) (junk st b) st b |}.
Definition sha512_avx2_digest host junk := hash_run (avx2_hasher host junk) host 8 64 K_sha512_iv.
Definition sha384_avx2_digest host junk := hash_run (avx2_hasher host junk) host 8 48 K_sha384_iv.
Definition sha512_224_avx2_digest host junk := hash_run (avx2_hasher host junk) host 8 28 K_sha512_224_iv.
Definition sha512_256_avx2_digest host junk := hash_run (avx2_hasher host junk) host 8 32 K_sha512_256_iv.
