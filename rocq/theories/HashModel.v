(** Model of the hash functions.
    Sources (include/fast_io_crypto/hash/): md5_sha_hash_context.h, sha256.h, sha256_scalar.h, sha256_simd16.h,
    sha512.h, sha512_scalar.h, sha512_simd16.h, sha1.h, md5.h, crc32.h.
    The x86 SHA extension and AVX2 routines are in HashNiModel.v.
    A message is the list of its bytes; pointers are positions in it.  [host] is the byte order of the machine. *)
From Verif Require Import Base ByteSpec LebeModel HashTables.

(** Arrays. *)
Definition get (l : list Z) (i : nat) : Z := nth i l 0.
Definition upd (l : list Z) (i : nat) (v : Z) : list Z := firstn i l ++ v :: skipn (S i) l.
(** memcpy of [src] to position [i] of [l]. *)
Definition blit (l : list Z) (i : nat) (src : list Z) : list Z := firstn i l ++ src ++ skipn (i + length src) l.

(** Unsigned arithmetic on [w]-bit words. *)
Definition wadd (w x y : Z) : Z := wrap w (x + y).
Definition wshl (w x n : Z) : Z := wrap w (Z.shiftl x n).
Definition wnot (w x : Z) : Z := Z.lxor x (2 ^ w - 1).
(** std::rotr, std::rotl. *)
Definition std_rotr (w x n : Z) : Z := Z.lor (Z.shiftr x n) (wshl w x (w - n)).
Definition std_rotl (w x n : Z) : Z := Z.lor (wshl w x n) (Z.shiftr x (w - n)).

(** A word of [n] bytes read through a pointer into the block (memcpy / may_alias access) and brought into the
    byte order [en] of the hash: big_endian(W[i]), little_endian(w[i]), simd swap_endian. *)
Definition load_word (host en : endian) (n : nat) (block : list Z) (i : nat) : Z :=
  let v := of_bytes host (firstn n (skipn (n * i) block)) in
  match en with big => to_big_endian host n v | little => to_little_endian host n v end.

(** The word functions of sha256.h 29-52 and sha512.h 56-90. *)
Record sha_fns := { fw : Z; fn : nat; fS0 : Z -> Z; fS1 : Z -> Z; fs0 : Z -> Z; fs1 : Z -> Z; fCh : Z -> Z -> Z -> Z; fMaj : Z -> Z -> Z -> Z }.
Definition sha256_fns : sha_fns := {|
  fw := 32; fn := 4;
  fS0 x := Z.lxor (Z.lxor (std_rotr 32 x 2) (std_rotr 32 x 13)) (std_rotr 32 x 22);
  fS1 x := Z.lxor (Z.lxor (std_rotr 32 x 6) (std_rotr 32 x 11)) (std_rotr 32 x 25);
  fs0 x := Z.lxor (Z.lxor (std_rotr 32 x 7) (std_rotr 32 x 18)) (Z.shiftr x 3);
  fs1 x := Z.lxor (Z.lxor (std_rotr 32 x 17) (std_rotr 32 x 19)) (Z.shiftr x 10);
  fCh x y z := Z.lxor (Z.land (Z.lxor y z) x) z;
  fMaj x y z := Z.lxor (Z.lxor (Z.land x y) (Z.land x z)) (Z.land y z) |}.
Definition sha512_fns : sha_fns := {|
  fw := 64; fn := 8;
  fS0 x := Z.lxor (Z.lxor (std_rotr 64 x 28) (std_rotr 64 x 34)) (std_rotr 64 x 39);
  fS1 x := Z.lxor (Z.lxor (std_rotr 64 x 14) (std_rotr 64 x 18)) (std_rotr 64 x 41);
  fs0 x := Z.lxor (Z.lxor (std_rotr 64 x 1) (std_rotr 64 x 8)) (Z.shiftr x 7);
  fs1 x := Z.lxor (Z.lxor (std_rotr 64 x 19) (std_rotr 64 x 61)) (Z.shiftr x 6);
  fCh x y z := Z.lxor (Z.land x (Z.lxor y z)) z;
  fMaj x y z := Z.lxor (Z.lxor (Z.land x y) (Z.land x z)) (Z.land y z) |}.

(** sha256.h 59-69 sha256_scalar_round, sha512.h 97-107 sha512_scalar_round.  The caller passes variables: [pat]
    holds the indices (0 = a .. 7 = h) of the variables bound to the parameters a, b, d, e, f, g, h. *)
Definition scalar_round (F : sha_fns) (T1k : Z) (pat : list nat) (rb : list Z * Z) : list Z * Z :=
  let '(r, bpc) := rb in
  match pat with
  | [ia; ib; id; ie; i_f; ig; ih] =>
      let a := get r ia in let b := get r ib in let d := get r id in
      let e := get r ie in let f := get r i_f in let g := get r ig in let h := get r ih in
      let T1k := wadd (fw F) T1k (wadd (fw F) (wadd (fw F) h (fS1 F e)) (fCh F e f g)) in
      let h := fS0 F a in
      let apb := Z.lxor a b in
      let h := wadd (fw F) h (Z.lxor (Z.land apb bpc) b) in
      let bpc := apb in
      let d := wadd (fw F) d T1k in
      let h := wadd (fw F) h T1k in
      (upd (upd r id d) ih h, bpc)
  | _ => rb
  end.

(** sha256_scalar.h 55-62 and 63-70, 73-80, 81-88: the arguments of the eight consecutive calls. *)
Definition reg_pats : list (list nat) :=
  [[0; 1; 3; 4; 5; 6; 7]; (* a,b,d,e,f,g,h *)
   [7; 0; 2; 3; 4; 5; 6]; (* h,a,c,d,e,f,g *)
   [6; 7; 1; 2; 3; 4; 5]; (* g,h,b,c,d,e,f *)
   [5; 6; 0; 1; 2; 3; 4]; (* f,g,a,b,c,d,e *)
   [4; 5; 7; 0; 1; 2; 3]; (* e,f,h,a,b,c,d *)
   [3; 4; 6; 7; 0; 1; 2]; (* d,e,g,h,a,b,c *)
   [2; 3; 5; 6; 7; 0; 1]; (* c,d,f,g,h,a,b *)
   [1; 2; 4; 5; 6; 7; 0]  (* b,c,e,f,g,h,a *)]%nat.
Definition pat_of (i : nat) : list nat := nth (i mod 8) reg_pats [].

(** The state of a block: the circular message window x[16], the registers and bpc. *)
Definition sstate := (list Z * (list Z * Z))%type.

(** sha256_scalar.h 55-70: x[i]=big_endian(W[i]) and round i with its literal constant. *)
Definition scalar_first (F : sha_fns) (lits : list Z) (host : endian) (block : list Z) (s : sstate) (i : nat) : sstate :=
  let x := upd (fst s) i (load_word host big (fn F) block i) in
  (x, scalar_round F (wadd (fw F) (get x i) (get lits i)) (pat_of i) (snd s)).

(** sha256_scalar.h 73-88, sha512_scalar.h 73-88: the indices in line i of x[i]+=sigma0(x[i1])+sigma1(x[i2])+x[i3]. *)
Definition x_lines : list (nat * nat * nat * nat) :=
  [(0, 1, 14, 9); (1, 2, 15, 10); (2, 3, 0, 11); (3, 4, 1, 12); (4, 5, 2, 13); (5, 6, 3, 14); (6, 7, 4, 15); (7, 8, 5, 0);
   (8, 9, 6, 1); (9, 10, 7, 2); (10, 11, 8, 3); (11, 12, 9, 4); (12, 13, 10, 5); (13, 14, 11, 6); (14, 15, 12, 7); (15, 0, 13, 8)]%nat.
Definition scalar_next (F : sha_fns) (K : list Z) (s : sstate) (t : nat) : sstate :=
  let i := (t mod 16)%nat in
  let '(j, i1, i2, i3) := nth i x_lines (0, 0, 0, 0)%nat in
  let x := fst s in
  let v := wadd (fw F) (get x j) (wadd (fw F) (wadd (fw F) (fs0 F (get x i1)) (fs1 F (get x i2))) (get x i3)) in
  let x := upd x j v in
  (x, scalar_round F (wadd (fw F) v (get K t)) (pat_of i) (snd s)).

(** a = (state[0] += a); ... *)
Definition add_state (w : Z) (state regs : list Z) : list Z := map (fun p => wadd w (fst p) (snd p)) (combine state regs).

(** sha256_scalar.h 33-99 sha256_runtime_routine, sha512_scalar.h: one iteration of the loop over the blocks.
    [x0] is the (uninitialised or left over) content of x.  k256scalar[i] = K256[i+16] (3-15): the loop 71-89 runs over
    t = 16 .. 63 in steps of 16. *)
Definition scalar_block (F : sha_fns) (lits K : list Z) (host : endian) (x0 state block : list Z) : list Z :=
  let s0 : sstate := (x0, (state, Z.lxor (get state 1) (get state 2))) in
  let s1 := fold_left (scalar_first F lits host block) (seq 0 16) s0 in
  let s2 := fold_left (scalar_next F K) (seq 16 (length K - 16)) s1 in
  add_state (fw F) state (fst (snd s2)).

(** sha256.h 104-120, 131-140 / sha512.h 136-152, 163-173: the shifting rounds of the constexpr functions. *)
Definition shift_round (F : sha_fns) (KX : Z) (r : list Z) : list Z :=
  match r with
  | [a; b; c; d; e; f; g; h] =>
      let T1 := wadd (fw F) KX (wadd (fw F) (wadd (fw F) h (fS1 F e)) (fCh F e f g)) in
      let T2 := wadd (fw F) (fS0 F a) (fMaj F a b c) in
      [wadd (fw F) T1 T2; a; b; c; wadd (fw F) d T1; e; f; g]
  | _ => r
  end.
(** sha256.h 80-152 sha256_do_constexpr_function, sha512.h 109-185: one block.  The byte by byte assembly of X[i]
    (93, 120-126) is [of_bytes big]; the order of the additions is simplified. *)
Definition constexpr_first (F : sha_fns) (K block : list Z) (s : list Z * list Z) (i : nat) : list Z * list Z :=
  let X := upd (fst s) i (of_bytes big (firstn (fn F) (skipn (fn F * i) block))) in
  (X, shift_round F (wadd (fw F) (get K i) (get X i)) (snd s)).
Definition constexpr_next (F : sha_fns) (K : list Z) (s : list Z * list Z) (i : nat) : list Z * list Z :=
  let X := fst s in
  let m k := Nat.land (i + k) 15 in
  let v := wadd (fw F) (get X (m 0%nat)) (wadd (fw F) (wadd (fw F) (fs0 F (get X (m 1%nat))) (fs1 F (get X (m 14%nat)))) (get X (m 9%nat))) in
  (upd X (m 0%nat) v, shift_round F (wadd (fw F) v (get K i)) (snd s)).
Definition constexpr_block (F : sha_fns) (K x0 state block : list Z) : list Z :=
  let s1 := fold_left (constexpr_first F K block) (seq 0 16) (x0, state) in
  let s2 := fold_left (constexpr_next F K) (seq 16 (length K - 16)) s1 in
  add_state (fw F) state (snd s2).

(** ** The 16 byte SIMD routines as straight line programs.
    [ILoad dst r]: byte_swap_message_Nrounds(simd,blocks_start,w,wt+dst,r);
    [IComp dst r]: compute_message_Nrounds(simd,w,wt+dst,r);
    [IRound src i]: scalar_round(wt[src], pattern i).
    In sha512_simd16.h wt0[0..1], wt1[0..1] are modelled as wt[0..3]. *)
Inductive instr := ILoad (dst r : nat) | IComp (dst r : nat) | IRound (src pat : nat).
Record mstate := { m_w : list Z; m_wt : list Z; m_s1 : list Z; m_rb : list Z * Z }.

Definition lanes2 (f : Z -> Z -> Z) (xs ys : list Z) : list Z := map (fun p => f (fst p) (snd p)) (combine xs ys).
(** simd_vector::load of [n] lanes. *)
Definition slice (l : list Z) (i n : nat) : list Z := firstn n (skipn i l).

(** sha256_simd16.h 25-72: s10 and s0 as in line 40-41 (the if constexpr(true) branch), s1 as in line 65. *)
Definition s1_256_a (s : Z) := Z.lxor (Z.lxor (Z.lxor (Z.lxor (Z.shiftr s 17) (wshl 32 s 15)) (Z.shiftr s 19)) (wshl 32 s 13)) (Z.shiftr s 10).
Definition s0_256_a (s : Z) := Z.lxor (Z.lxor (Z.lxor (Z.lxor (Z.shiftr s 7) (wshl 32 s 25)) (Z.shiftr s 18)) (wshl 32 s 14)) (Z.shiftr s 3).
Definition s1_256_b (s : Z) :=
  Z.lxor (Z.shiftr (Z.lxor (Z.shiftr (Z.lxor (Z.shiftr s 2) s) 7) s) 10) (wshl 32 (Z.lxor (wshl 32 s 2) s) 13).
Definition comp256 (w s1 : list Z) (r : nat) : list Z :=
  let s10 := map s1_256_a [get s1 2; get s1 3; 0; 0] in
  let s0 := map s0_256_a (slice w (r - 15) 4) in
  let s10 := lanes2 (wadd 32) s10 s0 in
  let s10 := lanes2 (wadd 32) s10 (slice w (r - 16) 4) in
  let s10 := lanes2 (wadd 32) s10 (slice w (r - 7) 4) in
  let s1 := map s1_256_b [0; 0; get s10 0; get s10 1] in
  lanes2 (wadd 32) s1 s10.
(** sha512_simd16.h 29-60. *)
Definition s1_512 (s : Z) :=
  Z.lxor (Z.shiftr (Z.lxor (Z.shiftr (Z.lxor (Z.shiftr s 42) s) 13) s) 6) (wshl 64 (Z.lxor (wshl 64 s 42) s) 3).
Definition s0_512 (s : Z) :=
  Z.lxor (Z.shiftr (Z.lxor (Z.shiftr (Z.lxor (Z.shiftr s 1) s) 6) s) 1) (wshl 64 (Z.lxor (wshl 64 s 7) s) 56).
Definition comp512 (w s1 : list Z) (r : nat) : list Z :=
  let s1 := map s1_512 s1 in
  let s0 := map s0_512 (slice w (r - 15) 2) in
  let s1 := lanes2 (wadd 64) s1 s0 in
  let s1 := lanes2 (wadd 64) s1 (slice w (r - 16) 2) in
  lanes2 (wadd 64) s1 (slice w (r - 7) 2).

Definition simd_step (F : sha_fns) (lanes : nat) (comp : list Z -> list Z -> nat -> list Z) (K : list Z) (host : endian) (block : list Z)
    (s : mstate) (i : instr) : mstate :=
  match i with
  | ILoad dst r =>
      (* sha256_simd16.h 6-20, sha512_simd16.h 8-22 *)
      let s1 := map (fun k => load_word host big (fn F) block (r + k)) (seq 0 lanes) in
      {| m_w := blit (m_w s) r s1; m_wt := blit (m_wt s) dst (lanes2 (wadd (fw F)) (slice K r lanes) s1); m_s1 := s1; m_rb := m_rb s |}
  | IComp dst r =>
      let s1 := comp (m_w s) (m_s1 s) r in
      {| m_w := blit (m_w s) r s1; m_wt := blit (m_wt s) dst (lanes2 (wadd (fw F)) (slice K r lanes) s1); m_s1 := s1; m_rb := m_rb s |}
  | IRound src pat => {| m_w := m_w s; m_wt := m_wt s; m_s1 := m_s1 s; m_rb := scalar_round F (get (m_wt s) src) (nth pat reg_pats []) (m_rb s) |}
  end.

(** sha256_simd16.h 99-144. *)
Definition prog256 : list instr :=
  ([ILoad 0 0; IRound 0 0; IRound 1 1; ILoad 4 4; IRound 2 2; IRound 3 3; IRound 4 4; IRound 5 5;
    ILoad 8 8; IRound 6 6; IRound 7 7; IRound 8 0; IRound 9 1; ILoad 12 12; IRound 10 2; IRound 11 3] ++
   flat_map (fun i =>
     [IRound i 4; IRound (i + 1) 5; IComp (i + 4) (i + 4); IRound (i + 2) 6; IRound (i + 3) 7; IRound (i + 4) 0; IRound (i + 5) 1;
      IComp (i + 8) (i + 8); IRound (i + 6) 2; IRound (i + 7) 3; IRound (i + 8) 4; IRound (i + 9) 5;
      IComp (i + 12) (i + 12); IRound (i + 10) 6; IRound (i + 11) 7; IRound (i + 12) 0; IRound (i + 13) 1;
      IComp (i + 16) (i + 16); IRound (i + 14) 2; IRound (i + 15) 3]) [12; 28; 44] ++
   [IRound 60 4; IRound 61 5; IRound 62 6; IRound 63 7])%nat.
(** sha512_simd16.h 88-153. *)
Definition prog512 : list instr :=
  ([ILoad 0 0; ILoad 2 2; IRound 0 0; IRound 1 1; ILoad 0 4; IRound 2 2; IRound 3 3; ILoad 2 6; IRound 0 4; IRound 1 5;
    ILoad 0 8; IRound 2 6; IRound 3 7; ILoad 2 10; IRound 0 0; IRound 1 1; ILoad 0 12; IRound 2 2; IRound 3 3;
    ILoad 2 14; IRound 0 4; IRound 1 5] ++
   flat_map (fun i =>
     [IComp 0 (i + 2); IRound 2 6; IRound 3 7; IComp 2 (i + 4); IRound 0 0; IRound 1 1; IComp 0 (i + 6); IRound 2 2; IRound 3 3;
      IComp 2 (i + 8); IRound 0 4; IRound 1 5; IComp 0 (i + 10); IRound 2 6; IRound 3 7; IComp 2 (i + 12); IRound 0 0; IRound 1 1;
      IComp 0 (i + 14); IRound 2 2; IRound 3 3; IComp 2 (i + 16); IRound 0 4; IRound 1 5]) [14; 30; 46; 62] ++
   [IRound 2 6; IRound 3 7])%nat.

(** sha256_simd16.h 79-155, sha512_simd16.h 68-163: one block; [w0], [wt0], [s0] are the left over contents. *)
Definition simd_block (F : sha_fns) (lanes : nat) (comp : list Z -> list Z -> nat -> list Z) (prog : list instr) (K : list Z) (host : endian)
    (w0 wt0 s0 state block : list Z) : list Z :=
  let s := fold_left (simd_step F lanes comp K host block) prog
             {| m_w := w0; m_wt := wt0; m_s1 := s0; m_rb := (state, Z.lxor (get state 1) (get state 2)) |} in
  add_state (fw F) state (fst (m_rb s)).

(** ** SHA-1: sha1.h. *)
(** sha1.h 6-9. *)
Definition sha1_blk (x : list Z) (i : nat) : Z :=
  std_rotl 32 (Z.lxor (Z.lxor (Z.lxor (get x (Nat.land (i + 13) 15)) (get x (Nat.land (i + 8) 15))) (get x (Nat.land (i + 2) 15))) (get x i)) 1.
(** sha1.h 11-46 R0 .. R4: [kind] is the digit. v,w,x,y,z are bound to the variables with indices in [pat] (0 = a .. 4 = e). *)
Definition sha1_R (kind : nat) (pat : list nat) (i : nat) (s : list Z * list Z) : list Z * list Z :=
  let '(blk, r) := s in
  match pat with
  | [iv; iw; ix; iy; iz] =>
      let v := get r iv in let w := get r iw in let x := get r ix in let y := get r iy in let z := get r iz in
      let blk := if Nat.eqb kind 0 then blk else upd blk i (sha1_blk blk i) in
      let fk := match kind with
                | 0%nat | 1%nat => (Z.lxor (Z.land w (Z.lxor x y)) y, 0x5a827999)
                | 2%nat => (Z.lxor (Z.lxor w x) y, 0x6ed9eba1)
                | 3%nat => (Z.lor (Z.land (Z.lor w x) y) (Z.land w x), 0x8f1bbcdc)
                | _ => (Z.lxor (Z.lxor w x) y, 0xca62c1d6)
                end in
      let z := wadd 32 z (wadd 32 (wadd 32 (wadd 32 (fst fk) (get blk i)) (snd fk)) (std_rotl 32 v 5)) in
      (blk, upd (upd r iz z) iw (std_rotl 32 w 30))
  | _ => s
  end.
(** sha1.h 81-160: call n is R<kind>(X, ..., n mod 16) on the variables rotated by n mod 5 (checked by a script). *)
Definition sha1_pats : list (list nat) := [[0; 1; 2; 3; 4]; [4; 0; 1; 2; 3]; [3; 4; 0; 1; 2]; [2; 3; 4; 0; 1]; [1; 2; 3; 4; 0]]%nat.
Definition sha1_kind (n : nat) : nat :=
  (if n <? 16 then 0 else if n <? 20 then 1 else if n <? 40 then 2 else if n <? 60 then 3 else 4)%nat.
(** sha1.h 53-169 sha1_do_constexpr_function: one block.  The byte wise and the memcpy + big_endian forms of loading X
    are [load_word]. *)
Definition sha1_block (host : endian) (state block : list Z) : list Z :=
  let X := map (load_word host big 4 block) (seq 0 16) in
  let s := fold_left (fun s n => sha1_R (sha1_kind n) (nth (n mod 5) sha1_pats []) (n mod 16) s) (seq 0 80) (X, state) in
  add_state 32 state (snd s).

(** ** MD5: md5.h. *)
(** md5.h 11-42 unit. *)
Definition md5_unit (op : Z) (x y z : Z) : Z :=
  if op =? 0 then Z.lxor (Z.land x (Z.lxor y z)) z
  else if op =? 1 then wadd 32 (Z.land z x) (Z.land (wnot 32 z) y)
  else if op =? 2 then Z.lxor (Z.lxor x y) z
  else Z.lxor y (Z.lor x (wnot 32 z)).
Definition md5_pats : list (list nat) := [[0; 1; 2; 3]; [3; 0; 1; 2]; [2; 3; 0; 1]; [1; 2; 3; 0]]%nat.
(** md5.h 44-73 uu, uutmp<H>: step n on state (tmp, a b c d).  [X j] is the message word. *)
Definition md5_step (X : nat -> Z) (s : Z * list Z) (nst : nat * (Z * nat * Z * Z)) : Z * list Z :=
  let '(tmp, r) := s in
  let '(n, (op, xi, sh, ac)) := nst in
  match nth (n mod 4) md5_pats [] with
  | [ia; ib; ic; id] =>
      let a := get r ia in let b := get r ib in let c := get r ic in let d := get r id in
      (* tmp=c^d before round 3 (164, 288), on the variables c and d *)
      let tmp := if Nat.eqb n 32 then Z.lxor (get r 2) (get r 3) else tmp in
      let x := X xi in
      let x := wadd 32 x ac in
      let x := wadd 32 x a in
      if op =? 2 then
        let tmp := Z.lxor tmp b in
        let x := wadd 32 x tmp in
        let tmp := Z.lxor tmp d in
        (tmp, upd r ia (wadd 32 (std_rotl 32 x sh) b))
      else
        let x := wadd 32 x (md5_unit op b c d) in
        (tmp, upd r ia (wadd 32 (std_rotl 32 x sh) b))
  | _ => s
  end.
Definition md5_block_with (X : nat -> Z) (tmp0 : Z) (state : list Z) : list Z :=
  add_state 32 state (snd (fold_left (md5_step X) (combine (seq 0 64) md5_steps) (tmp0, state))).
(** md5.h 235-351 md5_main_le (little endian hosts) reads x[j] in place; 79-228 md5_main at run time uses
    little_endian(w[j]). *)
Definition md5_block (host : endian) (tmp0 : Z) (state block : list Z) : list Z :=
  md5_block_with (load_word host little 4 block) tmp0 state.
(** md5.h 101-106, in constant evaluation: dj[3]<<24 shifts a std::byte, which has eight bits, before the conversion. *)
Definition md5_block_constexpr (tmp0 : Z) (state block : list Z) : list Z :=
  md5_block_with (fun j => Z.lor (Z.lor (Z.lor (get block (4 * j)) (Z.shiftl (get block (4 * j + 1)) 8)) (Z.shiftl (get block (4 * j + 2)) 16))
                                 (wrap 8 (Z.shiftl (get block (4 * j + 3)) 24))) tmp0 state.

(** ** The context: md5_sha_hash_context.h 18-164 md5_sha_common_impl.
    [h_compress] is one iteration of the block loop of update_blocks. *)
Record hasher := { h_bs : nat; h_cnt : nat; h_en : endian; h_compress : list Z -> list Z -> list Z }.
Record ctx := { c_state : list Z; c_counter : Z; c_off : nat; c_buf : list Z }.

(** update_blocks: the loop over the blocks of [first,last).  Every caller passes a multiple of the block size. *)
Fixpoint block_loop (f : list Z -> list Z -> list Z) (k bs : nat) (st l : list Z) : list Z :=
  match k with O => st | S k => block_loop f k bs (f st (firstn bs l)) (skipn bs l) end.
Definition update_blocks (H : hasher) (st l : list Z) : list Z := block_loop (h_compress H) (length l / h_bs H) (h_bs H) st l.

Definition cbits (H : hasher) : Z := 8 * Z.of_nat (h_cnt H).
(** 35-50 update_impl. *)
Definition update_impl (H : hasher) (c : ctx) (l : list Z) : ctx :=
  {| c_state := update_blocks H (c_state c) l; c_counter := wrap (cbits H) (c_counter c + zlen l); c_off := c_off c; c_buf := c_buf c |}.
(** 51-68 update_cold_impl. *)
Definition update_cold_impl (H : hasher) (c : ctx) (l : list Z) : ctx :=
  let space := c_off c in
  let remain := (h_bs H - c_off c)%nat in
  let '(c, l) :=
    if negb (Nat.eqb remain (h_bs H)) then
      let c := {| c_state := c_state c; c_counter := c_counter c; c_off := c_off c; c_buf := blit (c_buf c) space (firstn remain l) |} in
      (update_impl H c (c_buf c), skipn remain l)
    else (c, l) in
  let bytes := (length l / h_bs H * h_bs H)%nat in
  let c := update_impl H c (firstn bytes l) in
  let l := skipn bytes l in
  {| c_state := c_state c; c_counter := c_counter c; c_off := length l; c_buf := blit (c_buf c) 0 l |}.
(** 107-126 update. *)
Definition ctx_update (H : hasher) (c : ctx) (l : list Z) : ctx :=
  if (length l <? h_bs H - c_off c)%nat then
    {| c_state := c_state c; c_counter := c_counter c; c_off := (c_off c + length l)%nat; c_buf := blit (c_buf c) (c_off c) l |}
  else update_cold_impl H c l.
(** 72-106 append_sentinal, with an integer counter. *)
Definition append_sentinal (H : hasher) (host : endian) (c : ctx) (final_off : nat) : ctx :=
  let ct := wrap (cbits H) (c_counter c + Z.of_nat final_off) in
  let ct := wrap (cbits H) (ct * 8) in
  let ct := if endian_eqb host (h_en H) then ct else byte_swap (h_cnt H) ct in
  let buf := blit (c_buf c) (h_bs H - h_cnt H) (bytes_of host (h_cnt H) ct) in
  {| c_state := update_blocks H (c_state c) buf; c_counter := c_counter c; c_off := c_off c; c_buf := buf |}.
(** 131-163 do_final. *)
Definition do_final (H : hasher) (host : endian) (c : ctx) : ctx :=
  let sz := (h_bs H - h_cnt H)%nat in
  let offs := c_off c in
  let buf := upd (c_buf c) offs 128 in
  let off := S offs in
  if (off <=? sz)%nat then
    append_sentinal H host {| c_state := c_state c; c_counter := c_counter c; c_off := offs; c_buf := blit buf off (repeat 0 (sz - off)) |} offs
  else
    let buf := blit buf off (repeat 0 (h_bs H - off)) in
    let st := update_blocks H (c_state c) buf in
    append_sentinal H host {| c_state := st; c_counter := c_counter c; c_off := offs; c_buf := blit buf 0 (repeat 0 sz) |} offs.
(** 180-185 reset: the buffer keeps its content. *)
Definition ctx_reset (iv buf0 : list Z) : ctx := {| c_state := iv; c_counter := 0; c_off := 0; c_buf := buf0 |}.

(** 38-45, 76-84, 92-97: the counter as two 64 bit halves, for compilers without __int128.  add_carry(c,a,b,r): r=a+b+c. *)
Definition add_carry64 (c a b : Z) : Z * Z := (wrap 64 (a + b + c), (a + b + c) / 2 ^ 64).
Definition pesudo_add (ct : Z * Z) (lo hi : Z) : Z * Z :=
  let '(l, c1) := add_carry64 0 (fst ct) lo in let '(h, _) := add_carry64 c1 (snd ct) hi in (l, h).
Definition pesudo_x8 (ct : Z * Z) : Z * Z :=
  let ct := pesudo_add ct (fst ct) (snd ct) in let ct := pesudo_add ct (fst ct) (snd ct) in pesudo_add ct (fst ct) (snd ct).
(** 88-104: the bytes written, low half first in memory on a little endian host (6-16). *)
Definition pesudo_bytes (host en : endian) (ct : Z * Z) : list Z :=
  let ct := if endian_eqb host en then ct else (byte_swap 8 (snd ct), byte_swap 8 (fst ct)) in
  match host with little => le_bytes 8 (fst ct) ++ le_bytes 8 (snd ct) | big => be_bytes 8 (snd ct) ++ be_bytes 8 (fst ct) end.

(** 196-239 hash_digest_to_byte_ptr_common_impl: [constant_evaluated] chooses the branch; in that branch the swapped
    value v is computed but digest[i] is written.  284-311 hash_digest_to_byte_ptr_common. *)
Definition digest_words (ceval : bool) (host en : endian) (n : nat) (d : list Z) : list Z :=
  concat (map (fun v => bytes_of host n (if ceval then v else if endian_eqb host en then v else byte_swap n v)) d).
Definition digest_to_bytes (ceval : bool) (host en : endian) (n dsz : nat) (st : list Z) : list Z :=
  let sz := (dsz / n)%nat in
  digest_words ceval host en n (firstn sz st) ++
  (let rem := (dsz mod n)%nat in
   if Nat.eqb rem 0 then []
   else let v := get st sz in firstn rem (bytes_of host n (if endian_eqb host en then v else byte_swap n v))).

(** A user session: construct, update with each piece, do_final, digest_to_byte_ptr. *)
Definition hash_run (H : hasher) (host : endian) (n dsz : nat) (iv buf0 : list Z) (chunks : list (list Z)) : list Z :=
  digest_to_bytes false host (h_en H) n dsz (c_state (do_final H host (fold_left (ctx_update H) chunks (ctx_reset iv buf0)))).

(** The contexts (md5.h 390-408, sha1.h 748-766, sha256.h 206-231, sha512.h 241-288). *)
Definition K_sha256_iv : list Z := [0x6a09e667; 0xbb67ae85; 0x3c6ef372; 0xa54ff53a; 0x510e527f; 0x9b05688c; 0x1f83d9ab; 0x5be0cd19].
Definition K_sha224_iv : list Z := [0xc1059ed8; 0x367cd507; 0x3070dd17; 0xf70e5939; 0xffc00b31; 0x68581511; 0x64f98fa7; 0xbefa4fa4].
Definition K_sha512_iv : list Z := [0x6a09e667f3bcc908; 0xbb67ae8584caa73b; 0x3c6ef372fe94f82b; 0xa54ff53a5f1d36f1; 0x510e527fade682d1; 0x9b05688c2b3e6c1f; 0x1f83d9abfb41bd6b; 0x5be0cd19137e2179].
Definition K_sha384_iv : list Z := [0xcbbb9d5dc1059ed8; 0x629a292a367cd507; 0x9159015a3070dd17; 0x152fecd8f70e5939; 0x67332667ffc00b31; 0x8eb44a8768581511; 0xdb0c2e0d64f98fa7; 0x47b5481dbefa4fa4].
Definition K_sha512_224_iv : list Z := [0x8c3d37c819544da2; 0x73e1996689dcd4d6; 0x1dfab7ae32ff9c82; 0x679dd514582f9fcf; 0x0f6d2b697bd44da8; 0x77e36f7304c48942; 0x3f9d85a86a1d36c8; 0x1112e6ad91d692a1].
Definition K_sha512_256_iv : list Z := [0x22312194fc2bf72c; 0x9f555fa3c84c64c2; 0x2393b86b6f53b151; 0x963877195940eabd; 0x96283ee2a88effe3; 0xbe5e1e2553863992; 0x2b0199fc2c85b8aa; 0x0eb72ddc81c52ca2].
Definition K_sha1_iv : list Z := [0x67452301; 0xefcdab89; 0x98badcfe; 0x10325476; 0xc3d2e1f0].
Definition K_md5_iv : list Z := [0x67452301; 0xefcdab89; 0x98badcfe; 0x10325476].

(** The block functions selected at compile time (sha256.h 154-171, 187-204; sha512.h 187-205, 222-239): the portable
    runtime routine, the 16 byte SIMD runtime routine, the constant evaluation function.  [junk st b] is what the
    uninitialised work arrays hold when the block [b] is reached (64 words for SHA-256: any more is never addressed). *)
Inductive sha2_impl := Portable | Simd16 | ConstEval.
Definition sha256_block (i : sha2_impl) (host : endian) (junk : list Z -> list Z -> list Z) (st b : list Z) : list Z :=
  match i with
  | Portable => scalar_block sha256_fns K256_lit16 K256 host (firstn 16 (junk st b)) st b
  | Simd16 => simd_block sha256_fns 4 comp256 prog256 K256 host (firstn 64 (junk st b)) (firstn 64 (junk st b)) (junk st b) st b
  | ConstEval => constexpr_block sha256_fns K256 (firstn 16 (junk st b)) st b
  end.
Definition sha512_block (i : sha2_impl) (host : endian) (junk : list Z -> list Z -> list Z) (st b : list Z) : list Z :=
  match i with
  | Portable => scalar_block sha512_fns K512_lit16 K512 host (firstn 16 (junk st b)) st b
  | Simd16 => simd_block sha512_fns 2 comp512 prog512 K512 host (firstn 80 (junk st b)) (firstn 4 (junk st b)) (junk st b) st b
  | ConstEval => constexpr_block sha512_fns K512 (firstn 16 (junk st b)) st b
  end.
Definition sha256_hasher i host junk : hasher := {| h_bs := 64; h_cnt := 8; h_en := big; h_compress := sha256_block i host junk |}.
Definition sha512_hasher i host junk : hasher := {| h_bs := 128; h_cnt := 16; h_en := big; h_compress := sha512_block i host junk |}.
Definition sha1_hasher host : hasher := {| h_bs := 64; h_cnt := 8; h_en := big; h_compress := sha1_block host |}.
Definition md5_hasher host (tmp0 : Z) : hasher := {| h_bs := 64; h_cnt := 8; h_en := little; h_compress := md5_block host tmp0 |}.
(** The digest of a message given in pieces, for the eight public contexts. *)
Definition sha256_digest i host junk := hash_run (sha256_hasher i host junk) host 4 32 K_sha256_iv.
Definition sha224_digest i host junk := hash_run (sha256_hasher i host junk) host 4 28 K_sha224_iv.
Definition sha512_digest i host junk := hash_run (sha512_hasher i host junk) host 8 64 K_sha512_iv.
Definition sha384_digest i host junk := hash_run (sha512_hasher i host junk) host 8 48 K_sha384_iv.
Definition sha512_224_digest i host junk := hash_run (sha512_hasher i host junk) host 8 28 K_sha512_224_iv.
Definition sha512_256_digest i host junk := hash_run (sha512_hasher i host junk) host 8 32 K_sha512_256_iv.
Definition sha1_digest host := hash_run (sha1_hasher host) host 4 20 K_sha1_iv.
Definition md5_digest host tmp0 := hash_run (md5_hasher host tmp0) host 4 16 K_md5_iv.

(** ** CRC: crc32.h 39-88. *)
Definition crc_loop (tb : list Z) (crc : Z) (m : list Z) : Z :=
  fold_left (fun crc b => Z.lxor (get tb (Z.to_nat (Z.land (Z.lxor b crc) 255))) (Z.shiftr crc 8)) m crc.
Definition crc_run (tb : list Z) (chunks : list (list Z)) : Z := fold_left (crc_loop tb) chunks 0xffffffff.
Definition crc_digest_value (crc : Z) : Z := wnot 32 crc.
(** crc32.h 15-37. *)
Definition crc_digest_bytes (host : endian) (crc : Z) : list Z :=
  let crc := wnot 32 crc in bytes_of host 4 (if endian_eqb host big then crc else byte_swap 4 crc).
(** The same session in constant evaluation (if consteval branches throughout). *)
Definition hash_run_consteval (H : hasher) (host : endian) (n dsz : nat) (iv buf0 : list Z) (chunks : list (list Z)) : list Z :=
  digest_to_bytes true host (h_en H) n dsz (c_state (do_final H host (fold_left (ctx_update H) chunks (ctx_reset iv buf0)))).
Definition md5_hasher_consteval (tmp0 : Z) : hasher := {| h_bs := 64; h_cnt := 8; h_en := little; h_compress := md5_block_constexpr tmp0 |}.
