(** Property C103: the SHA-256 routines that use the x86 SHA instructions and the SHA-512 routine that uses 256 bit
    vectors.  [junk] is what uninitialised registers and work arrays hold. *)
From Verif Require Import Base ByteSpec LebeModel ByteProofs HashSpec HashTables HashModel HashProofs HashSimdProofs HashCtxProofs HashRunProofs HashNiModel HashNiProofs.

(** C103.  On any number of blocks, whatever the registers held before, the routine with GCC/clang builtins and the one
    with the _mm_ intrinsics turn the state into the FIPS 180-4 compression of the blocks, one after the other. *)
Theorem C103_sha256_instructions : forall v junk st l, (forall i, length (fst (junk i)) = 4%nat) ->
  length st = 8%nat -> Forall is_byte l ->
  ni_run v junk st l = fold_left (sha2_compress sha2_32) (blocks 64 l) st.
Proof. intros. now apply ni_routine_ok. Qed.
Print Assumptions C103_sha256_instructions.
(** So it does not matter which of them, or of the portable routines, a build selects. *)
Theorem C103_same_as_portable : forall v i host junk junk' st l k, (forall i, length (fst (junk i)) = 4%nat) -> (forall s b, (64 <= length (junk' s b))%nat) ->
  length st = 8%nat -> Forall is_byte l -> length l = (64 * k)%nat ->
  ni_run v junk st l = update_blocks (sha256_hasher i host junk') st l.
Proof.
  intros v i host junk junk' st l k HJ HJ' Hst Hl Hk. rewrite ni_routine_ok by auto. symmetry.
  unfold update_blocks. rewrite block_loop_fold. cbn [sha256_hasher h_bs h_compress]. fold (blocks 64 l).
  apply (fold_agree (fun s => length s = 8%nat)); auto. intros s b Hs Hin. apply (blocks_in is_byte) in Hin as [Hbl Hby]; auto; [|lia].
  split; [now apply sha256_block_ok|]. apply (sha2_compress_stok sha2_32 s b); auto. reflexivity.
Qed.
Print Assumptions C103_same_as_portable.
(** Digests of any message in any pieces. *)
Theorem C103_sha256_digest : forall v junk buf chunks, (forall s b i, length (fst (junk s b i)) = 4%nat) -> length buf = 64%nat -> Forall (Forall is_byte) chunks ->
  sha256_ni_digest v junk buf chunks = sha256_spec (concat chunks).
Proof. intros. unfold sha256_ni_digest. rewrite iv256_eq. apply ni_digest_ok; auto; try lia. rewrite <- iv256_eq. ivok. Qed.
Print Assumptions C103_sha256_digest.
Theorem C103_sha224_digest : forall v junk buf chunks, (forall s b i, length (fst (junk s b i)) = 4%nat) -> length buf = 64%nat -> Forall (Forall is_byte) chunks ->
  sha224_ni_digest v junk buf chunks = sha224_spec (concat chunks).
Proof. intros. unfold sha224_ni_digest. rewrite iv224_eq. apply ni_digest_ok; auto; try lia. rewrite <- iv224_eq. ivok. Qed.
Print Assumptions C103_sha224_digest.

(** The AVX2 routine. *)
Theorem C103_sha512_avx2 : forall host junk st l k, (forall s b, (80 <= length (junk s b))%nat) ->
  length st = 8%nat -> Forall is_byte l -> length l = (128 * k)%nat ->
  update_blocks (avx2_hasher host junk) st l = fold_left (sha2_compress sha2_64) (blocks 128 l) st.
Proof.
  intros host junk st l k HJ Hst Hl Hk. unfold update_blocks. rewrite block_loop_fold. cbn [avx2_hasher h_bs h_compress]. fold (blocks 128 l).
  apply (fold_agree (fun s => length s = 8%nat)); auto. intros s b Hs Hin. apply (blocks_in is_byte) in Hin as [Hbl Hby]; auto; [|lia].
  specialize (HJ s b). split; [apply avx2_block_ok; auto; apply firstn_length_le; lia|]. apply (sha2_compress_stok sha2_64 s b); auto. reflexivity.
Qed.
Print Assumptions C103_sha512_avx2.
Ltac avx2_goal L E := intros; unfold L; rewrite E; apply avx2_digest_ok; auto; try lia; rewrite <- E; ivok.
Theorem C103_sha512_digest : forall host junk buf chunks, (forall s b, (80 <= length (junk s b))%nat) -> length buf = 128%nat -> Forall (Forall is_byte) chunks ->
  sha512_avx2_digest host junk buf chunks = sha512_spec (concat chunks).
Proof. avx2_goal sha512_avx2_digest iv512_eq. Qed.
Print Assumptions C103_sha512_digest.
Theorem C103_sha384_digest : forall host junk buf chunks, (forall s b, (80 <= length (junk s b))%nat) -> length buf = 128%nat -> Forall (Forall is_byte) chunks ->
  sha384_avx2_digest host junk buf chunks = sha384_spec (concat chunks).
Proof. avx2_goal sha384_avx2_digest iv384_eq. Qed.
Print Assumptions C103_sha384_digest.
Theorem C103_sha512_224_digest : forall host junk buf chunks, (forall s b, (80 <= length (junk s b))%nat) -> length buf = 128%nat -> Forall (Forall is_byte) chunks ->
  sha512_224_avx2_digest host junk buf chunks = sha512_224_spec (concat chunks).
Proof. avx2_goal sha512_224_avx2_digest iv512_224_eq. Qed.
Print Assumptions C103_sha512_224_digest.
Theorem C103_sha512_256_digest : forall host junk buf chunks, (forall s b, (80 <= length (junk s b))%nat) -> length buf = 128%nat -> Forall (Forall is_byte) chunks ->
  sha512_256_avx2_digest host junk buf chunks = sha512_256_spec (concat chunks).
Proof. avx2_goal sha512_256_avx2_digest iv512_256_eq. Qed.
Print Assumptions C103_sha512_256_digest.

(** "abc" through both routines, with rubbish in the registers: the example of FIPS 180-2 (B.1). *)
Definition rubbish : list Z -> list Z -> nat -> list (list Z) * list Z := fun _ _ i => ([[1; 2; 3; 4]; [5]; []; [7; 7; 7; 7]], [Z.of_nat i]).
Example C103_case : (forall s b i, length (fst (rubbish s b i)) = 4%nat) /\
  sha256_ni_digest Builtins rubbish (repeat 9 64) [[97; 98]; [99]] =
    [0xba; 0x78; 0x16; 0xbf; 0x8f; 0x01; 0xcf; 0xea; 0x41; 0x41; 0x40; 0xde; 0x5d; 0xae; 0x22; 0x23; 0xb0; 0x03; 0x61; 0xa3; 0x96; 0x17; 0x7a; 0x9c; 0xb4; 0x10; 0xff; 0x61; 0xf2; 0x00; 0x15; 0xad] /\
  sha256_ni_digest Intrinsics rubbish (repeat 9 64) [[97; 98]; [99]] = sha256_ni_digest Builtins rubbish (repeat 9 64) [[97]; [98; 99]].
Proof. split; [reflexivity|]. split; vm_compute; reflexivity. Qed.
