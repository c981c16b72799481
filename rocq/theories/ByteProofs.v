(** Byte list facts and byte_swap. *)
From Verif Require Import Base ByteSpec LebeModel NumSpec IntPrintModel IntPrintProofs IntScanModel IntScanProofs Leb128Model Leb128Spec Leb128Proofs.

Lemma le_bytes_length n x : length (le_bytes n x) = n.
Proof. revert x. induction n; intros; cbn; auto. Qed.
Lemma be_bytes_length n x : length (be_bytes n x) = n.
Proof. unfold be_bytes. rewrite rev_length. apply le_bytes_length. Qed.
Lemma bytes_of_length e n x : length (bytes_of e n x) = n.
Proof. destruct e; [apply le_bytes_length|apply be_bytes_length]. Qed.
Lemma le_bytes_byte n x : Forall is_byte (le_bytes n x).
Proof. revert x. induction n; intros; cbn; constructor; auto. apply Z.mod_pos_bound. lia. Qed.
Lemma bytes_of_byte e n x : Forall is_byte (bytes_of e n x).
Proof. destruct e; [apply le_bytes_byte|]. cbn. apply Forall_rev, le_bytes_byte. Qed.
Lemma p256_S n : 256 ^ Z.of_nat (S n) = 256 * 256 ^ Z.of_nat n.
Proof. rewrite Nat2Z.inj_succ, Z.pow_succ_r by lia. reflexivity. Qed.
Lemma p256_pos n : 0 < 256 ^ Z.of_nat n. Proof. apply Z.pow_pos_nonneg; lia. Qed.

Lemma of_le_bytes n : forall x, of_le (le_bytes n x) = x mod 256 ^ Z.of_nat n.
Proof.
  induction n; intros x; [cbn; rewrite Z.mod_1_r; reflexivity|]. cbn [le_bytes of_le]. rewrite IHn, p256_S.
  pose proof (p256_pos n). rewrite Z.rem_mul_r by lia. reflexivity.
Qed.
Lemma of_bytes_bytes_of e n x : of_bytes e (bytes_of e n x) = x mod 256 ^ Z.of_nat n.
Proof. destruct e; cbn; [apply of_le_bytes|]. unfold of_be, be_bytes. rewrite rev_involutive. apply of_le_bytes. Qed.
Lemma of_le_bound bs : Forall is_byte bs -> 0 <= of_le bs < 256 ^ Z.of_nat (length bs).
Proof. induction 1 as [|b bs Hb H IH]; [cbn; lia|]. cbn [of_le length]. rewrite p256_S. unfold is_byte in Hb. lia. Qed.
Lemma of_bytes_bound e bs : Forall is_byte bs -> 0 <= of_bytes e bs < 256 ^ Z.of_nat (length bs).
Proof. intros H. destruct e; cbn; [apply of_le_bound, H|]. unfold of_be. rewrite <- rev_length. apply of_le_bound. apply Forall_rev, H. Qed.
Lemma le_bytes_of_le bs : Forall is_byte bs -> le_bytes (length bs) (of_le bs) = bs.
Proof.
  induction 1 as [|b bs Hb H IH]; [reflexivity|]. cbn [of_le length le_bytes]. unfold is_byte in Hb.
  replace ((b + 256 * of_le bs) mod 256) with b by (apply Z.mod_unique with (of_le bs); lia).
  replace ((b + 256 * of_le bs) / 256) with (of_le bs) by (apply Z.div_unique with b; lia). rewrite IH. reflexivity.
Qed.
Lemma bytes_of_of_bytes e bs : Forall is_byte bs -> bytes_of e (length bs) (of_bytes e bs) = bs.
Proof.
  intros H. destruct e; cbn; [apply le_bytes_of_le, H|]. unfold be_bytes, of_be.
  rewrite <- (rev_length bs). rewrite le_bytes_of_le by (apply Forall_rev, H). apply rev_involutive.
Qed.

Lemma mask_byte a i : 0 <= i -> Z.land a (ffmask i) = (a / 2 ^ (8 * i)) mod 256 * 2 ^ (8 * i).
Proof.
  intros Hi. unfold ffmask. apply Z.bits_inj'. intros k Hk. rewrite Z.land_spec.
  change 256 with (2 ^ 8). rewrite <- (Z.shiftr_div_pow2 a) by lia. rewrite <- Z.land_ones by lia.
  rewrite <- !Z.shiftl_mul_pow2 by lia. rewrite !Z.shiftl_spec by lia. change 255 with (Z.ones 8).
  destruct (Z_lt_dec k (8 * i)); [rewrite !(Z.testbit_neg_r _ (k - 8 * i)) by lia; apply andb_false_r|].
  rewrite Z.land_spec, Z.shiftr_spec by lia. do 2 f_equal. lia.
Qed.

Definition byte (a i : Z) : Z := (a / 2 ^ (8 * i)) mod 256.
Lemma byte_bound a i : 0 <= byte a i < 256.
Proof. apply Z.mod_pos_bound. lia. Qed.

Lemma mshr_byte a i s : 0 <= s <= 8 * i -> mshr a i s = byte a i * 2 ^ (8 * i - s).
Proof.
  intros H. unfold mshr. rewrite mask_byte by lia. rewrite Z.shiftr_div_pow2 by lia. fold (byte a i).
  replace (2 ^ (8 * i)) with (2 ^ (8 * i - s) * 2 ^ s) by (rewrite <- Z.pow_add_r by lia; f_equal; lia).
  rewrite Z.mul_assoc, Z.div_mul by (apply Z.pow_nonzero; lia). reflexivity.
Qed.
Lemma mshl_byte a i s : 0 <= i -> 0 <= s -> mshl a i s = byte a i * 2 ^ (8 * i + s).
Proof.
  intros H Hs. unfold mshl. rewrite mask_byte by lia. rewrite Z.shiftl_mul_pow2 by lia. fold (byte a i).
  rewrite Z.pow_add_r by lia. lia.
Qed.

Lemma le_bytes_byte_nth n : forall a, le_bytes n a = map (fun i => byte a (Z.of_nat i)) (seq 0 n).
Proof.
  induction n; intros a; [reflexivity|]. cbn [le_bytes seq map]. f_equal.
  - unfold byte. cbn. rewrite Z.div_1_r. reflexivity.
  - rewrite IHn, <- seq_shift, map_map. apply map_ext. intros i. unfold byte. rewrite Nat2Z.inj_succ.
    replace (8 * Z.succ (Z.of_nat i)) with (8 + 8 * Z.of_nat i) by lia. rewrite Z.pow_add_r by lia. rewrite Z.div_div by lia. reflexivity.
Qed.


Lemma lor_addp a b n p : p = 2 ^ n -> 0 <= n -> 0 <= a < p -> Z.lor a (b * p) = a + b * p.
Proof. intros -> Hn Ha. apply lor_add; auto. Qed.
Lemma mshr_bytep a i s p : 0 <= s <= 8 * i -> p = 2 ^ (8 * i - s) -> mshr a i s = byte a i * p.
Proof. intros H ->. apply mshr_byte, H. Qed.
Lemma mshl_bytep a i s p : 0 <= i -> 0 <= s -> p = 2 ^ (8 * i + s) -> mshl a i s = byte a i * p.
Proof. intros H Hs ->. apply mshl_byte; auto. Qed.

Ltac swap_masks := repeat match goal with
  | |- context [mshr ?a ?i ?s] => let p := eval vm_compute in (2 ^ (8 * i - s)) in rewrite (mshr_bytep a i s p) by (try reflexivity; lia)
  | |- context [mshl ?a ?i ?s] => let p := eval vm_compute in (2 ^ (8 * i + s)) in rewrite (mshl_bytep a i s p) by (try reflexivity; lia)
  end.
Ltac swap_lors := repeat match goal with
  | |- context [Z.lor ?x (?b * ?p)] =>
      lazymatch x with
      | context [Z.lor _ _] => fail
      | _ => let n := eval vm_compute in (Z.log2 p) in rewrite (lor_addp x b n p) by (first [reflexivity|lia])
      end
  end.

(** byte_swap reverses the bytes. *)
Lemma byte_swap_spec n a : In n [1; 2; 4; 8; 16]%nat -> 0 <= a < 256 ^ Z.of_nat n -> byte_swap n a = of_le (be_bytes n a).
Proof.
  intros Hn Ha. unfold byte_swap, be_bytes. rewrite le_bytes_byte_nth. cbn [In] in Hn.
  pose proof (byte_bound a 0); pose proof (byte_bound a 1); pose proof (byte_bound a 2); pose proof (byte_bound a 3);
  pose proof (byte_bound a 4); pose proof (byte_bound a 5); pose proof (byte_bound a 6); pose proof (byte_bound a 7);
  pose proof (byte_bound a 8); pose proof (byte_bound a 9); pose proof (byte_bound a 10); pose proof (byte_bound a 11);
  pose proof (byte_bound a 12); pose proof (byte_bound a 13); pose proof (byte_bound a 14); pose proof (byte_bound a 15).
  destruct Hn as [<-|[<-|[<-|[<-|[<-|[]]]]]]; cbn [Nat.eqb byte_swap_naive seq map rev app of_le Z.of_nat Pos.of_succ_nat Pos.succ].
  - unfold byte. cbn in *. rewrite Z.div_1_r. rewrite Z.mod_small by lia. lia.
  - swap_masks. swap_lors. lia.
  - swap_masks. swap_lors. lia.
  - swap_masks. swap_lors. lia.
  - swap_masks. swap_lors. lia.
Qed.

Lemma byte_swap_bound n a : In n [1; 2; 4; 8; 16]%nat -> 0 <= a < 256 ^ Z.of_nat n -> 0 <= byte_swap n a < 256 ^ Z.of_nat n.
Proof.
  intros Hn Ha. rewrite byte_swap_spec by assumption.
  pose proof (of_le_bound (be_bytes n a) (bytes_of_byte big n a)) as H. rewrite be_bytes_length in H. exact H.
Qed.

(** The host image of the swapped integer is the image of the integer in the other order. *)
Lemma byte_swap_image e n a : In n [1; 2; 4; 8; 16]%nat -> 0 <= a < 256 ^ Z.of_nat n ->
  bytes_of e n (byte_swap n a) = bytes_of (match e with little => big | big => little end) n a.
Proof.
  intros Hn Ha. rewrite byte_swap_spec by assumption.
  assert (E : le_bytes n (of_le (be_bytes n a)) = be_bytes n a).
  { pose proof (le_bytes_of_le (be_bytes n a) (bytes_of_byte big n a)) as H. rewrite be_bytes_length in H. exact H. }
  destruct e; cbn; [exact E|]. unfold be_bytes at 1. rewrite E. unfold be_bytes. apply rev_involutive.
Qed.

Lemma byte_swap_involutive n a : In n [1; 2; 4; 8; 16]%nat -> 0 <= a < 256 ^ Z.of_nat n -> byte_swap n (byte_swap n a) = a.
Proof.
  intros Hn Ha. pose proof (byte_swap_bound n a Hn Ha) as Hb.
  rewrite <- (Z.mod_small _ (256 ^ Z.of_nat n) (byte_swap_bound n _ Hn Hb)).
  rewrite <- (of_bytes_bytes_of little), (byte_swap_image little) by auto.
  cbn. unfold be_bytes. pose proof (byte_swap_image big n a Hn Ha) as E. cbn in E. unfold be_bytes in E. rewrite E.
  rewrite of_le_bytes. apply Z.mod_small. exact Ha.
Qed.

(** The two-halves implementation of the 128 bit swap agrees. *)
Lemma byte_swap128_halves_spec a : 0 <= a < 2 ^ 128 -> byte_swap128_halves a = byte_swap 16 a.
Proof.
  intros Ha. unfold byte_swap128_halves.
  change (byte_swap_naive 8) with (byte_swap 8).
  assert (H1 : 0 <= wrap 64 a < 256 ^ Z.of_nat 8) by (apply Z.mod_pos_bound; lia).
  assert (H2 : 0 <= wrap 64 (Z.shiftr a 64) < 256 ^ Z.of_nat 8) by (apply Z.mod_pos_bound; lia).
  rewrite Z.lor_comm, Z.shiftl_mul_pow2 by lia.
  rewrite lor_add; [|lia|apply (byte_swap_bound 8); [cbn; auto|exact H2]].
  rewrite !byte_swap_spec; [|cbn; auto 10|exact Ha|cbn; auto|exact H1|cbn; auto|exact H2].
  unfold wrap. rewrite Z.shiftr_div_pow2 by lia. unfold be_bytes. rewrite !le_bytes_byte_nth.
  assert (L : forall i, 0 <= i < 8 -> byte (a mod 2 ^ 64) i = byte a i).
  { intros i Hi. unfold byte. replace (2 ^ 64) with (2 ^ (8 * i) * 2 ^ (64 - 8 * i)) by (rewrite <- Z.pow_add_r by lia; f_equal; lia).
    rewrite Z.rem_mul_r by lia. assert (0 < 2 ^ (8 * i)) by (apply Z.pow_pos_nonneg; lia).
    rewrite (Z.add_comm (a mod _)), (Z.mul_comm (2 ^ (8 * i))), Z.div_add_l by lia. rewrite (Z.div_small (a mod _)) by (apply Z.mod_pos_bound; lia).
    rewrite Z.add_0_r. replace (2 ^ (64 - 8 * i)) with (256 * 2 ^ (56 - 8 * i)) by (change 256 with (2 ^ 8); rewrite <- Z.pow_add_r by lia; f_equal; lia).
    rewrite Z.rem_mul_r by lia. rewrite (Z.mul_comm 256), Z.mod_add by lia. apply Z.mod_mod. lia. }
  assert (Hi : forall i, 0 <= i < 8 -> byte ((a / 2 ^ 64) mod 2 ^ 64) i = byte a (i + 8)).
  { intros i Hi. rewrite Z.mod_small by (split; [apply Z.div_pos; lia|apply Z.div_lt_upper_bound; lia]).
    unfold byte. rewrite Z.div_div by (try apply Z.pow_pos_nonneg; lia). rewrite <- Z.pow_add_r by lia. do 3 f_equal. lia. }
  cbn [seq map rev app of_le Z.of_nat Pos.of_succ_nat Pos.succ].
  rewrite !L, !Hi by lia. cbn [Z.add Pos.add Pos.succ]. change (2 ^ 64) with 18446744073709551616. lia.
Qed.
