(** Questions about vectors (include/fast_io_core_impl/simd/mask_countr.h, is_all_zeros.h). *)
From Verif Require Import Base MaskModel MaskProofs.

(** [mask_bytes k m]: the bytes of a vector with lanes of [k] bytes, lane i all ones or all zeros as [m] says.
    [leading b m]: how many of the first lanes are [b]; vector_mask_countr_zero asks for those that are zero
    ([ctzero] true), vector_mask_countr_one for those that are ones. *)

(** * C144: vector_mask_countr_zero and vector_mask_countr_one count the leading lanes *)

Lemma shift_by x j i : 0 <= j -> 0 <= i -> Z.shiftr (2 ^ j * x) (j + i) = x / 2 ^ i.
Proof.
  intros J I. rewrite Z.shiftr_div_pow2 by lia. rewrite Z.pow_add_r by lia. rewrite Z.div_mul_cancel_l; [reflexivity|apply Z.pow_nonzero; lia|].
  apply Z.pow_nonzero; lia.
Qed.

Lemma route_slow sg ct k n m : In k [1; 2; 4; 8]%nat -> n <> O -> (k * length m = 8 * n)%nat ->
  countr_no_intrinsics sg ct (Z.of_nat k) (mask_bytes k m) = leading (negb ct) m / 2 ^ (if sg then 0 else 1).
Proof.
  intros K N L. unfold countr_no_intrinsics. cbv zeta. rewrite mask_bytes_masks, masks_length, expand_length.
  rewrite L. replace (8 * n / 8)%nat with n by (rewrite Nat.mul_comm, Nat.div_mul; [reflexivity|discriminate]).
  rewrite recursive_masks by (auto; rewrite expand_length; exact L). rewrite leading_expand. rewrite Z.mul_assoc.
  destruct sg; destruct K as [<-|[<-|[<-|[<-|[]]]]].
  - exact (shift_by _ 3 0 ltac:(discriminate) ltac:(discriminate)).
  - exact (shift_by _ 4 0 ltac:(discriminate) ltac:(discriminate)).
  - exact (shift_by _ 5 0 ltac:(discriminate) ltac:(discriminate)).
  - exact (shift_by _ 6 0 ltac:(discriminate) ltac:(discriminate)).
  - exact (shift_by _ 3 1 ltac:(discriminate) ltac:(discriminate)).
  - exact (shift_by _ 4 1 ltac:(discriminate) ltac:(discriminate)).
  - exact (shift_by _ 5 1 ltac:(discriminate) ltac:(discriminate)).
  - exact (shift_by _ 6 1 ltac:(discriminate) ltac:(discriminate)).
Qed.

Lemma route_fast sg ct k m : In k [1; 2; 4; 8]%nat ->
  countr_intrinsics has_movemask sg ct (Z.of_nat k) (mask_bytes k m) = leading (negb ct) m / 2 ^ (if sg || Nat.eqb k 1 then 0 else 1).
Proof.
  intros K. unfold countr_intrinsics. cbv zeta. rewrite mask_bytes_masks, masks_length, movemask_masks, countr_bits. rewrite leading_expand.
  destruct K as [<-|[<-|[<-|[<-|[]]]]].
  - change (Z.of_nat 1 =? 1) with true. change (Nat.eqb 1 1) with true. rewrite orb_true_r. cbv iota. rewrite Z.pow_0_r, Z.div_1_r. apply Z.mul_1_l.
  - destruct sg; [exact (shift_by _ 1 0 ltac:(discriminate) ltac:(discriminate))|exact (shift_by _ 1 1 ltac:(discriminate) ltac:(discriminate))].
  - destruct sg; [exact (shift_by _ 2 0 ltac:(discriminate) ltac:(discriminate))|exact (shift_by _ 2 1 ltac:(discriminate) ltac:(discriminate))].
  - destruct sg; [exact (shift_by _ 3 0 ltac:(discriminate) ltac:(discriminate))|exact (shift_by _ 3 1 ltac:(discriminate) ltac:(discriminate))].
Qed.

(** True where char is signed, unless the vector is accelerated without a mask instruction (NEON) at run time; and of
    lanes of one byte with a mask instruction at run time. *)
Theorem C144_count_partial : forall r char_is_signed consteval ctzero k n m, In k [1; 2; 4; 8]%nat -> n <> O -> (k * length m = 8 * n)%nat ->
  (char_is_signed = true /\ (r = accelerated_without -> consteval = true)) \/ (r = has_movemask /\ consteval = false /\ k = 1%nat) ->
  vector_mask_countr r char_is_signed consteval ctzero (Z.of_nat k) (mask_bytes k m) = leading (negb ctzero) m.
Proof.
  intros r sg ce ct k n m K N L H. unfold vector_mask_countr.
  destruct H as [(-> & H)|(-> & -> & ->)].
  - assert (A : countr_no_intrinsics true ct (Z.of_nat k) (mask_bytes k m) = leading (negb ct) m)
      by (rewrite (route_slow true ct k n m K N L); apply Z.div_1_r).
    destruct r; [|rewrite (H eq_refl); exact A|exact A]. destruct ce; [exact A|]. rewrite (route_fast true ct k m K). apply Z.div_1_r.
  - rewrite (route_fast sg ct 1 m K). change (Nat.eqb 1 1) with true. rewrite orb_true_r. apply Z.div_1_r.
Qed.
Print Assumptions C144_count_partial.

(** Where char is unsigned (ARM, PowerPC, -funsigned-char) it is half of that, rounded down, except for lanes of one byte
    with a mask instruction at run time - *)
Theorem C144_half_refuted : forall r consteval ctzero k n m, In k [1; 2; 4; 8]%nat -> n <> O -> (k * length m = 8 * n)%nat ->
  r = not_accelerated \/ consteval = true \/ (r = has_movemask /\ k <> 1%nat) ->
  vector_mask_countr r false consteval ctzero (Z.of_nat k) (mask_bytes k m) = leading (negb ctzero) m / 2.
Proof.
  intros r ce ct k n m K N L H. unfold vector_mask_countr. pose proof (route_slow false ct k n m K N L) as A.
  destruct r; [destruct ce; [exact A|]|destruct ce; [exact A|]|exact A].
  - rewrite (route_fast false ct k m K). destruct H as [H|[H|[_ H]]]; [discriminate|discriminate|].
    apply Nat.eqb_neq in H. rewrite H. reflexivity.
  - destruct H as [H|[H|[H _]]]; discriminate.
Qed.
Print Assumptions C144_half_refuted.

(** and with NEON it is 0 at run time, whatever the vector. *)
Theorem C144_neon_refuted : forall char_is_signed ctzero size bytes,
  vector_mask_countr accelerated_without char_is_signed false ctzero size bytes = 0.
Proof. intros sg ct size bytes. unfold vector_mask_countr, countr_intrinsics. cbv zeta. destruct (size =? 1); [reflexivity|apply Z.shiftr_0_l]. Qed.
Print Assumptions C144_neon_refuted.

(** So the compiler and the processor can disagree about the same vector: 16 bytes, the first three zero, on ARM. *)
Theorem C144_consteval_refuted : let v := mask_bytes 1 (repeat false 3 ++ repeat true 13) in
  leading false (repeat false 3 ++ repeat true 13) = 3 /\
  vector_mask_countr accelerated_without false true true 1 v = 1 /\ vector_mask_countr accelerated_without false false true 1 v = 0 /\
  vector_mask_countr accelerated_without true true true 1 v = 3.
Proof. repeat split; reflexivity. Qed.
Print Assumptions C144_consteval_refuted.

Example C144_example :
  vector_mask_countr has_movemask true false false 1 (mask_bytes 1 (repeat true 5 ++ repeat false 11)) = 5 /\
  vector_mask_countr has_movemask true false true 1 (mask_bytes 1 (repeat false 32)) = 32 /\
  vector_mask_countr has_movemask true false true 4 (mask_bytes 4 [false; false; false; true]) = 3 /\
  vector_mask_countr not_accelerated true false true 8 (mask_bytes 8 [false; true]) = 1 /\
  vector_mask_countr not_accelerated true true true 2 (mask_bytes 2 (repeat false 7 ++ [true])) = 7 /\
  vector_mask_countr has_movemask false false true 4 (mask_bytes 4 [false; false; false; true]) = 1.
Proof. repeat split; reflexivity. Qed.

(** * C145: is_all_zeros says whether a vector is zero *)

(** True of any vector with the test instruction ptest, with the maximum of NEON and without instructions. *)
Theorem C145_all_zeros_partial : forall r n bytes, In r [z_ptest; z_max; z_recursive] -> n <> O -> length bytes = (8 * n)%nat ->
  Forall (fun b => 0 <= b < 256) bytes -> (is_all_zeros r bytes = true <-> Forall (fun b => b = 0) bytes).
Proof.
  intros r n bytes R N L HF. destruct R as [<-|[<-|[<-|[]]]]; cbn [is_all_zeros].
  - rewrite forallb_forall, Forall_forall. split; intros H x Hx; specialize (H x Hx).
    + apply Z.eqb_eq in H. rewrite Z.land_diag in H. exact H.
    + rewrite H. reflexivity.
  - replace (length bytes / 4)%nat with (2 * n)%nat by (rewrite L; replace (8 * n)%nat with (2 * n * 4)%nat by lia; rewrite Nat.div_mul; [reflexivity|discriminate]).
    destruct (elements_zero 4 ltac:(discriminate) (2 * n) lanes32 (fun _ => eq_refl) (fun _ _ => eq_refl) bytes HF ltac:(lia)) as (A & B).
    rewrite Z.eqb_eq, max_zero by exact B. exact A.
  - replace (length bytes / 8)%nat with n by (rewrite L, Nat.mul_comm, Nat.div_mul; [reflexivity|discriminate]).
    destruct (elements_zero 8 ltac:(discriminate) n elements (fun _ => eq_refl) (fun _ _ => eq_refl) bytes HF L) as (A & B).
    rewrite all_rec, forallb_zero. exact A.
Qed.
Print Assumptions C145_all_zeros_partial.

(** With the mask instructions only (SSE2 without SSE4.1, WebAssembly) it is true of masks; *)
Theorem C145_masks_partial : forall k m, k <> O ->
  (is_all_zeros z_movemask (mask_bytes k m) = true <-> Forall (fun b => b = false) m).
Proof.
  intros k m K. cbn [is_all_zeros]. rewrite mask_bytes_masks, movemask_masks. rewrite Z.eqb_eq. unfold bits_of_mask.
  assert (P : forall l, 0 <= fold_right (fun b z => Z.b2z b + 2 * z) 0 l) by (induction l as [|[|] l IH]; cbn [fold_right Z.b2z]; lia).
  assert (Q : forall l, fold_right (fun b z => Z.b2z b + 2 * z) 0 l = 0 <-> Forall (fun b => b = false) l).
  { induction l as [|b l IH]; [split; [constructor|reflexivity]|]. cbn [fold_right]. specialize (P l). split.
    - intros E. destruct b; cbn [Z.b2z] in E; [lia|]. constructor; [reflexivity|apply IH; lia].
    - intros E. pose proof (Forall_inv E) as E1. cbv beta in E1. subst b. apply Forall_inv_tail in E. apply IH in E. rewrite E. reflexivity. }
  rewrite Q, !Forall_forall. split; intros H b Hb.
  - apply H. apply in_flat_map. exists b. split; [exact Hb|]. destruct k; [contradiction|left; reflexivity].
  - apply in_flat_map in Hb as (x & X & Y). apply repeat_spec in Y. subst b. exact (H x X).
Qed.
Print Assumptions C145_masks_partial.

(** but not of other vectors: 1 is taken for zero; *)
Theorem C145_movemask_refuted : is_all_zeros z_movemask (1 :: repeat 0 15) = true /\ is_all_zeros z_recursive (1 :: repeat 0 15) = false.
Proof. split; reflexivity. Qed.
Print Assumptions C145_movemask_refuted.

(** and with AVX-512BW the answer is the opposite, for every vector. *)
Theorem C145_avx512_refuted : forall bytes, is_all_zeros z_ptestm bytes = true <-> ~ Forall (fun b => b = 0) bytes.
Proof.
  intros bytes. cbn [is_all_zeros]. destruct (ptestm_zero bytes) as (_ & A & B). unfold all_zero in *.
  destruct (Z.eqb_spec (ptestm bytes) 0) as [E|E]; cbn [negb]; split; intros H; try discriminate; try reflexivity.
  - contradiction H. apply A. exact E.
  - intros F. apply E, B, F.
Qed.
Print Assumptions C145_avx512_refuted.

Example C145_example : is_all_zeros z_ptest (repeat 0 16) = true /\ is_all_zeros z_max (repeat 0 15 ++ [7]) = false /\
  is_all_zeros z_recursive (repeat 0 32) = true /\ is_all_zeros z_ptestm (repeat 0 64) = false /\
  is_all_zeros z_movemask (mask_bytes 2 [false; true; false; false; false; false; false; false]) = false.
Proof. repeat split; reflexivity. Qed.
