(** Proofs about questions about vectors. *)
From Verif Require Import Base MaskModel.
Local Open Scope Z_scope.

(** The bytes of a vector of masks: a lane of [k] bytes is all ones or all zeros. *)
Definition mask_bytes (k : nat) (m : list bool) : list Z := flat_map (fun b : bool => repeat (if b then 255 else 0) k) m.
(** The number of leading lanes that are [b]. *)
Fixpoint leading (b : bool) (m : list bool) : Z := match m with [] => 0 | x :: r => if Bool.eqb x b then 1 + leading b r else 0 end.

Definition bits_of_mask (m : list bool) : Z := fold_right (fun b z => Z.b2z b + 2 * z) 0 m.

Lemma leading_bound b m : 0 <= leading b m <= Z.of_nat (length m).
Proof. induction m as [|x m IH]; cbn [leading length]; [lia|]. destruct (Bool.eqb x b); lia. Qed.

Lemma odd_cons b z : Z.odd (Z.b2z b + 2 * z) = b.
Proof. rewrite Z.odd_add_mul_2. destruct b; reflexivity. Qed.
Lemma div2_cons b z : Z.div2 (Z.b2z b + 2 * z) = z.
Proof. rewrite Z.div2_div. symmetry. apply (Z.div_unique _ 2 z (Z.b2z b)); destruct b; cbn [Z.b2z]; lia. Qed.

Lemma countr_bits ct m : countr ct (length m) (bits_of_mask m) = leading (negb ct) m.
Proof.
  unfold countr, bits_of_mask. destruct ct; cbn [negb].
  - induction m as [|b m IH]; [reflexivity|]. cbn [length countr_zero fold_right leading]. rewrite odd_cons, div2_cons, IH. destruct b; reflexivity.
  - induction m as [|b m IH]; [reflexivity|]. cbn [length countr_one fold_right leading]. rewrite odd_cons, div2_cons, IH. destruct b; reflexivity.
Qed.

(** Bytes as bits. *)
Definition byte_bits (b : bool) : list bool := repeat b 8.
Lemma byte_value (b : bool) z : (if b then 255 else 0) + 256 * z = bits_of_mask (byte_bits b) + 2 ^ 8 * z.
Proof. destruct b; reflexivity. Qed.
Lemma bits_app (a b : list bool) : bits_of_mask (a ++ b) = bits_of_mask a + 2 ^ Z.of_nat (length a) * bits_of_mask b.
Proof.
  unfold bits_of_mask. induction a as [|x a IH]; [cbn [app fold_right length]; rewrite Z.pow_0_r; lia|].
  cbn [app fold_right length]. rewrite IH. rewrite Nat2Z.inj_succ, Z.pow_succ_r by lia. lia.
Qed.
Definition masks (l : list bool) : list Z := map (fun b : bool => if b then 255 else 0) l.
Lemma le_masks l : little_endian (masks l) = bits_of_mask (flat_map byte_bits l).
Proof.
  induction l as [|b l IH]; [reflexivity|]. unfold masks in *. cbn [map little_endian flat_map]. rewrite bits_app, byte_value, IH. reflexivity.
Qed.
Lemma mask_bytes_masks k m : mask_bytes k m = masks (flat_map (fun b => repeat b k) m).
Proof.
  assert (R : forall b j, map (fun b : bool => if b then 255 else 0) (repeat b j) = repeat (if b then 255 else 0) j).
  { intros b j. induction j as [|j IHj]; [reflexivity|]. cbn [repeat map]. rewrite IHj. reflexivity. }
  unfold mask_bytes, masks. induction m as [|b m IH]; [reflexivity|]. cbn [flat_map]. rewrite map_app, IH, R. reflexivity.
Qed.
Lemma leading_expand b k m : leading b (flat_map (fun x => repeat x k) m) = Z.of_nat k * leading b m.
Proof.
  induction m as [|x m IH]; [cbn; lia|]. cbn [flat_map leading].
  assert (R : forall j l, leading b (repeat x j ++ l) = if Bool.eqb x b then Z.of_nat j + leading b l else match j with O => leading b l | _ => 0 end).
  { induction j as [|j IHj]; intros l; [cbn [repeat app]; destruct (Bool.eqb x b); lia|].
    cbn [repeat app leading]. rewrite IHj. destruct (Bool.eqb x b); [lia|reflexivity]. }
  rewrite R. destruct (Bool.eqb x b); [rewrite IH; lia|]. destruct k; [cbn in *; rewrite IH; lia|lia].
Qed.
Lemma expand_length k m : length (flat_map (fun x : bool => repeat x k) m) = (k * length m)%nat.
Proof. induction m as [|x m IH]; cbn [flat_map length]; [lia|]. rewrite app_length, repeat_length, IH. lia. Qed.

Lemma leading_app b a c : leading b (a ++ c) = if leading b a =? Z.of_nat (length a) then leading b a + leading b c else leading b a.
Proof.
  induction a as [|x a IH]; [reflexivity|]. cbn [app leading length].
  destruct (Bool.eqb x b); [|destruct (Z.eqb_spec 0 (Z.of_nat (S (length a)))); [lia|reflexivity]].
  rewrite IH. pose proof (leading_bound b a).
  destruct (Z.eqb_spec (leading b a) (Z.of_nat (length a))), (Z.eqb_spec (1 + leading b a) (Z.of_nat (S (length a)))); lia.
Qed.

(** The element is the skipped one exactly if all its bits agree. *)
Lemma bits_range m : 0 <= bits_of_mask m < 2 ^ Z.of_nat (length m).
Proof.
  unfold bits_of_mask. induction m as [|b m IH]; [cbn; lia|]. cbn [fold_right length]. rewrite Nat2Z.inj_succ, Z.pow_succ_r by lia.
  destruct b; cbn [Z.b2z]; lia.
Qed.
Lemma skip_iff (ct : bool) m : (bits_of_mask m =? (if ct then 0 else 2 ^ Z.of_nat (length m) - 1)) = (leading (negb ct) m =? Z.of_nat (length m)).
Proof.
  unfold bits_of_mask. induction m as [|b m IH]; [destruct ct; reflexivity|]. cbn [fold_right length leading].
  rewrite Nat2Z.inj_succ, Z.pow_succ_r by lia. set (v := fold_right _ _ _) in *. pose proof (leading_bound (negb ct) m) as LB.
  pose proof (bits_range m) as BR. unfold bits_of_mask in BR. fold v in BR.
  destruct ct, b; cbn [negb Bool.eqb Z.b2z] in *;
    repeat match goal with |- context [?x =? ?y] => destruct (Z.eqb_spec x y) | H : context [?x =? ?y] |- _ => destruct (Z.eqb_spec x y) end;
    try reflexivity; try discriminate; try lia.
Qed.

Lemma rec_step ct pos e e2 r : countr_recursive ct pos (e :: e2 :: r) =
  if e =? (if ct then 0 else 2 ^ 64 - 1) then countr_recursive ct (pos + 1) (e2 :: r) else 64 * pos + countr ct 64 e.
Proof. reflexivity. Qed.
Lemma recursive_is (ct : bool) : forall cs pos, cs <> [] -> Forall (fun c => length c = 64%nat) cs ->
  countr_recursive ct pos (map bits_of_mask cs) = 64 * pos + leading (negb ct) (concat cs).
Proof.
  induction cs as [|c cs IH]; intros pos NE HF; [contradiction|]. pose proof (Forall_inv HF) as L. cbv beta in L.
  pose proof (countr_bits ct c) as CB. rewrite L in CB.
  destruct cs as [|c2 cs].
  - cbn [map countr_recursive concat]. rewrite app_nil_r, CB. reflexivity.
  - change (map bits_of_mask (c :: c2 :: cs)) with (bits_of_mask c :: bits_of_mask c2 :: map bits_of_mask cs).
    rewrite rec_step. pose proof (skip_iff ct c) as SK. rewrite L in SK. change (Z.of_nat 64) with 64 in SK. rewrite SK.
    change (concat (c :: c2 :: cs)) with (c ++ concat (c2 :: cs)). rewrite leading_app, L. change (Z.of_nat 64) with 64.
    destruct (Z.eqb_spec (leading (negb ct) c) 64) as [E|E].
    + change (bits_of_mask c2 :: map bits_of_mask cs) with (map bits_of_mask (c2 :: cs)).
      rewrite IH; [lia|discriminate|exact (Forall_inv_tail HF)].
    + rewrite CB. reflexivity.
Qed.

Lemma firstn_masks n l : firstn n (masks l) = masks (firstn n l).
Proof. apply firstn_map. Qed.
Lemma skipn_masks n l : skipn n (masks l) = masks (skipn n l).
Proof. apply skipn_map. Qed.

Fixpoint chunks (n : nat) (l : list bool) : list (list bool) := match n with O => [] | S n => firstn 8 l :: chunks n (skipn 8 l) end.
Lemma elements_masks n : forall l, elements n (masks l) = map bits_of_mask (map (flat_map byte_bits) (chunks n l)).
Proof. induction n as [|n IH]; intros l; [reflexivity|]. cbn [elements chunks map]. rewrite firstn_masks, skipn_masks, le_masks, IH. reflexivity. Qed.
Lemma chunks_concat n : forall l, length l = (8 * n)%nat -> concat (chunks n l) = l /\ Forall (fun c => length c = 8%nat) (chunks n l).
Proof.
  induction n as [|n IH]; intros l L; [destruct l; [split; [reflexivity|constructor]|discriminate]|]. cbn [chunks concat].
  destruct (IH (skipn 8 l)) as (A & B); [rewrite skipn_length; lia|]. rewrite A, firstn_skipn. split; [reflexivity|].
  constructor; [rewrite firstn_length; lia|exact B].
Qed.
Lemma concat_flat (cs : list (list bool)) : concat (map (flat_map byte_bits) cs) = flat_map byte_bits (concat cs).
Proof. induction cs as [|c cs IH]; [reflexivity|]. cbn [map concat]. rewrite IH, flat_map_app. reflexivity. Qed.

(** The bit found by the recursion: 8 times the leading bytes. *)
Lemma recursive_masks (ct : bool) l n : n <> O -> length l = (8 * n)%nat ->
  countr_recursive ct 0 (elements n (masks l)) = 8 * leading (negb ct) l.
Proof.
  intros N L. destruct (chunks_concat n l L) as (A & B). rewrite elements_masks, recursive_is.
  - rewrite concat_flat, A. change byte_bits with (fun x : bool => repeat x 8). rewrite leading_expand. lia.
  - destruct n; [contradiction|discriminate].
  - clear - B. induction (chunks n l) as [|c cs IH]; [constructor|]. cbn [map]. constructor; [|apply IH; exact (Forall_inv_tail B)].
    pose proof (Forall_inv B) as L. cbv beta in L. change byte_bits with (fun x : bool => repeat x 8). rewrite expand_length, L. reflexivity.
Qed.

Lemma movemask_masks l : movemask (masks l) = bits_of_mask l.
Proof. unfold masks, bits_of_mask. induction l as [|b l IH]; [reflexivity|]. cbn [map movemask fold_right]. rewrite IH. destruct b; reflexivity. Qed.
Lemma masks_length l : length (masks l) = length l.
Proof. apply map_length. Qed.

(** Zero tests. *)
Lemma le_zero l : Forall (fun b => 0 <= b < 256) l -> (little_endian l = 0 <-> Forall (fun b => b = 0) l) /\ 0 <= little_endian l.
Proof.
  induction l as [|b l IH]; intros HF; [split; [split; [constructor|reflexivity]|cbn; lia]|].
  destruct (IH (Forall_inv_tail HF)) as ((I1 & I2) & I3). pose proof (Forall_inv HF) as B. cbv beta in B. cbn [little_endian].
  split; [|lia]. split.
  - intros E. constructor; [lia|apply I1; lia].
  - intros E. rewrite I2 by exact (Forall_inv_tail E). pose proof (Forall_inv E). cbv beta in *. lia.
Qed.
Lemma all_rec v : all_zeros_recursive v = forallb (fun x => x =? 0) v.
Proof.
  induction v as [|a v IH]; [reflexivity|]. destruct v as [|b v]; [cbn; rewrite andb_true_r; reflexivity|].
  destruct v as [|c v]; [cbn; rewrite andb_true_r; reflexivity|]. cbn [all_zeros_recursive forallb] in *. rewrite IH. reflexivity.
Qed.
Definition all_zero (l : list Z) : Prop := Forall (fun b => b = 0) l.
Lemma elements_zero k (N : k <> O) : forall n (es : nat -> list Z -> list Z), (forall l, es O l = []) ->
  (forall n l, es (S n) l = little_endian (firstn k l) :: es n (skipn k l)) ->
  forall l, Forall (fun b => 0 <= b < 256) l -> length l = (k * n)%nat ->
  (Forall (fun x => x = 0) (es n l) <-> all_zero l) /\ Forall (fun x => 0 <= x) (es n l).
Proof.
  intros n es E0 E1. induction n as [|n IH]; intros l HF L.
  - rewrite E0. destruct l; [|cbn in L; lia]. repeat split; constructor.
  - rewrite E1. rewrite <- (firstn_skipn k l) in HF. apply Forall_app in HF as (F1 & F2).
    destruct (le_zero _ F1) as ((A & B) & C). destruct (IH (skipn k l) F2) as ((D & E) & G); [rewrite skipn_length; lia|].
    split; [|constructor; assumption]. unfold all_zero in *. rewrite <- (firstn_skipn k l) at 3. split.
    + intros H. apply Forall_app. split; [apply A; exact (Forall_inv H)|apply D; exact (Forall_inv_tail H)].
    + intros H. apply Forall_app in H as (H1 & H2). constructor; [apply B; exact H1|apply E; exact H2].
Qed.
Lemma forallb_zero v : forallb (fun x => x =? 0) v = true <-> Forall (fun x => x = 0) v.
Proof.
  rewrite forallb_forall, Forall_forall. split; intros H x Hx; [apply Z.eqb_eq|apply Z.eqb_eq]; auto.
Qed.
Lemma max_zero v : Forall (fun x => 0 <= x) v -> (fold_right Z.max 0 v = 0 <-> Forall (fun x => x = 0) v).
Proof.
  intros HF. induction v as [|a v IH]; [split; [constructor|reflexivity]|]. pose proof (Forall_inv HF) as A. cbv beta in A. cbn [fold_right].
  destruct (IH (Forall_inv_tail HF)) as (I1 & I2).
  assert (P : 0 <= fold_right Z.max 0 v) by (clear; induction v; cbn [fold_right]; lia). split.
  - intros E. constructor; [lia|apply I1; lia].
  - intros E. rewrite I2 by exact (Forall_inv_tail E). pose proof (Forall_inv E). cbv beta in *. lia.
Qed.
Lemma movemask_nonneg l : 0 <= movemask l.
Proof. induction l as [|b l IH]; cbn [movemask]; [lia|]. destruct (128 <=? b); cbn [Z.b2z]; lia. Qed.
Lemma ptestm_zero l : 0 <= ptestm l /\ (ptestm l = 0 <-> all_zero l).
Proof.
  unfold all_zero. induction l as [|b l (IH1 & IH2 & IH3)]; cbn [ptestm]; [split; [lia|split; [constructor|reflexivity]]|].
  destruct (Z.eqb_spec b 0) as [E|E]; cbn [negb Z.b2z]; (split; [lia|split; intros H]).
  - constructor; [exact E|apply IH2; lia].
  - rewrite IH3 by exact (Forall_inv_tail H). reflexivity.
  - lia.
  - exfalso. apply E. exact (Forall_inv H).
Qed.
