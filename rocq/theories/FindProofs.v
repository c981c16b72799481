From Verif Require Import Base CharModel CharSpec PropsChar FindModel FindSpec.
Open Scope Z_scope.

(** ** The scalar loop *)

Lemma skip_while_le : forall p s, (skip_while p s <= length s)%nat.
Proof. induction s as [|x s IH]; cbn; [lia|]. destruct (p x); lia. Qed.

Lemma skip_while_first : forall (p : Z -> bool) (P : Z -> Prop) s,
  Forall (fun x => p x = false <-> P x) s -> first_at P s (skip_while p s).
Proof.
  intros p P. induction s as [|x s IH]; intros H.
  - repeat split; cbn; intros; try lia.
  - inversion H as [|? ? Hx Hs]; subst. specialize (IH Hs). destruct IH as (I1 & I2 & I3).
    cbn [skip_while]. destruct (p x) eqn:E.
    + repeat split; cbn [length]; [lia| |].
      * intros [|j] Hj; cbn [nth].
        -- intros K. apply Hx in K. congruence.
        -- apply I2. lia.
      * intros K. cbn [nth]. apply I3. lia.
    + repeat split; cbn [length]; [lia| |].
      * intros j Hj. lia.
      * intros _. cbn [nth]. apply Hx. reflexivity.
Qed.

Lemma skip_while_app : forall p a b,
  Forall (fun x => p x = true) a -> skip_while p (a ++ b) = (length a + skip_while p b)%nat.
Proof.
  induction a as [|x a IH]; intros b H; [reflexivity|].
  inversion H; subst. cbn. rewrite H2, IH by assumption. reflexivity.
Qed.

Lemma skip_while_resume : forall p s k, (k <= length s)%nat ->
  Forall (fun x => p x = true) (firstn k s) ->
  (k + skip_while p (skipn k s) = skip_while p s)%nat.
Proof.
  intros p s k Hk H. rewrite <- (firstn_skipn k s) at 2.
  rewrite skip_while_app by exact H. rewrite firstn_length. lia.
Qed.

Lemma skip_while_prefix : forall p s k,
  (k = skip_while p s)%nat -> Forall (fun x => p x = true) (firstn k s).
Proof.
  induction s as [|x s IH]; intros k ->; cbn; [constructor|].
  destruct (p x) eqn:E; cbn; constructor; auto.
Qed.

(** ** Vector blocks *)

Lemma simd_condition_passes : forall (n : nat) stop (p : Z -> bool) (Q : Z -> Prop), (0 < n)%nat ->
  (forall v, length v = n -> Forall Q v -> stop v = false -> Forall (fun x => p x = true) v) ->
  forall fuel s, Forall Q s ->
  (simd_condition n stop fuel s <= length s)%nat /\
  Forall (fun x => p x = true) (firstn (simd_condition n stop fuel s) s).
Proof.
  intros n stop p Q Hn Hstop. induction fuel as [|fuel IH]; intros s HQ; cbn [simd_condition].
  - split; [lia|constructor].
  - destruct (Nat.leb n (length s)) eqn:E; [|split; [lia|constructor]].
    apply Nat.leb_le in E.
    destruct (stop (firstn n s)) eqn:E2; [split; [lia|constructor]|].
    assert (HQ1 : Forall Q (firstn n s) /\ Forall Q (skipn n s)).
    { rewrite <- (firstn_skipn n s) in HQ. apply Forall_app in HQ. exact HQ. }
    destruct HQ1 as [HQ1 HQ2].
    specialize (IH _ HQ2). destruct IH as [I1 I2].
    set (k := simd_condition n stop fuel (skipn n s)) in *. clearbody k.
    rewrite skipn_length in I1. split; [lia|].
    rewrite <- (firstn_skipn n s) at 1.
    rewrite firstn_app, firstn_length, firstn_firstn.
    replace (Nat.min (n + k) n) with n by lia.
    replace (n + k - Nat.min n (length s))%nat with k by lia.
    apply Forall_app. split; [|exact I2].
    apply Hstop; [rewrite firstn_length; lia|exact HQ1|exact E2].
Qed.

Lemma vec_map2_repeat : forall f a n v, length v = n ->
  vec_map2 f v (repeat a n) = map (fun x => f x a) v.
Proof.
  unfold vec_map2. induction n as [|n IH]; intros v H.
  - destruct v; [reflexivity|discriminate].
  - destruct v as [|x v]; [discriminate|]. cbn. f_equal. apply IH. cbn in H. lia.
Qed.
Lemma vec_map2_repeat_l : forall f a n v, length v = n ->
  vec_map2 f (repeat a n) v = map (fun x => f a x) v.
Proof.
  unfold vec_map2. induction n as [|n IH]; intros v H.
  - destruct v; [reflexivity|discriminate].
  - destruct v as [|x v]; [discriminate|]. cbn. f_equal. apply IH. cbn in H. lia.
Qed.
Lemma vec_map2_maps : forall f (g h : Z -> Z) v, vec_map2 f (map g v) (map h v) = map (fun x => f (g x) (h x)) v.
Proof.
  unfold vec_map2. induction v as [|x v IH]; [reflexivity|]. cbn. f_equal. exact IH.
Qed.

Lemma lane_zero : forall w b, 0 < w -> (0 =? lane_bool w b) = negb b.
Proof.
  intros w b Hw. destruct b; unfold lane_bool; cbn [negb]; [|reflexivity].
  assert (2 <= 2 ^ w) by (change 2 with (2 ^ 1) at 1; apply Z.pow_le_mono_r; lia).
  apply Z.eqb_neq. lia.
Qed.

(** [is_all_zeros] is right unless ptestmb512 is used. *)
Definition zero_test_ok (c : fcfg) : Prop := f_simd c <> 64%nat \/ f_ptestm c = false.

Lemma all_zeros_ok : forall c v, zero_test_ok c -> is_all_zeros c v = forallb (Z.eqb 0) v.
Proof.
  intros c v [H|H]; unfold is_all_zeros.
  - apply Nat.eqb_neq in H. rewrite H. reflexivity.
  - rewrite H, andb_false_r. reflexivity.
Qed.

Lemma lanes_pos : forall c, char_width (f_w c) -> (16 <= f_simd c)%nat -> (0 < lanes c)%nat.
Proof.
  intros c Hw Hs. unfold lanes.
  apply Nat.div_str_pos.
  destruct Hw as [E|[E|E]]; rewrite E; cbn; lia.
Qed.

Lemma splat_plain : forall c v, 0 <= v < 2 ^ f_w c -> splat c false v = repeat v (lanes c).
Proof. intros. unfold splat. rewrite Z.mod_small by assumption. reflexivity. Qed.

Lemma find_simd_constant_passes : forall c findnot ch s,
  char_width (f_w c) -> (16 <= f_simd c)%nat -> zero_test_ok c ->
  code_unit (f_w c) ch ->
  (find_simd_constant c findnot ch s <= length s)%nat /\
  Forall (fun x => pass_char findnot ch x = true) (firstn (find_simd_constant c findnot ch s) s).
Proof.
  intros c findnot ch s Hw Hs Hz Hch.
  assert (Hw0 : 0 < f_w c) by (unfold char_width in Hw; lia).
  unfold find_simd_constant, find_simd_condition.
  apply simd_condition_passes with (Q := fun _ => True).
  - apply lanes_pos; assumption.
  - intros v Hv _ Hstop.
    rewrite splat_plain in Hstop by exact Hch.
    destruct findnot; apply negb_false_iff in Hstop; rewrite all_zeros_ok in Hstop by exact Hz;
      unfold vec_ne, vec_eq in Hstop; rewrite (vec_map2_repeat _ _ _ _ Hv) in Hstop;
      rewrite forallb_forall in Hstop; apply Forall_forall; intros x Hx;
      assert (K := Hstop _ (in_map _ _ _ Hx)); cbn beta in K;
      rewrite lane_zero in K by exact Hw0; unfold pass_char.
    + rewrite negb_involutive in K. exact K.
    + exact K.
  - apply Forall_forall. trivial.
Qed.

(** ** The space lanes *)

Definition range_lane (w x : Z) : bool :=
  (x - (9 + 2 ^ (w - 1)) mod 2 ^ w) mod 2 ^ w <? (5 + 2 ^ (w - 1)) mod 2 ^ w.
Definition space_lane (w : Z) (html : bool) (x : Z) : Z :=
  if html then Z.lxor (lane_bool w (32 =? x)) (Z.land (lane_bool w (range_lane w x)) (lane_bool w (negb (x =? 11))))
  else Z.lxor (lane_bool w (32 =? x)) (lane_bool w (range_lane w x)).

Lemma space_lanes_map : forall c html v, char_width (f_w c) -> length v = lanes c ->
  space_lanes c html v = map (space_lane (f_w c) html) v.
Proof.
  intros c html v Hw Hv. unfold space_lanes, space_lane.
  assert (B : 2 ^ 8 <= 2 ^ f_w c) by (apply Z.pow_le_mono_r; unfold char_width in Hw; lia).
  change (2 ^ 8) with 256 in B.
  rewrite !splat_plain by lia. unfold splat, use_signed_vector_type.
  unfold decision_lt, vec_lt_unsigned, vec_sub, vec_eq, vec_ne, vec_xor, vec_and.
  rewrite (vec_map2_repeat _ _ _ v Hv), (vec_map2_repeat_l _ _ _ v Hv).
  rewrite vec_map2_repeat by (rewrite map_length; exact Hv). rewrite map_map.
  destruct html.
  - rewrite (vec_map2_repeat _ _ _ v Hv), !vec_map2_maps. reflexivity.
  - rewrite vec_map2_maps. reflexivity.
Qed.

Lemma range_lane_spec : forall w x, 8 <= w -> 0 <= x < 2 ^ w ->
  range_lane w x = (x <? 14) || (2 ^ (w - 1) + 9 <=? x).
Proof.
  intros w x Hw Hx. unfold range_lane.
  assert (B : 2 ^ 7 <= 2 ^ (w - 1)) by (apply Z.pow_le_mono_r; lia).
  change (2 ^ 7) with 128 in B.
  assert (E : 2 ^ w = 2 * 2 ^ (w - 1)) by (rewrite <- Z.pow_succ_r by lia; f_equal; lia).
  rewrite E in *. set (h := 2 ^ (w - 1)) in *. clearbody h.
  rewrite (Z.mod_small (9 + h)) by lia. rewrite (Z.mod_small (5 + h)) by lia.
  destruct (Z_lt_dec x (9 + h)).
  - rewrite <- (Z.mod_unique (x - (9 + h)) (2 * h) (-1) (x - 9 + h)) by lia.
    destruct (x <? 14) eqn:E1; cbn [orb]; [apply Z.ltb_lt; lia|].
    destruct (h + 9 <=? x) eqn:E2; [lia|]. apply Z.ltb_ge. lia.
  - rewrite Z.mod_small by lia.
    destruct (x <? 14) eqn:E1; [lia|]. cbn [orb].
    destruct (h + 9 <=? x) eqn:E2; [|lia]. apply Z.ltb_lt. lia.
Qed.

Lemma lane_lxor : forall w a b, Z.lxor (lane_bool w a) (lane_bool w b) = lane_bool w (xorb a b).
Proof. intros w [] []; cbn; rewrite ?Z.lxor_nilpotent, ?Z.lxor_0_r; reflexivity. Qed.
Lemma lane_land : forall w a b, Z.land (lane_bool w a) (lane_bool w b) = lane_bool w (a && b).
Proof. intros w [] []; cbn; rewrite ?Z.land_diag, ?Z.land_0_r; reflexivity. Qed.

Lemma space_lane_bool : forall w html x, 
  space_lane w html x =
  lane_bool w (xorb (32 =? x) (range_lane w x && (negb html || negb (x =? 11)))).
Proof.
  intros. unfold space_lane. destruct html; rewrite ?lane_land, lane_lxor; f_equal.
  cbn [negb orb]. rewrite andb_true_r. reflexivity.
Qed.

(** Every whitespace character is flagged; a flagged character below the misjudged ranges is whitespace. *)
Definition plain_char (w x : Z) : Prop := 9 <= x < 2 ^ (w - 1) + 9.

Definition flag (w : Z) (html : bool) (x : Z) : bool :=
  xorb (32 =? x) (range_lane w x && (negb html || negb (x =? 11))).

Lemma flag_space : forall w html x, 8 <= w -> 0 <= x < 2 ^ w ->
  space_class html x -> flag w html x = true.
Proof.
  intros w html x Hw Hx H. unfold flag. rewrite range_lane_spec by assumption.
  assert (B : 2 ^ 7 <= 2 ^ (w - 1)) by (apply Z.pow_le_mono_r; lia).
  change (2 ^ 7) with 128 in B.
  set (h := 2 ^ (w - 1)) in *. clearbody h.
  unfold space_class, HTML_whitespace, C_space in H.
  destruct (32 =? x) eqn:E1, (x <? 14) eqn:E2, (h + 9 <=? x) eqn:E3, (x =? 11) eqn:E4, html;
    cbn; try reflexivity; lia.
Qed.

Lemma flag_plain : forall w html x, 8 <= w -> plain_char w x -> 0 <= x < 2 ^ w ->
  flag w html x = true -> space_class html x.
Proof.
  intros w html x Hw Hp Hx H. unfold flag in H. rewrite range_lane_spec in H by assumption.
  unfold plain_char in Hp.
  set (h := 2 ^ (w - 1)) in *. clearbody h.
  unfold space_class, HTML_whitespace, C_space.
  destruct (32 =? x) eqn:E1, (x <? 14) eqn:E2, (h + 9 <=? x) eqn:E3, (x =? 11) eqn:E4, html;
    cbn in H; try discriminate H; lia.
Qed.

Lemma pass_space_spec : forall w html findnot x, char_width w -> code_unit w x ->
  pass_space w html findnot x = false <-> (if findnot then ~ space_class html x else space_class html x).
Proof.
  intros w html findnot x Hw Hx. unfold pass_space, space_class.
  assert (A := C38_space w x Hw Hx). assert (B := C38_html_whitespace x).
  destruct html, findnot; rewrite ?negb_false_iff; try tauto.
  - rewrite <- B. destruct (is_html_whitespace x); split; intros; congruence.
  - rewrite <- A. destruct (is_c_space w x); split; intros; congruence.
Qed.

Lemma find_space_simd_passes : forall c html findnot s,
  char_width (f_w c) -> (16 <= f_simd c)%nat -> zero_test_ok c -> text (f_w c) s ->
  (findnot = true -> Forall (plain_char (f_w c)) s) ->
  (find_space_simd c html findnot s <= length s)%nat /\
  Forall (fun x => pass_space (f_w c) html findnot x = true) (firstn (find_space_simd c html findnot s) s).
Proof.
  intros c html findnot s Hw Hs Hz Ht Hp.
  assert (Hw8 : 8 <= f_w c) by (unfold char_width in Hw; lia).
  unfold find_space_simd, find_simd_all, find_simd_condition.
  apply simd_condition_passes with
    (Q := fun x => code_unit (f_w c) x /\ (findnot = true -> plain_char (f_w c) x)).
  - apply lanes_pos; assumption.
  - intros v Hv HQ Hstop. rewrite space_lanes_map in Hstop by assumption.
    rewrite Forall_forall in HQ. apply Forall_forall. intros x Hx.
    destruct (HQ _ Hx) as [Hu Hpl]. unfold code_unit in Hu.
    apply not_false_iff_true. intros Hpass.
    apply pass_space_spec in Hpass; [|exact Hw|exact Hu].
    destruct findnot; apply negb_false_iff in Hstop; rewrite all_zeros_ok in Hstop by exact Hz.
    + unfold vec_eq in Hstop.
      rewrite vec_map2_repeat in Hstop by (rewrite map_length; exact Hv).
      rewrite map_map, forallb_forall in Hstop.
      assert (K := Hstop _ (in_map _ _ _ Hx)). cbn beta in K.
      rewrite lane_zero in K by lia. rewrite space_lane_bool in K. fold (flag (f_w c) html x) in K.
      apply Hpass. apply (flag_plain (f_w c)); [lia|apply Hpl; reflexivity|exact Hu|].
      destruct (flag (f_w c) html x); [reflexivity|]. cbn in K. discriminate K.
    + rewrite forallb_forall in Hstop.
      assert (K := Hstop _ (in_map _ _ _ Hx)).
      rewrite space_lane_bool in K. fold (flag (f_w c) html x) in K.
      rewrite (flag_space (f_w c)) in K by assumption.
      rewrite lane_zero in K by lia. discriminate K.
  - unfold text in Ht. rewrite Forall_forall in Ht. apply Forall_forall. intros x Hx. split; [apply Ht; exact Hx|].
    intros E. specialize (Hp E). rewrite Forall_forall in Hp. apply Hp. exact Hx.
Qed.

(** ** The first characters one by one *)

Lemma small_first_ok : forall c p func s,
  (forall k, (k <= length s)%nat -> func (skipn k s) = skip_while p (skipn k s)) ->
  small_first c p func s = skip_while p s.
Proof.
  intros c p func s Hf. unfold small_first.
  destruct (Nat.ltb 2 (f_simd c)).
  - set (d := Nat.min (f_simd c) (length s)).
    assert (Hd : (d <= length s)%nat) by (unfold d; lia). clearbody d.
    assert (Hk := skip_while_le p (firstn d s)). rewrite firstn_length in Hk.
    destruct (Nat.eqb (d - skip_while p (firstn d s)) 0) eqn:E; cbn [negb].
    + apply Nat.eqb_eq in E. assert (Hkd : skip_while p (firstn d s) = d) by lia.
      rewrite Hkd. rewrite Hf by exact Hd. apply skip_while_resume; [exact Hd|].
      assert (K := skip_while_prefix p (firstn d s) _ eq_refl). rewrite Hkd in K.
      rewrite firstn_firstn in K. replace (Nat.min d d) with d in K by lia. exact K.
    + apply Nat.eqb_neq in E.
      assert (K : forall l l' q, (skip_while q l < length l)%nat -> skip_while q (l ++ l') = skip_while q l).
      { clear. induction l as [|x l IH]; intros l' q H; cbn in *; [lia|].
        destruct (q x); [|reflexivity]. f_equal. apply IH. lia. }
      rewrite <- (firstn_skipn d s) at 2. symmetry. apply K. rewrite firstn_length. lia.
  - apply (Hf O). lia.
Qed.

(** If the first characters already decide, nothing else is looked at. *)
Lemma small_first_decides : forall c p func s, (16 <= f_simd c)%nat ->
  (skip_while p s < Nat.min (f_simd c) (length s))%nat ->
  small_first c p func s = skip_while p s.
Proof.
  intros c p func s H16 H. unfold small_first.
  replace (Nat.ltb 2 (f_simd c)) with true by (symmetry; apply Nat.ltb_lt; lia).
  set (d := Nat.min (f_simd c) (length s)) in *.
  assert (Hd : (d <= length s)%nat) by (unfold d; lia). clearbody d.
  assert (K : skip_while p (firstn d s) = skip_while p s).
  { clear H16. revert d Hd H. induction s as [|x s IH]; intros d Hd H; cbn in *; [lia|].
    destruct d as [|d]; [lia|]. cbn. destruct (p x); [|reflexivity]. f_equal. apply IH; lia. }
  rewrite K. replace (Nat.eqb (d - skip_while p s) 0) with false by (symmetry; apply Nat.eqb_neq; lia).
  reflexivity.
Qed.
