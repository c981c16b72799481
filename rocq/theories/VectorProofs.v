(** Proofs that the vector refines the sequence of its elements. *)
From Verif Require Import Base VectorModel VectorSpec.

Section Proofs.
Context {A : Type}.
Implicit Types (l a b : list A) (p q r st : list (cell A)) (v : vec A).

(** ** Lists *)

Lemma nth_mid p c q i : i = length p -> nth_error (p ++ c :: q) i = Some c.
Proof. intros ->. rewrite nth_error_app2 by lia. now rewrite Nat.sub_diag. Qed.

Lemma set_mid p c d q i : i = length p -> set_cell i c (p ++ d :: q) = p ++ c :: q.
Proof. intros ->. induction p; cbn [length set_cell app]; [reflexivity|]. now rewrite IHp. Qed.

Lemma firstn_pre {X} (a b : list X) n : n = length a -> firstn n (a ++ b) = a.
Proof. intros ->. rewrite firstn_app, Nat.sub_diag, firstn_all. cbn. apply app_nil_r. Qed.

Lemma skipn_pre {X} (a b : list X) n : n = length a -> skipn n (a ++ b) = b.
Proof. intros ->. rewrite skipn_app, Nat.sub_diag, skipn_all. reflexivity. Qed.

Lemma objects_raw (kd : kind) n : objects kd (repeat (@Raw A) n) = 0%nat.
Proof.
  unfold objects. destruct (k_tdtor kd); [reflexivity|].
  induction n; cbn; auto.
Qed.

Lemma objects_app (kd : kind) p q : objects kd (p ++ q) = (objects kd p + objects kd q)%nat.
Proof.
  unfold objects. destruct (k_tdtor kd); [reflexivity|].
  rewrite filter_app, app_length. reflexivity.
Qed.

Definition all_raw p := p = repeat Raw (length p).

Lemma all_raw_objects kd p : all_raw p -> objects kd p = 0%nat.
Proof. intros ->. apply objects_raw. Qed.

Lemma all_raw_app p q : all_raw p -> all_raw q -> all_raw (p ++ q).
Proof. unfold all_raw. intros Hp Hq. rewrite app_length, repeat_app. congruence. Qed.

Lemma all_raw_repeat n : all_raw (repeat Raw n).
Proof. unfold all_raw. now rewrite repeat_length. Qed.

Lemma all_raw_cons c p : all_raw (c :: p) -> c = Raw /\ all_raw p.
Proof. unfold all_raw. cbn. intros H. injection H. auto. Qed.

Lemma objects_tdtor kd p : k_tdtor kd = true -> objects kd p = 0%nat.
Proof. unfold objects. now intros ->. Qed.

Lemma is_object_live l : forallb is_object (map Live l) = true.
Proof. induction l; cbn; auto. Qed.

(** ** Invariants *)

Definition inv v l := exists r, v_store v = map Live l ++ r /\ v_size v = length l.

Definition bounded (kd : kind) v := Z.of_nat (v_cap v) * k_size kd < 2 ^ 63.

Definition clean (kd : kind) v l :=
  k_tdtor kd = true \/
  (v_lost v = 0%nat /\ forall r, v_store v = map Live l ++ r -> all_raw r).

Lemma inv_shows v l : inv v l -> shows v l.
Proof.
  intros (r & Hs & Hn). unfold shows, v_cap. rewrite Hs, app_length, map_length.
  repeat split; [exact Hn | lia |].
  intros i. unfold index, index_unchecked. rewrite Hn, Hs.
  destruct (Nat.leb_spec (length l) i) as [Hi|Hi].
  - rewrite (proj2 (nth_error_None l i)) by lia. reflexivity.
  - rewrite nth_error_app1 by (rewrite map_length; lia).
    rewrite nth_error_map. destruct (nth_error l i) eqn:E; [reflexivity|].
    apply nth_error_None in E. lia.
Qed.

Lemma clean_tidy kd v l : inv v l -> clean kd v l -> tidy kd v.
Proof.
  intros (r & Hs & Hn) [H|[H0 H]]; [left; exact H|right].
  split; [exact H0|]. intros i Hi. unfold v_cap in Hi. specialize (H r Hs).
  rewrite Hs, app_length, map_length in Hi. rewrite Hs.
  rewrite nth_error_app2 by (rewrite map_length; lia). rewrite map_length.
  rewrite H. apply nth_error_repeat. lia.
Qed.

Lemma tidy_clean kd v l : inv v l -> tidy kd v -> clean kd v l.
Proof.
  intros (r & Hs & Hn) [H|[H0 H]]; [left; exact H|right].
  split; [exact H0|]. intros r' Hs'. rewrite Hs in Hs'. apply app_inv_head in Hs'. subst r'.
  unfold all_raw. apply nth_ext with (d := Raw) (d' := Raw).
  - now rewrite repeat_length.
  - intros n Hlt. rewrite nth_repeat.
    assert (E : nth_error (v_store v) (length l + n) = Some Raw).
    { apply H. unfold v_cap. rewrite Hs, app_length, map_length. lia. }
    rewrite Hs, nth_error_app2 in E by (rewrite map_length; lia).
    rewrite map_length in E. replace (length l + n - length l)%nat with n in E by lia.
    now apply nth_error_nth.
Qed.

(** ** Growing *)

Lemma carry_live kd l : carry kd (map Live l) = VFine (map Live l).
Proof. unfold carry. rewrite is_object_live, orb_true_r. reflexivity. Qed.

Lemma regrow_spec kd al v a b bytes :
  good_kind kd -> sane al -> inv v (a ++ b) -> 0 <= bytes ->
  k_size kd * Z.of_nat (length (a ++ b) + (match b with [] => 0 | _ => 1 end)) <= bytes ->
  regrow kd al v (length a) 1 bytes = VNoMem /\ al bytes = None \/
  exists v' r, regrow kd al v (length a) 1 bytes = VFine v' /\
    v_store v' = map Live a ++ (match b with [] => [] | _ => [Raw] end) ++ map Live b ++ r /\
    v_size v' = v_size v /\ all_raw r /\
    v_block v' = S (v_block v) /\ bounded kd v' /\
    bytes / k_size kd <= Z.of_nat (v_cap v') /\
    (al bytes = Some bytes -> Z.of_nat (v_cap v') = bytes / k_size kd) /\
    (clean kd v (a ++ b) -> k_tdtor kd = true \/ v_lost v' = 0%nat).
Proof.
  intros Hk Hal (r & Hs & Hn) Hb Hfit. unfold good_kind in Hk.
  unfold regrow. destruct (al bytes) as [count|] eqn:E; [right|left; auto].
  pose proof (Hal _ _ Hb E) as [Hc1 Hc2].
  rewrite app_length in Hfit, Hn. rewrite map_app, <- app_assoc in Hs.
  rewrite Hs. rewrite (firstn_pre (map Live a)) by now rewrite map_length.
  rewrite (skipn_pre (map Live a)) by now rewrite map_length.
  rewrite (firstn_pre (map Live b)) by (rewrite map_length; lia).
  rewrite !carry_live. cbn [vbind]. rewrite !map_length.
  set (newcap := Z.to_nat (count / k_size kd)).
  assert (Hnc : Z.of_nat newcap = count / k_size kd).
  { unfold newcap. rewrite Z2Nat.id; [reflexivity|]. apply Z.div_pos; lia. }
  assert (Hroom : (length a + length b + (match b with [] => 0 | _ => 1 end) <= newcap)%nat).
  { apply Nat2Z.inj_le. rewrite Hnc. apply Z.div_le_lower_bound; lia. }
  assert (Hbd : Z.of_nat newcap * k_size kd < 2 ^ 63).
  { rewrite Hnc. pose proof (Z.mul_div_le count (k_size kd) Hk). lia. }
  assert (Hsk : skipn (v_size v) (map Live a ++ map Live b ++ r) = r).
  { rewrite app_assoc. apply skipn_pre. rewrite app_length, !map_length. exact Hn. }
  rewrite Hsk.
  assert (Hlost : clean kd v (a ++ b) ->
                  k_tdtor kd = true \/ (v_lost v + objects kd r = 0)%nat).
  { intros [H|[H0 H]]; [left; exact H|right]. rewrite H0.
    rewrite (all_raw_objects kd r); [reflexivity|]. apply H.
    rewrite map_app, <- app_assoc. exact Hs. }
  assert (Hdiv : bytes / k_size kd <= count / k_size kd) by (apply Z.div_le_mono; lia).
  destruct b as [|x b].
  - cbn [map length app] in *.
    replace (length a + 0 <=? newcap)%nat with true by (symmetry; apply Nat.leb_le; lia).
    eexists _, (repeat Raw (newcap - length a)).
    split; [reflexivity|]. cbn [v_store v_size v_block v_lost app].
    repeat split; auto using all_raw_repeat; unfold bounded, v_cap; cbn [v_store];
      rewrite ?app_length, ?map_length, ?repeat_length;
      replace (length a + (newcap - length a))%nat with newcap by lia; try assumption.
    + rewrite Hnc. exact Hdiv.
    + rewrite Hnc. intros H. congruence.
  - change (map Live (x :: b)) with (Live x :: map Live b) at 1 2.
    change (match Live x :: map Live b with [] => 0 | _ => 1 + length (x :: b) end)%nat
      with (1 + length (x :: b))%nat.
    replace (length a + (1 + length (x :: b)) <=? newcap)%nat with true
      by (symmetry; apply Nat.leb_le; lia).
    set (bb := x :: b) in *.
    eexists _, (repeat Raw (newcap - (length a + (1 + length bb)))).
    split; [reflexivity|]. cbn [v_store v_size v_block v_lost repeat app].
    repeat split; auto using all_raw_repeat; unfold bounded, v_cap; cbn [v_store];
      rewrite ?app_length; cbn [length]; rewrite ?app_length, ?map_length, ?repeat_length;
      replace (length a + S (length bb + (newcap - (length a + (1 + length bb)))))%nat
        with newcap by (clearbody bb; lia); try assumption.
    + rewrite Hnc. exact Hdiv.
    + rewrite Hnc. intros H. congruence.
Qed.

Lemma cal_small sz cap : 0 < sz -> Z.of_nat cap * sz < 2 ^ 63 ->
  cal_grow_twice_size sz cap = VFine (if Z.of_nat cap =? 0 then sz else 2 * Z.of_nat cap) /\
  2 * Z.of_nat cap <= size_max / sz
  \/ cap = 0%nat /\ size_max / sz < sz.
Proof.
  intros Hs Hc. unfold cal_grow_twice_size, size_max.
  assert (H2 : 2 * Z.of_nat cap <= (2 ^ 64 - 1) / sz) by (apply Z.div_le_lower_bound; lia).
  destruct (Z.eqb_spec (Z.of_nat cap) ((2 ^ 64 - 1) / sz)) as [E|E].
  { right. split; lia. }
  left. split; [|exact H2].
  replace ((2 ^ 64 - 1) / sz / 2 <? Z.of_nat cap) with false
    by (symmetry; apply Z.ltb_ge; apply Z.div_le_lower_bound; lia).
  destruct (Z.of_nat cap =? 0); reflexivity.
Qed.

(** The request made when a full vector must take one more element. *)
Definition twice_bytes (kd : kind) (n : nat) : Z :=
  if (n =? 0)%nat then (if k_reloc kd then k_size kd else k_size kd * k_size kd)
  else 2 * Z.of_nat n * k_size kd.

Lemma grow_twice_iter_spec kd al v a b :
  good_kind kd -> sane al -> inv v (a ++ b) -> bounded kd v -> v_size v = v_cap v ->
  grow_twice_iter kd al v (length a) = VNoMem /\
    (al (twice_bytes kd (v_size v)) = None \/ size_max < twice_bytes kd (v_size v)) \/
  exists v' r, grow_twice_iter kd al v (length a) = VFine v' /\
    v_store v' = map Live a ++ (match b with [] => [] | _ => [Raw] end) ++ map Live b ++ r /\
    v_size v' = v_size v /\ (v_size v < v_cap v')%nat /\ all_raw r /\
    v_block v' = S (v_block v) /\ bounded kd v' /\ (2 * v_size v <= v_cap v')%nat /\
    (clean kd v (a ++ b) -> k_tdtor kd = true \/ v_lost v' = 0%nat).
Proof.
  intros Hk Hal Hi Hb Hfull. unfold good_kind in Hk.
  assert (Hlen : length (a ++ b) = v_size v) by (destruct Hi as (? & _ & ?); auto).
  assert (Hgen : forall bytes, 0 <= bytes -> bytes = twice_bytes kd (v_size v) ->
    (regrow kd al v (length a) 1 bytes = VNoMem /\ al bytes = None \/
    exists v' r, regrow kd al v (length a) 1 bytes = VFine v' /\
    v_store v' = map Live a ++ (match b with [] => [] | _ => [Raw] end) ++ map Live b ++ r /\
    v_size v' = v_size v /\ (v_size v < v_cap v')%nat /\ all_raw r /\
    v_block v' = S (v_block v) /\ bounded kd v' /\ (2 * v_size v <= v_cap v')%nat /\
    (clean kd v (a ++ b) -> k_tdtor kd = true \/ v_lost v' = 0%nat))).
  { intros bytes H0 Hbytes.
    assert (Hge : k_size kd * Z.max 1 (2 * Z.of_nat (v_size v)) <= bytes).
    { rewrite Hbytes. unfold twice_bytes. destruct (Nat.eqb_spec (v_size v) 0) as [E|E].
      - rewrite E. destruct (k_reloc kd); nia.
      - rewrite Z.max_r by lia. lia. }
    assert (Hge2 : Z.max 1 (2 * Z.of_nat (v_size v)) <= bytes / k_size kd)
      by (apply Z.div_le_lower_bound; lia).
    destruct (regrow_spec kd al v a b bytes Hk Hal Hi H0) as [H|H]; [|left; exact H|].
    { eapply Z.le_trans; [|exact Hge]. apply Z.mul_le_mono_nonneg_l; [lia|].
      rewrite Hlen. destruct b; [lia|]. rewrite app_length in Hlen. cbn [length] in Hlen. lia. }
    right. destruct H as (v' & r & H1 & H2 & H3 & H4 & H5 & H6 & H7 & _ & H8).
    exists v', r. rewrite H1. repeat split; try assumption; lia. }
  unfold grow_twice_iter. rewrite <- Hfull.
  destruct (k_reloc kd) eqn:Er.
  - destruct (Z.eqb_spec (Z.of_nat (v_size v) * k_size kd) 0) as [E|E].
    + assert (E0 : v_size v = 0%nat) by nia.
      destruct (Hgen (k_size kd)) as [[H1 H2]|H]; [lia| |left|right; exact H].
      * unfold twice_bytes. rewrite E0, Er. reflexivity.
      * split; [exact H1|left]. unfold twice_bytes. rewrite E0, Er. exact H2.
    + assert (E0 : (v_size v =? 0)%nat = false) by (apply Nat.eqb_neq; nia).
      assert (Et : twice_bytes kd (v_size v) = 2 * (Z.of_nat (v_size v) * k_size kd))
        by (unfold twice_bytes; rewrite E0; lia).
      destruct (Z.ltb_spec size_max (2 * (Z.of_nat (v_size v) * k_size kd))) as [Hm|Hm].
      * left. split; [reflexivity|right]. lia.
      * destruct (Hgen (2 * (Z.of_nat (v_size v) * k_size kd))) as [[H1 H2]|H];
          [lia|auto|left|right; exact H].
        split; [exact H1|left]. rewrite Et. exact H2.
  - assert (Et : twice_bytes kd (v_size v) =
                 (if Z.of_nat (v_size v) =? 0 then k_size kd else 2 * Z.of_nat (v_size v)) * k_size kd).
    { unfold twice_bytes. rewrite Er.
      destruct (Nat.eqb_spec (v_size v) 0) as [E|E], (Z.eqb_spec (Z.of_nat (v_size v)) 0); try lia. }
    destruct (cal_small (k_size kd) (v_size v)) as [[Hc Hc2]|[Hc0 Hc]]; [lia| | |].
    { unfold bounded in Hb. rewrite Hfull. exact Hb. }
    + rewrite Hc. cbn [vbind].
      destruct (Z.ltb_spec (size_max / k_size kd)
                 (if Z.of_nat (v_size v) =? 0 then k_size kd else 2 * Z.of_nat (v_size v))) as [Hm|Hm].
      * left. split; [reflexivity|right]. rewrite Et.
        apply Z.lt_nge. intros Hn. apply Z.lt_nge in Hm. apply Hm.
        apply Z.div_le_lower_bound; lia.
      * destruct (Hgen ((if Z.of_nat (v_size v) =? 0 then k_size kd else 2 * Z.of_nat (v_size v)) * k_size kd))
          as [[H1 H2]|H]; [|auto|left|right; exact H].
        { destruct (Z.of_nat (v_size v) =? 0); nia. }
        split; [exact H1|left]. rewrite Et. exact H2.
    + left. assert (Hx : size_max < twice_bytes kd (v_size v)).
      { rewrite Et, Hc0. cbn [Z.of_nat Z.eqb].
        apply Z.lt_nge. intros Hn. apply Z.lt_nge in Hc. apply Hc.
        apply Z.div_le_lower_bound; lia. }
      split; [|right; exact Hx].
      unfold cal_grow_twice_size. rewrite Hc0. change (Z.of_nat 0) with 0.
      destruct (0 =? size_max / k_size kd); [reflexivity|].
      assert (0 <= size_max / k_size kd) by (apply Z.div_pos; [cbv; discriminate|lia]).
      replace (size_max / k_size kd / 2 <? 0) with false
        by (symmetry; apply Z.ltb_ge; apply Z.div_pos; lia).
      change (0 =? 0) with true. cbn [vbind].
      replace (size_max / k_size kd <? k_size kd) with true by (symmetry; apply Z.ltb_lt; lia).
      reflexivity.
Qed.

(** ** Moving elements inside the block *)

Lemma memmove_right kd a b (c : cell A) r lost :
  k_reloc kd = true ->
  exists g lost', memmove kd (length a) (length b) (S (length a)) (map Live a ++ map Live b ++ c :: r, lost)
    = VFine (map Live a ++ g :: map Live b ++ r, lost') /\
  (k_tdtor kd = false -> c = Raw -> g = Raw /\ lost' = lost).
Proof.
  intros _. unfold memmove.
  set (p := map Live a) in *. set (s := map Live b) in *.
  assert (Lp : length p = length a) by apply map_length.
  assert (Ls : length s = length b) by apply map_length.
  rewrite <- Lp, <- Ls. clearbody p s. clear Lp Ls.
  rewrite !app_length. cbn [length].
  replace (length p + length s <=? length p + (length s + S (length r)))%nat with true
    by (symmetry; apply Nat.leb_le; lia).
  replace (S (length p) + length s <=? length p + (length s + S (length r)))%nat with true
    by (symmetry; apply Nat.leb_le; lia).
  cbn [andb].
  rewrite (skipn_pre p (s ++ c :: r) (length p) eq_refl).
  rewrite (firstn_pre s (c :: r) (length s) eq_refl).
  rewrite (firstn_pre p (s ++ c :: r) (length p) eq_refl).
  assert (Hsk : skipn (length p + length s) (p ++ s ++ c :: r) = c :: r)
    by (rewrite app_assoc; apply skipn_pre; rewrite app_length; reflexivity).
  rewrite Hsk.
  destruct (k_tdtor kd) eqn:Et.
  - assert (Hc : exists g m, s ++ [c] = g :: m /\ length m = length s).
    { destruct s as [|y s]; cbn; eexists _, _; split; try reflexivity. rewrite app_length. cbn. lia. }
    destruct Hc as (g & m & Hc & Hm).
    exists g, lost. split; [|congruence].
    replace (p ++ s ++ c :: r) with ((p ++ [g]) ++ m ++ r)
      by (rewrite <- !app_assoc; cbn; f_equal; change (g :: m ++ r) with ((g :: m) ++ r);
          rewrite <- Hc, <- app_assoc; reflexivity).
    rewrite (firstn_pre (p ++ [g])) by (rewrite app_length; cbn; lia).
    rewrite (objects_tdtor kd) by assumption.
    replace (skipn (S (length p) + length s) ((p ++ [g]) ++ m ++ r)) with r
      by (symmetry; rewrite app_assoc; apply skipn_pre; rewrite !app_length; cbn; lia).
    rewrite <- !app_assoc, Nat.add_0_r. reflexivity.
  - assert (Hc : exists g m, repeat Raw (length s) ++ [c] = g :: m /\ length m = length s /\
                 (c = Raw -> g = Raw /\ all_raw m)).
    { destruct (length s) as [|n]; cbn; eexists _, _; split; try reflexivity; split; try reflexivity.
      - intros ->. split; [reflexivity|]. exact eq_refl.
      - rewrite app_length, repeat_length. cbn. lia.
      - intros ->. split; [reflexivity|]. apply all_raw_app; [apply all_raw_repeat|exact eq_refl]. }
    destruct Hc as (g & m & Hc & Hm & Hraw).
    exists g, (lost + objects kd m)%nat.
    replace (p ++ repeat Raw (length s) ++ c :: r) with ((p ++ [g]) ++ m ++ r)
      by (rewrite <- !app_assoc; cbn; f_equal; change (g :: m ++ r) with ((g :: m) ++ r);
          rewrite <- Hc, <- app_assoc; reflexivity).
    rewrite (firstn_pre (p ++ [g])) by (rewrite app_length; cbn; lia).
    replace (skipn (S (length p) + length s) ((p ++ [g]) ++ m ++ r)) with r
      by (symmetry; rewrite app_assoc; apply skipn_pre; rewrite !app_length; cbn; lia).
    rewrite (skipn_pre (p ++ [g])) by (rewrite app_length; cbn; lia).
    rewrite (firstn_pre m) by (symmetry; exact Hm).
    split; [rewrite <- !app_assoc; reflexivity|].
    intros _ Hcr. destruct (Hraw Hcr) as [-> Hm2]. rewrite (all_raw_objects kd m Hm2). split; [reflexivity|lia].
Qed.

Lemma move_backward_loop_spec kd a b : forall c r lost,
  exists g lost', move_backward_loop kd (length b) (length a + length b) (S (length a + length b))
    (map Live a ++ map Live b ++ c :: r, lost)
  = VFine (map Live a ++ g :: map Live b ++ r, lost') /\
  (b = [] -> g = c /\ lost' = lost) /\
  (b <> [] -> g = Moved /\
     lost' = (lost + objects kd [c] + objects kd (repeat (@Moved A) (length b - 1)))%nat).
Proof.
  induction b as [|x b IH] using rev_ind; intros c r lost.
  - exists c, lost. cbn [length move_backward_loop map app].
    repeat split; congruence.
  - rewrite app_length. cbn [length]. rewrite Nat.add_1_r. cbn [move_backward_loop].
    replace (length a + S (length b) - 1)%nat with (length a + length b)%nat by lia.
    replace (S (length a + S (length b)) - 1)%nat with (S (length a + length b)) by lia.
    unfold construct_move. cbn [fst snd].
    replace (length a + length b =? S (length a + length b))%nat with false
      by (symmetry; apply Nat.eqb_neq; lia).
    rewrite map_app, <- app_assoc. cbn [map app].
    rewrite app_assoc.
    rewrite (nth_mid (map Live a ++ map Live b)) by (rewrite app_length, !map_length; reflexivity).
    rewrite (set_mid (map Live a ++ map Live b)) by (rewrite app_length, !map_length; reflexivity).
    unfold construct_at.
    replace ((map Live a ++ map Live b) ++ Moved :: c :: r)
      with (((map Live a ++ map Live b) ++ [Moved]) ++ c :: r) by (rewrite <- !app_assoc; reflexivity).
    rewrite (nth_mid ((map Live a ++ map Live b) ++ [Moved]))
      by (rewrite !app_length, !map_length; cbn; lia).
    rewrite (set_mid ((map Live a ++ map Live b) ++ [Moved]))
      by (rewrite !app_length, !map_length; cbn; lia).
    rewrite <- !app_assoc. cbn [app vbind].
    destruct (IH Moved (Live x :: r) (lost + objects kd [c])%nat) as (g & lost' & E & H1 & H2).
    exists g, lost'. split.
    { rewrite E. rewrite <- ?app_assoc. reflexivity. }
    split; [intros H; apply app_eq_nil in H; destruct H; discriminate|].
    intros _. replace (S (length b) - 1)%nat with (length b) by lia.
    destruct b as [|y b].
    + destruct (H1 eq_refl) as [-> ->]. split; [reflexivity|].
      cbn [length repeat]. unfold objects at 3. destruct (k_tdtor kd); cbn; lia.
    + destruct (H2 ltac:(discriminate)) as [-> ->]. split; [reflexivity|].
      cbn [length]. replace (S (length b) - 1)%nat with (length b) by lia.
      cbn [repeat]. change (Moved :: repeat Moved (length b)) with ([Moved] ++ repeat (@Moved A) (length b)).
      rewrite objects_app. lia.
Qed.

Lemma move_backward_spec kd a b c r lost :
  exists g lost', uninitialized_move_backward kd (length b) (length a + length b)
    (S (length a + length b)) (map Live a ++ map Live b ++ c :: r, lost)
  = VFine (map Live a ++ g :: map Live b ++ r, lost') /\
  (k_tdtor kd = false -> k_reloc kd = true \/ b = [] -> c = Raw -> g = Raw /\ lost' = lost).
Proof.
  unfold uninitialized_move_backward. destruct (k_reloc kd) eqn:Er.
  - replace (length a + length b - length b)%nat with (length a) by lia.
    replace (S (length a + length b) - length b)%nat with (S (length a)) by lia.
    destruct (memmove_right kd a b c r lost Er) as (g & lost' & E & H).
    exists g, lost'. split; [exact E|]. intros Ht _ Hc. auto.
  - destruct (move_backward_loop_spec kd a b c r lost) as (g & lost' & E & H1 & H2).
    exists g, lost'. split; [exact E|]. intros Ht [H|H] Hc; [discriminate|].
    destruct (H1 H) as [-> ->]. auto.
Qed.

Lemma destroy_n_spec kd q lost : forall b p,
  destroy_n kd (length p) (length b) (p ++ map Live b ++ q, lost)
  = VFine (p ++ (if k_tdtor kd then map Live b else repeat Raw (length b)) ++ q, lost).
Proof.
  induction b as [|x b IH]; intros p.
  - cbn [length destroy_n map repeat]. destruct (k_tdtor kd); reflexivity.
  - cbn [length destroy_n]. unfold destroy_at.
    specialize (IH (p ++ [if k_tdtor kd then Live x else Raw])).
    rewrite app_length in IH. cbn [length] in IH. rewrite Nat.add_1_r in IH.
    rewrite <- !app_assoc in IH.
    destruct (k_tdtor kd) eqn:Et; cbn [vbind map app] in *.
    + rewrite IH. reflexivity.
    + rewrite (nth_mid p) by reflexivity. rewrite (set_mid p) by reflexivity.
      cbn [vbind]. rewrite IH. reflexivity.
Qed.

(** Closing a gap [g]: the elements [b] behind it are brought down. *)
Lemma relocate_loop_spec kd q : forall b p g lost, g <> [] ->
  exists g' lost', relocate_loop kd (length p + length g) (length b) (length p)
    (p ++ g ++ map Live b ++ q, lost) = VFine (p ++ map Live b ++ g' ++ q, lost') /\
  length g' = length g /\
  (k_tdtor kd = false -> all_raw g -> all_raw g' /\ lost' = lost).
Proof.
  induction b as [|x b IH]; intros p g lost Hg.
  - cbn [length relocate_loop map app]. exists g, lost. repeat split; auto.
  - destruct g as [|c g]; [congruence|].
    cbn [length relocate_loop]. unfold construct_move. cbn [fst snd].
    replace (length p + S (length g) =? length p)%nat with false
      by (symmetry; apply Nat.eqb_neq; lia).
    cbn [map app].
    replace (p ++ c :: g ++ Live x :: map Live b ++ q)
      with ((p ++ c :: g) ++ Live x :: map Live b ++ q) by (rewrite <- app_assoc; reflexivity).
    assert (Hl : (length p + S (length g))%nat = length (p ++ c :: g)) by (rewrite app_length; reflexivity).
    rewrite (nth_mid (p ++ c :: g)) by exact Hl. rewrite (set_mid (p ++ c :: g)) by exact Hl.
    rewrite <- app_assoc. cbn [app]. unfold construct_at.
    rewrite (nth_mid p) by reflexivity. rewrite (set_mid p) by reflexivity. cbn [vbind].
    set (d := if k_tdtor kd then @Moved A else Raw).
    assert (Hd : destroy_at kd (length p + S (length g))
                   (p ++ Live x :: g ++ Moved :: map Live b ++ q, (lost + objects kd [c])%nat)
                 = VFine ((p ++ [Live x]) ++ (g ++ [d]) ++ map Live b ++ q, (lost + objects kd [c])%nat)).
    { unfold destroy_at. replace (p ++ Live x :: g ++ Moved :: map Live b ++ q)
        with ((p ++ Live x :: g) ++ Moved :: map Live b ++ q) by (rewrite <- app_assoc; reflexivity).
      assert (Hl2 : (length p + S (length g))%nat = length (p ++ Live x :: g)) by (rewrite app_length; reflexivity).
      rewrite (nth_mid (p ++ Live x :: g)) by exact Hl2. rewrite (set_mid (p ++ Live x :: g)) by exact Hl2.
      subst d. destruct (k_tdtor kd); rewrite <- !app_assoc; reflexivity. }
    rewrite Hd. cbn [vbind]. clear Hd.
    destruct (IH (p ++ [Live x]) (g ++ [d]) (lost + objects kd [c])%nat) as (g' & lost' & E & H1 & H2).
    { destruct g; discriminate. }
    rewrite (app_length p) in E. rewrite (app_length g) in E, H1. cbn [length] in E, H1.
    replace (S (length p + S (length g))) with (length p + 1 + (length g + 1))%nat by lia.
    replace (S (length p)) with (length p + 1)%nat by lia.
    exists g', lost'. rewrite E. rewrite <- app_assoc. cbn [app].
    repeat split; [lia| |]; intros; apply all_raw_cons in H0; destruct H0 as [-> Hg'];
      destruct H2 as [H3 H4]; auto; subst d.
    + rewrite H. apply all_raw_app; [exact Hg'|exact eq_refl].
    + rewrite H. apply all_raw_app; [exact Hg'|exact eq_refl].
    + rewrite H4. unfold objects. rewrite H. cbn. lia.
Qed.

Lemma relocate_spec kd b p g q lost : k_reloc kd = true \/ g <> [] \/ b = [] ->
  exists g' lost', uninitialized_relocate kd (length p + length g) (length b) (length p)
    (p ++ g ++ map Live b ++ q, lost) = VFine (p ++ map Live b ++ g' ++ q, lost') /\
  length g' = length g /\
  (k_tdtor kd = false -> all_raw g -> all_raw g' /\ lost' = lost).
Proof.
  intros Hc. unfold uninitialized_relocate. destruct (k_reloc kd) eqn:Er.
  - clear Hc. unfold memmove. set (s := map Live b).
    assert (Ls : length s = length b) by apply map_length. rewrite <- Ls. clearbody s. clear Ls.
    rewrite !app_length.
    replace (length p + length g + length s <=? length p + (length g + (length s + length q)))%nat
      with true by (symmetry; apply Nat.leb_le; lia).
    replace (length p + length s <=? length p + (length g + (length s + length q)))%nat
      with true by (symmetry; apply Nat.leb_le; lia).
    cbn [andb].
    assert (E1 : skipn (length p + length g) (p ++ g ++ s ++ q) = s ++ q)
      by (rewrite app_assoc; apply skipn_pre; rewrite app_length; reflexivity).
    rewrite E1, (firstn_pre s) by reflexivity.
    assert (E2 : firstn (length p + length g) (p ++ g ++ s ++ q) = p ++ g)
      by (rewrite app_assoc; apply firstn_pre; rewrite app_length; reflexivity).
    rewrite E2.
    assert (E3 : skipn (length p + length g + length s) (p ++ g ++ s ++ q) = q)
      by (rewrite !app_assoc; apply skipn_pre; rewrite !app_length; reflexivity).
    rewrite E3.
    set (s1 := if k_tdtor kd then s else repeat Raw (length s)).
    assert (L1 : length s1 = length s) by (subst s1; destruct (k_tdtor kd); rewrite ?repeat_length; reflexivity).
    replace (if k_tdtor kd then p ++ g ++ s ++ q else (p ++ g) ++ repeat Raw (length s) ++ q)
      with (p ++ (g ++ s1) ++ q) by (subst s1; destruct (k_tdtor kd); rewrite <- !app_assoc; reflexivity).
    rewrite (firstn_pre p ((g ++ s1) ++ q) (length p) eq_refl).
    rewrite (skipn_pre p ((g ++ s1) ++ q) (length p) eq_refl).
    assert (E4 : g ++ s1 = firstn (length s) (g ++ s1) ++ skipn (length s) (g ++ s1))
      by (symmetry; apply firstn_skipn).
    assert (L4 : length (firstn (length s) (g ++ s1)) = length s)
      by (rewrite firstn_length, app_length; lia).
    assert (L5 : length (skipn (length s) (g ++ s1)) = length g)
      by (rewrite skipn_length, app_length; lia).
    exists (skipn (length s) (g ++ s1)).
    exists (lost + objects kd (firstn (length s) ((g ++ s1) ++ q)))%nat.
    split.
    { f_equal. f_equal. f_equal. f_equal.
      rewrite E4 at 1. rewrite <- app_assoc.
      rewrite (app_assoc p). apply skipn_pre. rewrite app_length. lia. }
    split; [exact L5|].
    intros Ht Hg. assert (Hr : all_raw (g ++ s1)).
    { apply all_raw_app; [exact Hg|]. subst s1. rewrite Ht. apply all_raw_repeat. }
    unfold all_raw in Hr.
    assert (Hf : firstn (length s) ((g ++ s1) ++ q) = repeat Raw (length s)).
    { rewrite firstn_app. replace (length s - length (g ++ s1))%nat with 0%nat by (rewrite app_length; lia).
      cbn [firstn]. rewrite app_nil_r. rewrite Hr at 1. rewrite app_length, L1.
      clear. generalize (length s) as n. intros n. rewrite (Nat.add_comm (length g)), repeat_app.
      apply firstn_pre. now rewrite repeat_length. }
    rewrite Hf, objects_raw. split; [|lia].
    unfold all_raw. rewrite L5. rewrite Hr at 1. rewrite app_length, L1.
    rewrite (Nat.add_comm (length g)), repeat_app. apply skipn_pre. now rewrite repeat_length.
  - destruct Hc as [H|[H|H]]; [discriminate| |].
    + apply relocate_loop_spec. exact H.
    + subst b. cbn [length relocate_loop map app]. exists g, lost. repeat split; auto.
Qed.

End Proofs.
