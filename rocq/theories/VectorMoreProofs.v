(** Equality, constructors, storage stability and growth of the vector. *)
From Verif Require Import Base VectorModel VectorSpec VectorProofs VectorStepProofs.

Section More.
Context {A : Type}.
Implicit Types (l a b : list A) (v w : vec A).

Lemma shows_inv v l : shows v l -> inv v l.
Proof.
  intros (Hn & Hc & Hx).
  assert (H : firstn (length l) (v_store v) = map Live l).
  { apply nth_ext with (d := Raw) (d' := Raw).
    - rewrite firstn_length, map_length. unfold v_cap in Hc. lia.
    - intros n Hlt. rewrite firstn_length in Hlt. unfold v_cap in Hc.
      specialize (Hx n). unfold index, index_unchecked in Hx.
      rewrite Hn in Hx. replace (length l <=? n)%nat with false in Hx by (symmetry; apply Nat.leb_gt; lia).
      destruct (nth_error l n) as [x|] eqn:E; [|apply nth_error_None in E; lia].
      destruct (nth_error (v_store v) n) as [c|] eqn:E2; [|discriminate].
      destruct c as [|y|]; try discriminate. injection Hx as ->.
      rewrite (nth_error_nth (map Live l) n Raw (x := Live x)) by (rewrite nth_error_map, E; reflexivity).
      rewrite <- (firstn_skipn (length l) (v_store v)) in E2.
      rewrite nth_error_app1 in E2 by (rewrite firstn_length; lia).
      apply nth_error_nth. exact E2. }
  exists (skipn (length l) (v_store v)). rewrite <- H, firstn_skipn. auto.
Qed.

Lemma equal_cells_spec (eqb : A -> A -> bool) : (forall x y, eqb x y = true <-> x = y) ->
  forall a b, equal_cells eqb (map Live a) (map Live b) = VFine true /\ a = b \/
              equal_cells eqb (map Live a) (map Live b) = VFine false /\ a <> b.
Proof.
  intros He. induction a as [|x a IH]; intros [|y b]; cbn [map equal_cells].
  - left; auto.
  - right; split; [reflexivity|discriminate].
  - right; split; [reflexivity|discriminate].
  - destruct (eqb x y) eqn:E.
    + apply He in E. subst y. destruct (IH b) as [[H1 H2]|[H1 H2]]; [left|right]; split; auto; congruence.
    + right. split; [reflexivity|]. intros H. injection H as H _. apply He in H. congruence.
Qed.

Lemma vec_eq_spec eqb v w a b : (forall x y, eqb x y = true <-> x = y) -> inv v a -> inv w b ->
  vec_eq eqb v w = VFine true /\ a = b \/ vec_eq eqb v w = VFine false /\ a <> b.
Proof.
  intros He (r & Hs & Hn) (s & Ht & Hm). unfold vec_eq. rewrite Hn, Hm.
  destruct (Nat.eqb_spec (length a) (length b)) as [E|E].
  - rewrite Hs, Ht. rewrite !(firstn_pre (map Live _)) by now rewrite map_length.
    apply equal_cells_spec. exact He.
  - right. split; [reflexivity|]. congruence.
Qed.

(** Appending with room. *)
Lemma append_room kd al : good_kind kd -> sane al -> forall xs v l, inv v l -> bounded kd v ->
  (length l + length xs <= v_cap v)%nat ->
  exists v', append_range kd al v xs = VFine v' /\ inv v' (l ++ xs) /\
             v_block v' = v_block v /\ v_cap v' = v_cap v.
Proof.
  intros Hk Hal. induction xs as [|x xs IH]; intros v l Hi Hb Hc.
  - exists v. rewrite app_nil_r. auto.
  - cbn [append_range length] in *. assert (Hn : v_size v = length l) by (destruct Hi as (? & _ & ?); auto).
    destruct (push_spec kd al v l x Hk Hal Hi Hb) as [(_ & H & _)|(v1 & E & H1 & H2 & _ & H3 & _)]; [lia|].
    rewrite E. cbn [vbind]. destruct (H3 ltac:(lia)) as [H4 H5].
    destruct (IH v1 (l ++ [x]) H1 H2) as (v' & E' & H6 & H7 & H8).
    { rewrite app_length, H5. cbn. lia. }
    exists v'. rewrite <- app_assoc in H6. repeat split; auto; congruence.
Qed.

(** Appending in general, and the number of blocks used. *)
Lemma append_grow kd al : good_kind kd -> sane al -> forall xs v l, inv v l -> bounded kd v ->
  (v_block v = 0%nat /\ v_cap v = 0%nat \/
   (1 <= v_block v /\ 2 ^ (v_block v - 1) <= v_cap v /\ 2 ^ (v_block v - 1) < 2 * v_size v)%nat) ->
  append_range kd al v xs = VNoMem \/
  exists v', append_range kd al v xs = VFine v' /\ inv v' (l ++ xs) /\ bounded kd v' /\
   (v_block v' = 0%nat /\ v_cap v' = 0%nat \/
   (1 <= v_block v' /\ 2 ^ (v_block v' - 1) <= v_cap v' /\ 2 ^ (v_block v' - 1) < 2 * v_size v')%nat).
Proof.
  intros Hk Hal. induction xs as [|x xs IH]; intros v l Hi Hb Hg.
  - right. exists v. rewrite app_nil_r. auto.
  - cbn [append_range]. assert (Hn : v_size v = length l) by (destruct Hi as (? & _ & ?); auto).
    destruct (push_spec kd al v l x Hk Hal Hi Hb) as [(E & _)|(v1 & E & H1 & H2 & _ & H3 & H4)];
      [left; rewrite E; reflexivity|].
    rewrite E. cbn [vbind].
    assert (Hn1 : v_size v1 = S (length l)).
    { destruct H1 as (? & _ & ->). rewrite app_length. cbn. lia. }
    destruct (IH v1 (l ++ [x]) H1 H2) as [H|(v' & E' & H5 & H6 & H7)]; [|left; exact H|].
    2:{ right. exists v'. rewrite <- app_assoc in H5. auto. }
    destruct (Nat.eq_dec (v_size v) (v_cap v)) as [Hf|Hf].
    + destruct (H4 Hf) as [H5 H6]. right. rewrite H5, Hn1.
      destruct Hg as [[G1 G2]|(G1 & G2 & G3)].
      * rewrite G1. cbn. lia.
      * replace (S (v_block v) - 1)%nat with (S (v_block v - 1)) by lia.
        rewrite Nat.pow_succ_r'. lia.
    + assert (Hlt : (v_size v < v_cap v)%nat).
      { apply inv_shows in Hi. destruct Hi as (_ & Hi & _). lia. }
      destruct (H3 Hlt) as [H5 H6]. rewrite H5, H6, Hn1. lia.
Qed.

Lemma allocate_spec kd al n m : good_kind kd -> allocate kd al n = VFine m ->
  m = n /\ exists c, al (Z.of_nat n * k_size kd) = Some c.
Proof.
  unfold allocate. intros _. destruct (_ <? _); [discriminate|].
  destruct (al _) as [c|] eqn:E; [|discriminate]. intros H. injection H as <-. eauto.
Qed.

End More.
