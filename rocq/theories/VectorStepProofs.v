(** One operation, then histories. *)
From Verif Require Import Base VectorModel VectorSpec VectorProofs.

Section Steps.
Context {A : Type}.
Implicit Types (l a b : list A) (p q r st : list (cell A)) (v : vec A).

(** The memory was refused: a request of at most [m] bytes that the allocator
    rejects or that is not a [size_t]. *)
Definition refused (al : alloc) (m : Z) : Prop :=
  exists n, 0 <= n <= m /\ (al n = None \/ size_max < n).

Definition need (kd : kind) (o : op A) l' : Z :=
  k_size kd * Z.max (k_size kd)
    (Z.max (2 * Z.of_nat (length l')) (match o with OReserve n => n | _ => 0 end)).

Lemma twice_need kd n m : good_kind kd -> (S n <= m)%nat ->
  0 <= twice_bytes kd n <= k_size kd * Z.max (k_size kd) (2 * Z.of_nat m).
Proof.
  unfold good_kind, twice_bytes. intros Hk Hm.
  destruct (Nat.eqb_spec n 0); [destruct (k_reloc kd)|]; nia.
Qed.

Lemma clean_intro kd v l r : v_store v = map Live l ++ r ->
  (k_tdtor kd = true \/ v_lost v = 0%nat /\ all_raw r) -> clean kd v l.
Proof.
  intros Hs [H|[H H']]; [left; exact H|right]. split; [exact H|].
  intros r' Hr. rewrite Hs in Hr. apply app_inv_head in Hr. now subst.
Qed.

Lemma clean_elim kd v l r : v_store v = map Live l ++ r -> clean kd v l ->
  k_tdtor kd = true \/ v_lost v = 0%nat /\ all_raw r.
Proof. intros Hs [H|[H H']]; [left; exact H|right]. auto. Qed.

(** ** emplace_back *)

Lemma store_back kd v l c r x :
  v_store v = map Live l ++ c :: r -> v_size v = length l ->
  exists v', store_at kd v (v_size v) (Live x) = VFine v' /\
    v_store (bump v') = map Live (l ++ [x]) ++ r /\ v_size (bump v') = length (l ++ [x]) /\
    v_block (bump v') = v_block v /\ v_cap (bump v') = v_cap v /\
    v_lost (bump v') = (v_lost v + objects kd [c])%nat.
Proof.
  intros Hs Hn. unfold store_at, construct_at, v_cap. rewrite Hs.
  rewrite nth_mid by (rewrite map_length; exact Hn).
  rewrite set_mid by (rewrite map_length; exact Hn).
  cbn [vbind fst snd]. eexists. split; [reflexivity|]. unfold bump. cbn [v_store v_size v_block v_lost].
  rewrite map_app, <- app_assoc. cbn [map app].
  repeat split; [rewrite app_length; cbn; lia|rewrite !app_length; reflexivity].
Qed.

Lemma room_tail v l r : v_store v = map Live l ++ r -> v_size v = length l ->
  (v_size v < v_cap v)%nat -> exists c r', r = c :: r'.
Proof.
  intros Hs Hn Hc. unfold v_cap in Hc. rewrite Hs, app_length, map_length in Hc.
  destruct r as [|c r]; [cbn in Hc; lia|eauto].
Qed.

Lemma push_spec kd al v l x : good_kind kd -> sane al -> inv v l -> bounded kd v ->
  emplace_back kd al v (Own x) = VNoMem /\ v_size v = v_cap v /\
    refused al (need kd (OPush (Own x)) (l ++ [x])) \/
  exists v', emplace_back kd al v (Own x) = VFine v' /\ inv v' (l ++ [x]) /\ bounded kd v' /\
    (clean kd v l -> clean kd v' (l ++ [x])) /\
    ((v_size v < v_cap v)%nat -> v_block v' = v_block v /\ v_cap v' = v_cap v) /\
    (v_size v = v_cap v -> v_block v' = S (v_block v) /\ (Nat.max 1 (2 * v_cap v) <= v_cap v')%nat).
Proof.
  intros Hk Hal Hi Hb. unfold emplace_back.
  destruct (Nat.eqb_spec (v_size v) (v_cap v)) as [Hf|Hf].
  - unfold grow_twice.
    pose proof Hi as (r0 & Hs0 & Hn0).
    assert (Hi' : inv v (l ++ [])) by (rewrite app_nil_r; exact Hi).
    pose proof (grow_twice_iter_spec kd al v l [] Hk Hal Hi' Hb Hf) as Hg.
    rewrite <- Hn0 in Hg. rewrite app_nil_r in Hg.
    destruct Hg as [[E H]|(v1 & r & E & Hs & Hn & Hroom & Hraw & Hbl & Hbd & H2 & Hcl)].
    + left. rewrite E. cbn [vbind]. split; [reflexivity|split; [exact Hf|]].
      exists (twice_bytes kd (v_size v)). split; [|exact H].
      unfold need. rewrite app_length. cbn [length].
      pose proof (twice_need kd (v_size v) (length l + 1) Hk ltac:(lia)). lia.
    + right. rewrite E. cbn [vbind read_arg]. cbn [map app] in Hs.
      destruct (room_tail v1 l r Hs ltac:(congruence) ltac:(lia)) as (c & r' & ->).
      destruct (store_back kd v1 l c r' x Hs ltac:(congruence)) as (v' & E' & H3 & H4 & H5 & H6 & H7).
      rewrite E'. cbn [vbind]. eexists. split; [reflexivity|].
      apply all_raw_cons in Hraw. destruct Hraw as [-> Hraw].
      split; [exists r'; split; assumption|].
      split; [unfold bounded in *; rewrite H6; exact Hbd|].
      split; [|split; [lia|intros _; split; [congruence|lia]]].
      intros Hc. apply (clean_intro _ _ _ r'); [exact H3|]. destruct (Hcl Hc) as [H|H]; [left; exact H|].
      right. split; [|exact Hraw]. rewrite H7, H. change [Raw] with (repeat (@Raw A) 1).
      rewrite objects_raw. reflexivity.
  - right. cbn [vbind read_arg]. pose proof Hi as (r & Hs & Hn).
    assert (Hroom : (v_size v < v_cap v)%nat).
    { assert (v_cap v = length (map Live l) + length r)%nat by (unfold v_cap; rewrite Hs; apply app_length).
      rewrite map_length in *. lia. }
    destruct (room_tail v l r Hs Hn Hroom) as (c & r' & ->).
    destruct (store_back kd v l c r' x Hs Hn) as (v' & E' & H3 & H4 & H5 & H6 & H7).
    rewrite E'. cbn [vbind]. eexists. split; [reflexivity|].
    split; [exists r'; split; assumption|].
    split; [unfold bounded in *; rewrite H6; exact Hb|].
    split; [|split; [auto|lia]].
    intros Hc. apply (clean_intro _ _ _ r'); [exact H3|].
    destruct (clean_elim _ _ _ _ Hs Hc) as [H|[H Hr]]; [left; exact H|right].
    apply all_raw_cons in Hr. destruct Hr as [-> Hr]. split; [|exact Hr].
    rewrite H7, H. change [Raw] with (repeat (@Raw A) 1). rewrite objects_raw. reflexivity.
Qed.

(** ** emplace *)

Lemma move_backward_common_spec kd al v a b : good_kind kd -> sane al -> inv v (a ++ b) -> bounded kd v ->
  move_backward_common kd al v (length a) = VNoMem /\ v_size v = v_cap v /\
    refused al (k_size kd * Z.max (k_size kd) (2 * Z.of_nat (S (length (a ++ b))))) \/
  exists v' g r, move_backward_common kd al v (length a) = VFine v' /\
    v_store v' = map Live a ++ g :: map Live b ++ r /\ v_size v' = v_size v /\ bounded kd v' /\
    (k_tdtor kd = true \/
     ((k_reloc kd = true \/ b = []) -> clean kd v (a ++ b) ->
      g = Raw /\ v_lost v' = 0%nat /\ all_raw r)) /\
    ((v_size v < v_cap v)%nat -> v_block v' = v_block v /\ v_cap v' = v_cap v).
Proof.
  intros Hk Hal Hi Hb. unfold move_backward_common.
  destruct (Nat.eqb_spec (v_size v) (v_cap v)) as [Hf|Hf].
  - assert (Hn0 : v_size v = length (a ++ b)) by (destruct Hi as (? & _ & ?); auto).
    destruct (grow_twice_iter_spec kd al v a b Hk Hal Hi Hb Hf)
      as [[E H]|(v1 & r & E & Hs & Hn & Hroom & Hraw & Hbl & Hbd & H2 & Hcl)].
    + left. split; [exact E|split; [exact Hf|]].
      exists (twice_bytes kd (v_size v)). split; [|exact H]. apply twice_need; [exact Hk|lia].
    + right.
      assert (Hg : exists r', v_store v1 = map Live a ++ Raw :: map Live b ++ r' /\ all_raw r').
      { destruct b as [|y b].
        - cbn [map app] in *. rewrite app_nil_r in Hn0.
          destruct (room_tail v1 a r Hs ltac:(congruence) ltac:(lia)) as (c & r' & ->).
          apply all_raw_cons in Hraw. destruct Hraw as [-> Hraw]. exists r'. auto.
        - exists r. auto. }
      destruct Hg as (r' & Hs' & Hr').
      exists v1, Raw, r'. repeat split; try assumption; try lia.
      destruct (k_tdtor kd) eqn:Et; [left; reflexivity|right].
      intros _ Hc. destruct (Hcl Hc) as [H|H]; [congruence|auto].
  - right. pose proof Hi as (r & Hs & Hn).
    assert (Hroom : (v_size v < v_cap v)%nat).
    { assert (v_cap v = length (map Live (a ++ b)) + length r)%nat by (unfold v_cap; rewrite Hs; apply app_length).
      rewrite map_length in *. lia. }
    destruct (room_tail v (a ++ b) r Hs Hn Hroom) as (c & r' & ->).
    destruct (move_backward_spec kd a b c r' (v_lost v)) as (g & lost' & E & Hraw).
    pose proof Hs as Hs'. rewrite map_app, <- app_assoc in Hs'.
    rewrite Hs', Hn, app_length. replace (length a + length b - length a)%nat with (length b) by lia.
    rewrite E. cbn [vbind fst snd].
    eexists _, g, r'. split; [reflexivity|]. cbn [v_store v_size v_block v_lost].
    assert (Hcap : v_cap (mk_vec (map Live a ++ g :: map Live b ++ r') (length a + length b) lost' (v_block v)) = v_cap v).
    { unfold v_cap. cbn [v_store]. rewrite Hs'. rewrite !app_length. cbn [length]. rewrite !app_length. cbn [length]. lia. }
    repeat split; try assumption.
    + unfold bounded in *. rewrite Hcap. exact Hb.
    + destruct (k_tdtor kd) eqn:Et; [left; reflexivity|right]. intros Hrb Hc.
      destruct (clean_elim _ _ _ _ Hs Hc) as [H|[H Hr]]; [congruence|].
      apply all_raw_cons in Hr. destruct Hr as [-> Hr].
      destruct (Hraw eq_refl Hrb eq_refl) as [-> ->]. auto.
Qed.

Lemma store_gap kd v a b g r x :
  v_store v = map Live a ++ g :: map Live b ++ r -> v_size v = length (a ++ b) ->
  exists v', store_at kd v (length a) (Live x) = VFine v' /\
    v_store (bump v') = map Live (a ++ [x] ++ b) ++ r /\ v_size (bump v') = length (a ++ [x] ++ b) /\
    v_block (bump v') = v_block v /\ v_cap (bump v') = v_cap v /\
    v_lost (bump v') = (v_lost v + objects kd [g])%nat.
Proof.
  intros Hs Hn. unfold store_at, construct_at, v_cap. rewrite Hs.
  rewrite nth_mid by (rewrite map_length; reflexivity).
  rewrite set_mid by (rewrite map_length; reflexivity).
  cbn [vbind fst snd]. eexists. split; [reflexivity|]. unfold bump. cbn [v_store v_size v_block v_lost].
  rewrite !map_app, <- !app_assoc. cbn [map app].
  repeat split; [rewrite Hn, !app_length; cbn; lia|rewrite !app_length; reflexivity].
Qed.

Definition arg_fine (kd : kind) (al : alloc) v a (y : arg A) : Prop :=
  match y with
  | Own _ => True
  | Elem i => k_nothrow kd = false \/ ((v_size v < v_cap v)%nat /\ (i < length a)%nat)
  end.

Lemma emplace_spec kd al v a b y x : good_kind kd -> sane al -> inv v (a ++ b) -> bounded kd v ->
  value_of (a ++ b) y = Some x -> arg_fine kd al v a y ->
  emplace kd al v (length a) y = VNoMem /\ v_size v = v_cap v /\
    refused al (k_size kd * Z.max (k_size kd) (2 * Z.of_nat (S (length (a ++ b))))) \/
  exists v', emplace kd al v (length a) y = VFine v' /\ inv v' (a ++ [x] ++ b) /\ bounded kd v' /\
    (k_reloc kd = true \/ b = [] -> clean kd v (a ++ b) -> clean kd v' (a ++ [x] ++ b)) /\
    ((v_size v < v_cap v)%nat -> v_block v' = v_block v /\ v_cap v' = v_cap v).
Proof.
  intros Hk Hal Hi Hb Hv Hy.
  assert (Hn0 : v_size v = length (a ++ b)) by (destruct Hi as (? & _ & ?); auto).
  assert (Hread : forall v' p, (v' = v \/ (exists i, y = Elem i /\ (i < length a)%nat) /\ v_store v' = map Live a ++ p) ->
                    read_arg v' false y = VFine (Live x)).
  { intros v' p [->|[(i & -> & Hlt) Hs]].
    - destruct y as [z|i]; cbn [read_arg value_of] in *; [congruence|].
      destruct Hi as (r & Hs & _). rewrite Hs, nth_error_app1, nth_error_map, Hv; [reflexivity|].
      rewrite map_length. apply nth_error_Some. congruence.
    - cbn [read_arg value_of] in *. rewrite Hs, nth_error_app1, nth_error_map by (rewrite map_length; lia).
      rewrite nth_error_app1 in Hv by lia. rewrite Hv. reflexivity. }
  assert (Hfin : forall v1 g r, v_store v1 = map Live a ++ g :: map Live b ++ r -> v_size v1 = v_size v -> bounded kd v1 ->
    (k_tdtor kd = true \/
     ((k_reloc kd = true \/ b = []) -> clean kd v (a ++ b) ->
      g = Raw /\ v_lost v1 = 0%nat /\ all_raw r)) ->
    ((v_size v < v_cap v)%nat -> v_block v1 = v_block v /\ v_cap v1 = v_cap v) ->
    exists v', (let%v w := store_at kd v1 (length a) (Live x) in VFine (bump w)) = VFine v' /\
    inv v' (a ++ [x] ++ b) /\ bounded kd v' /\
    (k_reloc kd = true \/ b = [] -> clean kd v (a ++ b) -> clean kd v' (a ++ [x] ++ b)) /\
    ((v_size v < v_cap v)%nat -> v_block v' = v_block v /\ v_cap v' = v_cap v)).
  { intros v1 g r Hs Hn Hbd Hcl Hst.
    destruct (store_gap kd v1 a b g r x Hs ltac:(congruence)) as (w & E & H3 & H4 & H5 & H6 & H7).
    rewrite E. cbn [vbind]. exists (bump w). split; [reflexivity|].
    split; [exists r; split; assumption|].
    split; [unfold bounded in *; rewrite H6; exact Hbd|].
    split; [|intros H; rewrite H5, H6; auto].
    intros Hrb Hc. apply (clean_intro _ _ _ r); [exact H3|].
    destruct Hcl as [H|H]; [left; exact H|right].
    destruct (H Hrb Hc) as (-> & H8 & H9). split; [|exact H9].
    rewrite H7, H8. change [Raw] with (repeat (@Raw A) 1). rewrite objects_raw. reflexivity. }
  unfold emplace.
  destruct (move_backward_common_spec kd al v a b Hk Hal Hi Hb)
    as [(E & H1 & H2)|(v1 & g & r & E & Hs & Hn & Hbd & Hcl & Hst)].
  - left. destruct (k_nothrow kd).
    + rewrite E. cbn [vbind]. auto.
    + rewrite (Hread v []) by auto. cbn [vbind]. rewrite E. auto.
  - right. destruct (k_nothrow kd) eqn:Et.
    + rewrite E. cbn [vbind].
      assert (Hr : read_arg v1 (v_size v =? v_cap v)%nat y = VFine (Live x)).
      { destruct y as [z|i]; cbn [read_arg value_of arg_fine] in *; [congruence|].
        destruct Hy as [Hy|[Hy Hlt]]; [congruence|].
        replace (v_size v =? v_cap v)%nat with false by (symmetry; apply Nat.eqb_neq; lia).
        apply (Hread v1 (g :: map Live b ++ r)). right. split; [exists i; auto|exact Hs]. }
      rewrite Hr. cbn [vbind]. eapply Hfin; eauto.
    + rewrite (Hread v []) by auto. cbn [vbind]. rewrite E. cbn [vbind]. eapply Hfin; eauto.
Qed.

(** ** The others *)

Lemma pop_spec kd v l x : inv v (l ++ [x]) ->
  exists v', pop_back kd v = VFine v' /\ inv v' l /\ v_cap v' = v_cap v /\ v_block v' = v_block v /\
    (clean kd v (l ++ [x]) -> clean kd v' l).
Proof.
  intros (r & Hs & Hn). rewrite app_length in Hn. cbn [length] in Hn.
  unfold pop_back. replace (v_size v =? 0)%nat with false by (symmetry; apply Nat.eqb_neq; lia).
  unfold pop_back_unchecked. replace (v_size v) with (S (length l)) by lia.
  pose proof Hs as Hs'. rewrite map_app, <- app_assoc in Hs'. cbn [map app] in Hs'.
  unfold destroy_at. destruct (k_tdtor kd) eqn:Et; cbn [vbind fst snd].
  - eexists. split; [reflexivity|]. split; [exists (Live x :: r); split; [exact Hs'|reflexivity]|].
    split; [reflexivity|]. split; [reflexivity|]. intros _. left. exact Et.
  - rewrite Hs'. rewrite nth_mid by now rewrite map_length. rewrite set_mid by now rewrite map_length.
    cbn [vbind fst snd]. eexists. split; [reflexivity|].
    split; [exists (Raw :: r); split; reflexivity|].
    split; [unfold v_cap; rewrite Hs'; cbn [v_store]; rewrite !app_length; reflexivity|].
    split; [reflexivity|]. intros Hc.
    apply (clean_intro _ _ _ (Raw :: r)); [reflexivity|].
    destruct (clean_elim _ _ _ _ Hs Hc) as [H|[H Hr]]; [congruence|right].
    split; [exact H|]. change (Raw :: r) with ([Raw] ++ r). apply all_raw_app; [exact eq_refl|exact Hr].
Qed.

Lemma clear_spec kd v l : inv v l ->
  exists v', clear kd v = VFine v' /\ v_size v' = 0%nat /\ v_cap v' = v_cap v /\ v_block v' = v_block v /\
    v_lost v' = v_lost v /\ (clean kd v l -> clean kd v' [] /\ objects kd (v_store v') = 0%nat).
Proof.
  intros (r & Hs & Hn). unfold clear. rewrite Hs, Hn.
  pose proof (destroy_n_spec kd r (v_lost v) l []) as H. cbn [length app] in H. rewrite H.
  cbn [vbind fst snd]. eexists. split; [reflexivity|]. cbn [v_store v_size v_block v_lost].
  repeat split.
  - unfold v_cap. cbn [v_store]. rewrite Hs, !app_length, map_length.
    destruct (k_tdtor kd); rewrite ?map_length, ?repeat_length; reflexivity.
  - destruct (clean_elim _ _ _ _ Hs H0) as [Hc|[Hc Hr]]; [left; exact Hc|].
    destruct (k_tdtor kd) eqn:Et; [left; exact Et|].
    eapply clean_intro; [reflexivity|]. right. cbn [v_lost v_store].
    split; [exact Hc|]. apply all_raw_app; [apply all_raw_repeat|exact Hr].
  - destruct (k_tdtor kd) eqn:Et; [apply objects_tdtor; exact Et|].
    destruct (clean_elim _ _ _ _ Hs H0) as [Hc|[Hc Hr]]; [congruence|].
    apply all_raw_objects. apply all_raw_app; [apply all_raw_repeat|exact Hr].
Qed.

Lemma clear_destroy_spec kd v l : inv v l ->
  exists v', clear_destroy kd v = VFine v' /\ v_store v' = [] /\ v_size v' = 0%nat /\
    v_block v' = S (v_block v) /\
    (clean kd v l -> k_tdtor kd = true \/ v_lost v' = 0%nat).
Proof.
  intros Hi. unfold clear_destroy.
  destruct (clear_spec kd v l Hi) as (v' & E & H1 & H2 & H3 & H4 & H5). rewrite E. cbn [vbind].
  eexists. split; [reflexivity|]. cbn [v_store v_size v_block v_lost]. repeat split; [congruence|].
  intros Hc. destruct (H5 Hc) as [_ H6]. destruct Hc as [H|[H _]]; [left; exact H|right].
  rewrite H6, H4, H. reflexivity.
Qed.

Lemma erase_range_spec kd v a b c : inv v (a ++ b ++ c) ->
  k_reloc kd = true \/ b <> [] \/ c = [] ->
  exists v', erase_range kd v (length a) (length a + length b) = VFine v' /\ inv v' (a ++ c) /\
    v_cap v' = v_cap v /\ v_block v' = v_block v /\
    (clean kd v (a ++ b ++ c) -> clean kd v' (a ++ c)).
Proof.
  intros (r & Hs & Hn) Hc. unfold erase_range.
  pose proof Hs as Hs'. rewrite !map_app, <- !app_assoc in Hs'.
  rewrite !app_length in Hn.
  replace (length a + length b - length a)%nat with (length b) by lia.
  replace (v_size v - (length a + length b))%nat with (length c) by lia.
  rewrite Hs'.
  pose proof (destroy_n_spec kd (map Live c ++ r) (v_lost v) b (map Live a)) as H.
  rewrite map_length in H. rewrite H. cbn [vbind].
  set (g := if k_tdtor kd then map Live b else repeat Raw (length b)).
  assert (Lg : length g = length b) by (subst g; destruct (k_tdtor kd); rewrite ?map_length, ?repeat_length; reflexivity).
  destruct (relocate_spec kd c (map Live a) g r (v_lost v)) as (g' & lost' & E & L' & Hraw).
  { destruct Hc as [Hc|[Hc|Hc]]; [left; exact Hc|right; left|right; right; exact Hc].
    intros ->. destruct b; [congruence|discriminate]. }
  rewrite map_length, Lg in E. rewrite E. cbn [vbind fst snd].
  eexists. split; [reflexivity|]. cbn [v_store v_size v_block v_lost].
  assert (Hst : map Live a ++ map Live c ++ g' ++ r = map Live (a ++ c) ++ g' ++ r)
    by (rewrite map_app, <- app_assoc; reflexivity).
  repeat split.
  - exists (g' ++ r). cbn [v_store v_size]. split; [exact Hst|]. rewrite app_length. reflexivity.
  - unfold v_cap. cbn [v_store]. rewrite Hs'. rewrite !app_length, !map_length. lia.
  - intros Hcl. apply (clean_intro _ _ _ (g' ++ r)); [exact Hst|]. cbn [v_lost].
    destruct (clean_elim _ _ _ _ Hs Hcl) as [H0|[H0 Hr]]; [left; exact H0|].
    destruct (k_tdtor kd) eqn:Et; [left; reflexivity|right].
    destruct (Hraw eq_refl) as [H1 H2]; [subst g; apply all_raw_repeat|].
    split; [congruence|]. apply all_raw_app; assumption.
Qed.

Lemma grow_to_size_spec kd al v l n : good_kind kd -> sane al -> inv v l ->
  Z.of_nat (length l) <= n ->
  grow_to_size kd al v n = VNoMem /\ refused al (k_size kd * n) \/
  exists v', grow_to_size kd al v n = VFine v' /\ inv v' l /\ bounded kd v' /\
    n <= Z.of_nat (v_cap v') /\ (clean kd v l -> clean kd v' l) /\
    (al (k_size kd * n) = Some (k_size kd * n) -> Z.of_nat (v_cap v') = n).
Proof.
  intros Hk Hal Hi Hn. unfold good_kind in Hk. unfold grow_to_size.
  destruct (Z.ltb_spec size_max (k_size kd * n)) as [Hm|Hm].
  { left. split; [reflexivity|]. exists (k_size kd * n). split; [nia|right; exact Hm]. }
  assert (Hi' : inv v (l ++ [])) by (rewrite app_nil_r; exact Hi).
  destruct (regrow_spec kd al v l [] (k_size kd * n) Hk Hal Hi')
    as [[E H]|(v' & r & E & H1 & H2 & H3 & H4 & H5 & H6 & H7 & H8)]; [nia| | |].
  { rewrite app_nil_r, Nat.add_0_r. nia. }
  - left. destruct Hi as (? & _ & Hl). rewrite Hl. split; [exact E|].
    exists (k_size kd * n). split; [nia|left; exact H].
  - right. pose proof Hi as (r0 & _ & Hl). rewrite Hl. rewrite app_nil_r in *. cbn [map app] in H1.
    exists v'. split; [exact E|]. split; [exists r; split; [exact H1|congruence]|].
    split; [exact H5|].
    assert (Hd : k_size kd * n / k_size kd = n) by (rewrite Z.mul_comm; apply Z.div_mul; lia).
    rewrite Hd in H6, H7. split; [exact H6|]. split; [|exact H7].
    intros Hc. apply (clean_intro _ _ _ r); [exact H1|].
    destruct (H8 Hc) as [H|H]; [left; exact H|right; auto].
Qed.

Lemma copy_spec kd al v l : good_kind kd -> inv v l ->
  copy_construct kd al v = VNoMem /\ refused al (k_size kd * Z.of_nat (length l)) \/
  exists v', copy_construct kd al v = VFine v' /\ v_store v' = map Live l /\ v_size v' = length l /\ v_lost v' = 0%nat.
Proof.
  intros Hk (r & Hs & Hn). unfold good_kind in Hk. unfold copy_construct. rewrite Hn.
  destruct (Nat.eqb_spec (length l) 0) as [E|E].
  { right. destruct l; [|discriminate]. exists v_empty. repeat split. }
  unfold allocate.
  destruct (Z.ltb_spec (size_max / k_size kd) (Z.of_nat (length l))) as [Hm|Hm].
  { left. split; [reflexivity|]. exists (k_size kd * Z.of_nat (length l)). split; [nia|right].
    apply Z.lt_nge. intros Hx. apply Z.lt_nge in Hm. apply Hm. apply Z.div_le_lower_bound; lia. }
  destruct (al (Z.of_nat (length l) * k_size kd)) eqn:Ea; cbn [vbind].
  - right. unfold copy_cells. rewrite Hs, (firstn_pre (map Live l)) by now rewrite map_length.
    rewrite is_object_live. cbn [vbind]. eexists. repeat split.
  - left. split; [reflexivity|]. exists (k_size kd * Z.of_nat (length l)). split; [nia|left].
    rewrite Z.mul_comm. exact Ea.
Qed.

(** ** One step *)

Lemma bounded_cap kd v v' : v_cap v' = v_cap v -> bounded kd v -> bounded kd v'.
Proof. unfold bounded. now intros ->. Qed.

Lemma split_at l n : (n <= length l)%nat ->
  exists a b, l = a ++ b /\ length a = n /\ firstn n l = a /\ skipn n l = b.
Proof.
  intros H. exists (firstn n l), (skipn n l). rewrite firstn_skipn, firstn_length.
  repeat split; lia.
Qed.

Lemma refused_le al m m' : m <= m' -> refused al m -> refused al m'.
Proof. intros H (n & H1 & H2). exists n. split; [lia|exact H2]. Qed.

Lemma bounded_of_alloc kd al n c : good_kind kd -> sane al -> al (Z.of_nat n * k_size kd) = Some c ->
  Z.of_nat n * k_size kd < 2 ^ 63.
Proof. unfold good_kind. intros Hk Ha H. apply Ha in H; nia. Qed.

Theorem step kd al v l o l' : good_kind kd -> sane al -> inv v l -> bounded kd v ->
  spec_op l o = Some l' -> supported kd l o ->
  exec kd al v o = VNoMem /\ refused al (need kd o l') \/
  exists v', exec kd al v o = VFine v' /\ inv v' l' /\ bounded kd v' /\
    (careful kd l o -> clean kd v l -> clean kd v' l').
Proof.
  intros Hk Hal Hi Hb Hsp Hsup. pose proof Hk as Hk'. unfold good_kind in Hk'.
  assert (Hins : forall pos y, exec kd al v o = emplace kd al v pos y ->
            (pos <= length l)%nat -> value_of l y <> None ->
            l' = firstn pos l ++ match value_of l y with Some x => [x] | None => [] end ++ skipn pos l ->
            (match y with Elem _ => k_nothrow kd = false | _ => True end) ->
            (careful kd l o -> k_reloc kd = true \/ pos = length l) ->
            exec kd al v o = VNoMem /\ refused al (need kd o l') \/
            exists v', exec kd al v o = VFine v' /\ inv v' l' /\ bounded kd v' /\
            (careful kd l o -> clean kd v l -> clean kd v' l')).
  { intros pos y He Hp Hv Hl Hy Hcare. rewrite He.
    destruct (value_of l y) as [x|] eqn:Ev; [|congruence].
    destruct (split_at l pos Hp) as (a & b & -> & <- & Ha & Hbb). rewrite Ha, Hbb in Hl. subst l'.
    destruct (emplace_spec kd al v a b y x Hk Hal Hi Hb Ev) as [(E & _ & H)|(v' & E & H1 & H2 & H3 & _)].
    - destruct y; cbn; auto.
    - left. split; [exact E|]. eapply refused_le; [|exact H]. unfold need.
      rewrite !app_length. cbn [length]. apply Z.mul_le_mono_nonneg_l; [lia|]. lia.
    - right. exists v'. repeat split; try assumption. intros Hc. apply H3.
      destruct (Hcare Hc) as [H|H]; [left; exact H|right]. rewrite app_length in H.
      destruct b; [reflexivity|cbn in H; lia]. }
  assert (Her : forall first last, exec kd al v o = erase_range kd v first last ->
            (first <= last <= length l)%nat -> l' = firstn first l ++ skipn last l ->
            k_reloc kd = true \/ (first < last)%nat \/ last = length l ->
            exec kd al v o = VNoMem /\ refused al (need kd o l') \/
            exists v', exec kd al v o = VFine v' /\ inv v' l' /\ bounded kd v' /\
            (careful kd l o -> clean kd v l -> clean kd v' l')).
  { intros first last He Hr Hl Hc. rewrite He. right.
    destruct (split_at l last ltac:(lia)) as (ab & c & -> & Hlen & Ha & Hbb).
    destruct (split_at ab first ltac:(lia)) as (a & b & -> & Hlen2 & Ha2 & Hb2).
    rewrite Hbb in Hl. rewrite firstn_app in Hl. replace (first - length (a ++ b))%nat with 0%nat in Hl by lia.
    rewrite Ha2 in Hl. cbn [firstn] in Hl. rewrite app_nil_r in Hl. subst l'.
    rewrite <- app_assoc in *. rewrite app_length in Hlen.
    destruct (erase_range_spec kd v a b c Hi) as (v' & E & H1 & H2 & H3 & H4).
    { destruct Hc as [H|[H|H]]; [left; exact H|right; left|right; right].
      - intros ->. cbn in Hlen. lia.
      - rewrite !app_length in H. destruct c; [reflexivity|cbn in H; lia]. }
    exists v'. rewrite <- Hlen, <- Hlen2. split; [exact E|]. split; [exact H1|].
    split; [exact (bounded_cap _ _ _ H2 Hb)|]. intros _. exact H4. }
  assert (Hlen : v_size v = length l) by (destruct Hi as (? & _ & ?); auto).
  destruct o as [y|pos y|pos y| |pos|pos|first last|first last|n| | | | |]; cbn [spec_op] in Hsp.
  - destruct y as [x|i]; [|destruct Hsup]. cbn [value_of option_map] in Hsp. injection Hsp as <-.
    destruct (push_spec kd al v l x Hk Hal Hi Hb) as [(E & _ & H)|(v' & E & H1 & H2 & H3 & _)].
    + left. split; [exact E|exact H].
    + right. exists v'. repeat split; try assumption. intros _. exact H3.
  - destruct (Nat.leb_spec pos (length l)) as [Hp|Hp]; [|discriminate].
    destruct (value_of l y) eqn:Ev; [|discriminate]. cbn [option_map] in Hsp. injection Hsp as <-.
    apply (Hins pos y); auto; rewrite ?Ev; try congruence; try reflexivity.
  - destruct (Nat.leb_spec pos (length l)) as [Hp|Hp]; [|discriminate].
    destruct (value_of l y) eqn:Ev; [|discriminate]. cbn [option_map] in Hsp. injection Hsp as <-.
    apply (Hins pos y); auto; rewrite ?Ev; try congruence; try reflexivity.
    cbn [exec]. unfold emplace_index. rewrite Hlen.
    replace (length l <? pos)%nat with false by (symmetry; apply Nat.ltb_ge; lia). reflexivity.
  - right. assert (Hl' : l <> [] /\ l' = removelast l) by (destruct l; [discriminate|split; congruence]).
    clear Hsp. destruct Hl' as [Hne ->].
    destruct (@exists_last _ l Hne) as (l1 & x & ->).
    rewrite removelast_last.
    destruct (pop_spec kd v l1 x Hi) as (v' & E & H1 & H2 & H3 & H4).
    exists v'. split; [exact E|]. split; [exact H1|].
    split; [exact (bounded_cap _ _ _ H2 Hb)|]. intros _. exact H4.
  - destruct Hsup.
  - destruct Hsup.
  - destruct ((first <=? last)%nat && (last <=? length l)%nat) eqn:Er; [|discriminate].
    apply andb_prop in Er. destruct Er as [E1 E2]. apply Nat.leb_le in E1, E2. injection Hsp as <-.
    apply (Her first last); auto.
  - destruct ((first <=? last)%nat && (last <=? length l)%nat) eqn:Er; [|discriminate].
    apply andb_prop in Er. destruct Er as [E1 E2]. apply Nat.leb_le in E1, E2. injection Hsp as <-.
    destruct Hsup as [Hs1 Hs2].
    apply (Her first last); auto; [|tauto]. cbn [exec]. unfold erase_index_range. rewrite Hlen.
    replace (last <? first)%nat with false by (symmetry; apply Nat.ltb_ge; lia).
    replace (length l <=? last)%nat with false by (symmetry; apply Nat.leb_gt; lia). reflexivity.
  - injection Hsp as <-. cbn [exec]. unfold reserve.
    destruct (Z.leb_spec n (Z.of_nat (v_cap v))) as [Hn|Hn].
    { right. exists v. repeat split; auto. }
    destruct (grow_to_size_spec kd al v l n Hk Hal Hi) as [[E H]|(v' & E & H1 & H2 & H3 & H4 & _)].
    { destruct Hi as (r & Hs & _). unfold v_cap in Hn. rewrite Hs, app_length, map_length in Hn. lia. }
    + left. split; [exact E|]. eapply refused_le; [|exact H]. unfold need.
      apply Z.mul_le_mono_nonneg_l; lia.
    + right. exists v'. repeat split; auto.
  - injection Hsp as <-. cbn [exec]. unfold shrink_to_fit.
    destruct (v_size v =? v_cap v)%nat; [right; exists v; repeat split; auto|].
    rewrite Hlen.
    destruct (grow_to_size_spec kd al v l (Z.of_nat (length l)) Hk Hal Hi ltac:(lia))
      as [[E H]|(v' & E & H1 & H2 & H3 & H4 & _)].
    + left. split; [exact E|]. eapply refused_le; [|exact H]. unfold need.
      apply Z.mul_le_mono_nonneg_l; lia.
    + right. exists v'. repeat split; auto.
  - injection Hsp as <-. right.
    destruct (clear_spec kd v l Hi) as (v' & E & H1 & H2 & H3 & H4 & H5).
    exists v'. split; [exact E|]. split; [exists (v_store v'); split; [reflexivity|exact H1]|].
    split; [exact (bounded_cap _ _ _ H2 Hb)|]. intros _ Hc. apply H5. exact Hc.
  - injection Hsp as <-. right.
    destruct (clear_destroy_spec kd v l Hi) as (v' & E & H1 & H2 & H3 & H4).
    exists v'. split; [exact E|]. split; [exists []; rewrite H1, H2; split; reflexivity|].
    split; [unfold bounded, v_cap; rewrite H1; cbn; lia|].
    intros _ Hc. apply (clean_intro _ _ _ []); [rewrite H1; reflexivity|].
    destruct (H4 Hc) as [H|H]; [left; exact H|right; split; [exact H|exact eq_refl]].
  - injection Hsp as <-. cbn [exec].
    destruct (copy_spec kd al v l Hk Hi) as [[E H]|(v' & E & H1 & H2 & H3)].
    + left. rewrite E. split; [reflexivity|]. eapply refused_le; [|exact H].
      unfold need. apply Z.mul_le_mono_nonneg_l; lia.
    + right. rewrite E. cbn [vbind].
      destruct (clear_destroy_spec kd v l Hi) as (d & Ed & _ & _ & _ & H4). rewrite Ed. cbn [vbind].
      eexists. split; [reflexivity|]. cbn [v_store v_size v_block v_lost].
      split; [exists []; rewrite app_nil_r; cbn [v_store v_size]; auto|].
      split.
      * unfold bounded, v_cap in *. cbn [v_store]. rewrite H1, map_length.
        destruct Hi as (r & Hs & _). rewrite Hs, app_length, map_length in Hb. nia.
      * intros _ Hc. apply (clean_intro _ _ _ []); [cbn [v_store]; rewrite app_nil_r; exact H1|].
        cbn [v_lost]. destruct (H4 Hc) as [H|H]; [left; exact H|right].
        split; [lia|exact eq_refl].
  - injection Hsp as <-. right. exists v. repeat split; auto.
Qed.

Theorem run_spec kd al : good_kind kd -> sane al -> forall os v l l', inv v l -> bounded kd v ->
  spec_run l os = Some l' -> supported_run kd l os ->
  run kd al v os = VNoMem \/
  exists v', run kd al v os = VFine v' /\ inv v' l' /\ bounded kd v' /\
    (careful_run kd l os -> clean kd v l -> clean kd v' l').
Proof.
  intros Hk Hal. induction os as [|o os IH]; intros v l l' Hi Hb Hsp Hsup.
  - cbn in Hsp. injection Hsp as <-. right. exists v. cbn. repeat split; auto.
  - cbn [spec_run supported_run careful_run run] in *. destruct Hsup as [Hs1 Hs2].
    destruct (spec_op l o) as [l1|] eqn:E1; [|discriminate].
    destruct (step kd al v l o l1 Hk Hal Hi Hb E1 Hs1) as [[E _]|(v1 & E & H1 & H2 & H3)].
    + left. rewrite E. reflexivity.
    + rewrite E. cbn [vbind]. destruct (IH v1 l1 l' H1 H2 Hsp Hs2) as [H|(v' & E' & H4 & H5 & H6)];
        [left; exact H|right].
      exists v'. repeat split; try assumption. intros [Hc1 Hc2] Hc. apply H6; auto.
Qed.

Theorem run_willing kd al m : good_kind kd -> sane al ->
  willing al (k_size kd * Z.max (k_size kd) (2 * Z.of_nat m)) ->
  k_size kd * Z.max (k_size kd) (2 * Z.of_nat m) <= size_max ->
  forall os v l, inv v l -> bounded kd v -> supported_run kd l os -> modest m l os ->
  run kd al v os <> VNoMem.
Proof.
  intros Hk Hal Hw Hm. induction os as [|o os IH]; intros v l Hi Hb Hsup Hmod.
  - discriminate.
  - cbn [supported_run modest run] in *. destruct Hsup as [Hs1 Hs2]. destruct Hmod as [Hr Hmod].
    destruct (spec_op l o) as [l1|] eqn:E1; [|destruct Hmod]. destruct Hmod as [Hl Hmod].
    unfold good_kind in Hk.
    destruct (step kd al v l o l1 Hk Hal Hi Hb E1 Hs1) as [[E (n & Hn & H)]|(v1 & E & H1 & H2 & H3)].
    + exfalso. assert (Hn' : 0 <= n <= k_size kd * Z.max (k_size kd) (2 * Z.of_nat m)).
      { split; [lia|]. eapply Z.le_trans; [apply Hn|]. unfold need. apply Z.mul_le_mono_nonneg_l; [lia|].
        destruct o; lia. }
      destruct H as [H|H]; [|lia]. exact (Hw n Hn' H).
    + rewrite E. cbn [vbind]. eapply IH; eauto.
Qed.

Lemma inv_empty : inv (@v_empty A) [].
Proof. exists []. split; reflexivity. Qed.
Lemma bounded_empty kd : bounded kd (@v_empty A).
Proof. unfold bounded, v_cap. cbn. lia. Qed.
Lemma clean_empty kd : clean kd (@v_empty A) [].
Proof. right. split; [reflexivity|]. intros r H. cbn in H. subst. exact eq_refl. Qed.

End Steps.
