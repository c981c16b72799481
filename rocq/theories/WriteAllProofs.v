(** Proofs about write_all and its relatives. *)
From Verif Require Import Base BufModel BufSpec BufOutProofs WriteAllModel WriteAllSpec.


Lemma some_spec a s data : forall s' k, some_define a s data = (s', k) ->
  (k <= length data)%nat /\ delivered (d_log (w_dev s')) = delivered (d_log (w_dev s)) ++ firstn k data /\ w_buf s' = w_buf s
  /\ (progresses a -> (0 < length data)%nat -> (0 < k)%nat).
Proof.
  intros s' k E. unfold some_define in E. inversion E as [[E1 E2]]. cbn. rewrite delivered_app. cbn. rewrite app_nil_r.
  split; [lia|]. split; [rewrite E2; reflexivity|]. split; [reflexivity|].
  intros Hp Hl. specialize (Hp (length (d_log (w_dev s))) (length data) Hl). lia.
Qed.
Lemma all_spec s data : delivered (d_log (w_dev (all_define s data))) = delivered (d_log (w_dev s)) ++ data.
Proof. cbn. rewrite delivered_app. cbn. rewrite app_nil_r. reflexivity. Qed.

Lemma some_loop_exact : forall fuel a s data s', some_loop fuel a s data = Some s' ->
  delivered (d_log (w_dev s')) = delivered (d_log (w_dev s)) ++ data /\ w_buf s' = w_buf s.
Proof.
  induction fuel as [|fuel IH]; intros a s data s'; cbn [some_loop]; [discriminate|].
  destruct (some_define a s data) as [s1 k] eqn:E. destruct (some_spec _ _ _ _ _ E) as (Hk & Hd & Hb & _).
  destruct (Nat.eqb k (length data)) eqn:Ek.
  - apply Nat.eqb_eq in Ek. intros H; inversion H; subst. rewrite Hd, firstn_all2 by lia. auto.
  - intros H. destruct (IH _ _ _ _ H) as [H1 H2]. rewrite H1, Hd, <- app_assoc, firstn_skipn. split; congruence.
Qed.
Lemma some_loop_ends a : progresses a -> forall fuel s data, (length data < fuel)%nat ->
  exists s', some_loop fuel a s data = Some s'.
Proof.
  intros Hp. induction fuel as [|fuel IH]; intros s data Hf; [lia|]. cbn [some_loop].
  destruct (some_define a s data) as [s1 k] eqn:E. destruct (some_spec _ _ _ _ _ E) as (Hk & _ & _ & Hq).
  destruct (Nat.eqb k (length data)) eqn:Ek; [eauto|]. apply Nat.eqb_neq in Ek.
  apply IH. rewrite skipn_length. specialize (Hq Hp). lia.
Qed.

Lemma write_all_exact fuel cp smtp a s data s' :
  smtp && has_obuffer cp = false -> direct cp smtp = true ->
  write_all_impl fuel cp smtp a s data = Some s' ->
  delivered (d_log (w_dev s')) = delivered (d_log (w_dev s)) ++ data.
Proof.
  intros Ho Hd. unfold write_all_impl. rewrite Ho.
  destruct (smtp && (has_write_all cp || has_scatter_write_all cp)) eqn:E1; [intros H; inversion H; apply all_spec|].
  destruct (smtp && (has_write_some cp || has_scatter_write_some cp)) eqn:E2;
    [intros H; apply (some_loop_exact _ _ _ _ _ H)|].
  destruct (has_write_all_bytes cp) eqn:E3; [intros H; inversion H; apply all_spec|].
  destruct (has_write_some_bytes cp) eqn:E4; [intros H; apply (some_loop_exact _ _ _ _ _ H)|].
  exfalso. unfold direct in Hd. rewrite E3, E4, !orb_false_r in Hd.
  destruct smtp; cbn in *; [|discriminate].
  destruct (has_write_all cp), (has_scatter_write_all cp), (has_write_some cp), (has_scatter_write_some cp); discriminate.
Qed.
Lemma write_all_ends cp smtp a s data fuel : progresses a -> (length data < fuel)%nat ->
  exists s', write_all_impl fuel cp smtp a s data = Some s'.
Proof.
  intros Hp Hf. unfold write_all_impl. destruct (smtp && has_obuffer cp); [eauto|].
  destruct (smtp && (has_write_all cp || has_scatter_write_all cp)); [eauto|].
  destruct (smtp && (has_write_some cp || has_scatter_write_some cp)); [apply some_loop_ends; auto|].
  destruct (has_write_all_bytes cp); [eauto|]. destruct (has_write_some_bytes cp); [apply some_loop_ends; auto|eauto].
Qed.
Lemma write_all_buf fuel cp a s data s' : write_all_impl fuel cp false a s data = Some s' -> w_buf s' = w_buf s.
Proof.
  unfold write_all_impl. cbn [andb].
  destruct (has_write_all_bytes cp); [intros H; inversion H; reflexivity|].
  destruct (has_write_some_bytes cp); [intros H; apply (some_loop_exact _ _ _ _ _ H)|intros H; inversion H; reflexivity].
Qed.

(** write_some reports exactly what was taken. *)
Lemma write_some_exact cp smtp a s data s' k : write_some_impl cp smtp a s data = (s', k) ->
  (k <= length data)%nat /\ out_of s' = out_of s ++ firstn k data \/
  (w_buf s <> [] /\ smtp && has_obuffer cp = false /\ (k <= length data)%nat /\
    delivered (d_log (w_dev s')) = delivered (d_log (w_dev s)) ++ firstn k data).
Proof.
  unfold write_some_impl, out_of.
  assert (Hsome : forall s' k, some_define a s data = (s', k) ->
    (k <= length data)%nat /\ delivered (d_log (w_dev s')) ++ w_buf s' = (delivered (d_log (w_dev s)) ++ w_buf s) ++ firstn k data \/
    (w_buf s <> [] /\ (k <= length data)%nat /\
      delivered (d_log (w_dev s')) = delivered (d_log (w_dev s)) ++ firstn k data)).
  { intros s1 k1 E. destruct (some_spec _ _ _ _ _ E) as (Hk & Hd & Hb & _). destruct (w_buf s) as [|z b] eqn:Eb.
    - left. split; auto. rewrite Hb, Hd, !app_nil_r. reflexivity.
    - right. split; [discriminate|]. auto. }
  assert (Hall : (length data <= length data)%nat /\
      delivered (d_log (w_dev (all_define s data))) ++ w_buf (all_define s data)
        = (delivered (d_log (w_dev s)) ++ w_buf s) ++ firstn (length data) data \/
    (w_buf s <> [] /\ (length data <= length data)%nat /\
      delivered (d_log (w_dev (all_define s data))) = delivered (d_log (w_dev s)) ++ firstn (length data) data)).
  { rewrite all_spec, firstn_all. cbn [w_buf all_define]. destruct (w_buf s) as [|z b]; [left|right].
    - rewrite !app_nil_r. auto.
    - split; [discriminate|]. auto. }
  destruct (smtp && has_obuffer cp) eqn:Eo.
  - destruct (Nat.ltb _ _); intros E; inversion E; subst; left; (split; [lia|]); cbn; rewrite firstn_all.
    + rewrite app_assoc. reflexivity.
    + rewrite delivered_app. cbn. rewrite !app_nil_r, app_assoc. reflexivity.
  - destruct (smtp && (has_write_some cp || has_scatter_write_some cp)).
    { intros E. destruct (Hsome _ _ E) as [H|H]; [left; auto|right; tauto]. }
    destruct (smtp && (has_write_all cp || has_scatter_write_all cp)).
    { intros E. inversion E; subst. destruct Hall as [H|H]; [left; auto|right; tauto]. }
    destruct (has_write_some_bytes cp).
    { intros E. destruct (Hsome _ _ E) as [H|H]; [left; auto|right; tauto]. }
    destruct (has_write_all_bytes cp).
    { intros E. inversion E; subst. destruct Hall as [H|H]; [left; auto|right; tauto]. }
    intros E. inversion E; subst. left. split; [lia|]. cbn. rewrite app_nil_r. reflexivity.
Qed.

(** ** Scatter lists *)

Lemma size_to_status_ok : forall scatters k, (k <= length (concat scatters))%nat ->
  let '(i, p) := size_to_status k scatters in status_ok scatters k i p.
Proof.
  induction scatters as [|b rest IH]; intros k Hk; cbn [size_to_status].
  - cbn in *. unfold status_ok, upto. cbn. destruct k; [|lia]. repeat split; auto; lia.
  - destruct (Nat.ltb k (length b)) eqn:E.
    + apply Nat.ltb_lt in E. unfold status_ok, upto. cbn. rewrite firstn_app.
      replace (k - length b)%nat with 0%nat by lia. cbn. rewrite app_nil_r. repeat split; auto; try lia.
    + apply Nat.ltb_ge in E. cbn in Hk. rewrite app_length in Hk.
      specialize (IH (k - length b)%nat ltac:(lia)). destruct (size_to_status (k - length b) rest) as [i p].
      destruct IH as (H1 & H2 & H3 & H4 & H5). unfold status_ok, upto in *. cbn.
      repeat split; auto; try lia.
      * rewrite firstn_app, (firstn_all2 b) by lia. rewrite <- app_assoc, H2. reflexivity.
      * rewrite app_length. lia.
Qed.
Lemma size_to_status_full : forall scatters, fst (size_to_status (length (concat scatters)) scatters) = length scatters.
Proof.
  induction scatters as [|b rest IH]; cbn [size_to_status concat length]; auto.
  rewrite app_length. replace (Nat.ltb (length b + length (concat rest)) (length b)) with false
    by (symmetry; apply Nat.ltb_ge; lia).
  replace (length b + length (concat rest) - length b)%nat with (length (concat rest)) by lia.
  destruct (size_to_status _ rest). cbn in *. congruence.
Qed.
Lemma scatter_some_ok a s scatters s' k i p : scatter_some_define a s scatters = (s', (k, i, p)) ->
  status_ok scatters k i p /\ delivered (d_log (w_dev s')) = delivered (d_log (w_dev s)) ++ upto scatters i p /\
  w_buf s' = w_buf s /\ (progresses a -> (0 < length (concat scatters))%nat -> (0 < k)%nat).
Proof.
  unfold scatter_some_define. destruct (some_define a s (concat scatters)) as [s1 k1] eqn:E.
  destruct (some_spec _ _ _ _ _ E) as (Hk & Hd & Hb & Hq).
  pose proof (size_to_status_ok scatters k1 Hk) as Hs. destruct (size_to_status k1 scatters) as [i1 p1].
  intros H; inversion H; subst. split; auto. destruct Hs as (_ & H2 & _). rewrite H2. auto.
Qed.
Lemma each_some_ok a : forall scatters s s' k i p, scatter_each_some a s scatters = (s', (k, i, p)) ->
  status_ok scatters k i p /\ delivered (d_log (w_dev s')) = delivered (d_log (w_dev s)) ++ upto scatters i p.
Proof.
  induction scatters as [|b rest IH]; intros s s' k i p; cbn [scatter_each_some].
  - intros H; inversion H; subst. unfold status_ok, upto. cbn. rewrite app_nil_r. repeat split; auto.
  - destruct (some_define a s b) as [s1 k1] eqn:E. destruct (some_spec _ _ _ _ _ E) as (Hk & Hd & Hb & _).
    destruct (Nat.eqb k1 (length b)) eqn:Ek.
    + apply Nat.eqb_eq in Ek. destruct (scatter_each_some a s1 rest) as [s2 [[t2 i2] p2]] eqn:E2.
      destruct (IH _ _ _ _ _ E2) as [(H1 & H2 & H3 & H4 & H5) H6]. intros H; inversion H; subst.
      rewrite firstn_all2 in Hd by lia. unfold status_ok, upto in *. cbn.
      rewrite H6, Hd, <- app_assoc. repeat split; auto; try lia; rewrite <- ?app_assoc; auto.
      * rewrite H2. rewrite firstn_app, (firstn_all2 b) by lia.
        replace (length b + t2 - length b)%nat with t2 by lia. reflexivity.
      * rewrite app_length. lia.
    + apply Nat.eqb_neq in Ek. intros H; inversion H; subst. unfold status_ok, upto. cbn.
      repeat split; auto; try lia.
      * rewrite firstn_app. replace (p - length b)%nat with 0%nat by lia. cbn. rewrite app_nil_r. reflexivity.
      * rewrite app_length. lia.
Qed.
Lemma upto_all scatters : upto scatters (length scatters) 0 = concat scatters.
Proof. unfold upto. cbn. rewrite firstn_all, app_nil_r. reflexivity. Qed.
Lemma fold_all : forall scatters s, delivered (d_log (w_dev (fold_left all_define scatters s)))
  = delivered (d_log (w_dev s)) ++ concat scatters.
Proof.
  induction scatters as [|b rest IH]; intros s; cbn [fold_left concat]; [rewrite app_nil_r; reflexivity|].
  rewrite IH, all_spec, app_assoc. reflexivity.
Qed.
Lemma all_status scatters : status_ok scatters (length (concat scatters)) (length scatters) 0.
Proof. unfold status_ok. rewrite upto_all, firstn_all. repeat split; auto. lia. Qed.
Lemma scatter_write_some_ok cp a s scatters s' k i p :
  scatter_write_some_impl cp a s scatters = (s', (k, i, p)) ->
  has_scatter_write_some_bytes cp || has_scatter_write_all_bytes cp || has_write_some_bytes cp || has_write_all_bytes cp = true ->
  status_ok scatters k i p /\ delivered (d_log (w_dev s')) = delivered (d_log (w_dev s)) ++ upto scatters i p.
Proof.
  unfold scatter_write_some_impl. destruct (has_scatter_write_some_bytes cp).
  { intros H _. destruct (scatter_some_ok _ _ _ _ _ _ _ H) as (H1 & H2 & _). auto. }
  destruct (has_scatter_write_all_bytes cp).
  { intros H _. inversion H; subst. split; [apply all_status|]. rewrite upto_all. apply all_spec. }
  destruct (has_write_some_bytes cp).
  { intros H _. eapply each_some_ok; eauto. }
  destruct (has_write_all_bytes cp); [|cbn; discriminate].
  intros H _. inversion H; subst. split; [apply all_status|]. rewrite upto_all. apply fold_all.
Qed.

(** The rest of a scatter list after position [i], offset [p]. *)
Lemma split_upto : forall scatters i p, (i < length scatters)%nat ->
  concat scatters = upto scatters i p ++ skipn p (nth i scatters []) ++ concat (skipn (S i) scatters).
Proof.
  intros scatters i p Hi. unfold upto.
  rewrite <- (firstn_skipn i scatters) at 1. rewrite concat_app, <- app_assoc. f_equal.
  assert (Hs : skipn i scatters = nth i scatters [] :: skipn (S i) scatters).
  { clear p. revert i Hi. induction scatters as [|b rest IH]; intros i Hi; [cbn in Hi; lia|].
    destruct i; cbn; auto. apply IH. cbn in Hi. lia. }
  rewrite Hs. cbn [concat]. rewrite app_assoc, firstn_skipn. reflexivity.
Qed.
Lemma skipn_nth_cons : forall (scatters : list (list Z)) i, (i < length scatters)%nat ->
  skipn i scatters = nth i scatters [] :: skipn (S i) scatters.
Proof.
  induction scatters as [|b rest IH]; intros i Hi; [cbn in Hi; lia|].
  destruct i; cbn; auto. apply IH. cbn in Hi. lia.
Qed.

Lemma scatter_loop_exact cp a : has_write_all_bytes cp || has_write_some_bytes cp = true ->
  forall fuel s scatters s', scatter_all_loop fuel cp a s scatters = Some s' ->
  delivered (d_log (w_dev s')) = delivered (d_log (w_dev s)) ++ concat scatters.
Proof.
  intros Hc. induction fuel as [|fuel IH]; intros s scatters s'; cbn [scatter_all_loop].
  - destruct scatters; [|discriminate]. intros H; inversion H; subst. cbn. rewrite app_nil_r. reflexivity.
  - destruct scatters as [|b0 rest0]; [intros H; inversion H; subst; cbn; rewrite app_nil_r; reflexivity|].
    remember (b0 :: rest0) as scatters eqn:Esc. clear Esc b0 rest0.
    destruct (scatter_some_define a s scatters) as [s1 [[k i] p]] eqn:E.
    destruct (scatter_some_ok _ _ _ _ _ _ _ E) as ((H1 & H2 & H3 & H4 & H5) & Hd & _).
    destruct (Nat.eqb i (length scatters)) eqn:Ei.
    + apply Nat.eqb_eq in Ei. intros H; inversion H; subst s'. rewrite Hd, Ei, (H4 Ei), upto_all. reflexivity.
    + apply Nat.eqb_neq in Ei. assert (Hi : (i < length scatters)%nat) by lia.
      rewrite (skipn_nth_cons _ _ Hi). destruct (Nat.eqb p 0) eqn:Ep.
      * apply Nat.eqb_eq in Ep. intros H. rewrite (IH _ _ _ H), Hd. rewrite (split_upto scatters i p Hi).
        rewrite Ep. cbn [skipn concat]. rewrite <- app_assoc. reflexivity.
      * destruct (write_all_impl (S fuel) cp false a s1 (skipn p (nth i scatters []))) as [s2|] eqn:Ew; [|discriminate].
        intros H. rewrite (IH _ _ _ H).
        rewrite (write_all_exact _ _ _ _ _ _ _ (eq_refl : false && has_obuffer cp = false) Hc Ew), Hd.
        rewrite (split_upto scatters i p Hi). rewrite <- !app_assoc. reflexivity.
Qed.
Lemma scatter_loop_ends cp a : progresses a ->
  forall fuel s scatters, (length (concat scatters) + length scatters < fuel)%nat ->
  exists s', scatter_all_loop fuel cp a s scatters = Some s'.
Proof.
  intros Hp. induction fuel as [|fuel IH]; intros s scatters Hf; cbn [scatter_all_loop]; [lia|].
  destruct scatters as [|b0 rest0]; [eauto|].
  remember (b0 :: rest0) as scatters eqn:Esc. clear Esc b0 rest0.
  destruct (scatter_some_define a s scatters) as [s1 [[k i] p]] eqn:E.
  destruct (scatter_some_ok _ _ _ _ _ _ _ E) as ((H1 & H2 & H3 & H4 & H5) & Hd & _ & Hq).
  destruct (Nat.eqb i (length scatters)) eqn:Ei; [eauto|].
  apply Nat.eqb_neq in Ei. assert (Hi : (i < length scatters)%nat) by lia.
  rewrite (skipn_nth_cons _ _ Hi). pose proof (split_upto scatters i p Hi) as Hsp.
  assert (Hlen : length (concat scatters) =
    (length (upto scatters i p) + (length (nth i scatters []) - p) + length (concat (skipn (S i) scatters)))%nat).
  { rewrite Hsp at 1. rewrite !app_length, skipn_length. lia. }
  assert (Hk : length (upto scatters i p) = k) by (rewrite H2, firstn_length; lia).
  specialize (H5 Hi).
  assert (Hls : length (skipn (S i) scatters) = (length scatters - S i)%nat) by apply skipn_length.
  destruct (Nat.eqb p 0) eqn:Ep.
  - apply Nat.eqb_eq in Ep. apply IH. cbn [concat length]. rewrite app_length, Hls.
    specialize (Hq Hp). lia.
  - destruct (write_all_ends cp false a s1 (skipn p (nth i scatters [])) (S fuel) Hp) as (s2 & ->).
    { rewrite skipn_length. lia. }
    apply IH. rewrite Hls. lia.
Qed.
Lemma each_all_exact cp a fuel : has_write_all_bytes cp || has_write_some_bytes cp = true ->
  forall scatters s s', each_all fuel cp a s scatters = Some s' ->
  delivered (d_log (w_dev s')) = delivered (d_log (w_dev s)) ++ concat scatters.
Proof.
  intros Hc. induction scatters as [|b rest IH]; intros s s'; cbn [each_all].
  - intros H; inversion H; subst. cbn. rewrite app_nil_r. reflexivity.
  - destruct (write_all_impl fuel cp false a s b) as [s1|] eqn:E; [|discriminate]. intros H.
    rewrite (IH _ _ H), (write_all_exact _ _ _ _ _ _ _ (eq_refl : false && has_obuffer cp = false) Hc E).
    cbn. rewrite <- app_assoc. reflexivity.
Qed.
Lemma each_all_ends cp a fuel : progresses a -> forall scatters s, (length (concat scatters) < fuel)%nat ->
  exists s', each_all fuel cp a s scatters = Some s'.
Proof.
  intros Hp. induction scatters as [|b rest IH]; intros s Hf; cbn [each_all]; [eauto|].
  cbn in Hf. rewrite app_length in Hf.
  destruct (write_all_ends cp false a s b fuel Hp) as (s1 & ->); [lia|]. apply IH. lia.
Qed.
Lemma scatter_write_all_exact fuel cp a s scatters s' : can_scatter cp = true ->
  scatter_write_all_impl fuel cp a s scatters = Some s' ->
  delivered (d_log (w_dev s')) = delivered (d_log (w_dev s)) ++ concat scatters.
Proof.
  unfold can_scatter, scatter_write_all_impl. intros Hc.
  destruct (has_scatter_write_all_bytes cp); [intros H; inversion H; apply all_spec|]. cbn in Hc.
  destruct (has_scatter_write_some_bytes cp); [apply scatter_loop_exact; auto|].
  rewrite orb_comm in Hc. rewrite Hc. rewrite orb_comm in Hc. apply each_all_exact; auto.
Qed.
Lemma scatter_write_all_ends cp a s scatters : progresses a ->
  exists s', scatter_write_all_impl (S (length (concat scatters) + length scatters)) cp a s scatters = Some s'.
Proof.
  intros Hp. unfold scatter_write_all_impl. destruct (has_scatter_write_all_bytes cp); [eauto|].
  destruct (has_scatter_write_some_bytes cp); [apply scatter_loop_ends; auto; lia|].
  destruct (has_write_some_bytes cp || has_write_all_bytes cp); [apply each_all_ends; auto; lia|eauto].
Qed.

(** ** Units of several bytes *)
Lemma skipn_add {A} : forall (l : list A) i j, skipn i (skipn j l) = skipn (j + i) l.
Proof.
  intros l i j. revert l. induction j as [|j IH]; intros l; [reflexivity|].
  destruct l as [|x l]; [rewrite !skipn_nil; reflexivity|]. cbn [skipn Nat.add]. apply IH.
Qed.
Lemma firstn_add {A} (l : list A) i j : firstn (i + j) l = firstn i l ++ firstn j (skipn i l).
Proof. revert i. induction l; intros [|i]; cbn; auto; try (destruct j; reflexivity). f_equal. apply IHl. Qed.
Lemma unit_loop_ok a n : forall fuel s data off s' off',
  (off <= length data)%nat -> (length data mod n = 0)%nat ->
  unit_loop fuel a s n data off = Some (s', off') ->
  (off' <= length data)%nat /\ (off' mod n = 0)%nat /\
  delivered (d_log (w_dev s')) = delivered (d_log (w_dev s)) ++ firstn (off' - off) (skipn off data) /\ (off <= off')%nat.
Proof.
  induction fuel as [|fuel IH]; intros s data off s' off' Ho Hm; cbn [unit_loop]; [discriminate|].
  destruct (some_define a s (skipn off data)) as [s1 k] eqn:E. destruct (some_spec _ _ _ _ _ E) as (Hk & Hd & _).
  rewrite skipn_length in Hk.
  assert (Hx : (off + k - off = k)%nat) by lia.
  destruct (Nat.eqb (off + k) (length data)) eqn:E1.
  { apply Nat.eqb_eq in E1. intros H; inversion H; subst. rewrite E1 in *. repeat split; auto; try lia.
    rewrite Hd. f_equal. f_equal. lia. }
  destruct (Nat.eqb ((off + k) mod n) 0) eqn:E2.
  { apply Nat.eqb_eq in E2. intros H; inversion H; subst. rewrite Hx. repeat split; auto; lia. }
  intros H. destruct (IH _ _ _ _ _ (ltac:(lia) : (off + k <= length data)%nat) Hm H) as (H1 & H2 & H3 & H4).
  repeat split; auto; [|lia]. rewrite H3, Hd, <- app_assoc. f_equal.
  replace (off' - off)%nat with (k + (off' - (off + k)))%nat by lia. rewrite firstn_add, skipn_add. reflexivity.
Qed.
Lemma wide_ok a n fuel s data s' u : n <> 0%nat -> (length data mod n = 0)%nat ->
  wide_outer fuel a s n data 0 = Some (s', u) ->
  (u * n <= length data)%nat /\ delivered (d_log (w_dev s')) = delivered (d_log (w_dev s)) ++ firstn (u * n) data.
Proof.
  intros Hn Hm. destruct fuel as [|fuel]; cbn [wide_outer]; [discriminate|]. cbn [skipn].
  destruct (unit_loop (S fuel) a s n data 0) as [[s1 k]|] eqn:E; [|discriminate].
  destruct (unit_loop_ok _ _ _ _ _ _ _ _ (Nat.le_0_l _) Hm E) as (H1 & H2 & H3 & _).
  cbn [Nat.add]. rewrite H2. cbn [Nat.eqb]. intros H; inversion H; subst.
  cbn [skipn] in H3. rewrite Nat.sub_0_r in H3.
  assert (Hq : (k / n * n = k)%nat) by (rewrite (Nat.div_mod k n Hn) at 2; lia).
  rewrite Hq. auto.
Qed.

(** ** The reading loop *)
Lemma read_loop_exact : forall fuel a d n d' got, read_some_loop fuel a d n = Some (d', got) ->
  length got = n /\ got ++ d_src d' = d_src d.
Proof.
  induction fuel as [|fuel IH]; intros a d n d' got; cbn [read_some_loop]; [discriminate|].
  set (m := Nat.min (a (length (d_log d)) n) n). set (g := firstn m (d_src d)).
  assert (Hg : g ++ skipn (length g) (d_src d) = d_src d).
  { unfold g. rewrite firstn_length. destruct (Nat.le_ge_cases m (length (d_src d))) as [H|H].
    - rewrite Nat.min_l by exact H. apply firstn_skipn.
    - rewrite Nat.min_r by exact H. rewrite firstn_all2, skipn_all by exact H. apply app_nil_r. }
  destruct (Nat.eqb (length g) n) eqn:E.
  - apply Nat.eqb_eq in E. intros H; inversion H; subst d' got. auto.
  - destruct (read_some_loop fuel a _ (n - length g)) as [[d2 g2]|] eqn:E2; [|discriminate].
    destruct (IH _ _ _ _ _ E2) as [H1 H2]. cbn in H2.
    assert (Hle : (length g <= n)%nat) by (unfold g, m; rewrite firstn_length; lia).
    clearbody g. intros H; inversion H; subst d' got.
    rewrite app_length, H1, <- app_assoc, H2, Hg. split; auto. lia.
Qed.
Lemma read_loop_hangs : forall fuel a d n, (length (d_src d) < n)%nat -> read_some_loop fuel a d n = None.
Proof.
  intros fuel a d n Hl. destruct (read_some_loop fuel a d n) as [[d' got]|] eqn:E; auto.
  destruct (read_loop_exact _ _ _ _ _ _ E) as [H1 H2]. exfalso.
  assert (length (d_src d) = length got + length (d_src d'))%nat by (rewrite <- H2, app_length; reflexivity). lia.
Qed.
