(** Proofs about ViewModel. *)
From Verif Require Import Base BufModel PrintModel BufSpec BufOutProofs ViewModel ViewSpec.
Local Open Scope nat_scope.

Lemma store_at_out : forall m p l i, i < p \/ p + length l <= i -> store_at m p l i = m i.
Proof.
  intros m p l i H. unfold store_at.
  destruct (Nat.leb_spec p i); destruct (Nat.ltb_spec i (p + length l)); cbn; auto; lia.
Qed.
Lemma store_at_in : forall m p l j, j < length l -> store_at m p l (p + j) = nth j l 0%Z.
Proof.
  intros m p l j H. unfold store_at.
  destruct (Nat.leb_spec p (p + j)); destruct (Nat.ltb_spec (p + j) (p + length l)); cbn; try lia.
  f_equal. lia.
Qed.
Lemma chars_app : forall m p a b, chars m p (a + b) = chars m p a ++ chars m (p + a) b.
Proof. intros. unfold chars. rewrite seq_app, map_app. reflexivity. Qed.
Lemma chars_same : forall m m' p n, (forall i, p <= i < p + n -> m' i = m i) -> chars m' p n = chars m p n.
Proof.
  intros m m' p n H. unfold chars. apply map_ext_in. intros i Hi. apply in_seq in Hi. apply H. lia.
Qed.
Lemma chars_length : forall m p n, length (chars m p n) = n.
Proof. intros. unfold chars. rewrite map_length, seq_length. reflexivity. Qed.
Lemma chars_store : forall l m p, chars (store_at m p l) p (length l) = l.
Proof.
  intros l m p. apply nth_ext with (d := 0%Z) (d' := 0%Z); [apply chars_length|].
  intros n Hn. rewrite chars_length in Hn. unfold chars.
  rewrite nth_indep with (d' := store_at m p l 0) by (rewrite map_length, seq_length; exact Hn).
  rewrite map_nth, seq_nth by exact Hn. apply store_at_in. exact Hn.
Qed.

(** [t] has been appended behind the cursor. *)
Definition pushed (v : view) (t : list Z) (v' : view) : Prop :=
  v_begin v' = v_begin v /\ v_end v' = v_end v /\ v_curr v' = v_curr v + length t /\ v_curr v' <= v_end v /\
  chars (v_mem v') (v_curr v) (length t) = t /\
  (forall i, i < v_curr v \/ v_curr v + length t <= i -> v_mem v' i = v_mem v i).
Lemma pushed_refl : forall v, view_ok v -> pushed v [] v.
Proof. intros v [H1 H2]. unfold pushed. cbn [length]. rewrite Nat.add_0_r. repeat split; auto. Qed.
Lemma pushed_trans : forall v a v1 b v2, pushed v a v1 -> pushed v1 b v2 -> pushed v (a ++ b) v2.
Proof.
  intros v a v1 b v2 (A1 & A2 & A3 & A4 & A5 & A6) (B1 & B2 & B3 & B4 & B5 & B6).
  unfold pushed. rewrite app_length.
  split; [congruence|]. split; [congruence|]. split; [lia|]. split; [lia|]. split.
  - rewrite chars_app. rewrite A3 in B5. rewrite B5.
    f_equal. rewrite (chars_same (v_mem v1)); [exact A5|]. intros i Hi. apply B6. lia.
  - intros i Hi. rewrite B6 by lia. apply A6. lia.
Qed.
Lemma push_pushed : forall v t, length t <= room v -> view_ok v -> pushed v t (view_push v t).
Proof.
  intros v t H [H1 H2]. unfold room in H. unfold pushed, view_push. cbn.
  repeat split; try lia; [apply chars_store|]. intros i Hi. apply store_at_out. exact Hi.
Qed.
Lemma pushed_ok : forall v t v', view_ok v -> pushed v t v' -> view_ok v'.
Proof. intros v t v' [H1 H2] (A1 & A2 & A3 & A4 & _). unfold view_ok. lia. Qed.
Lemma pushed_content : forall v t v', view_ok v -> pushed v t v' -> view_content v' = view_content v ++ t.
Proof.
  intros v t v' [H1 H2] (A1 & A2 & A3 & A4 & A5 & A6). unfold view_content, view_size.
  replace (v_curr v' - v_begin v') with ((v_curr v - v_begin v) + length t) by lia.
  rewrite chars_app, A1.
  replace (v_begin v + (v_curr v - v_begin v)) with (v_curr v) by lia. rewrite A5. f_equal.
  apply chars_same. intros i Hi. apply A6. lia.
Qed.
Lemma pushed_outside : forall v t v', view_ok v -> pushed v t v' -> same_outside v v'.
Proof.
  intros v t v' [H1 H2] (A1 & A2 & A3 & A4 & A5 & A6). unfold same_outside.
  repeat split; auto. intros i Hi. apply A6. lia.
Qed.
Lemma same_outside_refl : forall v, same_outside v v.
Proof. intros v. repeat split. Qed.
Lemma same_outside_trans : forall a b c, same_outside a b -> same_outside b c -> same_outside a c.
Proof.
  intros a b c (A1 & A2 & A3) (B1 & B2 & B3). unfold same_outside.
  split; [congruence|]. split; [congruence|]. intros i Hi.
  rewrite B3; [apply A3; exact Hi|]. rewrite A1, A2. exact Hi.
Qed.

(** How an operation that outputs [t] and announces [n] characters ends. *)
Definition outputs (v : view) (t : list Z) (n : nat) (r : res view) : Prop :=
  match r with
  | Fine v' => pushed v t v'
  | Died v' => same_outside v v' /\ room v < n
  | _ => False
  end.

Lemma write_outputs : forall v t, view_ok v -> outputs v t (length t) (view_write v t).
Proof.
  intros v t H. unfold view_write. destruct (Nat.ltb_spec (room v) (length t)); cbn.
  - split; [apply same_outside_refl | assumption].
  - apply push_pushed; auto.
Qed.
Lemma put_outputs : forall v ch, view_ok v -> outputs v [ch] 1 (view_put v ch).
Proof.
  intros v ch H. unfold view_put. destruct (Nat.leb_spec (v_end v) (v_curr v)); cbn.
  - split; [apply same_outside_refl | unfold room; lia].
  - apply push_pushed; auto. unfold room. cbn. lia.
Qed.
Lemma outputs_seq : forall v a n b m r f,
  view_ok v -> length a <= n -> outputs v a n r -> (forall v', view_ok v' -> pushed v a v' -> outputs v' b m (f v')) ->
  outputs v (a ++ b) (n + m) (bindr r f).
Proof.
  intros v a n b m r f Hok Hn Hr Hf. destruct r as [v1 | v1 | v1 |]; cbn in *; try contradiction.
  - assert (Hok1 : view_ok v1) by (eapply pushed_ok; eauto).
    specialize (Hf v1 Hok1 Hr). destruct (f v1) as [v2 | v2 | v2 |]; cbn in *; try contradiction.
    + eapply pushed_trans; eauto.
    + destruct Hf as [Ho Hs]. split.
      * eapply same_outside_trans; [eapply pushed_outside; eauto | exact Ho].
      * destruct Hr as (A1 & A2 & A3 & A4 & _). unfold room in *. lia.
  - destruct Hr as [Ho Hs]. split; [exact Ho | lia].
Qed.
Lemma writes_outputs : forall ws v, view_ok v ->
  outputs v (concat ws) (length (concat ws)) (do_writes view_write v ws).
Proof.
  induction ws as [|t ws IH]; intros v H; cbn [do_writes concat].
  - cbn. apply pushed_refl. exact H.
  - rewrite app_length. apply outputs_seq; auto. apply write_outputs. exact H.
Qed.

Lemma control_outputs : forall line v p, view_ok v -> arg_ok p -> no_dynamic p ->
  outputs v (text_of p ++ eol line) (announced p + eol_size line) (vprint_control line v p).
Proof.
  intros line v p Hok Ha Hd. destruct p as [t | sz t | sz t | ws]; cbn [vprint_control text_of announced]; cbn in Ha.
  - destruct line; cbn [eol eol_size].
    + destruct (Z.ltb_spec (Z.of_nat (v_end v) - Z.of_nat (v_curr v) - 1) (Z.of_nat (length t))); cbn.
      * split; [apply same_outside_refl|]. unfold room. lia.
      * apply push_pushed; auto. unfold room. rewrite app_length. cbn. lia.
    + rewrite app_nil_r, Nat.add_0_r. apply write_outputs. exact Hok.
  - destruct (Nat.ltb_spec (room v) (sz + eol_size line)); cbn.
    + split; [apply same_outside_refl | assumption].
    + apply push_pushed; auto. rewrite app_length, eol_length. lia.
  - destruct Hd.
  - apply outputs_seq; auto.
    + apply writes_outputs. exact Hok.
    + intros v' Hok' _. destruct line; cbn [eol eol_size].
      * apply put_outputs. exact Hok'.
      * cbn. apply pushed_refl. exact Hok'.
Qed.

Definition ann (args : list parg) : nat := fold_right (fun p n => announced p + n) 0 args.
Lemma plain_outputs : forall args line v, view_ok v -> Forall arg_ok args -> Forall no_dynamic args -> args <> [] ->
  outputs v (printed line args) (ann args + eol_size line) (vprint_plain line v args).
Proof.
  induction args as [|t rest IH]; intros line v Hok Ha Hd Hne; [congruence|].
  inversion Ha as [|? ? Ha1 Ha2]; subst. inversion Hd as [|? ? Hd1 Hd2]; subst.
  destruct rest as [|u rest].
  - cbn [vprint_plain]. unfold printed. cbn [map concat ann fold_right]. rewrite app_nil_r, Nat.add_0_r.
    apply control_outputs; auto.
  - change (vprint_plain line v (t :: u :: rest))
      with (bindr (vprint_control false v t) (fun v => vprint_plain line v (u :: rest))).
    unfold printed. cbn [map concat]. rewrite <- app_assoc.
    change (ann (t :: u :: rest)) with (announced t + ann (u :: rest)). rewrite <- Nat.add_assoc.
    pose proof (control_outputs false v t Hok Ha1 Hd1) as Hc. cbn [eol eol_size] in Hc.
    rewrite app_nil_r, Nat.add_0_r in Hc.
    apply outputs_seq; auto.
    + destruct t; cbn in *; lia.
    + intros v' Hok' _. apply (IH line v'); auto. discriminate.
Qed.


Lemma ann_app : forall a b, ann (a ++ b) = ann a + ann b.
Proof. induction a as [|p a IH]; intros b; [reflexivity|].
  change (announced p + ann (a ++ b) = announced p + ann a + ann b). rewrite IH. lia. Qed.
Lemma ann_text : forall args, Forall arg_ok args -> length (concat (map text_of args)) <= ann args.
Proof.
  induction 1 as [|p args Hp Ha IH]; [cbn; lia|].
  change (length (text_of p ++ concat (map text_of args)) <= announced p + ann args). rewrite app_length.
  destruct p; cbn [text_of announced arg_ok] in *; lia.
Qed.
Lemma outputs_more : forall v t n m r, outputs v t n r -> n <= m -> outputs v t m r.
Proof. intros v t n m [s | s | s |] H Hm; cbn in *; auto. destruct H. split; [assumption | lia]. Qed.
Lemma forall_firstn : forall (A : Type) (P : A -> Prop) n l, Forall P l -> Forall P (firstn n l).
Proof. intros A P n l H. rewrite <- (firstn_skipn n l) in H. apply Forall_app in H. tauto. Qed.

Lemma multi_outputs : forall line args skip v, view_ok v -> Forall arg_ok args -> Forall no_dynamic args ->
  skip < length args ->
  outputs v (printed line (skipn skip args)) (ann (skipn skip args) + eol_size line) (vprint_multi line skip v args).
Proof.
  intros line. induction args as [|p rest IH]; intros skip v Hok Ha Hd Hs; [cbn in Hs; lia|].
  inversion Ha as [|? ? Hp Hrest]; subst. inversion Hd as [|? ? Hdp Hdrest]; subst.
  destruct skip as [|k]; [|cbn [vprint_multi skipn length] in *; apply IH; auto; lia].
  cbn [skipn].
  assert (Hone : outputs v (printed line (p :: rest)) (ann (p :: rest) + eol_size line)
            (match rest with
             | [] => vprint_control line v p
             | _ :: _ => then! v0 := vprint_control false v p in vprint_multi line 0 v0 rest
             end)).
  { destruct rest as [|q rest].
    - unfold printed. cbn [map concat ann fold_right]. rewrite app_nil_r, Nat.add_0_r. apply control_outputs; auto.
    - unfold printed. cbn [map concat]. rewrite <- app_assoc.
      change (ann (p :: q :: rest)) with (announced p + ann (q :: rest)). rewrite <- Nat.add_assoc.
      pose proof (control_outputs false v p Hok Hp Hdp) as Hc. cbn [eol eol_size] in Hc.
      rewrite app_nil_r, Nat.add_0_r in Hc.
      apply outputs_seq; auto.
      + destruct p; cbn in *; lia.
      + intros v' Hok' _. apply (IH 0 v'); auto. cbn. lia. }
  destruct p as [t|sz t|sz t|ws]; try exact Hone.
  cbn [vprint_multi]. destruct (multi_size sz rest) as [n total] eqn:Em.
  destruct (Nat.eqb n 0) eqn:En; [exact Hone|]. apply Nat.eqb_neq in En.
  destruct (multi_bound _ _ _ _ Hrest Em En) as [Hn Ht]. cbn [arg_ok] in Hp.
  set (last := Nat.eqb (length rest) n).
  set (size := total + eol_size (last && line)).
  set (text := t ++ partition_text n rest ++ eol (last && line)).
  assert (Hl : length text <= size).
  { unfold text, size. rewrite !app_length, eol_length. lia. }
  assert (Hloc : in_local size text (view_write v text) = view_write v text).
  { unfold in_local. destruct (Nat.leb_spec (length text) size); [reflexivity | lia]. }
  rewrite Hloc.
  pose proof (write_outputs v text Hok) as Hw.
  assert (Hann : length (partition_text n rest) <= ann (firstn n rest)).
  { apply ann_text. apply forall_firstn. exact Hrest. }
  assert (Hsplit : ann rest = ann (firstn n rest) + ann (skipn n rest)).
  { rewrite <- ann_app, firstn_skipn. reflexivity. }
  destruct last eqn:El.
  - apply Nat.eqb_eq in El. cbn [andb] in *.
    assert (Hp' : printed line (PReserve sz t :: rest) = text).
    { unfold text, printed, partition_text. rewrite <- El, firstn_all.
      cbn [map concat text_of]. rewrite <- !app_assoc. reflexivity. }
    rewrite Hp'.
    assert (Hb : bindr (view_write v text) (fun v : view => Fine v) = view_write v text)
      by (destruct (view_write v text); reflexivity).
    rewrite Hb. eapply outputs_more; [exact Hw|].
    unfold text. rewrite !app_length, eol_length. cbn [ann fold_right announced].
    fold (ann rest). lia.
  - apply Nat.eqb_neq in El. cbn [andb] in *.
    assert (Hp' : printed line (PReserve sz t :: rest) = text ++ printed line (skipn n rest)).
    { unfold text, printed, partition_text. cbn [eol]. rewrite app_nil_r.
      cbn [map concat text_of].
      rewrite <- (firstn_skipn n rest) at 1. rewrite map_app, concat_app. rewrite <- !app_assoc. reflexivity. }
    rewrite Hp'.
    eapply outputs_more.
    + apply outputs_seq; [exact Hok | apply le_n | exact Hw |].
      intros v' Hok' _. apply IH; auto. lia.
    + unfold text. rewrite !app_length, eol_length. cbn [eol_size].
      change (ann (PReserve sz t :: rest)) with (sz + ann rest). lia.
Qed.

Lemma print_outputs : forall opt line v args, view_ok v -> Forall arg_ok args -> Forall no_dynamic args ->
  outputs v (printed line args) (announced_all line args) (view_print opt line v args).
Proof.
  intros opt line v args Hok Ha Hd. unfold view_print. destruct args as [|p rest].
  - destruct line; cbn [printed announced_all]; [apply put_outputs; exact Hok | cbn; apply pushed_refl; exact Hok].
  - change (announced_all line (p :: rest)) with (ann (p :: rest) + eol_size line). destruct opt.
    + apply (multi_outputs line (p :: rest) 0 v); auto. cbn. lia.
    + apply plain_outputs; auto. discriminate.
Qed.

(** What one operation adds and announces. *)
Definition vsaid (x : vop) : list Z :=
  match x with VWrite l => l | VPut ch => [ch] | VPrint _ line args => printed line args | VClear => [] end.
Definition vann (x : vop) : nat :=
  match x with VWrite l => length l | VPut ch => 1 | VPrint _ line args => announced_all line args | VClear => 0 end.
Definition is_clear (x : vop) : bool := match x with VClear => true | _ => false end.
Lemma vop_outputs : forall v x, view_ok v -> vop_ok x -> is_clear x = false ->
  outputs v (vsaid x) (vann x) (do_vop v x).
Proof.
  intros v [l | ch | opt line args |] Hok Hx Hc; cbn [do_vop vsaid vann]; try discriminate Hc.
  - apply write_outputs. exact Hok.
  - apply put_outputs. exact Hok.
  - destruct Hx. apply print_outputs; auto.
Qed.
Lemma content_length : forall v, view_ok v -> length (view_content v) = view_size v.
Proof. intros v _. unfold view_content. apply chars_length. Qed.
Lemma clear_ok : forall v, view_ok v -> view_ok (view_clear v).
Proof. intros v [A B]. unfold view_ok, view_clear. cbn. lia. Qed.
Lemma clear_content : forall v, view_content (view_clear v) = [].
Proof. intros v. unfold view_content, view_size, view_clear. cbn. rewrite Nat.sub_diag. reflexivity. Qed.
Lemma clear_outside : forall v, same_outside v (view_clear v).
Proof. intros v. repeat split. Qed.

Lemma run_safe : forall xs v, view_ok v -> Forall vop_ok xs ->
  match do_vops v xs with
  | Fine v' | Died v' => same_outside v v'
  | _ => False
  end.
Proof.
  induction xs as [|x xs IH]; intros v Hok Hxs; cbn [do_vops]; [apply same_outside_refl|].
  inversion Hxs as [|? ? Hx Hxs']; subst. destruct (is_clear x) eqn:Ec.
  - destruct x; try discriminate Ec. cbn [do_vop bindr].
    specialize (IH (view_clear v) (clear_ok v Hok) Hxs').
    destruct (do_vops (view_clear v) xs); auto;
      (eapply same_outside_trans; [apply clear_outside | exact IH]).
  - pose proof (vop_outputs v x Hok Hx Ec) as Ho.
    destruct (do_vop v x) as [v1 | v1 | v1 |]; cbn in Ho |- *; try contradiction.
    + specialize (IH v1 (pushed_ok _ _ _ Hok Ho) Hxs').
      pose proof (pushed_outside _ _ _ Hok Ho).
      destruct (do_vops v1 xs); auto; (eapply same_outside_trans; eauto).
    + tauto.
Qed.
Lemma shown_cons : forall x xs before, is_clear x = false -> shown before (x :: xs) = shown (before ++ vsaid x) xs.
Proof. intros [] xs before H; try discriminate H; reflexivity. Qed.
Lemma run_content : forall xs v v', view_ok v -> Forall vop_ok xs -> do_vops v xs = Fine v' ->
  view_ok v' /\ view_content v' = shown (view_content v) xs.
Proof.
  induction xs as [|x xs IH]; intros v v' Hok Hxs Hr; cbn [do_vops] in Hr.
  - injection Hr as <-. split; [exact Hok | reflexivity].
  - inversion Hxs as [|? ? Hx Hxs']; subst. destruct (is_clear x) eqn:Ec.
    + destruct x; try discriminate Ec. cbn [do_vop bindr] in Hr.
      destruct (IH _ _ (clear_ok v Hok) Hxs' Hr) as [A B]. split; [exact A|].
      rewrite B, clear_content. reflexivity.
    + pose proof (vop_outputs v x Hok Hx Ec) as Ho.
      destruct (do_vop v x) as [v1 | v1 | v1 |]; cbn in Ho, Hr; try discriminate Hr.
      destruct (IH _ _ (pushed_ok _ _ _ Hok Ho) Hxs' Hr) as [A B]. split; [exact A|].
      rewrite B, shown_cons by exact Ec. rewrite (pushed_content _ _ _ Hok Ho). reflexivity.
Qed.
Lemma fits_cons : forall x xs cap used, is_clear x = false ->
  fits cap used (x :: xs) <-> (used + vann x <= cap /\ fits cap (used + length (vsaid x)) xs).
Proof. intros [] xs cap used H; try discriminate H; cbn; tauto. Qed.
Lemma run_fits : forall xs v, view_ok v -> Forall vop_ok xs -> fits (view_capacity v) (view_size v) xs ->
  exists v', do_vops v xs = Fine v'.
Proof.
  induction xs as [|x xs IH]; intros v Hok Hxs Hf; cbn [do_vops]; [eauto|].
  inversion Hxs as [|? ? Hx Hxs']; subst. destruct (is_clear x) eqn:Ec.
  - destruct x; try discriminate Ec. cbn [do_vop bindr]. apply IH; auto; [apply clear_ok; exact Hok|].
    cbn [fits] in Hf. unfold view_capacity, view_size, view_clear in *. cbn. rewrite Nat.sub_diag. exact Hf.
  - apply fits_cons in Hf; [|exact Ec]. destruct Hf as [F1 F2].
    pose proof (vop_outputs v x Hok Hx Ec) as Ho.
    destruct (do_vop v x) as [v1 | v1 | v1 |]; cbn in Ho |- *; try contradiction.
    + apply IH; auto; [eapply pushed_ok; eauto|].
      destruct Ho as (A1 & A2 & A3 & A4 & _). destruct Hok as [O1 O2].
      unfold view_capacity, view_size in *. rewrite A1, A2, A3.
      replace (v_curr v + length (vsaid x) - v_begin v) with (v_curr v - v_begin v + length (vsaid x)) by lia.
      exact F2.
    + exfalso. destruct Ho as [_ Hs]. destruct Hok as [O1 O2]. unfold view_capacity, view_size, room in *. lia.
Qed.
Lemma text_fits_cons : forall x xs cap used, is_clear x = false ->
  text_fits cap used (x :: xs) <-> (used + length (vsaid x) <= cap /\ text_fits cap (used + length (vsaid x)) xs).
Proof. intros [] xs cap used H; try discriminate H; cbn; tauto. Qed.
Lemma run_text_fits : forall xs v v', view_ok v -> Forall vop_ok xs -> do_vops v xs = Fine v' ->
  text_fits (view_capacity v) (view_size v) xs.
Proof.
  induction xs as [|x xs IH]; intros v v' Hok Hxs Hr; cbn [do_vops] in Hr; [cbn; auto|].
  inversion Hxs as [|? ? Hx Hxs']; subst. destruct (is_clear x) eqn:Ec.
  - destruct x; try discriminate Ec. cbn [do_vop bindr] in Hr. cbn [text_fits].
    pose proof (IH _ _ (clear_ok v Hok) Hxs' Hr) as H.
    unfold view_capacity, view_size, view_clear in *. cbn in H. rewrite Nat.sub_diag in H. exact H.
  - apply text_fits_cons; [exact Ec|].
    pose proof (vop_outputs v x Hok Hx Ec) as Ho.
    destruct (do_vop v x) as [v1 | v1 | v1 |]; cbn in Ho, Hr; try discriminate Hr.
    pose proof (IH _ _ (pushed_ok _ _ _ Hok Ho) Hxs' Hr) as H.
    destruct Ho as (A1 & A2 & A3 & A4 & _). destruct Hok as [O1 O2].
    unfold view_capacity, view_size in *. rewrite A1, A2, A3 in H.
    split; [lia|].
    replace (v_curr v - v_begin v + length (vsaid x)) with (v_curr v + length (vsaid x) - v_begin v) by lia.
    exact H.
Qed.
Lemma exact_ann : forall args line, Forall (fun p => announced p = length (text_of p)) args ->
  announced_all line args = length (printed line args).
Proof.
  intros args line H. unfold announced_all, printed. rewrite app_length, eol_length. f_equal.
  induction H as [|p args Hp Ha IH]; cbn; [reflexivity|]. rewrite app_length, <- IH. lia.
Qed.
Lemma exact_fits : forall xs cap used, Forall exact_op xs -> (fits cap used xs <-> text_fits cap used xs).
Proof.
  induction xs as [|x xs IH]; intros cap used H; [cbn; tauto|].
  inversion H as [|? ? Hx Hxs]; subst.
  destruct x as [l | ch | opt line args |]; cbn [fits text_fits].
  - rewrite IH by exact Hxs. tauto.
  - rewrite IH by exact Hxs. tauto.
  - cbn in Hx. rewrite (exact_ann args line Hx), IH by exact Hxs. tauto.
  - apply IH. exact Hxs.
Qed.

(** ** dynamic_io_buffer *)
Definition db_ok (b : dbuf) : Prop := length (db_text b) <= db_cap b.
Lemma double_ge : forall c, (Z.of_nat c <= 2 ^ 64 - 1)%Z -> c <= db_double c.
Proof.
  intros c H. unfold db_double. destruct (Z.ltb_spec (size_max / 2) (Z.of_nat c)); [|lia].
  unfold size_max. apply Nat2Z.inj_le. rewrite Z2Nat.id by lia. exact H.
Qed.
Lemma double_gt : forall c, 0 < c -> (Z.of_nat c < 2 ^ 64 - 1)%Z -> c < db_double c.
Proof.
  intros c H0 H. unfold db_double. destruct (Z.ltb_spec (size_max / 2) (Z.of_nat c)); [|lia].
  unfold size_max. apply Nat2Z.inj_lt. rewrite Z2Nat.id by lia. exact H.
Qed.
Lemma realloc_fine : forall b n, length (db_text b) <= n -> db_reallocate b n = Fine (mk_dbuf (db_text b) n).
Proof. intros b n H. unfold db_reallocate. destruct (Nat.leb_spec (length (db_text b)) n); [reflexivity | lia]. Qed.
Lemma dstore_fine : forall b t, length (db_text b) + length t <= db_cap b ->
  db_store b t = Fine (mk_dbuf (db_text b ++ t) (db_cap b)).
Proof. intros b t H. unfold db_store. destruct (Nat.leb_spec (length (db_text b) + length t) (db_cap b)); [reflexivity | lia]. Qed.
Lemma dop_careful : forall b x, db_ok b -> careful b x ->
  exists b', do_dop b x = Fine b' /\ db_ok b' /\ db_text b' = db_text b ++ dsaid x.
Proof.
  intros b x Hok Hc. unfold db_ok in *. destruct x as [t | ch | n |]; cbn [do_dop dsaid careful] in *.
  - unfold db_write. destruct (Nat.ltb_spec (db_cap b - length (db_text b)) (length t)) as [H|H].
    + unfold db_grow. set (c := if Nat.ltb (db_double (db_cap b)) (db_cap b + length t) then _ else _).
      assert (Hge : db_cap b + length t <= c).
      { unfold c. destruct (Nat.ltb_spec (db_double (db_cap b)) (db_cap b + length t)); lia. }
      rewrite realloc_fine by lia. cbn [bindr]. rewrite dstore_fine by (cbn [db_text db_cap]; lia).
      eexists. split; [reflexivity|]. cbn [db_text db_cap]. rewrite app_length. split; [lia | reflexivity].
    + destruct Hc as [He | Hc]; [|lia]. eexists. split; [reflexivity|]. cbn [db_text db_cap].
      rewrite He in *. cbn [length app] in *. split; [lia | reflexivity].
  - destruct Hc as [H0 H1]. unfold db_put. destruct (Nat.leb_spec (db_cap b) (length (db_text b))) as [H|H].
    + unfold db_overflow. pose proof (double_gt _ H0 H1) as Hd. rewrite realloc_fine by lia. cbn [bindr].
      rewrite dstore_fine by (cbn [db_text db_cap length]; lia).
      eexists. split; [reflexivity|]. cbn [db_text db_cap]. rewrite app_length. cbn [length]. split; [lia | reflexivity].
    + rewrite dstore_fine by (cbn [length]; lia).
      eexists. split; [reflexivity|]. cbn [db_text db_cap]. rewrite app_length. cbn [length]. split; [lia | reflexivity].
  - rewrite app_nil_r. unfold db_reserve. destruct (Nat.leb_spec (db_cap b) n).
    + eexists. split; [reflexivity|]. split; [lia | reflexivity].
    + rewrite realloc_fine by lia. eexists. split; [reflexivity|]. cbn. split; [lia | reflexivity].
  - rewrite app_nil_r. unfold db_shrink. destruct (Nat.eqb_spec (length (db_text b)) (db_cap b)).
    + eexists. split; [reflexivity|]. split; [lia | reflexivity].
    + rewrite realloc_fine by lia. eexists. split; [reflexivity|]. cbn. split; [lia | reflexivity].
Qed.
Lemma drun_careful : forall xs b, db_ok b -> careful_run b xs ->
  exists b', do_dops b xs = Fine b' /\ db_ok b' /\ db_text b' = db_text b ++ concat (map dsaid xs).
Proof.
  induction xs as [|x xs IH]; intros b Hok Hc.
  - exists b. cbn. rewrite app_nil_r. auto.
  - destruct Hc as [Hx Hr]. destruct (dop_careful b x Hok Hx) as (b1 & E1 & O1 & T1).
    destruct (IH b1 O1 (Hr b1 E1)) as (b2 & E2 & O2 & T2).
    exists b2. cbn [do_dops]. rewrite E1. cbn [bindr]. split; [exact E2|]. split; [exact O2|].
    cbn [map concat]. rewrite T2, T1, app_assoc. reflexivity.
Qed.
