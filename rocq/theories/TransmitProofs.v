(** Proofs about transmit and transmit64. *)
From Verif Require Import Base BufModel PrintModel BufSpec BufOutProofs BufInProofs TransmitModel.

Lemma add64_zlen {A} chars (l x : list A) : add64 chars (zlen (l ++ x)) = add64 (add64 chars (zlen l)) (zlen x).
Proof.
  unfold add64, zlen. rewrite app_length, Nat2Z.inj_add, Zplus_mod_idemp_l. f_equal. lia.
Qed.
Lemma add64_nil {A} chars : 0 <= chars < 2 ^ 64 -> add64 chars (@zlen A []) = chars.
Proof. intros H. unfold add64, zlen. cbn [length]. rewrite Z.add_0_r, Z.mod_small; auto. Qed.
Lemma add64_range x y : 0 <= add64 x y < 2 ^ 64.
Proof. apply Z.mod_pos_bound. lia. Qed.

Lemma firstn_rest m (l : list Z) : firstn m l ++ skipn (length (firstn m l)) l = l.
Proof.
  rewrite firstn_length. rewrite <- (firstn_skipn m l) at 4. f_equal.
  destruct (Nat.le_ge_cases m (length l)).
  - rewrite Nat.min_l by auto. reflexivity.
  - rewrite Nat.min_r, !skipn_all2 by auto. reflexivity.
Qed.
(** What io_underflow does to a used-up buffer, for any device. *)
Lemma underflow_acc c a s : unread s = [] ->
  match io_underflow c a s with
  | UFine s' more =>
      left_over s' = left_over s /\ (exists l, b_in s' = IHas l /\ (more = true <-> l <> [])) /\
      (more = true -> (length (d_src (b_dev s')) < length (d_src (b_dev s)))%nat) /\
      (honest_reads a -> (0 < c_bfs c)%nat -> more = false -> left_over s' = [])
  | URaised s' => left_over s' = left_over s /\ ~ honest_reads a
  | USmashed => False
  end.
Proof.
  intros Hu. unfold io_underflow. destruct (tie_flush_total c a s) as (s1 & [E|E]); rewrite E.
  2:{ destruct (tie_flush_raised _ _ _ _ E) as [Hi Hd]. split; [unfold left_over, unread; rewrite Hi, Hd; reflexivity|].
      intros Hh. unfold tie_flush, out_flush in E. destruct (c_out c && c_tie c); [|discriminate].
      destruct (Nat.eqb _ _); [discriminate|]. unfold handle_write, dev_write in E.
      destruct (a _ _) as [k ok] eqn:Ea. destruct ok; [discriminate|].
      pose proof (proj2 (Hh (length (d_log (b_dev s))) (length (pending s)))) as Hb. rewrite Ea in Hb. discriminate Hb. }
  destruct (tie_flush_in _ _ _ _ E) as [Hi Hd]. unfold underflow.
  set (s2 := match b_in s1 with INull => set_in s1 (IHas []) | _ => s1 end).
  assert (Hd2 : d_src (b_dev s2) = d_src (b_dev s)) by (unfold s2; destruct (b_in s1); cbn; auto).
  assert (Hu2 : unread s2 = []) by (unfold s2; unfold unread in *; rewrite <- Hi in Hu; destruct (b_in s1) eqn:Ei; cbn; rewrite ?Ei; auto).
  unfold handle_read, dev_read. destruct (a _ _) as [k ok] eqn:Ea. destruct ok; cbn.
  - set (got := firstn (Nat.min k (c_bfs c)) (d_src (b_dev s2))).
    assert (Hg : got ++ skipn (length got) (d_src (b_dev s2)) = d_src (b_dev s2)).
    { apply firstn_rest. }
    split; [unfold left_over; cbn; rewrite Hg, Hd2, Hu; reflexivity|].
    split; [exists got; split; [reflexivity|]; destruct got; cbn; split; congruence|].
    split.
    + intros Hm. rewrite <- Hd2. rewrite <- Hg at 2. rewrite app_length. destruct got; [discriminate|cbn; lia].
    + intros Hh Hb Hm. unfold left_over. cbn [unread b_in set_in b_dev set_dev d_src].
      destruct (Hh (length (d_log (b_dev s2))) (c_bfs c)) as [Hk _]. rewrite Ea in Hk. cbn in Hk.
      assert (Hgn : got = []) by (destruct got; [reflexivity|discriminate]).
      rewrite Hgn. cbn. unfold got in Hgn. destruct (d_src (b_dev s2)); [reflexivity|].
      destruct (Nat.min k (c_bfs c)) eqn:Em; [lia|discriminate].
  - split; [unfold left_over, unread in *; cbn; rewrite Hu2, Hd2, Hu; reflexivity|].
    intros Hh. destruct (Hh (length (d_log (b_dev s2))) (c_bfs c)) as [_ Hk]. rewrite Ea in Hk. discriminate Hk.
Qed.

Lemma dev_read_acc a d n : forall d' got ok, dev_read a d n = (d', got, ok) ->
  got ++ d_src d' = d_src d /\ (length got <= n)%nat /\ (ok = false -> got = []) /\
  (honest_reads a -> ok = true /\ ((0 < n)%nat -> got = [] -> d_src d' = [])).
Proof.
  intros d' got ok E. unfold dev_read in E. destruct (a _ _) as [k b] eqn:Ea. injection E as <- <- <-.
  pose proof (fun m => firstn_rest m (d_src d)) as Hg.
  split; [destruct b; [apply Hg|reflexivity]|].
  split; [destruct b; [rewrite firstn_length; lia|cbn; lia]|].
  split; [intros ->; reflexivity|].
  intros Hh. destruct (Hh (length (d_log d)) n) as [Hk Hb]. rewrite Ea in Hk, Hb. cbn in Hk, Hb. subst b.
  split; [reflexivity|]. intros Hn Hgn. cbn. rewrite Hgn. cbn. destruct (d_src d); [reflexivity|].
  destruct (Nat.min k n) eqn:Em; [lia|discriminate].
Qed.

Section Sink.
  Context {O : Type} (wr : O -> list Z -> res O) (inv : O -> Prop) (got : O -> list Z).
  (** A sink that takes everything or throws after taking a part. *)
  Hypothesis Hwr : forall o l, inv o ->
    (exists o', wr o l = Fine o' /\ got o' = got o ++ l /\ inv o') \/
    (exists o' k, wr o l = Raised o' /\ got o' = got o ++ firstn k l /\ inv o').
  Variable never : Prop.
  Hypothesis Hnever : never -> forall o l o', inv o -> wr o l <> Raised o'.

  Section Acc.
  Context {I : Type} (left : I -> list Z) (lossy : Prop).
  (** The account of a transfer that started with [i], [o] and [chars] counted. *)
  Definition acc (i : I) (o : O) (chars : Z) (r : tres I O) : Prop :=
    match r with
    | TFine i' o' n => inv o' /\ exists x, left i = x ++ left i' /\ got o' = got o ++ x /\ n = add64 chars (zlen x)
    | TRaised i' o' =>
        inv o' /\ exists x y z, left i = x ++ y ++ z /\ got o' = got o ++ x /\
          (left i' = y ++ z \/ (~ lossy /\ exists u w, x = u ++ w /\ left i' = w ++ y ++ z) \/ (lossy /\ left i' = z))
    | _ => False
    end.
  Lemma acc_step i o chars l i1 o1 r :
    left i = l ++ left i1 -> got o1 = got o ++ l -> acc i1 o1 (add64 chars (zlen l)) r -> acc i o chars r.
  Proof.
    intros Hl Hg. destruct r as [i' o' n|i' o'| | |]; cbn; auto.
    - intros (Hi & x & Hx & Ho & Hn). split; auto. exists (l ++ x). rewrite Hl, Hx, Ho, Hg, <- !app_assoc. split; auto.
      split; auto. rewrite Hn, add64_zlen. reflexivity.
    - intros (Hi & x & y & z & Hx & Ho & Hc). split; auto. exists (l ++ x), y, z.
      rewrite Hl, Hx, Ho, Hg, <- !app_assoc. split; auto. split; auto.
      destruct Hc as [Hc|[(Hlo & u & w & -> & Hc)|Hc]]; auto. right. left. split; auto. exists (l ++ u), w. rewrite <- app_assoc. auto.
  Qed.
  Lemma acc_fine i i' o chars : inv o -> 0 <= chars < 2 ^ 64 -> left i' = left i -> acc i o chars (TFine i' o chars).
  Proof.
    intros Hi Hc Hl. cbn. split; auto. exists []. rewrite app_nil_r. cbn [app]. split; auto. split; auto.
    symmetry. apply add64_nil. exact Hc.
  Qed.
  Lemma acc_raised i i' o chars : inv o -> left i' = left i -> acc i o chars (TRaised i' o).
  Proof. intros Hi Hl. cbn. split; auto. exists [], [], (left i). rewrite app_nil_r. cbn. auto. Qed.
  Lemma acc_same i i1 o chars r : left i1 = left i -> acc i1 o chars r -> acc i o chars r.
  Proof. intros Hl. unfold acc. rewrite Hl. auto. Qed.
  End Acc.

  Notation bacc := (acc left_over False).
  Notation racc := (acc d_src True).
  Definition good (a : answers) := honest_reads a /\ never.

  (** ** Buffered input *)
  Lemma buffered_loop_acc c a : forall fuel s o chars,
    b_in s <> ITorn -> inv o -> 0 <= chars < 2 ^ 64 -> (length (d_src (b_dev s)) + 1 < fuel)%nat ->
    let r := transmit_buffered_loop wr c a fuel s o chars in
    bacc s o chars r /\
    (good a -> (0 < c_bfs c)%nat -> exists s' o' n, r = TFine s' o' n /\ left_over s' = []).
  Proof.
    induction fuel as [|fuel IH]; intros s o chars Ht Hi Hc Hf r; [lia|].
    assert (Next : forall s1 o1 chars1, unread s1 = [] -> inv o1 -> 0 <= chars1 < 2 ^ 64 -> d_src (b_dev s1) = d_src (b_dev s) ->
      let r1 := match io_underflow c a s1 with
                | UFine s true => transmit_buffered_loop wr c a fuel s o1 chars1
                | UFine s false => TFine s o1 chars1
                | URaised s => TRaised s o1
                | USmashed => TSmashed
                end in
      bacc s1 o1 chars1 r1 /\ (good a -> (0 < c_bfs c)%nat -> exists s' o' n, r1 = TFine s' o' n /\ left_over s' = [])).
    { intros s1 o1 chars1 Hu Hi1 Hc1 Hd r1. pose proof (underflow_acc c a s1 Hu) as H. unfold r1. clear r1.
      destruct (io_underflow c a s1) as [s2 more|s2|]; [|split|contradiction].
      - destruct H as (Hl & (l & El & Hm) & Hlt & Hend). destruct more.
        + destruct (IH s2 o1 chars1) as [H1 H2]; auto; [congruence|specialize (Hlt eq_refl); rewrite Hd in Hlt; lia|].
          split; [|exact H2]. eapply acc_same; eauto.
        + split; [apply acc_fine; auto|]. intros [Hh _] Hb. exists s2, o1, chars1. auto.
      - apply acc_raised; tauto.
      - intros [Hh _] _. tauto. }
    unfold r. clear r. cbn [transmit_buffered_loop]. destruct (b_in s) as [|[|z l]|] eqn:Ei; [| | |congruence].
    - apply Next; auto. unfold unread. rewrite Ei. reflexivity.
    - apply Next; auto. unfold unread. rewrite Ei. reflexivity.
    - unfold send. destruct (Hwr o (z :: l) Hi) as [(o' & Ew & Hg & Hi')|(o' & k & Ew & Hg & Hi')]; rewrite Ew.
      + destruct (Next (set_in s (IHas [])) o' (add64 chars (zlen (z :: l)))) as [H1 H2]; auto using add64_range.
        split; [|exact H2]. eapply acc_step; [|exact Hg|exact H1].
        unfold left_over, unread. rewrite Ei. reflexivity.
      + split; [|intros [_ Hn] _; destruct (Hnever Hn _ _ _ Hi Ew)].
        split; auto. exists (firstn k (z :: l)), (skipn k (z :: l)), (d_src (b_dev s)).
        assert (Hl : left_over s = (z :: l) ++ d_src (b_dev s)) by (unfold left_over, unread; rewrite Ei; reflexivity).
        split; [rewrite app_assoc, firstn_skipn; exact Hl|]. split; [exact Hg|]. right. left. split; auto.
        exists [], (firstn k (z :: l)). rewrite (app_assoc (firstn _ _)), firstn_skipn. auto.
  Qed.

  (** ** Input without buffer *)
  Lemma raw_loop_acc a bs : forall fuel d o chars,
    inv o -> 0 <= chars < 2 ^ 64 -> (length (d_src d) + 1 < fuel)%nat ->
    let r := transmit_raw_loop wr a bs fuel d o chars in
    racc d o chars r /\
    (good a -> (0 < bs)%nat -> exists d' o' n, r = TFine d' o' n /\ d_src d' = []).
  Proof.
    induction fuel as [|fuel IH]; intros d o chars Hi Hc Hf r; [lia|]. unfold r. clear r. cbn [transmit_raw_loop].
    destruct (dev_read a d bs) as [[d' g] ok] eqn:E.
    destruct (dev_read_acc _ _ _ _ _ _ E) as (Hg & _ & Hno & Hh). destruct ok.
    - destruct g as [|z l].
      + split; [apply acc_fine; auto|]. intros [Ha _] Hb. exists d', o, chars. split; auto. apply Hh; auto.
      + unfold send. destruct (Hwr o (z :: l) Hi) as [(o' & Ew & Ho & Hi')|(o' & k & Ew & Ho & Hi')]; rewrite Ew.
        * destruct (IH d' o' (add64 chars (zlen (z :: l)))) as [H1 H2]; auto using add64_range.
          { apply (f_equal (@length Z)) in Hg. rewrite app_length in Hg. cbn [length] in Hg. lia. }
          split; [|exact H2]. eapply acc_step; [|exact Ho|exact H1]. auto.
        * split; [|intros [_ Hn] _; destruct (Hnever Hn _ _ _ Hi Ew)].
          split; auto. exists (firstn k (z :: l)), (skipn k (z :: l)), (d_src d').
          rewrite app_assoc, firstn_skipn. split; [symmetry; exact Hg|]. split; [exact Ho|]. auto.
    - split; [|intros [Ha _] _; destruct (Hh Ha); discriminate].
      apply acc_raised; auto. specialize (Hno eq_refl). subst g. exact Hg.
  Qed.

  (** ** Limited transfers *)
  Definition limited {I} (left : I -> list Z) (i : I) (n : Z) (r : tres I O) : Prop :=
    match r with
    | TFine i' _ m => zlen (left i) - zlen (left i') <= n
    | TRaised i' _ => zlen (left i) - zlen (left i') <= n
    | _ => True
    end.
  Definition complete {I} (left : I -> list Z) (i : I) (n : Z) (r : tres I O) : Prop :=
    exists i' o' m, r = TFine i' o' m /\ (left i' = [] \/ zlen (left i) - zlen (left i') = n).
  Lemma sub64 n m : 0 <= m <= n -> n < 2 ^ 64 -> (n - m) mod 2 ^ 64 = n - m.
  Proof. intros. apply Z.mod_small. lia. Qed.
  Lemma zlen_app' (x y : list Z) : zlen (x ++ y) = zlen x + zlen y.
  Proof. unfold zlen. rewrite app_length. lia. Qed.
  Lemma zlen_pos (x : list Z) : 0 <= zlen x.
  Proof. unfold zlen. lia. Qed.

  Lemma contiguous_acc (i : list Z) o : inv o -> zlen i < 2 ^ 64 ->
    acc (fun i => i) False i o 0 (transmit_contiguous wr i o) /\
    (never -> exists o' n, transmit_contiguous wr i o = TFine [] o' n).
  Proof.
    intros Hi Hl. unfold transmit_contiguous, send.
    destruct (Hwr o i Hi) as [(o' & Ew & Ho & Hi')|(o' & k & Ew & Ho & Hi')]; rewrite Ew.
    - split; [split; auto|eauto]. exists i. rewrite app_nil_r. split; auto. split; auto.
      unfold add64. rewrite Z.mod_small; auto. pose proof (zlen_pos i). lia.
    - split; [|intros Hn; destruct (Hnever Hn _ _ _ Hi Ew)]. split; auto.
      exists (firstn k i), (skipn k i), []. rewrite app_nil_r, firstn_skipn. split; auto. split; auto.
      right. left. split; auto. exists [], (firstn k i). rewrite firstn_skipn. auto.
  Qed.
  Lemma contiguous64_acc (i : list Z) o n : inv o -> 0 <= n < 2 ^ 64 ->
    acc (fun i => i) False i o 0 (transmit64_contiguous wr i o n) /\
    limited (fun i => i) i n (transmit64_contiguous wr i o n) /\
    (never -> complete (fun i => i) i n (transmit64_contiguous wr i o n)).
  Proof.
    intros Hi Hn. unfold transmit64_contiguous, send.
    set (t := if n <=? zlen i then n else zlen i). set (k := Z.to_nat t).
    assert (Ht : 0 <= t <= n /\ t <= zlen i).
    { pose proof (zlen_pos i). unfold t. destruct (n <=? zlen i) eqn:E; lia. }
    assert (Hk : zlen (firstn k i) = t).
    { unfold zlen in *. rewrite firstn_length. unfold k. lia. }
    assert (Hk2 : zlen i - zlen (skipn k i) = t).
    { rewrite <- Hk. rewrite <- (firstn_skipn k i) at 1. rewrite zlen_app'. lia. }
    destruct (Hwr o (firstn k i) Hi) as [(o' & Ew & Ho & Hi')|(o' & j & Ew & Ho & Hi')]; rewrite Ew.
    - split; [split; auto|].
      + exists (firstn k i). rewrite firstn_skipn, Hk. split; auto. split; auto.
        unfold add64. rewrite Z.mod_small; lia.
      + cbn. split; [lia|]. intros _. eexists _, _, _. split; [reflexivity|].
        destruct (n <=? zlen i) eqn:E; [right; unfold t in Hk2; exact Hk2|left].
        unfold k, t. rewrite skipn_all2; auto. unfold zlen. lia.
    - split; [|split; [cbn; lia|intros Hne; destruct (Hnever Hne _ _ _ Hi Ew)]]. split; auto.
      exists (firstn j (firstn k i)), (skipn j (firstn k i)), (skipn k i).
      rewrite app_assoc, firstn_skipn, firstn_skipn. split; auto. split; auto.
      right. left. split; auto. exists [], (firstn j (firstn k i)). rewrite (app_assoc (firstn j _)), firstn_skipn, firstn_skipn. auto.
  Qed.

  Lemma limited_step {I} (left : I -> list Z) i i1 t n r :
    zlen (left i) - zlen (left i1) = t -> limited left i1 (n - t) r -> limited left i n r.
  Proof. intros H. destruct r; cbn; auto; lia. Qed.
  Lemma complete_step {I} (left : I -> list Z) i i1 t n r :
    zlen (left i) - zlen (left i1) = t -> complete left i1 (n - t) r -> complete left i n r.
  Proof.
    intros H (i' & o' & m & -> & Hc). exists i', o', m. split; auto. destruct Hc; [auto|right; lia].
  Qed.
  Lemma limited_same {I} (left : I -> list Z) i i1 n r : left i1 = left i -> limited left i1 n r -> limited left i n r.
  Proof. intros H. unfold limited. rewrite H. auto. Qed.

  Lemma buffered64_loop_acc c a : forall fuel s o chars n,
    b_in s <> ITorn -> inv o -> 0 <= chars < 2 ^ 64 -> 0 <= n < 2 ^ 64 -> (length (d_src (b_dev s)) + 1 < fuel)%nat ->
    let r := transmit64_buffered_loop wr c a fuel s o chars n in
    bacc s o chars r /\ limited left_over s n r /\
    (good a -> (0 < c_bfs c)%nat -> complete left_over s n r).
  Proof.
    induction fuel as [|fuel IH]; intros s o chars n Ht Hi Hc Hn Hf r; [lia|].
    assert (Next : forall s1 o1 chars1 n1, unread s1 = [] -> inv o1 -> 0 <= chars1 < 2 ^ 64 -> 0 <= n1 < 2 ^ 64 ->
      d_src (b_dev s1) = d_src (b_dev s) ->
      let r1 := match io_underflow c a s1 with
                | UFine s true => transmit64_buffered_loop wr c a fuel s o1 chars1 n1
                | UFine s false => TFine s o1 chars1
                | URaised s => TRaised s o1
                | USmashed => TSmashed
                end in
      bacc s1 o1 chars1 r1 /\ limited left_over s1 n1 r1 /\ (good a -> (0 < c_bfs c)%nat -> complete left_over s1 n1 r1)).
    { intros s1 o1 chars1 n1 Hu Hi1 Hc1 Hn1 Hd r1. pose proof (underflow_acc c a s1 Hu) as H. unfold r1. clear r1.
      destruct (io_underflow c a s1) as [s2 more|s2|]; [| |contradiction].
      - destruct H as (Hl & (l & El & Hm) & Hlt & Hend). destruct more.
        + destruct (IH s2 o1 chars1 n1) as (H1 & H2 & H3); auto; [congruence|specialize (Hlt eq_refl); rewrite Hd in Hlt; lia|].
          split; [eapply acc_same; eauto|]. split; [eapply limited_same; eauto|].
          intros G B. specialize (H3 G B). unfold complete in *. rewrite <- Hl. exact H3.
        + split; [apply acc_fine; auto|]. split; [cbn; rewrite Hl; lia|].
          intros [Hh _] Hb. exists s2, o1, chars1. auto.
      - split; [apply acc_raised; tauto|]. split; [cbn; rewrite (proj1 H); lia|]. intros [Hh _] _. tauto. }
    unfold r. clear r. cbn [transmit64_buffered_loop]. destruct (b_in s) as [|[|z l]|] eqn:Ei; [| | |congruence].
    - apply Next; auto. unfold unread. rewrite Ei. reflexivity.
    - apply Next; auto. unfold unread. rewrite Ei. reflexivity.
    - set (L := z :: l) in *. set (t := if n <=? zlen L then n else zlen L). set (k := Z.to_nat t).
      assert (HL : 0 < zlen L) by (unfold L, zlen; cbn [length]; lia).
      assert (Htt : 0 <= t <= n /\ t <= zlen L) by (unfold t; destruct (n <=? zlen L) eqn:E; lia).
      assert (Hk : zlen (firstn k L) = t) by (unfold zlen in *; rewrite firstn_length; unfold k; lia).
      assert (Hlo : left_over s = L ++ d_src (b_dev s)) by (unfold left_over, unread; rewrite Ei; reflexivity).
      set (s1 := set_in s (IHas (skipn k L))).
      assert (Hlo1 : left_over s = firstn k L ++ left_over s1).
      { rewrite Hlo. unfold s1, left_over. cbn. rewrite app_assoc, firstn_skipn. reflexivity. }
      assert (Hd : zlen (left_over s) - zlen (left_over s1) = t) by (rewrite Hlo1, zlen_app', Hk; lia).
      unfold send. destruct (Hwr o (firstn k L) Hi) as [(o' & Ew & Hg & Hi')|(o' & j & Ew & Hg & Hi')]; rewrite Ew.
      + rewrite sub64 by lia. destruct (n - t =? 0) eqn:En.
        * split; [|split].
          { eapply acc_step; [exact Hlo1|exact Hg|]. rewrite Hk. apply acc_fine; auto using add64_range. }
          { unfold limited. fold s1. lia. }
          { intros _ _. exists s1, o', (add64 chars t). split; auto. right. lia. }
        * assert (Hu1 : unread s1 = []).
          { unfold s1, unread. cbn. unfold k. apply skipn_all2. unfold t in *. destruct (n <=? zlen L) eqn:E; [lia|].
            unfold zlen. lia. }
          destruct (Next s1 o' (add64 chars t) (n - t)) as (H1 & H2 & H3); auto using add64_range; [lia|].
          split; [|split].
          { eapply acc_step; [exact Hlo1|exact Hg|]. rewrite Hk. exact H1. }
          { eapply limited_step; eauto. }
          { intros G B. eapply complete_step; eauto. }
      + split; [|split; [cbn; lia|intros [_ Hne] _; destruct (Hnever Hne _ _ _ Hi Ew)]].
        split; auto. exists (firstn j (firstn k L)), (skipn j (firstn k L)), (left_over s1).
        rewrite app_assoc, firstn_skipn. split; auto. split; auto. right. left. split; auto.
        exists [], (firstn j (firstn k L)). rewrite (app_assoc (firstn j _)), firstn_skipn. auto.
  Qed.

  Lemma raw64_loop_acc a alloc : 0 <= alloc -> forall fuel d o chars n,
    inv o -> 0 <= chars < 2 ^ 64 -> 0 <= n < 2 ^ 64 -> (length (d_src d) + 1 < fuel)%nat ->
    let r := transmit64_raw_loop wr a alloc fuel d o chars n in
    racc d o chars r /\ limited d_src d n r /\
    (good a -> 0 < alloc \/ n = 0 -> complete d_src d n r).
  Proof.
    intros Hal. induction fuel as [|fuel IH]; intros d o chars n Hi Hc Hn Hf r; [lia|].
    unfold r. clear r. cbn [transmit64_raw_loop].
    set (t := if n <=? alloc then n else alloc).
    assert (Htt : 0 <= t <= n /\ t <= alloc) by (unfold t; destruct (n <=? alloc) eqn:E; lia).
    destruct (t =? 0) eqn:Et.
    { split; [apply acc_fine; auto|]. split; [cbn; lia|]. intros _ Ha. exists d, o, chars. split; auto. right.
      unfold t in Et. destruct (n <=? alloc) eqn:E; lia. }
    replace (alloc <? t) with false by lia.
    destruct (dev_read a d (Z.to_nat t)) as [[d' g] ok] eqn:E.
    destruct (dev_read_acc _ _ _ _ _ _ E) as (Hg & Hgl & Hno & Hh). destruct ok.
    - destruct g as [|z l].
      + split; [apply acc_fine; auto|]. split; [cbn; rewrite <- Hg; cbn; lia|].
        intros [Ha _] Hb. exists d', o, chars. split; auto. left. apply Hh; auto. lia.
      + set (L := z :: l) in *.
        assert (HL : 0 < zlen L <= t) by (unfold zlen; split; [unfold L; cbn [length]|]; lia).
        assert (Hd : zlen (d_src d) - zlen (d_src d') = zlen L) by (rewrite <- Hg, zlen_app'; lia).
        unfold send. destruct (Hwr o L Hi) as [(o' & Ew & Ho & Hi')|(o' & k & Ew & Ho & Hi')]; rewrite Ew.
        * rewrite sub64 by lia. destruct (n - zlen L =? 0) eqn:En.
          { split; [|split].
            - eapply acc_step; [symmetry; exact Hg|exact Ho|]. apply acc_fine; auto using add64_range.
            - cbn. lia.
            - intros _ _. eexists _, _, _. split; [reflexivity|]. right. lia. }
          { destruct (IH d' o' (add64 chars (zlen L)) (n - zlen L)) as (H1 & H2 & H3); auto using add64_range; [lia|unfold zlen in *; lia|].
            split; [|split].
            - eapply acc_step; [symmetry; exact Hg|exact Ho|]. exact H1.
            - eapply limited_step; eauto.
            - intros G B. eapply complete_step; [eauto|]. apply H3; auto. left. lia. }
        * split; [|split; [cbn; lia|intros [_ Hne] _; destruct (Hnever Hne _ _ _ Hi Ew)]].
          split; auto. exists (firstn k L), (skipn k L), (d_src d').
          rewrite app_assoc, firstn_skipn. split; [symmetry; exact Hg|]. split; [exact Ho|]. auto.
    - specialize (Hno eq_refl). subst g. cbn in Hg. split; [apply acc_raised; auto|]. split; [cbn; rewrite Hg; lia|].
      intros [Ha _] _; destruct (Hh Ha); discriminate.
  Qed.
End Sink.

(** ** sendfile *)
Lemma plus_acc {I O} inv (got : O -> list Z) (left : I -> list Z) lossy i o total r :
  acc inv got left lossy i o 0 r -> acc inv got left lossy i o total (plus total r).
Proof.
  destruct r; cbn; auto. intros (Hi & x & Hx & Ho & Hn). split; auto. exists x. split; auto. split; auto.
  subst chars. unfold add64. rewrite Zplus_mod_idemp_r. f_equal.
Qed.
Lemma plus_complete {I O} (left : I -> list Z) (i : I) n total (r : tres I O) : complete left i n r -> complete left i n (plus total r).
Proof. intros (i' & o' & m & -> & H). cbn. eexists _, _, _. split; [reflexivity|exact H]. Qed.
Lemma plus_limited {I O} (left : I -> list Z) (i : I) n total (r : tres I O) : limited left i n r -> limited left i n (plus total r).
Proof. destruct r; cbn; auto. Qed.
Lemma plus_whole {I O} (left : I -> list Z) total (r : tres I O) :
  (exists i' o' n, r = TFine i' o' n /\ left i' = []) -> exists i' o' n, plus total r = TFine i' o' n /\ left i' = [].
Proof. intros (i' & o' & m & -> & H). cbn. eexists _, _, _. split; [reflexivity|exact H]. Qed.

Lemma sendfile_acc sf i o n : forall i' o' k ok, sendfile sf i o n = (i', o', k, ok) ->
  if ok then exists x, d_src i = x ++ d_src i' /\ delivered (d_log o') = delivered (d_log o) ++ x /\ k = length x /\ (k <= n)%nat /\
               ((forall k n, snd (sf k n) = true -> (0 < n -> 0 < fst (sf k n))%nat) -> (0 < n)%nat -> k = 0%nat -> d_src i' = [])
  else i' = i /\ o' = o.
Proof.
  intros i' o' k ok E. unfold sendfile in E. destruct (sf _ _) as [j b] eqn:Es. destruct b; injection E as <- <- <- <-; auto.
  exists (firstn (Nat.min j n) (d_src i)). cbn. rewrite delivered_app. cbn. rewrite app_nil_r, firstn_rest.
  repeat split; auto; [rewrite firstn_length; lia|].
  intros Hh Hn H0. specialize (Hh (length (d_log o)) n). rewrite Es in Hh. specialize (Hh eq_refl Hn). cbn in Hh.
  rewrite H0. cbn. destruct (d_src i); [reflexivity|]. rewrite firstn_length in H0. cbn in H0. lia.
Qed.
Lemma raw_sink ao : all_or_throw ao -> forall (o : dev) l, True ->
    (exists o', raw_write ao o l = Fine o' /\ delivered (d_log o') = delivered (d_log o) ++ l /\ True) \/
    (exists o' k, raw_write ao o l = Raised o' /\ delivered (d_log o') = delivered (d_log o) ++ firstn k l /\ True).
Proof.
  intros Ha o l _. unfold raw_write, dev_write. specialize (Ha (length (d_log o)) (length l)).
  destruct (ao _ _) as [k ok]. cbn in Ha. destruct ok.
  - left. eexists. split; [reflexivity|]. cbn. rewrite delivered_app. cbn. rewrite app_nil_r, firstn_all2; auto.
  - right. eexists _, k. split; [reflexivity|]. cbn. rewrite delivered_app. cbn. rewrite app_nil_r. auto.
Qed.
Lemma raw_never ao : never_throws ao -> forall o l o', True -> raw_write ao o l <> Raised o'.
Proof.
  intros Ha o l o' _. unfold raw_write, dev_write. specialize (Ha (length (d_log o)) (length l)).
  destruct (ao _ _) as [k ok]. cbn in Ha. subst ok. discriminate.
Qed.
Section Zero.
  Variables (sf ai ao : answers) (round bs : nat).
  Hypothesis Hao : all_or_throw ao.
  Notation zacc := (acc (fun _ : dev => True) (fun o => delivered (d_log o)) d_src True).
  Definition zgood : Prop := (forall k n, snd (sf k n) = true -> (0 < n -> 0 < fst (sf k n))%nat) /\ honest_reads ai /\ never_throws ao /\ (0 < round)%nat /\ (0 < bs)%nat.
  Lemma zero_copy_acc : forall fuel i o total, 0 <= total < 2 ^ 64 -> (length (d_src i) + 1 < fuel)%nat ->
    let r := zero_copy_loop sf ai ao round bs fuel i o total in
    zacc i o total r /\ (zgood -> exists i' o' n, r = TFine i' o' n /\ d_src i' = []).
  Proof.
    induction fuel as [|fuel IH]; intros i o total Ht Hf r; [lia|]. unfold r. clear r. cbn [zero_copy_loop].
    destruct (sendfile sf i o round) as [[[i' o'] k] ok] eqn:E. pose proof (sendfile_acc _ _ _ _ _ _ _ _ E) as H.
    destruct ok.
    - destruct H as (x & Hs & Hd & Hk & Hkr & Hz). destruct (Nat.eqb k 0) eqn:Ek.
      + apply Nat.eqb_eq in Ek. assert (x = []) by (destruct x; [auto|cbn in Hk; lia]). subst x. split.
        * split; auto. exists []. split; [exact Hs|]. split; [exact Hd|]. symmetry. apply add64_nil; auto.
        * intros (Z1 & Z2 & Z3 & Z4 & Z5). eexists _, _, _. split; [reflexivity|]. apply Hz; auto.
      + apply Nat.eqb_neq in Ek. rewrite Hk. fold (@zlen Z x).
        destruct (IH i' o' (add64 total (zlen x))) as [H1 H2]; auto using add64_range.
        { apply (f_equal (@length Z)) in Hs. rewrite app_length in Hs. lia. }
        split; [|exact H2]. eapply acc_step; [exact Hs|exact Hd|exact H1].
    - destruct H as [-> ->]. destruct (raw_loop_acc (raw_write ao) (fun _ => True) (fun o => delivered (d_log o)) (raw_sink ao Hao)
        (never_throws ao) (raw_never ao) ai bs (loop_fuel (d_src i)) i o 0) as [H1 H2]; auto; [lia|unfold loop_fuel; lia|].
      split; [apply plus_acc; exact H1|]. intros (Z1 & Z2 & Z3 & Z4 & Z5). apply plus_whole. apply H2; auto. split; auto.
  Qed.
  Lemma zero_copy64_acc : forall fuel i o total n, 0 <= total < 2 ^ 64 -> 0 <= n < 2 ^ 64 -> (length (d_src i) + 1 < fuel)%nat ->
    let r := zero_copy64_loop sf ai ao round bs fuel i o total n in
    zacc i o total r /\ limited d_src i n r /\ (zgood -> complete d_src i n r).
  Proof.
    induction fuel as [|fuel IH]; intros i o total n Ht Hn Hf r; [lia|]. unfold r. clear r. cbn [zero_copy64_loop].
    set (t := if n <? Z.of_nat round then n else Z.of_nat round).
    assert (Htt : 0 <= t <= n) by (unfold t; destruct (n <? Z.of_nat round) eqn:E; lia).
    destruct (sendfile sf i o (Z.to_nat t)) as [[[i' o'] k] ok] eqn:E. pose proof (sendfile_acc _ _ _ _ _ _ _ _ E) as H.
    destruct ok.
    - destruct H as (x & Hs & Hd & Hk & Hkr & Hz).
      assert (Hx : 0 <= zlen x <= t) by (unfold zlen; lia).
      assert (Hdd : zlen (d_src i) - zlen (d_src i') = zlen x) by (rewrite Hs, zlen_app'; lia).
      destruct (Nat.eqb k 0) eqn:Ek.
      + apply Nat.eqb_eq in Ek. assert (x = []) by (destruct x; [auto|cbn in Hk; lia]). subst x. split; [|split].
        * split; auto. exists []. split; [exact Hs|]. split; [exact Hd|]. symmetry. apply add64_nil; auto.
        * unfold limited. lia.
        * intros (Z1 & Z2 & Z3 & Z4 & Z5). eexists _, _, _. split; [reflexivity|].
          destruct (n =? 0) eqn:En; [right; cbn in Hdd; lia|left]. apply Hz; auto. unfold t. destruct (n <? Z.of_nat round) eqn:Er; lia.
      + apply Nat.eqb_neq in Ek. rewrite Hk. fold (@zlen Z x). rewrite sub64 by lia.
        destruct (n - zlen x =? 0) eqn:En.
        * split; [|split].
          { eapply acc_step; [exact Hs|exact Hd|]. apply acc_fine; auto using add64_range. }
          { unfold limited. lia. }
          { intros _. eexists _, _, _. split; [reflexivity|]. right. lia. }
        * destruct (IH i' o' (add64 total (zlen x)) (n - zlen x)) as (H1 & H2 & H3); auto using add64_range; [lia|unfold zlen in *; lia|].
          split; [|split].
          { eapply acc_step; [exact Hs|exact Hd|exact H1]. }
          { eapply limited_step; eauto. }
          { intros G. eapply complete_step; eauto. }
    - destruct H as [-> ->]. destruct (raw64_loop_acc (raw_write ao) (fun _ => True) (fun o => delivered (d_log o)) (raw_sink ao Hao)
        (never_throws ao) (raw_never ao) ai (if n <? Z.of_nat bs then n else Z.of_nat bs)) with (fuel := loop_fuel (d_src i)) (d := i) (o := o) (chars := 0) (n := n)
        as (H1 & H2 & H3); auto; [destruct (n <? Z.of_nat bs) eqn:Eb; lia|lia|unfold loop_fuel; lia|].
      split; [apply plus_acc; exact H1|]. split; [apply plus_limited; exact H2|].
      intros (Z1 & Z2 & Z3 & Z4 & Z5). apply plus_complete. apply H3; [split; auto|].
      destruct (n <? Z.of_nat bs) eqn:Eb; lia.
  Qed.
End Zero.
