(** Calls that follow the discipline are explained by a sequential order. *)
From Verif Require Import Base LockModel LockSpec.

Section Proofs.
Context {S R : Type}.
Implicit Types (P : calls S R) (c : cmd S R) (w : world S R) (lin : list (nat * nat)).
Definition eqf (f g : nat -> S) : Prop := forall m, f m = g m.
Definition mix (held : list nat) (f g : nat -> S) (m : nat) : S := if in_dec Nat.eq_dec m held then f m else g m.

Lemma set_same {A} (f : nat -> A) x v : set f x v x = v.
Proof. unfold set. rewrite Nat.eqb_refl. reflexivity. Qed.
Lemma set_other {A} (f : nat -> A) x v y : y <> x -> set f x v y = f y.
Proof. intros H. unfold set. apply Nat.eqb_neq in H. rewrite H. reflexivity. Qed.

Lemma alone_ext c : forall f g, eqf f g -> eqf (fst (alone c f)) (fst (alone c g)) /\ snd (alone c f) = snd (alone c g).
Proof.
  induction c as [m k IH|m k IH|m k IH|m s k IH|r]; intros f g H; cbn; auto.
  - rewrite (H m). apply IH. exact H.
  - apply IH. intros n. unfold set. destruct (Nat.eqb n m); auto.
Qed.
Lemma gives_back_alone c : forall held, gives_back held c -> exists r, forall f, alone c f = (f, r).
Proof.
  induction c as [m k IH|m k IH|m k IH|m s k IH|r]; intros held H; cbn in *; try contradiction.
  - destruct H as [_ H]. destruct (IH _ H) as [r Hr]. eauto.
  - eauto.
Qed.
Lemma nodup_snoc {A} (l : list A) x : NoDup l -> ~ In x l -> NoDup (l ++ [x]).
Proof. intros H1 H2. apply NoDup_Add with (a := x) (l := l); [|split; auto]. pose proof (Add_app x l []) as H. rewrite app_nil_r in H. exact H. Qed.
Lemma one_by_one_app P : forall l l' f, one_by_one P (l ++ l') f = one_by_one P l' (one_by_one P l f).
Proof. induction l as [|o l IH]; intros l' f; cbn; auto. Qed.

Lemma before_app {A} (x y : A) l l' : before x y l -> before x y (l ++ l').
Proof.
  intros (l1 & l2 & l3 & ->). exists l1, l2, (l3 ++ l'). rewrite <- app_assoc. cbn. rewrite <- app_assoc. reflexivity.
Qed.
Lemma before_last {A} (x y : A) l : In x l -> before x y (l ++ [y]).
Proof.
  intros H. apply in_split in H. destruct H as (l1 & l2 & ->). exists l1, l2, []. rewrite <- app_assoc. reflexivity.
Qed.
(** A pair in an extended trace is in the trace or ends with the new event. *)
Lemma before_snoc {A} (x y e : A) l : before x y (l ++ [e]) -> before x y l \/ (y = e /\ In x l).
Proof.
  intros (l1 & l2 & l3 & H). destruct (exists_last (l := y :: l3)) as (l4 & z & E); [discriminate|].
  assert (H' : l ++ [e] = (l1 ++ x :: l2 ++ l4) ++ [z]).
  { rewrite H, E. rewrite <- !app_assoc. cbn. rewrite <- !app_assoc. reflexivity. }
  apply app_inj_tail in H'. destruct H' as [-> ->]. destruct l4 as [|y' l4].
  - cbn in E. injection E as -> _. right. split; auto. apply in_or_app. right. left. reflexivity.
  - cbn in E. injection E as <- E. left. exists l1, l2, l4. reflexivity.
Qed.
Lemma split_snoc {A} (x : A) l e pre post : NoDup (l ++ [e]) -> l ++ [e] = pre ++ x :: post -> In x l ->
  exists post', l = pre ++ x :: post'.
Proof.
  intros Hn H Hx. destruct (exists_last (l := x :: post)) as (l4 & z & E); [discriminate|].
  rewrite E, app_assoc in H. apply app_inj_tail in H. destruct H as [-> ->]. destruct l4 as [|x' l4].
  - cbn in E. injection E as -> _. rewrite app_nil_r in *. exfalso.
    apply (NoDup_remove_2 pre [] z); [exact Hn|rewrite app_nil_r; exact Hx].
  - cbn in E. injection E as <- E. exists l4. reflexivity.
Qed.

(** What is known of a thread; [com] is the memory after the calls of [lin]. *)
Definition thread_ok P (mem0 : nat -> S) w lin (t : nat) : Prop :=
  match running (thr w t) with
  | None => (forall m, owner w m <> Some t) /\ (forall i, (i < next (thr w t))%nat -> In (t, i) lin)
  | Some c =>
      exists i op held, next (thr w t) = Datatypes.S i /\ nth_error (P t) i = Some op /\
        (forall m, owner w m = Some t <-> In m held) /\ (forall j, (j < i)%nat -> In (t, j) lin) /\
        ((~ In (t, i) lin /\ disciplined held c /\
          forall f, (forall m, In m held -> f m = one_by_one P lin mem0 m) ->
            eqf (fst (alone op f)) (fst (alone c (mix held (mem w) f))) /\
            snd (alone op f) = snd (alone c (mix held (mem w) f)))
         \/
         (In (t, i) lin /\ gives_back held c /\ (forall m, In m held -> mem w m = one_by_one P lin mem0 m) /\
          exists r, (forall f, alone c f = (f, r)) /\
            forall pre post, lin = pre ++ (t, i) :: post -> outcome_of P pre (t, i) mem0 = Some r))
  end.
Record inv P (mem0 : nat -> S) (tr : list event) w lin : Prop := mk_inv {
  i_nodup : NoDup lin;
  i_free : forall m, owner w m = None -> mem w m = one_by_one P lin mem0 m;
  i_thr : forall t, thread_ok P mem0 w lin t;
  i_lin : forall t i, In (t, i) lin -> (i < next (thr w t))%nat;
  i_began : forall t i, In (Began t i) tr <-> (i < next (thr w t))%nat;
  i_ended : forall t i r, In (Ended t i r) tr -> In (t, i) lin /\ (running (thr w t) <> None -> Datatypes.S i <> next (thr w t));
  i_out : forall o r pre post, ended o r tr -> lin = pre ++ o :: post -> outcome_of P pre o mem0 = Some r;
  i_order : forall o o', In o' lin -> precedes o o' tr -> before o o' lin;
  i_prog : forall t i j, (i < j)%nat -> In (t, j) lin -> before (t, i) (t, j) lin }.

Lemma inv_start P mem0 : inv P mem0 [] (start mem0) [].
Proof.
  constructor; cbn.
  - constructor.
  - auto.
  - intros t. unfold thread_ok. cbn. split; [discriminate|intros; lia].
  - contradiction.
  - intros t i. split; [contradiction|lia].
  - contradiction.
  - intros o r pre post [].
  - contradiction.
  - contradiction.
Qed.

(** Other threads do not notice a change of the memory or the owners of streams they do not have. *)
Lemma thread_ok_other P mem0 w w' lin t :
  thr w' t = thr w t -> (forall m, owner w' m = Some t <-> owner w m = Some t) ->
  (forall m, owner w m = Some t -> mem w' m = mem w m) ->
  thread_ok P mem0 w lin t -> thread_ok P mem0 w' lin t.
Proof.
  intros Ht Ho Hm. unfold thread_ok. rewrite Ht. destruct (running (thr w t)) as [c|].
  - intros (i & op & held & H1 & H2 & H3 & H4 & H5). exists i, op, held. split; auto. split; auto.
    split; [intros m; rewrite Ho; apply H3|]. split; auto.
    assert (Hh : forall m, In m held -> mem w' m = mem w m) by (intros m Hin; apply Hm, H3; exact Hin).
    destruct H5 as [(A & B & C)|(A & B & C & D)]; [left|right].
    + split; auto. split; auto. intros f Hf. destruct (C f Hf) as [C1 C2].
      assert (E : eqf (mix held (mem w) f) (mix held (mem w') f)).
      { intros m. unfold mix. destruct (in_dec Nat.eq_dec m held); auto. symmetry. auto. }
      destruct (alone_ext c _ _ E) as [E1 E2]. split; [intros m; rewrite C1; apply E1|rewrite C2; exact E2].
    + split; auto. split; auto. split; auto. intros m Hin. rewrite Hh; auto.
  - intros [A B]. split; auto. intros m E. apply (A m), Ho. exact E.
Qed.
(** ... nor a new call taking effect on streams they do not have. *)
Lemma thread_ok_commit P mem0 w lin t o :
  NoDup lin -> ~ In o lin -> fst o <> t ->
  (forall m, owner w m = Some t -> one_by_one P (lin ++ [o]) mem0 m = one_by_one P lin mem0 m) ->
  thread_ok P mem0 w lin t -> thread_ok P mem0 w (lin ++ [o]) t.
Proof.
  intros Hnd Hn Hot Hm. unfold thread_ok. destruct (running (thr w t)) as [c|].
  - intros (i & op & held & H1 & H2 & H3 & H4 & H5). exists i, op, held. split; auto. split; auto. split; auto.
    split; [intros j Hj; apply in_or_app; auto|].
    assert (Hh : forall m, In m held -> one_by_one P (lin ++ [o]) mem0 m = one_by_one P lin mem0 m) by (intros m Hin; apply Hm, H3; exact Hin).
    destruct H5 as [(A & B & C)|(A & B & C & r & D & E)]; [left|right].
    + split; [intros Hin; apply in_app_or in Hin; destruct Hin as [Hin|[->|[]]]; [auto|apply Hot; reflexivity]|].
      split; auto. intros f Hf. apply C. intros m Hin. rewrite Hf, Hh; auto.
    + split; [apply in_or_app; auto|]. split; auto. split; [intros m Hin; rewrite C, Hh; auto|].
      exists r. split; auto. intros pre post Hl.
      destruct (split_snoc (t, i) lin o pre post) as [post' Hp]; auto using nodup_snoc. apply (E pre post'). exact Hp.
  - intros [A B]. split; auto. intros i Hi. apply in_or_app. left. auto.
Qed.

Lemma ended_began o (r : R) e t i : ended o r (e ++ [Began t i]) -> ended o r e.
Proof. unfold ended. intros H. apply in_app_or in H. destruct H as [H|[H|[]]]; [exact H|discriminate]. Qed.
Lemma precedes_nil o o' (tr : list (event (R := R))) : precedes o o' (tr ++ []) -> precedes o o' tr.
Proof. rewrite app_nil_r. auto. Qed.
Lemma precedes_ended o o' tr t i r : precedes o o' (tr ++ [@Ended R t i r]) -> precedes o o' tr.
Proof. intros [r' H]. apply before_snoc in H. destruct H as [H|[H _]]; [exists r'; exact H|discriminate]. Qed.
Lemma precedes_began o o' tr t i : precedes o o' (tr ++ [@Began R t i]) -> precedes o o' tr \/ (o' = (t, i) /\ exists r, ended o r tr).
Proof.
  intros [r' H]. apply before_snoc in H. destruct H as [H|[H H2]]; [left; exists r'; exact H|].
  right. injection H as H3 H4. destruct o'; cbn in *. subst. eauto.
Qed.

(** The effect of one more call, the call of a thread that stops growing. *)
Lemma commit_com P mem0 w lin t i op held c f0 :
  nth_error (P t) i = Some op ->
  (forall f, (forall m, In m held -> f m = one_by_one P lin mem0 m) ->
     eqf (fst (alone op f)) (fst (alone c (mix held (mem w) f))) /\
     snd (alone op f) = snd (alone c (mix held (mem w) f))) ->
  (forall f, alone c f = (f, f0)) ->
  (forall m, one_by_one P (lin ++ [(t, i)]) mem0 m = mix held (mem w) (one_by_one P lin mem0) m) /\
  outcome_of P lin (t, i) mem0 = Some f0.
Proof.
  intros Hop Hsim Hc. unfold outcome_of, call. cbn [fst snd]. rewrite Hop.
  destruct (Hsim (one_by_one P lin mem0)) as [H1 H2]; auto. rewrite Hc in H1, H2. split; [|f_equal; exact H2].
  intros m. rewrite one_by_one_app. cbn. unfold call. cbn. rewrite Hop. rewrite H1. reflexivity.
Qed.

Lemma inv_silent P mem0 tr w w' lin :
  (forall t, next (thr w' t) = next (thr w t)) -> (forall t, running (thr w t) = None <-> running (thr w' t) = None) ->
  (forall m, owner w' m = None -> mem w' m = one_by_one P lin mem0 m) ->
  (forall t, thread_ok P mem0 w' lin t) ->
  inv P mem0 tr w lin -> inv P mem0 (tr ++ []) w' lin.
Proof.
  intros Hn Hr Hf Ht [I1 I2 I3 I4 I5 I6 I7 I8 I9]. rewrite app_nil_r. constructor; auto.
  - intros t i Hi. rewrite Hn. auto.
  - intros t i. rewrite Hn. auto.
  - intros t i r Hi. destruct (I6 _ _ _ Hi) as [A B]. split; auto. intros Hrun. rewrite Hn. apply B.
    intros E. apply Hrun, Hr. exact E.
Qed.

Lemma inv_step P mem0 tr w lin e w' :
  (forall t c, In c (P t) -> disciplined [] c) ->
  inv P mem0 tr w lin -> step P w e w' -> exists lin', inv P mem0 (tr ++ e) w' lin'.
Proof.
  intros HP HI Hs. pose proof HI as [I1 I2 I3 I4 I5 I6 I7 I8 I9].
  inversion Hs as [mm oo th t c Hrun Hcall|mm oo th t r Hrun|mm oo th t m k Hrun Hown|mm oo th t m k Hrun Hown
                  |mm oo th t m k Hrun|mm oo th t m s k Hrun]; subst; clear Hs; cbn [mem owner thr] in *;
    pose proof (I3 t) as Tt; unfold thread_ok in Tt; cbn [mem owner thr] in Tt; rewrite Hrun in Tt.
  - (* a call begins *)
    destruct Tt as [T1 T2]. exists lin.
    assert (Hother : forall t', t' <> t -> set th t {| next := Datatypes.S (next (th t)); running := Some c |} t' = th t')
      by (intros; apply set_other; auto).
    constructor; cbn [mem owner thr]; auto.
    + intros t'. destruct (Nat.eq_dec t' t) as [->|Hne].
      * unfold thread_ok. cbn [mem owner thr]. rewrite set_same. cbn [running next].
        exists (next (th t)), c, []. split; auto. split; auto.
        split; [intros m; split; [intros E; destruct (T1 m E)|intros []]|]. split; auto. left.
        split; [intros Hin; apply I4 in Hin; lia|].
        split; [apply (HP t); eapply nth_error_In; eauto|].
        intros f _. apply alone_ext. intros m. reflexivity.
      * eapply thread_ok_other; [..|apply (I3 t')]; cbn [mem owner thr]; auto; tauto.
    + intros t' i Hi. apply I4 in Hi. destruct (Nat.eq_dec t' t) as [->|Hne]; [rewrite set_same; cbn; lia|rewrite Hother; auto].
    + intros t' i. split.
      * intros H. apply in_app_or in H. destruct H as [H|[H|[]]].
        -- apply I5 in H. destruct (Nat.eq_dec t' t) as [->|Hne]; [rewrite set_same; cbn; lia|rewrite Hother; auto].
        -- injection H as <- <-. rewrite set_same. cbn. lia.
      * intros H. apply in_or_app. destruct (Nat.eq_dec t' t) as [->|Hne].
        -- rewrite set_same in H. cbn in H. destruct (Nat.eq_dec i (next (th t))) as [->|]; [right; left; reflexivity|].
           left. apply I5. lia.
        -- rewrite Hother in H by auto. left. apply I5. exact H.
    + intros t' i r H. apply in_app_or in H. destruct H as [H|[H|[]]]; [|discriminate].
      destruct (I6 _ _ _ H) as [A B]. split; auto. destruct (Nat.eq_dec t' t) as [->|Hne].
      * rewrite set_same. cbn. intros _. apply I4 in A. lia.
      * rewrite Hother by auto. auto.
    + intros o r pre post H. apply ended_began in H. eauto.
    + intros o o' Hin H. apply precedes_began in H. destruct H as [H|[-> _]]; auto. apply I4 in Hin. lia.
  - (* a call ends *)
    destruct Tt as (i & op & held & T1 & T2 & T3 & T4 & T5). rewrite T1. cbn [pred].
    assert (Hother : forall t', t' <> t -> set th t {| next := Datatypes.S i; running := @None (cmd S R) |} t' = th t')
      by (intros; apply set_other; auto).
    assert (Hheld : held = []) by (destruct T5 as [(_ & D & _)|(_ & D & _)]; exact D). subst held.
    assert (Hfin : exists lin', (forall m, one_by_one P lin' mem0 m = one_by_one P lin mem0 m) /\ NoDup lin' /\ In (t, i) lin' /\
              (forall o, In o lin' <-> In o lin \/ o = (t, i)) /\
              (lin' = lin \/ (lin' = lin ++ [(t, i)] /\ ~ In (t, i) lin)) /\
              (forall pre post, lin' = pre ++ (t, i) :: post -> outcome_of P pre (t, i) mem0 = Some r)).
    { destruct T5 as [(A & B & C)|(A & B & C & r' & D & E)].
      - exists (lin ++ [(t, i)]).
        destruct (commit_com P mem0 (mk_world mm oo th) lin t i op [] (CEnd r) r T2 C) as [C1 C2]; [reflexivity|].
        split; [exact C1|]. split; [apply nodup_snoc; auto|]. split; [apply in_or_app; right; left; reflexivity|].
        split; [intros o; rewrite in_app_iff; cbn; intuition|]. split; [auto|].
        intros pre post Hl. destruct post as [|p post].
        + apply app_inj_tail in Hl. destruct Hl as [<- _]. exact C2.
        + exfalso. apply A. destruct (exists_last (l := p :: post)) as (l4 & z & E); [discriminate|].
          rewrite E in Hl. change (pre ++ (t, i) :: l4 ++ [z]) with (pre ++ ((t, i) :: l4) ++ [z]) in Hl.
          rewrite app_assoc in Hl. apply app_inj_tail in Hl. destruct Hl as [-> _]. apply in_or_app. right. left. reflexivity.
      - exists lin. split; auto. split; auto. split; auto. split; [intros o; split; [auto|intros [H| ->]; auto]|]. split; auto.
        specialize (D mm). injection D as <-. exact E. }
    destruct Hfin as (lin' & F1 & F2 & F3 & F4 & F5 & F6). exists lin'.
    constructor; cbn [mem owner thr]; auto.
    + intros m Hm. rewrite F1. auto.
    + intros t'. destruct (Nat.eq_dec t' t) as [->|Hne].
      * unfold thread_ok. cbn [mem owner thr]. rewrite set_same. cbn [running next]. split.
        -- intros m E. apply T3 in E. destruct E.
        -- intros j Hj. apply F4. destruct (Nat.eq_dec j i) as [->|]; [auto|]. left. apply T4. lia.
      * assert (H : thread_ok P mem0 (mk_world mm oo th) lin' t').
        { destruct F5 as [->|[-> Hni]]; [apply I3|]. apply thread_ok_commit; auto; cbn; auto. }
        eapply thread_ok_other; [..|exact H]; cbn [mem owner thr]; auto; tauto.
    + intros t' j Hj. apply F4 in Hj. destruct (Nat.eq_dec t' t) as [->|Hne].
      * rewrite set_same. cbn. destruct Hj as [Hj|Hj]; [apply I4 in Hj; lia|injection Hj as ->; lia].
      * rewrite Hother by auto. destruct Hj as [Hj|Hj]; [auto|injection Hj as -> ->; congruence].
    + intros t' j. rewrite in_app_iff. cbn. rewrite I5.
      destruct (Nat.eq_dec t' t) as [->|Hne]; [rewrite set_same; cbn|rewrite Hother by auto]; intuition (try discriminate; lia).
    + intros t' j r' H. apply in_app_or in H. destruct H as [H|[H|[]]].
      * destruct (I6 _ _ _ H) as [A B]. split; [apply F4; auto|]. destruct (Nat.eq_dec t' t) as [->|Hne].
        -- rewrite set_same. cbn. congruence.
        -- rewrite Hother by auto. exact B.
      * injection H as <- <- <-. split; auto. rewrite set_same. cbn. congruence.
    + intros o r' pre post H Hl. unfold ended in H. apply in_app_or in H. destruct H as [H|[H|[]]].
      * destruct F5 as [->|[-> Hni]]; [eapply I7; eauto|].
        destruct o as [t' j]. destruct (I6 _ _ _ H) as [A B].
        destruct (split_snoc (t', j) lin (t, i) pre post) as [post' Hp]; auto. eapply I7; eauto.
      * injection H as H1 H2 <-. destruct o as [t' j]. cbn in H1, H2. subst t' j. eapply F6; eauto.
    + intros o o' Hin H. apply precedes_ended in H. destruct F5 as [->|[-> Hni]]; [auto|].
      apply F4 in Hin. destruct Hin as [Hin| ->]; [apply before_app; auto|].
      destruct H as [r' H]. apply before_last. destruct o as [t' j].
      assert (He : In (Ended t' j r') tr) by (destruct H as (l1 & l2 & l3 & ->); apply in_or_app; right; left; reflexivity).
      apply I6 in He. tauto.
    + intros t' i' j' Hij Hin. destruct F5 as [->|[-> Hni]]; [auto|].
      apply F4 in Hin. destruct Hin as [Hin|Hin]; [apply before_app; auto|].
      injection Hin as -> ->. apply before_last. auto.
  - (* lock *)
    destruct Tt as (i & op & held & T1 & T2 & T3 & T4 & T5). exists lin.
    destruct T5 as [(A & B & C)|(A & B & C & D)]; [|destruct B].
    destruct B as [B|B]; [apply T3 in B; congruence|].
    eapply inv_silent; [..|exact HI]; cbn [mem owner thr].
    + intros t'. unfold set. destruct (Nat.eqb t' t) eqn:E; auto. apply Nat.eqb_eq in E. subst. reflexivity.
    + intros t'. unfold set. destruct (Nat.eqb t' t) eqn:E; [|tauto]. apply Nat.eqb_eq in E. subst. rewrite Hrun. cbn. split; discriminate.
    + intros m' Hm'. destruct (Nat.eq_dec m' m) as [->|Hne]; [rewrite set_same in Hm'; discriminate|].
      rewrite set_other in Hm' by auto. auto.
    + intros t'. destruct (Nat.eq_dec t' t) as [->|Hne].
      * unfold thread_ok. cbn [mem owner thr]. rewrite set_same. cbn [running next].
        exists i, op, (m :: held). split; auto. split; auto. split.
        { intros m'. destruct (Nat.eq_dec m' m) as [->|Hne]; [rewrite set_same; cbn; tauto|].
          rewrite set_other by auto. rewrite T3. cbn. intuition congruence. }
        split; auto. left. split; auto. split; [exact B|].
        intros f Hf. destruct (C f) as [C1 C2]; [intros m' Hm'; apply Hf; right; exact Hm'|]. cbn [alone] in C1, C2.
        assert (E : eqf (mix held mm f) (mix (m :: held) mm f)).
        { intros m'. unfold mix. destruct (in_dec Nat.eq_dec m' held), (in_dec Nat.eq_dec m' (m :: held)) as [Hi|Hi]; auto.
          - exfalso. apply Hi. right. auto.
          - destruct Hi as [<-|Hi]; [|contradiction]. rewrite Hf by (left; reflexivity). symmetry. apply (I2 m). exact Hown. }
        destruct (alone_ext k _ _ E) as [E1 E2]. split; [intros m'; rewrite C1; apply E1|rewrite C2; exact E2].
      * eapply thread_ok_other; [..|apply (I3 t')]; cbn [mem owner thr]; auto using set_other.
        intros m'. destruct (Nat.eq_dec m' m) as [->|Hn2]; [rewrite set_same, Hown; split; [intros E; injection E; congruence|discriminate]|].
        rewrite set_other by auto. tauto.
  - (* unlock *)
    destruct Tt as (i & op & held & T1 & T2 & T3 & T4 & T5).
    assert (HU : exists lin', (forall m, one_by_one P lin' mem0 m = mix held mm (one_by_one P lin mem0) m) /\ NoDup lin' /\ In (t, i) lin' /\
              (lin' = lin \/ (lin' = lin ++ [(t, i)] /\ ~ In (t, i) lin)) /\ gives_back (remove Nat.eq_dec m held) k /\
              exists r, (forall f, alone k f = (f, r)) /\
              (forall pre post, lin' = pre ++ (t, i) :: post -> outcome_of P pre (t, i) mem0 = Some r)).
    { destruct T5 as [(A & B & C)|(A & B & C & r' & D & E)].
      - exists (lin ++ [(t, i)]). destruct B as [B1 B2]. destruct (gives_back_alone _ _ B2) as [r Hr].
        destruct (commit_com P mem0 (mk_world mm oo th) lin t i op held (CUnlock m k) r T2 C) as [C1 C2]; [cbn; exact Hr|].
        split; [exact C1|]. split; [apply nodup_snoc; auto|]. split; [apply in_or_app; right; left; reflexivity|].
        split; auto. split; auto. exists r. split; auto.
        intros pre post Hl. destruct post as [|p post].
        + apply app_inj_tail in Hl. destruct Hl as [<- _]. exact C2.
        + exfalso. apply A. destruct (exists_last (l := p :: post)) as (l4 & z & E); [discriminate|].
          rewrite E in Hl. change (pre ++ (t, i) :: l4 ++ [z]) with (pre ++ ((t, i) :: l4) ++ [z]) in Hl.
          rewrite app_assoc in Hl. apply app_inj_tail in Hl. destruct Hl as [-> _]. apply in_or_app. right. left. reflexivity.
      - exists lin. cbn [mem] in C. split.
        + intros m'. unfold mix. destruct (in_dec Nat.eq_dec m' held); auto. symmetry. auto.
        + split; auto. split; auto. split; auto. cbn in B. split; [apply B|]. exists r'. split; auto. }
    destruct HU as (lin' & F1 & F2 & F3 & F5 & F6 & r & F7 & F8). exists lin'.
    assert (F4 : forall o, In o lin' <-> In o lin \/ o = (t, i)).
    { destruct F5 as [->|[-> _]]; [intros o; split; [auto|intros [H| ->]; auto]|intros o; rewrite in_app_iff; cbn; intuition]. }
    assert (Fnot : forall m', ~ In m' held -> one_by_one P lin' mem0 m' = one_by_one P lin mem0 m').
    { intros m' H. rewrite F1. unfold mix. destruct (in_dec Nat.eq_dec m' held); tauto. }
    assert (Fin : forall m', In m' held -> one_by_one P lin' mem0 m' = mm m').
    { intros m' H. rewrite F1. unfold mix. destruct (in_dec Nat.eq_dec m' held); tauto. }
    assert (Hother : forall t', t' <> t -> set th t {| next := next (th t); running := Some k |} t' = th t')
      by (intros; apply set_other; auto).
    rewrite app_nil_r. constructor; cbn [mem owner thr]; auto.
    + intros m' Hm'. destruct (Nat.eq_dec m' m) as [->|Hne].
      * symmetry. apply Fin, T3. exact Hown.
      * rewrite set_other in Hm' by auto. rewrite Fnot; [auto|]. intros H. apply T3 in H. congruence.
    + intros t'. destruct (Nat.eq_dec t' t) as [->|Hne].
      * unfold thread_ok. cbn [mem owner thr]. rewrite set_same. cbn [running next].
        exists i, op, (remove Nat.eq_dec m held). split; auto. split; auto. split.
        { intros m'. destruct (Nat.eq_dec m' m) as [->|Hne].
          - rewrite set_same. split; [discriminate|intros H; apply remove_In in H; destruct H].
          - rewrite set_other by auto. rewrite T3. split; [intros H; apply in_in_remove; auto|intros H; apply in_remove in H; tauto]. }
        split; [intros j Hj; apply F4; auto|]. right. split; auto. split; auto.
        split; [intros m' Hm'; apply in_remove in Hm'; symmetry; apply Fin; tauto|]. eauto.
      * assert (H : thread_ok P mem0 (mk_world mm oo th) lin' t').
        { destruct F5 as [->|[-> Hni]]; [apply I3|]. apply thread_ok_commit; auto; cbn; auto.
          intros m' Hm'. apply Fnot. intros H. apply T3 in H. congruence. }
        eapply thread_ok_other; [..|exact H]; cbn [mem owner thr]; auto.
        intros m'. destruct (Nat.eq_dec m' m) as [->|Hn2]; [rewrite set_same, Hown; split; [discriminate|intros E; injection E; congruence]|].
        rewrite set_other by auto. tauto.
    + intros t' j Hj. apply F4 in Hj. assert (Hj' : (j < next (th t'))%nat).
      { destruct Hj as [Hj|Hj]; [apply I4; exact Hj|injection Hj as -> ->; lia]. }
      destruct (Nat.eq_dec t' t) as [->|Hne]; [rewrite set_same; exact Hj'|rewrite Hother by auto; exact Hj'].
    + intros t' j. rewrite I5. destruct (Nat.eq_dec t' t) as [->|Hne]; [rewrite set_same; cbn; tauto|rewrite Hother by auto; tauto].
    + intros t' j r' H. destruct (I6 _ _ _ H) as [A B]. split; [apply F4; auto|].
      destruct (Nat.eq_dec t' t) as [->|Hne]; [rewrite set_same; cbn; intros _; apply B; congruence|rewrite Hother by auto; exact B].
    + intros o r' pre post H Hl. destruct F5 as [->|[-> Hni]]; [eapply I7; eauto|].
      destruct o as [t' j]. destruct (I6 _ _ _ H) as [A B].
      destruct (split_snoc (t', j) lin (t, i) pre post) as [post' Hp]; auto. eapply I7; eauto.
    + intros o o' Hin H. destruct F5 as [->|[-> Hni]]; [auto|].
      apply F4 in Hin. destruct Hin as [Hin| ->]; [apply before_app; auto|].
      destruct H as [r' H]. apply before_last. destruct o as [t' j].
      assert (He : In (Ended t' j r') tr) by (destruct H as (l1 & l2 & l3 & ->); apply in_or_app; right; left; reflexivity).
      apply I6 in He. tauto.
    + intros t' i' j' Hij Hin. destruct F5 as [->|[-> Hni]]; [auto|].
      apply F4 in Hin. destruct Hin as [Hin|Hin]; [apply before_app; auto|].
      injection Hin as -> ->. apply before_last. auto.
  - (* load *)
    destruct Tt as (i & op & held & T1 & T2 & T3 & T4 & T5). exists lin.
    destruct T5 as [(A & B & C)|(A & B & C & D)]; [|destruct B]. destruct B as [B1 B2].
    eapply inv_silent; [..|exact HI]; cbn [mem owner thr]; auto.
    + intros t'. unfold set. destruct (Nat.eqb t' t) eqn:E; auto. apply Nat.eqb_eq in E. subst. reflexivity.
    + intros t'. unfold set. destruct (Nat.eqb t' t) eqn:E; [|tauto]. apply Nat.eqb_eq in E. subst. rewrite Hrun. cbn. split; discriminate.
    + intros t'. destruct (Nat.eq_dec t' t) as [->|Hne].
      * unfold thread_ok. cbn [mem owner thr]. rewrite set_same. cbn [running next].
        exists i, op, held. split; auto. split; auto. split; auto. split; auto. left. split; auto. split; auto.
        intros f Hf. destruct (C f Hf) as [C1 C2]. cbn [alone] in C1, C2.
        replace (mix held mm f m) with (mm m) in C1, C2; [auto|].
        unfold mix. destruct (in_dec Nat.eq_dec m held); tauto.
      * eapply thread_ok_other; [..|apply (I3 t')]; cbn [mem owner thr]; auto using set_other; tauto.
  - (* store *)
    destruct Tt as (i & op & held & T1 & T2 & T3 & T4 & T5). exists lin.
    destruct T5 as [(A & B & C)|(A & B & C & D)]; [|destruct B]. destruct B as [B1 B2].
    assert (Ho : oo m = Some t) by (apply T3; exact B1).
    eapply inv_silent; [..|exact HI]; cbn [mem owner thr].
    + intros t'. unfold set. destruct (Nat.eqb t' t) eqn:E; auto. apply Nat.eqb_eq in E. subst. reflexivity.
    + intros t'. unfold set. destruct (Nat.eqb t' t) eqn:E; [|tauto]. apply Nat.eqb_eq in E. subst. rewrite Hrun. cbn. split; discriminate.
    + intros m' Hm'. rewrite set_other; auto. intros ->. congruence.
    + intros t'. destruct (Nat.eq_dec t' t) as [->|Hne].
      * unfold thread_ok. cbn [mem owner thr]. rewrite set_same. cbn [running next].
        exists i, op, held. split; auto. split; auto. split; auto. split; auto. left. split; auto. split; auto.
        intros f Hf. destruct (C f Hf) as [C1 C2]. cbn [alone] in C1, C2.
        assert (E : eqf (set (mix held mm f) m s) (mix held (set mm m s) f)).
        { intros m'. unfold mix, set. destruct (Nat.eqb m' m) eqn:E.
          - apply Nat.eqb_eq in E. subst. destruct (in_dec Nat.eq_dec m held); tauto.
          - destruct (in_dec Nat.eq_dec m' held); reflexivity. }
        destruct (alone_ext k _ _ E) as [E1 E2]. split; [intros m'; rewrite C1; apply E1|rewrite C2; exact E2].
      * eapply thread_ok_other; [..|apply (I3 t')]; cbn [mem owner thr]; auto using set_other; [tauto|].
        intros m' Hm'. apply set_other. intros ->. congruence.
Qed.

Lemma inv_steps P mem0 tr w :
  (forall t c, In c (P t) -> disciplined [] c) -> steps P (start mem0) tr w -> exists lin, inv P mem0 tr w lin.
Proof.
  intros HP H. remember (start mem0) as w0 eqn:E. induction H as [w|w tr w1 e w2 H IH Hs]; subst.
  - exists []. apply inv_start.
  - destruct (IH eq_refl) as [lin Hl]. eapply inv_step; eauto.
Qed.
Lemma next_bound P mem0 tr w : steps P (start mem0) tr w -> forall t, (next (thr w t) <= length (P t))%nat.
Proof.
  intros H. remember (start mem0) as w0 eqn:E. induction H as [w|w tr w1 e w2 H IH Hs]; subst; intros t'; [cbn; lia|].
  specialize (IH eq_refl).
  inversion Hs as [mm oo th t c Hrun Hcall|mm oo th t r Hrun|mm oo th t m k Hrun Hown|mm oo th t m k Hrun Hown
                  |mm oo th t m k Hrun|mm oo th t m s k Hrun]; subst; cbn [thr] in *;
    (destruct (Nat.eq_dec t' t) as [->|Hne]; [rewrite set_same; cbn|rewrite set_other by auto]); auto.
  apply nth_error_Some. congruence.
Qed.
Lemma inv_explains P mem0 tr w lin : inv P mem0 tr w lin -> explains P mem0 tr w lin.
Proof.
  intros [I1 I2 I3 I4 I5 I6 I7 I8 I9]. split; auto. split; [intros [t i] r H; apply I6 in H; tauto|].
  split; [intros [t i] H; apply I5; auto|]. split; [auto|split; auto].
Qed.

(** ** No deadlock when the locks are taken in an order *)
Lemma in_order_ext rank top c : forall h h', (forall m, In m h <-> In m h') -> in_order (S := S) (R := R) rank top h c -> in_order rank top h' c.
Proof.
  induction c as [m k IH|m k IH|m k IH|m s k IH|r]; intros h h' H; cbn; auto.
  - intros (A & B & C). split; auto. split; [intros n Hn; apply B, H; exact Hn|].
    eapply IH; [|exact C]. intros n. cbn. rewrite (H n). tauto.
  - apply IH. intros n. split; intros Hn; apply in_remove in Hn; apply in_in_remove; try tauto; apply H; tauto.
  - intros A s. eapply IH; eauto.
  - apply IH. exact H.
Qed.
Definition ranked P (rank : nat -> nat) (top : nat) w : Prop :=
  forall t c held, running (thr w t) = Some c -> (forall m, owner w m = Some t <-> In m held) -> in_order rank top held c.
Lemma ranked_steps P rank top mem0 tr w :
  (forall t c, In c (P t) -> disciplined [] c) -> (forall t c, In c (P t) -> in_order rank top [] c) ->
  steps P (start mem0) tr w -> ranked P rank top w.
Proof.
  intros HP HO H. remember (start mem0) as w0 eqn:E. induction H as [w|w tr w1 e w2 H IH Hs]; subst.
  - intros t c held Hr. discriminate Hr.
  - destruct (inv_steps P mem0 tr w1 HP H) as [lin HI]. specialize (IH eq_refl). intros t' c' held' Hr Ho.
    inversion Hs as [mm oo th t c Hrun Hcall|mm oo th t r Hrun|mm oo th t m k Hrun Hown|mm oo th t m k Hrun Hown
                  |mm oo th t m k Hrun|mm oo th t m s k Hrun]; subst; clear Hs; cbn [mem owner thr] in *;
    (destruct (Nat.eq_dec t' t) as [->|Hne]; [rewrite set_same in Hr; cbn in Hr|rewrite set_other in Hr by auto]).
    + injection Hr as <-. pose proof (i_thr _ _ _ _ _ HI t) as Tt. unfold thread_ok in Tt. cbn in Tt. rewrite Hrun in Tt.
      destruct Tt as [T1 _]. apply in_order_ext with (h := []); [|apply (HO t); eapply nth_error_In; eauto].
      intros m. rewrite <- Ho. split; [intros []|intros Hm; destruct (T1 m Hm)].
    + apply (IH t' c' held'); auto.
    + discriminate.
    + apply (IH t' c' held'); auto.
    + injection Hr as <-. specialize (IH t _ (remove Nat.eq_dec m held') Hrun). cbn in IH. destruct IH as (A & B & C).
      { intros m'. cbn [owner]. destruct (Nat.eq_dec m' m) as [->|Hn2].
        - rewrite Hown. split; [discriminate|intros Hin; apply remove_In in Hin; destruct Hin].
        - rewrite <- (set_other oo m (Some t) m') by auto. rewrite Ho. split; [intros; apply in_in_remove; auto|intros Hin; apply in_remove in Hin; tauto]. }
      eapply in_order_ext; [|exact C]. intros m'. cbn. destruct (Nat.eq_dec m' m) as [->|Hn2].
      * split; [intros _; apply Ho; apply set_same|auto].
      * split; [intros [->|Hin]; [congruence|apply in_remove in Hin; tauto]|intros Hin; right; apply in_in_remove; auto].
    + apply (IH t' c' held'); auto. intros m'. rewrite <- Ho. cbn [owner]. destruct (Nat.eq_dec m' m) as [->|Hn2].
      * rewrite set_same, Hown. split; [discriminate|intros E; injection E; congruence].
      * rewrite set_other by auto. tauto.
    + injection Hr as <-. specialize (IH t _ (m :: held') Hrun). cbn [in_order] in IH.
      eapply in_order_ext; [|apply IH].
      * intros m'. split; [intros Hin; apply in_remove in Hin; destruct Hin as [[->|Hin] Hn2]; [congruence|exact Hin]|].
        intros Hin. apply in_in_remove; [|right; exact Hin]. intros ->. apply Ho in Hin. rewrite set_same in Hin. discriminate.
      * intros m'. cbn [owner]. destruct (Nat.eq_dec m' m) as [->|Hn2]; [rewrite Hown; cbn; tauto|].
        rewrite <- (set_other oo m None m') by auto. rewrite Ho. cbn. intuition congruence.
    + apply (IH t' c' held'); auto. intros m'. rewrite <- Ho. cbn [owner]. destruct (Nat.eq_dec m' m) as [->|Hn2].
      * rewrite set_same, Hown. split; [intros E; injection E; congruence|discriminate].
      * rewrite set_other by auto. tauto.
    + injection Hr as <-. apply (IH t _ held' Hrun). exact Ho.
    + apply (IH t' c' held'); auto.
    + injection Hr as <-. apply (IH t _ held' Hrun). exact Ho.
    + apply (IH t' c' held'); auto.
Qed.
Lemma running_goes P mem0 tr w lin t c :
  inv P mem0 tr w lin -> running (thr w t) = Some c ->
  can_go_on P w \/ exists m k, c = CLock m k /\ owner w m <> None.
Proof.
  intros HI Hr. destruct w as [mm oo th]. cbn in Hr. pose proof (i_thr _ _ _ _ _ HI t) as Tt. unfold thread_ok in Tt. cbn in Tt. rewrite Hr in Tt.
  destruct Tt as (i & op & held & T1 & T2 & T3 & T4 & T5).
  destruct c as [m k|m k|m k|m s k|r].
  - destruct (oo m) as [t'|] eqn:Eo; [right; exists m, k; cbn; rewrite Eo; split; [reflexivity|discriminate]|].
    left. eexists _, _. apply SLock; eauto.
  - left. eexists _, _. apply SUnlock; eauto. apply T3. destruct T5 as [(_ & B & _)|(_ & B & _)]; apply B.
  - left. eexists _, _. apply SLoad; eauto.
  - left. eexists _, _. apply SStore; eauto.
  - left. eexists _, _. apply SEnd; eauto.
Qed.
Lemma no_deadlock P rank top mem0 tr w t :
  (forall t c, In c (P t) -> disciplined [] c) -> (forall t c, In c (P t) -> in_order rank top [] c) ->
  steps P (start mem0) tr w -> unfinished P w t -> can_go_on P w.
Proof.
  intros HP HO H. destruct (inv_steps P mem0 tr w HP H) as [lin HI].
  pose proof (ranked_steps P rank top mem0 tr w HP HO H) as HR.
  assert (Blocked : forall n t m k, (top - rank m <= n)%nat -> running (thr w t) = Some (CLock m k) -> can_go_on P w).
  { induction n as [|n IH]; intros t' m k Hn Hr.
    - pose proof (i_thr _ _ _ _ _ HI t') as Tt. unfold thread_ok in Tt. rewrite Hr in Tt.
      destruct Tt as (i & op & held & T1 & T2 & T3 & _). pose proof (HR t' _ held Hr T3) as Ho. cbn in Ho. lia.
    - destruct (owner w m) as [t2|] eqn:Eo.
      2:{ destruct w as [mm oo th]. eexists _, _. apply SLock; eauto. }
      pose proof (i_thr _ _ _ _ _ HI t2) as T2. unfold thread_ok in T2.
      destruct (running (thr w t2)) as [c2|] eqn:Er2; [|destruct T2 as [T2 _]; destruct (T2 m Eo)].
      destruct T2 as (i & op & held & _ & _ & T3 & _).
      destruct (running_goes P mem0 tr w lin t2 c2 HI Er2) as [G|(m2 & k2 & -> & _)]; [exact G|].
      apply (IH t2 m2 k2); auto. pose proof (HR t2 _ held Er2 T3) as Ho. cbn in Ho. destruct Ho as (O1 & O2 & _).
      specialize (O2 m). rewrite <- T3 in O2. specialize (O2 Eo).
      assert (rank m < top)%nat by lia. lia. }
  intros Hu. destruct (running (thr w t)) as [c|] eqn:Er.
  - destruct (running_goes P mem0 tr w lin t c HI Er) as [G|(m & k & -> & _)]; [exact G|]. eapply Blocked; eauto.
  - destruct Hu as [Hu|Hu]; [congruence|]. destruct (nth_error (P t) (next (thr w t))) as [c|] eqn:E; [|congruence].
    destruct w as [mm oo th]. eexists _, _. apply SBegin; eauto.
Qed.
End Proofs.
