(** Proofs about LoadModel. *)
From Coq Require Import List Bool PeanoNat Lia.
From Verif Require Import Base LoadModel LoadSpec.
Import ListNotations.
Local Open Scope nat_scope.

Lemma set_same : forall (A : Type) (f : nat -> A) k v, set_at f k v k = v.
Proof. intros. unfold set_at. now rewrite Nat.eqb_refl. Qed.
Lemma set_other : forall (A : Type) (f : nat -> A) k v j, j <> k -> set_at f k v j = f j.
Proof. intros A f k v j H. unfold set_at. now rewrite (proj2 (Nat.eqb_neq j k) H). Qed.

Lemma load_loop_spec : forall fuel need rest sched, need <= fuel ->
  (~ In Fails sched -> need <= length rest -> load_loop fuel need rest sched = Some (firstn need rest))
  /\ (length rest < need -> load_loop fuel need rest sched = None)
  /\ (forall bytes, load_loop fuel need rest sched = Some bytes -> bytes = firstn need rest /\ need <= length rest).
Proof.
  induction fuel as [| fuel IH]; intros need rest sched Hf.
  { assert (need = 0) as -> by lia. repeat split; intros; cbn in *; try lia; congruence. }
  destruct need as [| need']. { repeat split; intros; cbn in *; try lia; congruence. }
  cbn [load_loop]. set (need := S need') in *.
  set (k := match sched with Gives n :: _ => Nat.min (Nat.max 1 n) need | _ => need end).
  assert (Hk : 1 <= k <= need) by (unfold k; destruct sched as [| [| n] t]; lia).
  assert (Hlen : length (firstn k rest) = Nat.min k (length rest)) by apply firstn_length.
  assert (Body : (~ In Fails (tl sched) -> need <= length rest ->
     match firstn k rest with [] => None | _ => match load_loop fuel (need - length (firstn k rest)) (skipn (length (firstn k rest)) rest) (tl sched) with Some more => Some (firstn k rest ++ more) | None => None end end = Some (firstn need rest))
    /\ (length rest < need ->
     match firstn k rest with [] => None | _ => match load_loop fuel (need - length (firstn k rest)) (skipn (length (firstn k rest)) rest) (tl sched) with Some more => Some (firstn k rest ++ more) | None => None end end = None)
    /\ (forall bytes, match firstn k rest with [] => None | _ => match load_loop fuel (need - length (firstn k rest)) (skipn (length (firstn k rest)) rest) (tl sched) with Some more => Some (firstn k rest ++ more) | None => None end end = Some bytes -> bytes = firstn need rest /\ need <= length rest)).
  { destruct (firstn k rest) as [| g gs] eqn:Eg.
    - cbn in Hlen. repeat split; intros; try congruence; try lia.
    - assert (Hge : 1 <= length (firstn k rest)) by (rewrite Eg; cbn; lia). rewrite <- Eg in *. clear g gs Eg.
      destruct (le_lt_dec need (length rest)) as [Hr | Hr].
      + rewrite Hlen. replace (Nat.min k (length rest)) with k by lia.
        destruct (IH (need - k) (skipn k rest) (tl sched) ltac:(lia)) as [A [B C]].
        assert (Hsk : length (skipn k rest) = length rest - k) by apply skipn_length.
        assert (Hj : firstn k rest ++ firstn (need - k) (skipn k rest) = firstn need rest).
        { rewrite firstn_skipn_comm. replace (k + (need - k)) with need by lia. rewrite <- (firstn_skipn k (firstn need rest)) at 2.
          rewrite firstn_firstn. replace (Nat.min k need) with k by lia. reflexivity. }
        split; [| split].
        * intros Hn _. rewrite (A Hn ltac:(lia)), Hj. reflexivity.
        * intro. lia.
        * intros bytes. destruct (load_loop fuel (need - k) (skipn k rest) (tl sched)) as [m |] eqn:El; [| discriminate].
          intro E. injection E as <-. destruct (C m eq_refl) as [-> _]. split; [exact Hj | exact Hr].
      + destruct (IH (need - length (firstn k rest)) (skipn (length (firstn k rest)) rest) (tl sched) ltac:(lia)) as [_ [B _]].
        rewrite B by (rewrite skipn_length; lia). repeat split; intros; try congruence; lia. }
  destruct sched as [| [| n] t].
  - destruct Body as [A [B C]]. split; [| split; [exact B | exact C]]. intros _. apply A. intros [].
  - repeat split; intros; try congruence. exfalso. apply H. left. reflexivity.
  - destruct Body as [A [B C]]. split; [| split; [exact B | exact C]]. intros Hn. apply A. intro Hi. apply Hn. right. exact Hi.
Qed.

Lemma mapped_length : forall f n s, length (mapped_bytes f n s) = n.
Proof. intros f n s. unfold mapped_bytes. rewrite firstn_length, app_length, repeat_length. lia. Qed.

(** The kind of memory of a class, and the pointer of an object without memory (default construction of the map class aside). *)
Definition kind_of (fl : flavour) : kind := match fl with Alloc => Malloced | _ => Mapped end.
Definition rep (fl : flavour) (w : world) (x : loader) (c : list Z) : Prop :=
  (x = emptied fl /\ c = [])
  \/ (exists id b, address_begin x = At id /\ live w id = Some b /\ b_kind b = kind_of fl /\ c = firstn (len x) (b_bytes b)
        /\ len x = length c /\ (fl <> Alloc -> 0 < len x /\ len x = length (b_bytes b))).
Definition owns (x : loader) (id : nat) : Prop := address_begin x = At id.
Record inv (fl : flavour) (st : state) (a : holds) : Prop := {
  i_rep : forall s, match objs st s, a s with Some x, Some c => rep fl (mem st) x c | None, None => True | _, _ => False end;
  i_uniq : forall s t x y id, objs st s = Some x -> objs st t = Some y -> owns x id -> owns y id -> s = t;
  i_given : forall id, In (At id) (given st) -> forall s x, objs st s = Some x -> ~ owns x id;
  i_leak : forall id b, live (mem st) id = Some b -> (exists s x, objs st s = Some x /\ owns x id) \/ In (At id) (given st);
  i_next : forall id b, live (mem st) id = Some b -> id < next (mem st);
  i_old : forall id, In (At id) (given st) -> id < next (mem st)
}.

Lemma emptied_no : forall fl id, ~ owns (emptied fl) id.
Proof. intros [] id H; discriminate. Qed.

Lemma inv_obj : forall fl st a s c, inv fl st a -> a s = Some c -> exists x, objs st s = Some x /\ rep fl (mem st) x c.
Proof. intros fl st a s c I H. pose proof (i_rep _ _ _ I s) as R. rewrite H in R. destruct (objs st s) as [x |]; [exists x; split; [reflexivity | exact R] | contradiction]. Qed.
Lemma inv_none : forall fl st a s, inv fl st a -> a s = None -> objs st s = None.
Proof. intros fl st a s I H. pose proof (i_rep _ _ _ I s) as R. rewrite H in R. destruct (objs st s); [contradiction | reflexivity]. Qed.

(** A new object in an empty slot, with no memory or with the freshly made block. *)
Lemma inv_fresh : forall fl st a s x c k bytes, inv fl st a -> a s = None -> owns x (next (mem st)) ->
  k = kind_of fl -> c = firstn (len x) bytes -> len x = length c -> (fl <> Alloc -> 0 < len x /\ len x = length bytes) ->
  inv fl (mk_state (set_at (objs st) s (Some x)) (snd (new_block (mem st) k bytes)) (given st)) (set_at a s (Some c)).
Proof.
  intros fl st a s x c k bytes I Hs Ho Hk Hc Hl Hm. pose proof (inv_none _ _ _ _ I Hs) as Hn.
  assert (Hold : forall t y, objs st t = Some y -> ~ owns y (next (mem st))).
  { intros t y Ht Hy. pose proof (i_rep _ _ _ I t) as R. rewrite Ht in R. destruct (a t) as [ct |]; [| contradiction].
    destruct R as [[-> _] | [id [b [A [B _]]]]]; [exact (emptied_no _ _ Hy) |]. unfold owns in Hy. rewrite A in Hy. injection Hy as ->.
    pose proof (i_next _ _ _ I _ _ B). lia. }
  constructor; cbn [objs mem given new_block snd live next].
  - intro t. destruct (Nat.eq_dec t s) as [-> | N].
    + rewrite !set_same. right. exists (next (mem st)), (mk_block k bytes). cbn [live]. rewrite set_same. cbn. repeat split; try assumption; apply Hm; assumption.
    + rewrite !set_other by exact N. pose proof (i_rep _ _ _ I t) as R. destruct (objs st t) as [y |] eqn:Et; [| exact R]. destruct (a t) as [ct |]; [| exact R].
      destruct R as [R | [id [b [A [B R]]]]]; [left; exact R |]. right. exists id, b. split; [exact A |]. split; [| exact R].
      cbn. rewrite set_other; [exact B |]. intros ->. exact (Hold t y Et A).
  - intros s1 s2 x1 x2 id. destruct (Nat.eq_dec s1 s) as [-> | N1], (Nat.eq_dec s2 s) as [-> | N2]; rewrite ?set_same, ?set_other by assumption; try reflexivity.
    + intros E H2 O1 O2. injection E as <-. unfold owns in Ho, O1. rewrite Ho in O1. injection O1 as <-. exfalso. exact (Hold _ _ H2 O2).
    + intros H1 E O1 O2. injection E as <-. unfold owns in Ho, O2. rewrite Ho in O2. injection O2 as <-. exfalso. exact (Hold _ _ H1 O1).
    + apply (i_uniq _ _ _ I).
  - intros id Hg t y Ht Hy. destruct (Nat.eq_dec t s) as [-> | N].
    + rewrite set_same in Ht. injection Ht as <-. unfold owns in *. rewrite Ho in Hy. injection Hy as <-. pose proof (i_old _ _ _ I _ Hg). lia.
    + rewrite set_other in Ht by exact N. exact (i_given _ _ _ I id Hg t y Ht Hy).
  - intros id b. destruct (Nat.eq_dec id (next (mem st))) as [-> | N].
    + intros _. left. exists s, x. rewrite set_same. split; [reflexivity | exact Ho].
    + rewrite set_other by exact N. intro H. destruct (i_leak _ _ _ I _ _ H) as [[t [y [Ht Hy]]] | G]; [left | right; exact G].
      exists t, y. split; [| exact Hy]. rewrite set_other; [exact Ht |]. intros ->. rewrite Hn in Ht. discriminate.
  - intros id b. destruct (Nat.eq_dec id (next (mem st))) as [-> | N]; [intros _; lia |]. rewrite set_other by exact N. intro H. pose proof (i_next _ _ _ I _ _ H). lia.
  - intros id Hg. pose proof (i_old _ _ _ I _ Hg). lia.
Qed.
Lemma inv_empty : forall fl st a s, inv fl st a -> a s = None ->
  inv fl (mk_state (set_at (objs st) s (Some (emptied fl))) (mem st) (given st)) (set_at a s (Some [])).
Proof.
  intros fl st a s I Hs. pose proof (inv_none _ _ _ _ I Hs) as Hn.
  constructor; cbn [objs mem given].
  - intro t. destruct (Nat.eq_dec t s) as [-> | N]; [rewrite !set_same; left; split; reflexivity |]. rewrite !set_other by exact N. apply (i_rep _ _ _ I).
  - intros s1 s2 x1 x2 id. destruct (Nat.eq_dec s1 s) as [-> | N1], (Nat.eq_dec s2 s) as [-> | N2]; rewrite ?set_same, ?set_other by assumption; try reflexivity.
    + intros E _ O1. injection E as <-. exfalso. exact (emptied_no _ _ O1).
    + intros _ E _ O2. injection E as <-. exfalso. exact (emptied_no _ _ O2).
    + apply (i_uniq _ _ _ I).
  - intros id Hg t y Ht. destruct (Nat.eq_dec t s) as [-> | N].
    + rewrite set_same in Ht. injection Ht as <-. apply emptied_no.
    + rewrite set_other in Ht by exact N. exact (i_given _ _ _ I id Hg t y Ht).
  - intros id b H. destruct (i_leak _ _ _ I _ _ H) as [[t [y [Ht Hy]]] | G]; [left | right; exact G].
    exists t, y. split; [| exact Hy]. rewrite set_other; [exact Ht |]. intros ->. rewrite Hn in Ht. discriminate.
  - apply (i_next _ _ _ I).
  - apply (i_old _ _ _ I).
Qed.
(** Moving the contents of s to d, where d holds nothing or is s itself. *)
Lemma inv_move : forall fl st a d s c, inv fl st a -> a s = Some c ->
  (forall x, objs st d = Some x -> d <> s -> x = emptied fl) ->
  forall x, objs st s = Some x ->
  (d = s -> x = emptied fl) ->
  inv fl (mk_state (set_at (set_at (objs st) d (Some x)) s (Some (emptied fl))) (mem st) (given st)) (set_at (set_at a d (a s)) s (Some [])).
Proof.
  intros fl st a d s c I Hs Hd x Hx Hself. destruct (inv_obj _ _ _ _ _ I Hs) as [x' [Hx' R]]. rewrite Hx in Hx'. injection Hx' as <-.
  constructor; cbn [objs mem given].
  - intro t. destruct (Nat.eq_dec t s) as [-> | N]; [rewrite !set_same; left; split; reflexivity |]. rewrite !(set_other _ _ s) by exact N.
    destruct (Nat.eq_dec t d) as [-> | Nd]; [rewrite !set_same, Hs; exact R |]. rewrite !set_other by exact Nd. apply (i_rep _ _ _ I).
  - assert (G : forall t y id, set_at (set_at (objs st) d (Some x)) s (Some (emptied fl)) t = Some y -> owns y id ->
        (t = d /\ y = x /\ t <> s) \/ (t <> d /\ t <> s /\ objs st t = Some y)).
    { intros t y id. destruct (Nat.eq_dec t s) as [-> | N]; [rewrite set_same; intros E O; injection E as <-; exfalso; exact (emptied_no _ _ O) |].
      rewrite (set_other _ _ s) by exact N. destruct (Nat.eq_dec t d) as [-> | Nd]; [rewrite set_same; intros E O; injection E as <-; left; auto |].
      rewrite set_other by exact Nd. intros E _. right. auto. }
    intros s1 s2 x1 x2 id H1 H2 O1 O2. destruct (G _ _ _ H1 O1) as [[E1 [F1 M1]] | [N1 [M1 F1]]], (G _ _ _ H2 O2) as [[E2 [F2 M2]] | [N2 [M2 F2]]].
    + congruence.
    + subst x1. exfalso. apply M2. symmetry. exact (i_uniq _ _ _ I _ _ _ _ _ Hx F2 O1 O2).
    + subst x2. exfalso. apply M1. symmetry. exact (i_uniq _ _ _ I _ _ _ _ _ Hx F1 O2 O1).
    + exact (i_uniq _ _ _ I _ _ _ _ _ F1 F2 O1 O2).
  - intros id Hg t y. destruct (Nat.eq_dec t s) as [-> | N]; [rewrite set_same; intro E; injection E as <-; apply emptied_no |].
    rewrite (set_other _ _ s) by exact N. destruct (Nat.eq_dec t d) as [-> | Nd].
    + rewrite set_same. intro E. injection E as <-. exact (i_given _ _ _ I id Hg s x Hx).
    + rewrite set_other by exact Nd. apply (i_given _ _ _ I id Hg).
  - intros id b H. destruct (i_leak _ _ _ I _ _ H) as [[t [y [Ht Hy]]] | G]; [left | right; exact G].
    destruct (Nat.eq_dec t s) as [-> | N].
    + rewrite Hx in Ht. injection Ht as <-. exists d, x. split; [| exact Hy]. rewrite set_other, set_same; [reflexivity |].
      intros ->. rewrite (Hself eq_refl) in Hy. exact (emptied_no _ _ Hy).
    + exists t, y. split; [| exact Hy]. rewrite set_other by exact N. rewrite set_other; [exact Ht |].
      intros ->. rewrite (Hd _ Ht N) in Hy. exact (emptied_no _ _ Hy).
  - apply (i_next _ _ _ I).
  - apply (i_old _ _ _ I).
Qed.
(** Unloading an object: always defined, and the object may then be emptied. *)
Lemma inv_unload : forall fl st a s x, inv fl st a -> objs st s = Some x ->
  exists w, unload fl (mem st) x = Some (true, w) /\ next w = next (mem st) /\
    inv fl (mk_state (set_at (objs st) s (Some (emptied fl))) w (given st)) (set_at a s (Some [])).
Proof.
  intros fl st a s x I Hx. pose proof (i_rep _ _ _ I s) as R. rewrite Hx in R. destruct (a s) as [c |] eqn:Ea; [| contradiction].
  destruct R as [[-> ->] | [id [b [A [B [K [C [L M]]]]]]]].
  - exists (mem st). split; [destruct fl; reflexivity |]. split; [reflexivity |].
    constructor; cbn [objs mem given].
    + intro t. destruct (Nat.eq_dec t s) as [-> | N]; [rewrite !set_same; left; split; reflexivity |]. rewrite !set_other by exact N. apply (i_rep _ _ _ I).
    + intros s1 s2 x1 x2 id'. destruct (Nat.eq_dec s1 s) as [-> | N1], (Nat.eq_dec s2 s) as [-> | N2]; rewrite ?set_same, ?set_other by assumption; try reflexivity.
      * intros E _ O1. injection E as <-. exfalso. exact (emptied_no _ _ O1).
      * intros _ E _ O2. injection E as <-. exfalso. exact (emptied_no _ _ O2).
      * apply (i_uniq _ _ _ I).
    + intros id' Hg t y Ht. destruct (Nat.eq_dec t s) as [-> | N].
      * rewrite set_same in Ht. injection Ht as <-. apply emptied_no.
      * rewrite set_other in Ht by exact N. exact (i_given _ _ _ I id' Hg t y Ht).
    + intros id' b' H. destruct (i_leak _ _ _ I _ _ H) as [[t [y [Ht Hy]]] | G]; [left | right; exact G].
      exists t, y. split; [| exact Hy]. rewrite set_other; [exact Ht |]. intros ->. rewrite Hx in Ht. injection Ht as <-. exact (emptied_no _ _ Hy).
    + apply (i_next _ _ _ I).
    + apply (i_old _ _ _ I).
  - exists (mk_world (next (mem st)) (set_at (live (mem st)) id None)).
    split.
    { unfold unload, free, munmap. destruct fl; rewrite A; cbn [kind_of] in K.
      - rewrite B, K. reflexivity.
      - destruct (M ltac:(discriminate)) as [M1 M2]. destruct (len x) as [| n] eqn:El; [lia |]. rewrite B, K, <- M2, Nat.eqb_refl. reflexivity.
      - destruct (M ltac:(discriminate)) as [M1 M2]. destruct (len x) as [| n] eqn:El; [lia |]. rewrite B, K, <- M2, Nat.eqb_refl. reflexivity. }
    split; [reflexivity |].
    assert (Hno : forall t y, t <> s -> objs st t = Some y -> ~ owns y id).
    { intros t y N Ht Hy. apply N. exact (i_uniq _ _ _ I _ _ _ _ _ Ht Hx Hy A). }
    constructor; cbn [objs mem given live next].
    + intro t. destruct (Nat.eq_dec t s) as [-> | N]; [rewrite !set_same; left; split; reflexivity |]. rewrite !set_other by exact N.
      pose proof (i_rep _ _ _ I t) as R. destruct (objs st t) as [y |] eqn:Et; [| exact R]. destruct (a t) as [ct |]; [| exact R].
      destruct R as [R | [id' [b' [A' [B' R]]]]]; [left; exact R |]. right. exists id', b'. split; [exact A' |]. split; [| exact R].
      cbn. rewrite set_other; [exact B' |]. intros ->. exact (Hno t y N Et A').
    + intros s1 s2 x1 x2 id'. destruct (Nat.eq_dec s1 s) as [-> | N1], (Nat.eq_dec s2 s) as [-> | N2]; rewrite ?set_same, ?set_other by assumption; try reflexivity.
      * intros E _ O1. injection E as <-. exfalso. exact (emptied_no _ _ O1).
      * intros _ E _ O2. injection E as <-. exfalso. exact (emptied_no _ _ O2).
      * apply (i_uniq _ _ _ I).
    + intros id' Hg t y Ht. destruct (Nat.eq_dec t s) as [-> | N].
      * rewrite set_same in Ht. injection Ht as <-. apply emptied_no.
      * rewrite set_other in Ht by exact N. exact (i_given _ _ _ I id' Hg t y Ht).
    + intros id' b'. destruct (Nat.eq_dec id' id) as [-> | Ni]; [rewrite set_same; discriminate |]. rewrite set_other by exact Ni. intro H.
      destruct (i_leak _ _ _ I _ _ H) as [[t [y [Ht Hy]]] | G]; [left | right; exact G].
      exists t, y. split; [| exact Hy]. rewrite set_other; [exact Ht |]. intros ->. rewrite Hx in Ht. injection Ht as <-. unfold owns in Hy. rewrite A in Hy. congruence.
    + intros id' b'. destruct (Nat.eq_dec id' id) as [-> | Ni]; [rewrite set_same; discriminate |]. rewrite set_other by exact Ni. apply (i_next _ _ _ I).
    + apply (i_old _ _ _ I).
Qed.

Lemma inv_ext : forall fl st st' a a', inv fl st a -> (forall s, objs st' s = objs st s) -> mem st' = mem st -> given st' = given st ->
  (forall s, a' s = a s) -> inv fl st' a'.
Proof.
  intros fl st st' a a' I Ho Hm Hg Ha. constructor.
  - intro s. rewrite Ho, Ha, Hm. apply (i_rep _ _ _ I).
  - intros s t x y id. rewrite !Ho. apply (i_uniq _ _ _ I).
  - intros id. rewrite Hg. intros G s x. rewrite Ho. apply (i_given _ _ _ I id G).
  - intros id b. rewrite Hm, Hg. intro H. destruct (i_leak _ _ _ I _ _ H) as [[s [x [Hs Hx]]] | G]; [left; exists s, x; rewrite Ho; auto | right; exact G].
  - rewrite Hm. apply (i_next _ _ _ I).
  - rewrite Hm, Hg. apply (i_old _ _ _ I).
Qed.
(** A constructor that threw leaves the memory as it was, except for the next identity. *)
Lemma inv_throw : forall fl st a w, inv fl st a -> (forall id, live w id = live (mem st) id) -> next (mem st) <= next w ->
  inv fl (mk_state (objs st) w (given st)) a.
Proof.
  intros fl st a w I Hl Hn. constructor; cbn [objs mem given].
  - intro s. pose proof (i_rep _ _ _ I s) as R. destruct (objs st s) as [x |]; [| exact R]. destruct (a s) as [c |]; [| exact R].
    destruct R as [R | [id [b [A [B R]]]]]; [left; exact R |]. right. exists id, b. rewrite Hl. auto.
  - apply (i_uniq _ _ _ I).
  - apply (i_given _ _ _ I).
  - intros id b. rewrite Hl. apply (i_leak _ _ _ I).
  - intros id b. rewrite Hl. intro H. pose proof (i_next _ _ _ I _ _ H). lia.
  - intros id H. pose proof (i_old _ _ _ I _ H). lia.
Qed.
Lemma inv_drop : forall fl st a s, inv fl st a -> objs st s = Some (emptied fl) ->
  inv fl (mk_state (set_at (objs st) s None) (mem st) (given st)) (set_at a s None).
Proof.
  intros fl st a s I Hx. constructor; cbn [objs mem given].
  - intro t. destruct (Nat.eq_dec t s) as [-> | N]; [rewrite !set_same; exact Logic.I |]. rewrite !set_other by exact N. apply (i_rep _ _ _ I).
  - intros s1 s2 x1 x2 id. destruct (Nat.eq_dec s1 s) as [-> | N1], (Nat.eq_dec s2 s) as [-> | N2]; rewrite ?set_same, ?set_other by assumption; try discriminate.
    apply (i_uniq _ _ _ I).
  - intros id Hg t y Ht. destruct (Nat.eq_dec t s) as [-> | N]; [rewrite set_same in Ht; discriminate |].
    rewrite set_other in Ht by exact N. exact (i_given _ _ _ I id Hg t y Ht).
  - intros id b H. destruct (i_leak _ _ _ I _ _ H) as [[t [y [Ht Hy]]] | G]; [left | right; exact G].
    exists t, y. split; [| exact Hy]. rewrite set_other; [exact Ht |]. intros ->. rewrite Hx in Ht. injection Ht as <-. exact (emptied_no _ _ Hy).
  - apply (i_next _ _ _ I).
  - apply (i_old _ _ _ I).
Qed.
Lemma inv_release : forall fl st a s x, inv fl st a -> objs st s = Some x ->
  inv fl (mk_state (set_at (objs st) s (Some (emptied fl))) (mem st) (address_begin x :: given st)) (set_at a s (Some [])).
Proof.
  intros fl st a s x I Hx. constructor; cbn [objs mem given].
  - intro t. destruct (Nat.eq_dec t s) as [-> | N]; [rewrite !set_same; left; split; reflexivity |]. rewrite !set_other by exact N. apply (i_rep _ _ _ I).
  - intros s1 s2 x1 x2 id. destruct (Nat.eq_dec s1 s) as [-> | N1], (Nat.eq_dec s2 s) as [-> | N2]; rewrite ?set_same, ?set_other by assumption; try reflexivity.
    + intros E _ O1. injection E as <-. exfalso. exact (emptied_no _ _ O1).
    + intros _ E _ O2. injection E as <-. exfalso. exact (emptied_no _ _ O2).
    + apply (i_uniq _ _ _ I).
  - intros id Hg t y Ht Hy. destruct (Nat.eq_dec t s) as [-> | N].
    + rewrite set_same in Ht. injection Ht as <-. exact (emptied_no _ _ Hy).
    + rewrite set_other in Ht by exact N. destruct Hg as [Hg | Hg]; [| exact (i_given _ _ _ I id Hg t y Ht Hy)].
      apply N. exact (i_uniq _ _ _ I _ _ _ _ _ Ht Hx Hy Hg).
  - intros id b H. destruct (i_leak _ _ _ I _ _ H) as [[t [y [Ht Hy]]] | G]; [| right; right; exact G].
    destruct (Nat.eq_dec t s) as [-> | N].
    + right. left. rewrite Hx in Ht. injection Ht as <-. exact Hy.
    + left. exists t, y. rewrite set_other by exact N. split; assumption.
  - apply (i_next _ _ _ I).
  - intros id [H | H]; [| exact (i_old _ _ _ I _ H)]. pose proof (i_rep _ _ _ I s) as R. rewrite Hx in R. destruct (a s); [| contradiction].
    destruct R as [[-> _] | [id' [b [A [B _]]]]]; [destruct fl; discriminate |]. rewrite A in H. injection H as <-. exact (i_next _ _ _ I _ _ B).
Qed.

Lemma free_new : forall w k bytes, k = Malloced -> exists w'', free (snd (new_block w k bytes)) (fst (new_block w k bytes)) = Some w''
  /\ (forall id, live w'' id = set_at (set_at (live w) (next w) (Some (mk_block k bytes))) (next w) None id) /\ next w'' = S (next w).
Proof. intros w k bytes ->. cbn. rewrite set_same. cbn. eexists. split; [reflexivity |]. split; [intro; reflexivity | reflexivity]. Qed.

(** Loading: what a success gives, and what a throw leaves. *)
Lemma load_ok : forall fl w f q x w', load fl w f q = (Some x, w') ->
  (x = emptied fl /\ w' = w /\ wanted fl f q = [])
  \/ (exists bytes, w' = snd (new_block w (kind_of fl) bytes) /\ owns x (next w) /\ wanted fl f q = firstn (len x) bytes
        /\ len x = length (wanted fl f q) /\ (fl <> Alloc -> 0 < len x /\ len x = length bytes)).
Proof.
  intros fl w f q x w'. unfold load. destruct fl, q as [gr sched | exsz gr sched | bytes from gr]; try discriminate.
  - destruct (st_size f) as [| n] eqn:En.
    + intro E. injection E as <- <-. left. split; [reflexivity |]. split; [reflexivity |]. unfold wanted. rewrite En. reflexivity.
    + rewrite <- En. destruct gr; [| discriminate]. destruct (load_loop _ _ _ _) as [bs |] eqn:El; [| destruct (new_block _ _ _); discriminate].
      destruct (proj2 (proj2 (load_loop_spec _ _ _ _ (Nat.le_refl _))) _ El) as [-> Hl].
      cbn [new_block]. intro E. injection E as <- <-. right. eexists. split; [reflexivity |]. cbn [len owns address_begin wanted].
      split; [reflexivity |]. split; [symmetry; rewrite firstn_firstn; f_equal; lia |]. split; [rewrite firstn_length; lia | congruence].
  - destruct (Z.gtb _ _); [discriminate |]. destruct gr; [| discriminate]. destruct (load_loop _ _ _ _) as [bs |] eqn:El; [| destruct (new_block _ _ _); discriminate].
    destruct (proj2 (proj2 (load_loop_spec _ _ _ _ (Nat.le_refl _))) _ El) as [-> Hl].
    cbn [new_block]. intro E. injection E as <- <-. right. eexists. split; [reflexivity |]. cbn [len owns address_begin wanted].
    split; [reflexivity |]. split; [| split; [rewrite firstn_length; lia | congruence]].
    rewrite firstn_app, firstn_firstn, Nat.min_id, firstn_length. replace (st_size f - Nat.min (st_size f) _) with 0 by lia. now rewrite firstn_O, app_nil_r.
  - destruct (st_size f) as [| n] eqn:En.
    + intro E. injection E as <- <-. left. split; [reflexivity |]. split; [reflexivity |]. unfold wanted, mapped_bytes. rewrite En. reflexivity.
    + rewrite <- En in *. destruct gr; [| discriminate]. cbn [new_block]. intro E. injection E as <- <-. right. eexists. split; [reflexivity |]. cbn [len owns address_begin wanted].
      split; [reflexivity |]. rewrite mapped_length. split; [| split; [reflexivity | intros _; split; [lia | reflexivity]]].
      rewrite <- (mapped_length f (st_size f) 0) at 2. now rewrite firstn_all.
  - destruct bytes as [| n]; [discriminate |]. destruct (gr && _); [| discriminate]. cbn [new_block]. intro E. injection E as <- <-. right. eexists. split; [reflexivity |]. cbn [len owns address_begin wanted].
    split; [reflexivity |]. rewrite mapped_length. split; [| split; [reflexivity | intros _; split; [lia | reflexivity]]].
    rewrite <- (mapped_length f (S n) from) at 2. now rewrite firstn_all.
Qed.
Lemma load_throw : forall fl st a f q w', inv fl st a -> load fl (mem st) f q = (None, w') ->
  (forall id, live w' id = live (mem st) id) /\ next (mem st) <= next w'.
Proof.
  intros fl st a f q w' I. set (w := mem st).
  assert (Hf : live w (next w) = None) by (unfold w; destruct (live (mem st) (next (mem st))) as [b |] eqn:E; [pose proof (i_next _ _ _ I _ _ E); lia | reflexivity]).
  assert (G : forall bs id, live match free (snd (new_block w Malloced bs)) (fst (new_block w Malloced bs)) with Some w'' => w'' | None => snd (new_block w Malloced bs) end id = live w id).
  { intros bs id. destruct (free_new w Malloced bs eq_refl) as [w'' [-> [H _]]]. rewrite H. destruct (Nat.eq_dec id (next w)) as [-> | N]; [rewrite set_same; auto | rewrite !set_other by exact N; reflexivity]. }
  assert (Gn : forall bs, next w <= next match free (snd (new_block w Malloced bs)) (fst (new_block w Malloced bs)) with Some w'' => w'' | None => snd (new_block w Malloced bs) end).
  { intros bs. destruct (free_new w Malloced bs eq_refl) as [w'' [-> [_ H]]]. rewrite H. lia. }
  assert (T : forall v : world, v = w -> (forall id, live v id = live w id) /\ next w <= next v) by (intros v ->; split; [reflexivity | lia]).
  unfold load. destruct fl, q as [gr sched | exsz gr sched | bytes from gr]; try (intro E; injection E as <-; apply T; reflexivity).
  - destruct (st_size f) as [| n] eqn:En; [discriminate |]. rewrite <- En. destruct gr; [| intro E; injection E as <-; apply T; reflexivity].
    destruct (load_loop _ _ _ _) as [bs |]; [discriminate |]. intro E. injection E as <-. split; [apply G | apply Gn].
  - destruct (Z.gtb _ _); [intro E; injection E as <-; apply T; reflexivity |]. destruct gr; [| intro E; injection E as <-; apply T; reflexivity].
    destruct (load_loop _ _ _ _) as [bs |]; [discriminate |]. intro E. injection E as <-. split; [apply G | apply Gn].
  - destruct (st_size f) as [| n] eqn:En; [discriminate |]. destruct gr; [discriminate |]. intro E; injection E as <-; apply T; reflexivity.
  - destruct bytes as [| n]; [intro E; injection E as <-; apply T; reflexivity |]. destruct (gr && _); [discriminate |]. intro E; injection E as <-; apply T; reflexivity.
Qed.

(** One operation: it is defined, throws only when loading, and keeps the invariant. *)
Lemma step_inv : forall fl st a o, inv fl st a -> allowed o a -> kind_of_op fl o ->
  (exists st', step fl o st = Next st' /\ inv fl st' (after fl o false a))
  \/ (exists st' s f q, o = Load s f q /\ step fl o st = Throws st' /\ inv fl st' (after fl o true a)).
Proof.
  intros fl st a o I Ha Hk. destruct o as [s | s f q | d s | d s | s | s | s]; cbn [allowed after step] in *.
  - left. eexists. split; [reflexivity |]. replace (default_object fl) with (emptied fl) by (destruct fl; [reflexivity | reflexivity | contradiction]).
    apply inv_empty; assumption.
  - destruct (load fl (mem st) f q) as [[x |] w] eqn:El.
    + left. eexists. split; [reflexivity |]. destruct (load_ok _ _ _ _ _ _ El) as [[-> [-> ->]] | [bs [-> [Ho [Hw [Hl Hm]]]]]].
      * apply inv_empty; assumption.
      * apply inv_fresh; try assumption; reflexivity.
    + right. eexists _, s, f, q. split; [reflexivity |]. split; [reflexivity |]. destruct (load_throw _ _ _ _ _ _ I El) as [A B]. apply inv_throw; assumption.
  - destruct Ha as [Hd Hs]. destruct (a s) as [c |] eqn:Es; [| congruence]. destruct (inv_obj _ _ _ _ _ I Es) as [x [Hx R]]. rewrite Hx. left. eexists. split; [reflexivity |].
    rewrite <- Es. apply (inv_move fl st a d s c I Es); [| exact Hx |].
    + intros y Hy _. rewrite (inv_none _ _ _ _ I Hd) in Hy. discriminate.
    + intros ->. congruence.
  - destruct Ha as [Hd Hs]. destruct (a d) as [cd |] eqn:Ed; [| congruence]. destruct (a s) as [c |] eqn:Es; [| congruence].
    destruct (inv_obj _ _ _ _ _ I Ed) as [old [Hold Ro]]. destruct (inv_obj _ _ _ _ _ I Es) as [x [Hx R]].
    rewrite Hold. destruct (inv_unload _ _ _ _ _ I Hold) as [w [-> [Hw I1]]]. rewrite Hx. left. eexists. split; [reflexivity |].
    destruct (Nat.eq_dec d s) as [-> | N].
    + apply (inv_ext _ _ _ _ _ I1); cbn [objs mem given]; try reflexivity.
      * intro t. destruct (Nat.eq_dec t s) as [-> | Nt]; [now rewrite !set_same | now rewrite !set_other by exact Nt].
      * intro t. destruct (Nat.eq_dec t s) as [-> | Nt]; [now rewrite !set_same | now rewrite !set_other by exact Nt].
    + assert (Es1 : set_at a d (Some []) s = Some c) by (rewrite set_other by congruence; exact Es).
      assert (Hx1 : objs (mk_state (set_at (objs st) d (Some (emptied fl))) w (given st)) s = Some x) by (cbn; rewrite set_other by congruence; exact Hx).
      assert (Hd1 : forall y, objs (mk_state (set_at (objs st) d (Some (emptied fl))) w (given st)) d = Some y -> d <> s -> y = emptied fl)
        by (cbn; rewrite set_same; intros y E _; congruence).
      pose proof (inv_move fl _ _ d s c I1 Es1 Hd1 x Hx1 ltac:(congruence)) as I2.
      apply (inv_ext _ _ _ _ _ I2); cbn [objs mem given]; try reflexivity; intro t.
      * destruct (Nat.eq_dec t s) as [-> | Nt]; [now rewrite !set_same | rewrite !(set_other _ _ s) by exact Nt]. destruct (Nat.eq_dec t d) as [-> | Nd]; [now rewrite !set_same | now rewrite !set_other by exact Nd].
      * destruct (Nat.eq_dec t s) as [-> | Nt]; [now rewrite !set_same | rewrite !(set_other _ _ s) by exact Nt]. destruct (Nat.eq_dec t d) as [-> | Nd].
        -- rewrite !set_same. rewrite set_other by congruence. exact (eq_sym Es).
        -- now rewrite !set_other by exact Nd.
  - destruct (a s) as [c |] eqn:Es; [| congruence]. destruct (inv_obj _ _ _ _ _ I Es) as [x [Hx R]]. rewrite Hx.
    destruct (inv_unload _ _ _ _ _ I Hx) as [w [-> [Hw I1]]]. left. eexists. split; [destruct fl; reflexivity |]. exact I1.
  - destruct (a s) as [c |] eqn:Es; [| congruence]. destruct (inv_obj _ _ _ _ _ I Es) as [x [Hx R]]. rewrite Hx. left. eexists. split; [reflexivity |].
    apply inv_release; assumption.
  - destruct (a s) as [c |] eqn:Es; [| congruence]. destruct (inv_obj _ _ _ _ _ I Es) as [x [Hx R]]. rewrite Hx.
    destruct (inv_unload _ _ _ _ _ I Hx) as [w [-> [Hw I1]]]. left. eexists. split; [reflexivity |].
    pose proof (inv_drop _ _ _ s I1 ltac:(cbn; apply set_same)) as I2. apply (inv_ext _ _ _ _ _ I2); cbn [objs mem given]; try reflexivity; intro t.
    + destruct (Nat.eq_dec t s) as [-> | Nt]; [now rewrite !set_same | now rewrite !set_other by exact Nt].
    + destruct (Nat.eq_dec t s) as [-> | Nt]; [now rewrite !set_same | now rewrite !set_other by exact Nt].
Qed.

Lemma history_inv : forall fl os st a, history fl os st a -> inv fl st a.
Proof.
  intros fl os st a H. induction H as [| os st a o st' H IH Ha Hk Es | os st a o st' H IH Ha Hk Es].
  - constructor; cbn; intros; try discriminate; try contradiction; exact Logic.I.
  - destruct (step_inv fl st a o IH Ha Hk) as [[st2 [E I2]] | [st2 [s [f [q [_ [E _]]]]]]]; rewrite E in Es; [injection Es as <-; exact I2 | discriminate].
  - destruct (step_inv fl st a o IH Ha Hk) as [[st2 [E I2]] | [st2 [s [f [q [_ [E I2]]]]]]]; rewrite E in Es; [discriminate | injection Es as <-; exact I2].
Qed.
Lemma rep_view : forall fl w x c, rep fl w x c -> view w x = c /\ len x = length c.
Proof.
  intros fl w x c [[-> ->] | [id [b [A [B [_ [C [L _]]]]]]]]; [destruct fl; split; reflexivity |]. unfold view. rewrite A, B. auto.
Qed.
