(** Proofs about process objects and the standard streams of children. *)
From Verif Require Import Base HandleModel HandleSpec HandleProofs ProcModel ProcSpec.

(** ** Process objects *)
Section Proc.
Variable stat : nat -> Z.
Definition pinv (s : pstate) : Prop :=
  (forall x p, pid_of s x = Some p -> kids s p = true) /\ (forall x y p, pid_of s x = Some p -> pid_of s y = Some p -> x = y).
Lemma pid_set s x v y : pid_of (set_proc s x v) y = if Nat.eqb y x then match v with Some p => p | None => None end else pid_of s y.
Proof. unfold pid_of. cbn. unfold upd. destruct (Nat.eqb y x); reflexivity. Qed.
Lemma pid_dead s x : ~ palive s x -> pid_of s x = None.
Proof. unfold palive, pid_of. destruct (procs s x); auto. intros H. exfalso. apply H. discriminate. Qed.
Lemma pinv_empty s x : pinv s -> pinv (set_proc s x (Some None)).
Proof.
  intros [H1 H2]. split.
  - intros y p. rewrite pid_set. destruct (Nat.eqb_spec y x); [discriminate|]. apply H1.
  - intros y z p. rewrite !pid_set. destruct (Nat.eqb_spec y x), (Nat.eqb_spec z x); try discriminate. apply H2.
Qed.
Lemma pinv_gone s x : pinv s -> pinv (set_proc s x None).
Proof.
  intros [H1 H2]. split.
  - intros y p. rewrite pid_set. destruct (Nat.eqb_spec y x); [discriminate|]. apply H1.
  - intros y z p. rewrite !pid_set. destruct (Nat.eqb_spec y x), (Nat.eqb_spec z x); try discriminate. apply H2.
Qed.
(** Collecting a child and forgetting it. *)
Lemma pinv_collect s x p v : pinv s -> pid_of s x = Some p -> v = None \/ v = Some None -> pinv (set_proc (collect s p) x v).
Proof.
  intros [H1 H2] Hx Hv. assert (Hp : match v with Some p => p | None => None end = @None nat) by (destruct Hv as [-> | ->]; reflexivity).
  split.
  - intros y q. rewrite pid_set, Hp. destruct (Nat.eqb_spec y x) as [->|Hne]; [discriminate|]. change (pid_of (collect s p) y) with (pid_of s y).
    intros Hy. cbn. rewrite upd_other; eauto. intros ->. apply Hne. eauto.
  - intros y z q. rewrite !pid_set, Hp. change (pid_of (collect s p)) with (pid_of s).
    destruct (Nat.eqb_spec y x), (Nat.eqb_spec z x); try discriminate. apply H2.
Qed.
Lemma pinv_pass s x y : pinv s -> x <> y -> pid_of s x = None -> pinv (set_proc (set_proc s x (Some (pid_of s y))) y (Some None)).
Proof.
  intros [H1 H2] Hne Hx. split.
  - intros z p. rewrite !pid_set. destruct (Nat.eqb_spec z y); [discriminate|]. destruct (Nat.eqb_spec z x); [|apply H1]. apply H1.
  - intros z t p. rewrite !pid_set. destruct (Nat.eqb_spec z y), (Nat.eqb_spec t y); try discriminate.
    destruct (Nat.eqb_spec z x), (Nat.eqb_spec t x); subst; auto; intros A B; pose proof (H2 _ _ _ A B); congruence.
Qed.
Lemma pinv_kid s p x : pinv s -> kids s p = false -> ~ palive s x -> pinv (set_proc (mk_pstate (upd (kids s) p true) (procs s)) x (Some (Some p))).
Proof.
  intros [H1 H2] Hp Hx. assert (Hn : forall y, pid_of s y <> Some p) by (intros y E; rewrite (H1 _ _ E) in Hp; discriminate). split.
  - intros y q. rewrite pid_set. change (pid_of (mk_pstate (upd (kids s) p true) (procs s)) y) with (pid_of s y).
    destruct (Nat.eqb_spec y x); [intros [= <-]; apply upd_same|]. intros E. cbn. unfold upd. destruct (Nat.eqb q p); eauto.
  - intros y z q. rewrite !pid_set. change (pid_of (mk_pstate (upd (kids s) p true) (procs s))) with (pid_of s).
    destruct (Nat.eqb_spec y x), (Nat.eqb_spec z x); subst; auto; try (intros A B; exfalso; injection A as <-; exact (Hn _ B));
      try (intros A B; exfalso; injection B as <-; exact (Hn _ A)). apply H2.
Qed.
Lemma psame_refl s : psame s s.
Proof. split; reflexivity. Qed.
Lemma pstep_right s o : pinv s -> pproper s o -> pkernel_ok s o -> no_empty_wait s o ->
  pinv (fst (pstep stat s o)) /\ pstep stat s o = qstep stat s o.
Proof.
  intros HI HP HK HE. destruct o as [x|x p ok|x y|x y a|x a|x|x a|p|p]; cbn [pproper pkernel_ok no_empty_wait] in *; cbn [pstep qstep].
  - split; auto. apply pinv_empty; auto.
  - destruct ok; split; auto. apply pinv_kid; auto.
  - destruct HP as [Hx Hy]. split; auto. apply pinv_pass; auto; [intros ->; tauto|apply pid_dead; auto].
  - destruct HP as (Hx & Hy & Hne). destruct (pid_of s x) as [p|] eqn:Ex; cbn [waitpid].
    + rewrite (proj1 HI _ _ Ex). cbn [after_wait fst]. split; [|reflexivity].
      pose proof (pinv_collect s x p (Some None) HI Ex (or_intror eq_refl)) as H1.
      pose proof (pinv_pass _ x y H1 Hne) as H2. rewrite !pid_set, Nat.eqb_refl in H2. specialize (H2 eq_refl).
      destruct (Nat.eqb_spec y x) as [->|_]; [congruence|].
      destruct H2 as [A B]. split.
      * intros z q. rewrite !pid_set. intros E. specialize (A z q). rewrite !pid_set in A. destruct (Nat.eqb z y); [discriminate|]. destruct (Nat.eqb z x); auto.
      * intros z t q. rewrite !pid_set. intros E F. apply (B z t q); rewrite !pid_set; destruct (Nat.eqb z y), (Nat.eqb t y), (Nat.eqb z x), (Nat.eqb t x); auto.
    + destruct a as [p|]; [cbn in HK; rewrite (HE eq_refl p) in HK; discriminate|]. cbn [after_wait fst]. split; [|reflexivity].
      apply pinv_pass; auto.
  - destruct (pid_of s x) as [p|] eqn:Ex; cbn [waitpid].
    + rewrite (proj1 HI _ _ Ex). cbn [fst]. split; [|reflexivity]. apply pinv_collect; auto.
    + destruct a as [p|]; [cbn in HK; rewrite (HE eq_refl p) in HK; discriminate|]. auto.
  - split; auto. apply pinv_empty; auto.
  - destruct (pid_of s x) as [p|] eqn:Ex; cbn [waitpid].
    + rewrite (proj1 HI _ _ Ex). cbn [after_wait fst]. split; [|reflexivity]. apply pinv_collect; auto.
    + destruct a as [p|]; [cbn in HK; rewrite (HE eq_refl p) in HK; discriminate|]. cbn [after_wait fst]. split; [|reflexivity].
      apply pinv_gone; auto.
  - split; auto. destruct HI as [H1 H2]. split; [|exact H2]. intros y q E. cbn. unfold upd. destruct (Nat.eqb q p); eauto.
  - destruct (kids s p) eqn:Ek; [|auto]. cbn [fst]. split; auto. destruct HI as [H1 H2]. split; [|exact H2].
    intros y q E. cbn. change (pid_of (collect s p) y) with (pid_of s y) in E. rewrite upd_other; eauto. intros ->. exact (HP _ E).
Qed.
Lemma pinv_start : pinv pstart.
Proof. split; intros; discriminate. Qed.
Lemma phistory_right : forall l s, pinv s -> phistory no_empty_wait stat s l -> prun stat s l = qrun stat s l.
Proof.
  induction l as [|o l IH]; intros s HI H; [reflexivity|]. destruct H as (H1 & H2 & H3 & H4). cbn [prun qrun].
  destruct (pstep_right s o HI H1 H2 H3) as [HI' E]. specialize (IH _ HI' H4). rewrite <- E. destruct (pstep stat s o) as [s1 e].
  cbn [fst] in IH. rewrite IH. reflexivity.
Qed.
End Proc.

(** ** The standard streams *)
Lemma deal_spec c red fd : let '(c', i) := deal_with c red fd in
  (match red with RPipe p => exists r w, cpipe c p = (r, w) /\ source c red fd <> None | _ => True end ->
   i = source c red fd) /\
  (forall n, ctab c' n = if match closed_end c red fd with Some m => Nat.eqb n m | None => false end then None else ctab c n) /\
  (forall q, ~ is_pipe red q -> cpipe c' q = cpipe c q) /\
  (forall q, fd <> 0%nat -> snd (cpipe c' q) = snd (cpipe c q) /\ (fst (cpipe c' q) = fst (cpipe c q) \/ is_pipe red q /\ fst (cpipe c' q) = None)).
Proof.
  unfold deal_with, source, closed_end, is_pipe. destruct red as [|p|f|]; try (split; [|split; [|split]]; auto; fail).
  destruct (Nat.eqb_spec fd 0) as [->|Hne]; cbn [ends].
  - destruct (cpipe c p) as [r w] eqn:E. cbn [fst snd].
    assert (Hi : (exists r0 w0, (r, w) = (r0, w0) /\ r <> None) -> Some match r with Some v => v | None => 0%nat end = r).
    { intros (r0 & w0 & _ & H). destruct r; congruence. }
    destruct w as [w|]; (split; [exact Hi|]); cbn [ctab cpipe].
    + split; [intros n; unfold upd; reflexivity|]. split; [intros q Hq; apply upd_other; congruence|congruence].
    + split; [reflexivity|]. split; [auto|congruence].
  - destruct (cpipe c p) as [r w] eqn:E. cbn [fst snd].
    assert (Hi : (exists r0 w0, (r, w) = (r0, w0) /\ w <> None) -> Some match w with Some v => v | None => fd end = w).
    { intros (r0 & w0 & _ & H). destruct w; congruence. }
    destruct r as [r|]; (split; [exact Hi|]); cbn [ctab cpipe].
    + split; [intros n; unfold upd; reflexivity|]. split; [intros q Hq; apply upd_other; congruence|].
      intros q _. unfold upd. destruct (Nat.eqb_spec q p) as [->|Hq]; [rewrite E; cbn; auto|auto].
    + split; [reflexivity|]. split; auto.
Qed.
Lemma redirect_spec fd n c : match fd with Some f => ctab c f <> None | None => True end ->
  exists c', redirect_to fd n c = Some c' /\ ctab c' n = match fd with Some f => ctab c f | None => ctab c n end /\
    (forall m, m <> n -> ctab c' m = ctab c m).
Proof.
  intros H. destruct fd as [f|]; cbn [redirect_to]; [|exists c; auto]. destruct (Nat.eqb_spec f n) as [->|Hne]; [exists c; auto|].
  unfold dup2_or_die. destruct (ctab c f) as [d|] eqn:E; [|congruence]. eexists. split; [reflexivity|]. cbn [ctab].
  split; [apply upd_same|intros m Hm; apply upd_other; auto].
Qed.
Lemma null_spec a fd n c d : ctab c a = Some d ->
  exists c', null_to a fd n c = Some c' /\ ctab c' n = match fd with None => Some d | Some _ => ctab c n end /\
    (forall m, m <> n -> ctab c' m = ctab c m).
Proof.
  intros H. unfold null_to, dup2_or_die. rewrite H. destruct fd; [exists c; auto|]. eexists. split; [reflexivity|]. cbn [ctab].
  split; [apply upd_same|intros m Hm; apply upd_other; auto].
Qed.
Definition stream_ok (c : child) (a : nat) (s : option nat) (n : nat) : Prop :=
  match s with Some f => ctab c f <> None /\ (f = n \/ (3 <= f)%nat) /\ f <> a | None => True end.
Lemma redirects_spec c i o e :
  (match i with Some f => ctab c f <> None /\ (f = 0%nat \/ (3 <= f)%nat) | None => True end) ->
  (match o with Some f => ctab c f <> None /\ (f = 1%nat \/ (3 <= f)%nat) | None => True end) ->
  (match e with Some f => ctab c f <> None /\ (f = 2%nat \/ (3 <= f)%nat) | None => True end) ->
  exists c', bindc (bindc (redirect_to i 0 c) (redirect_to o 1)) (redirect_to e 2) = Some c' /\
    ctab c' 0%nat = match i with Some f => ctab c f | None => ctab c 0%nat end /\
    ctab c' 1%nat = match o with Some f => ctab c f | None => ctab c 1%nat end /\
    ctab c' 2%nat = match e with Some f => ctab c f | None => ctab c 2%nat end /\
    (forall m, (3 <= m)%nat -> ctab c' m = ctab c m).
Proof.
  intros Hi Ho He.
  destruct (redirect_spec i 0 c) as (c1 & E1 & A1 & B1); [destruct i; tauto|]. rewrite E1. cbn [bindc].
  destruct (redirect_spec o 1 c1) as (c2 & E2 & A2 & B2).
  { destruct o as [f|]; auto. rewrite B1 by lia. tauto. }
  rewrite E2. cbn [bindc].
  destruct (redirect_spec e 2 c2) as (c3 & E3 & A3 & B3).
  { destruct e as [f|]; auto. rewrite B2, B1 by lia. tauto. }
  exists c3. split; [exact E3|]. split; [|split; [|split]].
  - rewrite B3, B2 by lia. exact A1.
  - rewrite B3 by lia. rewrite A2. destruct o as [f|]; rewrite B1 by lia; reflexivity.
  - rewrite A3. destruct e as [f|]; rewrite B2, B1 by lia; reflexivity.
  - intros m Hm. rewrite B3, B2, B1 by lia. reflexivity.
Qed.
Lemma final_spec c a null i o e : (3 <= a)%nat -> stream_ok c a i 0 -> stream_ok c a o 1 -> stream_ok c a e 2 ->
  exists c', bindc
    (match i, o, e with
     | Some _, Some _, Some _ => Some c
     | _, _, _ =>
         let c := mk_child (upd (ctab c) a (Some null)) (cpipe c) in
         bindc (bindc (bindc (null_to a i 0 c) (null_to a o 1)) (null_to a e 2))
           (fun c => Some (mk_child (upd (ctab c) a None) (cpipe c)))
     end)
    (fun c => bindc (bindc (redirect_to i 0 c) (redirect_to o 1)) (redirect_to e 2)) = Some c' /\
    ctab c' 0%nat = match i with Some f => ctab c f | None => Some null end /\
    ctab c' 1%nat = match o with Some f => ctab c f | None => Some null end /\
    ctab c' 2%nat = match e with Some f => ctab c f | None => Some null end /\
    (forall m, (3 <= m)%nat -> m <> a -> ctab c' m = ctab c m) /\ (ctab c a = None -> ctab c' a = None).
Proof.
  intros Ha Hi Ho He.
  assert (N : forall x, x = (let c := mk_child (upd (ctab c) a (Some null)) (cpipe c) in
         bindc (bindc (bindc (null_to a i 0 c) (null_to a o 1)) (null_to a e 2))
           (fun c => Some (mk_child (upd (ctab c) a None) (cpipe c)))) ->
     exists c', bindc x (fun c => bindc (bindc (redirect_to i 0 c) (redirect_to o 1)) (redirect_to e 2)) = Some c' /\
    ctab c' 0%nat = match i with Some f => ctab c f | None => Some null end /\
    ctab c' 1%nat = match o with Some f => ctab c f | None => Some null end /\
    ctab c' 2%nat = match e with Some f => ctab c f | None => Some null end /\
    (forall m, (3 <= m)%nat -> m <> a -> ctab c' m = ctab c m) /\ (ctab c a = None -> ctab c' a = None)).
  { intros x ->. cbv zeta. set (c0 := mk_child (upd (ctab c) a (Some null)) (cpipe c)).
    assert (T0 : forall m, m <> a -> ctab c0 m = ctab c m) by (intros m Hm; apply upd_other; auto).
    destruct (null_spec a i 0 c0 null) as (c1 & E1 & A1 & B1); [apply upd_same|]. rewrite E1. cbn [bindc].
    destruct (null_spec a o 1 c1 null) as (c2 & E2 & A2 & B2); [rewrite B1 by lia; apply upd_same|]. rewrite E2. cbn [bindc].
    destruct (null_spec a e 2 c2 null) as (c3 & E3 & A3 & B3); [rewrite B2, B1 by lia; apply upd_same|]. rewrite E3. cbn [bindc].
    set (c4 := mk_child (upd (ctab c3) a None) (cpipe c3)).
    assert (T4 : forall m, m <> a -> ctab c4 m = ctab c3 m) by (intros m Hm; apply upd_other; auto).
    assert (T : forall m, (3 <= m)%nat -> m <> a -> ctab c4 m = ctab c m).
    { intros m Hm Hne. rewrite T4, B3, B2, B1, T0 by lia. reflexivity. }
    assert (T' : forall f n s, s = Some f -> (f = n \/ (3 <= f)%nat) -> f <> a -> (n < 3)%nat ->
        (n = 0%nat -> i = s) -> (n = 1%nat -> o = s) -> (n = 2%nat -> e = s) -> ctab c4 f = ctab c f).
    { intros f n s Hs Hf Hfa Hn H0 H1 H2. destruct (Nat.le_gt_cases 3 f) as [G|G]; [apply T; auto|]. destruct Hf as [->|Hf]; [|lia].
      rewrite T4 by auto. destruct n as [|[|[|n]]]; [| | |lia].
      - rewrite B3, B2, A1, (H0 eq_refl), Hs, T0 by lia. reflexivity.
      - rewrite B3, A2, (H1 eq_refl), Hs, B1, T0 by lia. reflexivity.
      - rewrite A3, (H2 eq_refl), Hs, B2, B1, T0 by lia. reflexivity. }
    destruct (redirects_spec c4 i o e) as (c5 & E5 & X0 & X1 & X2 & X3).
    { destruct i as [f|]; auto. destruct Hi as (Hi1 & Hi2 & Hi3). split; auto. rewrite (T' f 0%nat (Some f)); auto; lia. }
    { destruct o as [f|]; auto. destruct Ho as (Ho1 & Ho2 & Ho3). split; auto. rewrite (T' f 1%nat (Some f)); auto; lia. }
    { destruct e as [f|]; auto. destruct He as (He1 & He2 & He3). split; auto. rewrite (T' f 2%nat (Some f)); auto; lia. }
    exists c5. split; [exact E5|]. split; [|split; [|split; [|split]]].
    - rewrite X0. destruct i as [f|]; [destruct Hi as (Hi1 & Hi2 & Hi3); apply (T' f 0%nat (Some f)); auto; lia|].
      rewrite T4, B3, B2, A1 by lia. reflexivity.
    - rewrite X1. destruct o as [f|]; [destruct Ho as (Ho1 & Ho2 & Ho3); apply (T' f 1%nat (Some f)); auto; lia|].
      rewrite T4, B3, A2 by lia. reflexivity.
    - rewrite X2. destruct e as [f|]; [destruct He as (He1 & He2 & He3); apply (T' f 2%nat (Some f)); auto; lia|].
      rewrite T4, A3 by lia. reflexivity.
    - intros m Hm Hma. rewrite X3 by auto. apply T; auto.
    - intros _. rewrite X3 by auto. apply upd_same. }
  destruct i as [i|]; [destruct o as [o|]; [destruct e as [e|]|]|]; try (apply N; reflexivity).
  cbn [bindc]. destruct (redirects_spec c (Some i) (Some o) (Some e)) as (c5 & E5 & X0 & X1 & X2 & X3); cbn in *; try tauto.
  exists c5. split; [exact E5|]. repeat (split; auto). intros H. rewrite X3 by auto. exact H.
Qed.
Definition streams3 (rin rout rerr : redirection) : list (redirection * nat) := [(rin, 0); (rout, 1); (rerr, 2)]%nat.
Definition closed3 (c : child) (rin rout rerr : redirection) (m : nat) : Prop :=
  exists r n, In (r, n) (streams3 rin rout rerr) /\ closed_end c r n = Some m.
Lemma is_pipe_dec red q : {is_pipe red q} + {~ is_pipe red q}.
Proof. unfold is_pipe. destruct red as [|p|f|]; try (right; discriminate). destruct (Nat.eq_dec p q); [left|right]; congruence. Qed.
Lemma deals_spec c0 rin rout rerr :
  plain_source c0 rin 0 -> plain_source c0 rout 1 -> plain_source c0 rerr 2 -> unshared rin rout rerr ->
  let '(c1, i) := deal_with c0 rin 0 in
  let '(c2, o) := deal_with c1 rout 1 in
  let '(c3, e) := deal_with c2 rerr 2 in
  i = source c0 rin 0 /\ o = source c0 rout 1 /\ e = source c0 rerr 2 /\
  (forall m, closed3 c0 rin rout rerr m -> ctab c3 m = None) /\
  (forall m, ~ closed3 c0 rin rout rerr m -> ctab c3 m = ctab c0 m).
Proof.
  intros Pi Po Pe Hu.
  pose proof (deal_spec c0 rin 0) as D1. destruct (deal_with c0 rin 0) as [c1 i]. destruct D1 as (I1 & T1 & Q1 & _).
  assert (Eo : forall p, rout = RPipe p -> cpipe c1 p = cpipe c0 p).
  { intros p ->. apply Q1. intros H. destruct (Hu p H) as [A _]. congruence. }
  assert (Ee : forall p, rerr = RPipe p -> cpipe c1 p = cpipe c0 p).
  { intros p ->. apply Q1. intros H. destruct (Hu p H) as [_ A]. congruence. }
  pose proof (deal_spec c1 rout 1) as D2. destruct (deal_with c1 rout 1) as [c2 o]. destruct D2 as (I2 & T2 & Q2 & R2).
  pose proof (deal_spec c2 rerr 2) as D3. destruct (deal_with c2 rerr 2) as [c3 e]. destruct D3 as (I3 & T3 & Q3 & R3).
  assert (So : source c1 rout 1 = source c0 rout 1) by (destruct rout; cbn; try rewrite (Eo _ eq_refl); reflexivity).
  assert (Co : closed_end c1 rout 1 = closed_end c0 rout 1) by (destruct rout; cbn; try rewrite (Eo _ eq_refl); reflexivity).
  assert (Se : source c2 rerr 2 = source c0 rerr 2).
  { destruct rerr; cbn; try reflexivity. rewrite (proj1 (R2 p ltac:(discriminate))), (Ee _ eq_refl). reflexivity. }
  assert (Ce : closed_end c2 rerr 2 = closed_end c0 rerr 2 \/ closed_end c2 rerr 2 = None /\ closed_end c0 rerr 2 = closed_end c0 rout 1).
  { destruct rerr as [|p| |]; cbn [closed_end]; auto. change (Nat.eqb 2 0) with false. cbv iota.
    destruct (proj2 (R2 p ltac:(discriminate))) as [E|[E1 E2]].
    - left. rewrite E, (Ee _ eq_refl). reflexivity.
    - right. split; auto. rewrite E1. reflexivity. }
  split; [|split; [|split]].
  - apply I1. destruct rin as [|p| |]; auto. destruct Pi as (r & w & E & _). exists (Some r), (Some w). cbn. rewrite E. split; auto. discriminate.
  - rewrite <- So. apply I2. destruct rout as [|p| |]; auto. destruct Po as (r & w & E & _). exists (Some r), (Some w). cbn.
    rewrite (Eo _ eq_refl), E. split; auto. discriminate.
  - rewrite <- Se. apply I3. destruct rerr as [|p| |]; auto. rewrite Se. destruct Pe as (r & w & E & _).
    exists (fst (cpipe c2 p)), (snd (cpipe c2 p)). split; [destruct (cpipe c2 p); reflexivity|]. cbn. rewrite E. discriminate.
  - split.
    + intros m (r & n & Hin & Hc). rewrite T3, T2, T1, Co. destruct Hin as [H|[H|[H|[]]]]; injection H as <- <-.
      * rewrite Hc, Nat.eqb_refl. destruct (closed_end c0 rout 1), (closed_end c2 rerr 2); repeat match goal with |- context [if ?b then _ else _] => destruct b end; reflexivity.
      * rewrite Hc, Nat.eqb_refl. destruct (closed_end c2 rerr 2); repeat match goal with |- context [if ?b then _ else _] => destruct b end; reflexivity.
      * destruct Ce as [Ce|[Ce1 Ce2]]; [rewrite Ce, Hc, Nat.eqb_refl; reflexivity|]. rewrite Ce1, <- Ce2, Hc, Nat.eqb_refl. reflexivity.
    + intros m Hm. rewrite T3, T2, T1, Co.
      assert (N : forall r n, In (r, n) (streams3 rin rout rerr) -> match closed_end c0 r n with Some k => Nat.eqb m k | None => false end = false).
      { intros r n Hin. destruct (closed_end c0 r n) eqn:E; auto. destruct (Nat.eqb_spec m n0); auto. subst. exfalso. apply Hm. exists r, n. auto. }
      rewrite (N rin 0%nat), (N rout 1%nat) by (cbn; auto).
      destruct Ce as [->|[-> _]]; [rewrite (N rerr 2%nat) by (cbn; auto)|]; reflexivity.
Qed.
Lemma parent_deal_spec b c red : let c' := parent_deal b c red in
  (forall m, ctab c' m = if match red with
       | RPipe p => match (if b : bool then fst (cpipe c p) else snd (cpipe c p)) with Some f => Nat.eqb m f | None => false end
       | _ => false end then None else ctab c m) /\
  (forall p, cpipe c' p = if is_pipe_dec red p then if b then (None, snd (cpipe c p)) else (fst (cpipe c p), None) else cpipe c p).
Proof.
  unfold parent_deal. destruct red as [|q| |]; cbv zeta; try (split; [reflexivity|]; intros p; destruct (is_pipe_dec _ p) as [H|_]; [discriminate|reflexivity]).
  assert (X : forall p, is_pipe (RPipe q) p <-> p = q) by (intros p; unfold is_pipe; split; congruence).
  destruct b; destruct (cpipe c q) as [r w] eqn:E; cbn [fst snd].
  - destruct r as [r|]; cbn [ctab cpipe]; (split; [reflexivity|]); intros p; destruct (is_pipe_dec (RPipe q) p) as [H|H]; rewrite X in H; try reflexivity.
    + subst. rewrite upd_same, E. reflexivity.
    + apply upd_other; auto.
    + subst. rewrite E. reflexivity.
  - destruct w as [w|]; cbn [ctab cpipe]; (split; [reflexivity|]); intros p; destruct (is_pipe_dec (RPipe q) p) as [H|H]; rewrite X in H; try reflexivity.
    + subst. rewrite upd_same, E. reflexivity.
    + apply upd_other; auto.
    + subst. rewrite E. reflexivity.
Qed.
Lemma parent_spec c rin rout rerr : unshared rin rout rerr ->
  let c' := parent_after c rin rout rerr in
  (forall m, (exists p, rin = RPipe p /\ fst (cpipe c p) = Some m \/ (rout = RPipe p \/ rerr = RPipe p) /\ snd (cpipe c p) = Some m) -> ctab c' m = None) /\
  (forall m, ~ (exists p, rin = RPipe p /\ fst (cpipe c p) = Some m \/ (rout = RPipe p \/ rerr = RPipe p) /\ snd (cpipe c p) = Some m) -> ctab c' m = ctab c m) /\
  (forall p, rin = RPipe p -> cpipe c' p = (None, snd (cpipe c p))) /\
  (forall p, rout = RPipe p \/ rerr = RPipe p -> cpipe c' p = (fst (cpipe c p), None)) /\
  (forall p, rin <> RPipe p -> rout <> RPipe p -> rerr <> RPipe p -> cpipe c' p = cpipe c p).
Proof.
  intros Hu. unfold parent_after.
  destruct (parent_deal_spec true c rin) as [T1 Q1]. set (c1 := parent_deal true c rin) in *.
  destruct (parent_deal_spec false c1 rout) as [T2 Q2]. set (c2 := parent_deal false c1 rout) in *.
  destruct (parent_deal_spec false c2 rerr) as [T3 Q3]. set (c3 := parent_deal false c2 rerr) in *. cbv zeta.
  assert (So : forall p, rout = RPipe p \/ rerr = RPipe p -> cpipe c1 p = cpipe c p).
  { intros p H. rewrite Q1. destruct (is_pipe_dec rin p) as [A|]; auto. exfalso. destruct (Hu p A). tauto. }
  split; [|split; [|split; [|split]]].
  - intros m (p & [[-> E]|[H E]]).
    + rewrite T3, T2, T1, E, Nat.eqb_refl. repeat match goal with |- context [if ?b then None else _] => destruct b end; reflexivity.
    + rewrite T3. destruct (is_pipe_dec rout p) as [A|A].
      * assert (G : ctab c2 m = None). { rewrite T2, A, (So p (or_introl A)), E, Nat.eqb_refl. reflexivity. }
        rewrite G. match goal with |- (if ?b then None else _) = _ => destruct b end; reflexivity.
      * destruct H as [H|H]; [contradiction|]. rewrite H, Q2. destruct (is_pipe_dec rout p); [contradiction|].
        rewrite (So p (or_intror H)), E, Nat.eqb_refl. reflexivity.
  - intros m Hm. rewrite T3, T2, T1.
    assert (G1 : match rin with RPipe p => match fst (cpipe c p) with Some f => Nat.eqb m f | None => false end | _ => false end = false).
    { destruct rin as [|p| |]; auto. destruct (fst (cpipe c p)) as [f|] eqn:E; auto. destruct (Nat.eqb_spec m f); auto. subst. exfalso. apply Hm. exists p. auto. }
    assert (G2 : match rout with RPipe p => match snd (cpipe c1 p) with Some f => Nat.eqb m f | None => false end | _ => false end = false).
    { destruct rout as [|p| |]; auto. rewrite (So p (or_introl eq_refl)). destruct (snd (cpipe c p)) as [f|] eqn:E; auto. destruct (Nat.eqb_spec m f); auto. subst. exfalso. apply Hm. exists p. auto. }
    assert (G3 : match rerr with RPipe p => match snd (cpipe c2 p) with Some f => Nat.eqb m f | None => false end | _ => false end = false).
    { destruct rerr as [|p| |]; auto. rewrite Q2. destruct (is_pipe_dec rout p); [reflexivity|].
      rewrite (So p (or_intror eq_refl)). destruct (snd (cpipe c p)) as [f|] eqn:E; auto. destruct (Nat.eqb_spec m f); auto. subst. exfalso. apply Hm. exists p. auto. }
    rewrite G3, G2, G1. reflexivity.
  - intros p H. destruct (Hu p H) as [A B]. rewrite Q3, Q2, Q1. unfold is_pipe.
    destruct (is_pipe_dec rerr p); [contradiction|]. destruct (is_pipe_dec rout p); [contradiction|]. destruct (is_pipe_dec rin p); [reflexivity|contradiction].
  - intros p H. rewrite Q3. destruct (is_pipe_dec rerr p) as [A|A].
    + rewrite Q2. destruct (is_pipe_dec rout p); cbn [fst]; rewrite (So p H); reflexivity.
    + rewrite Q2. destruct (is_pipe_dec rout p) as [B|B]; [cbn [fst]; rewrite (So p H); reflexivity|]. destruct H; contradiction.
  - intros p A B C. rewrite Q3, Q2, Q1. destruct (is_pipe_dec rerr p); [contradiction|]. destruct (is_pipe_dec rout p); [contradiction|].
    destruct (is_pipe_dec rin p); [contradiction|reflexivity].
Qed.
