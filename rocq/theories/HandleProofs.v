(** Proofs about file objects: ownership of descriptors is kept by every operation. *)
From Verif Require Import Base HandleModel HandleSpec.

Lemma upd_same {A} (f : nat -> A) x v : upd f x v x = v.
Proof. unfold upd. rewrite Nat.eqb_refl. reflexivity. Qed.
Lemma upd_other {A} (f : nat -> A) x v y : y <> x -> upd f x v y = f y.
Proof. intros H. unfold upd. destruct (Nat.eqb_spec y x); congruence. Qed.

(** What a holder has. *)
Definition cell (s : fstate) (h : holder) : option nat := match h with HObj x => fd_of s x | HRaw r => raws s r end.
Lemma holds_cell s h fd : holds s h fd <-> cell s h = Some fd.
Proof.
  destruct h as [x|r]; cbn; [|tauto]. unfold fd_of. destruct (objs s x) as [[f|]|]; split; intros H; congruence.
Qed.
Lemma holder_dec (a b : holder) : {a = b} + {a <> b}.
Proof. decide equality; apply Nat.eq_dec. Qed.
Definition own (s : fstate) : Prop :=
  (forall h fd, cell s h = Some fd -> tab (ker s) fd <> None) /\
  (forall a b fd, cell s a = Some fd -> cell s b = Some fd -> a = b) /\
  (forall fd, tab (ker s) fd <> None -> exists h, cell s h = Some fd) /\
  (forall fd, ~ In (KClose fd false) (klog (ker s))).
Definition sees (s : fstate) (h : holder) : option nat := behind s (cell s h).

(** ** The elementary changes *)
(** A new descriptor for the empty holder [h]. *)
Lemma own_give s s' h fd d : own s -> tab (ker s) fd = None -> cell s h = None ->
  ker s' = k_give (ker s) fd d -> cell s' h = Some fd -> (forall h', h' <> h -> cell s' h' = cell s h') ->
  own s' /\ sees s' h = Some d /\ forall h', h' <> h -> sees s' h' = sees s h'.
Proof.
  intros (O1 & O2 & O3 & O4) Hf Hh Hk Hc Ho. unfold own, sees, behind. rewrite Hk. cbn [tab klog k_give].
  assert (Hn : forall h' f, cell s h' = Some f -> f <> fd) by (intros h' f E ->; exact (O1 _ _ E Hf)).
  split; [split; [|split; [|split]]|split].
  - intros h' f E. destruct (holder_dec h' h) as [->|Hne].
    + rewrite Hc in E. injection E as <-. rewrite upd_same. discriminate.
    + rewrite Ho in E by auto. rewrite upd_other by eauto. eauto.
  - intros a b f Ea Eb. destruct (holder_dec a h) as [->|Ha], (holder_dec b h) as [->|Hb]; auto.
    + rewrite Hc in Ea. injection Ea as <-. rewrite Ho in Eb by auto. destruct (Hn _ _ Eb eq_refl).
    + rewrite Hc in Eb. injection Eb as <-. rewrite Ho in Ea by auto. destruct (Hn _ _ Ea eq_refl).
    + rewrite Ho in Ea, Eb by auto. eauto.
  - intros f Ef. destruct (Nat.eq_dec f fd) as [->|Hne]; [eauto|]. rewrite upd_other in Ef by auto.
    destruct (O3 f Ef) as [h' E]. exists h'. rewrite Ho; auto. intros ->. congruence.
  - exact O4.
  - rewrite Hc. apply upd_same.
  - intros h' Hne. rewrite Ho by auto. destruct (cell s h') as [f|] eqn:E; auto. apply upd_other. eauto.
Qed.
(** The holder [h] closes its descriptor. *)
Lemma own_drop s s' h fd : own s -> cell s h = Some fd ->
  ker s' = k_close (ker s) fd -> cell s' h = None -> (forall h', h' <> h -> cell s' h' = cell s h') ->
  own s' /\ sees s' h = None /\ forall h', h' <> h -> sees s' h' = sees s h'.
Proof.
  intros (O1 & O2 & O3 & O4) Hh Hk Hc Ho. unfold own, sees, behind. rewrite Hk. cbn [tab klog k_close].
  assert (Hn : forall h' f, h' <> h -> cell s h' = Some f -> f <> fd) by (intros h' f Hne E ->; apply Hne; eauto).
  split; [split; [|split; [|split]]|split].
  - intros h' f E. destruct (holder_dec h' h) as [->|Hne]; [congruence|]. rewrite Ho in E by auto.
    rewrite upd_other by eauto. eauto.
  - intros a b f Ea Eb. destruct (holder_dec a h) as [->|Ha]; [congruence|]. destruct (holder_dec b h) as [->|Hb]; [congruence|].
    rewrite Ho in Ea, Eb by auto. eauto.
  - intros f Ef. destruct (Nat.eq_dec f fd) as [->|Hne]; [rewrite upd_same in Ef; congruence|]. rewrite upd_other in Ef by auto.
    destruct (O3 f Ef) as [h' E]. exists h'. rewrite Ho; auto. intros ->. congruence.
  - intros f Hi. apply in_app_iff in Hi. destruct Hi as [Hi|[Hi|[]]]; [exact (O4 _ Hi)|].
    destruct (tab (ker s) fd) eqn:E; [discriminate|]. exact (O1 _ _ Hh E).
  - rewrite Hc. reflexivity.
  - intros h' Hne. rewrite Ho by auto. destruct (cell s h') as [f|] eqn:E; auto. apply upd_other. eauto.
Qed.
(** The empty holder [b] takes over what [a] has. *)
Lemma own_pass s s' a b : own s -> a <> b -> cell s b = None -> ker s' = ker s ->
  cell s' b = cell s a -> cell s' a = None -> (forall h, h <> a -> h <> b -> cell s' h = cell s h) ->
  own s' /\ sees s' b = sees s a /\ sees s' a = None /\ forall h, h <> a -> h <> b -> sees s' h = sees s h.
Proof.
  intros (O1 & O2 & O3 & O4) Hab Hb Hk Hcb Hca Ho. unfold own, sees, behind. rewrite Hk.
  assert (Hw : forall h f, cell s' h = Some f -> exists h0, cell s h0 = Some f /\ (h = b /\ h0 = a \/ h0 = h /\ h <> a /\ h <> b)).
  { intros h f E. destruct (holder_dec h b) as [->|H1]; [exists a; split; [congruence|auto]|].
    destruct (holder_dec h a) as [->|H2]; [congruence|]. rewrite Ho in E by auto. exists h. auto. }
  split; [split; [|split; [|split]]|split; [|split]].
  - intros h f E. destruct (Hw h f E) as (h0 & E0 & _). eauto.
  - intros h h' f E E'. destruct (Hw h f E) as (h0 & E0 & C0), (Hw h' f E') as (h1 & E1 & C1).
    pose proof (O2 _ _ _ E0 E1) as ->. destruct C0 as [[-> ->]|(-> & C & C')], C1 as [[-> E2]|(-> & D & D')]; auto; congruence.
  - intros f Ef. destruct (O3 f Ef) as [h E]. destruct (holder_dec h a) as [->|H1]; [exists b; congruence|].
    exists h. rewrite Ho; auto. intros ->. congruence.
  - exact O4.
  - rewrite Hcb. reflexivity.
  - rewrite Hca. reflexivity.
  - intros h H1 H2. rewrite Ho by auto. reflexivity.
Qed.
Lemma own_nothing s s' : own s -> ker s' = ker s -> (forall h, cell s' h = cell s h) ->
  own s' /\ forall h, sees s' h = sees s h.
Proof.
  intros (O1 & O2 & O3 & O4) Hk Ho. unfold own, sees, behind. rewrite Hk. split; [split; [|split; [|split]]|].
  - intros h f. rewrite Ho. eauto.
  - intros a b f. rewrite !Ho. eauto.
  - intros f Ef. destruct (O3 f Ef) as [h E]. exists h. rewrite Ho. exact E.
  - exact O4.
  - intros h. rewrite Ho. reflexivity.
Qed.
(** The open descriptor of [h] is given to another file. *)
Lemma own_redirect s s' h fd d : own s -> cell s h = Some fd -> ker s' = k_give (ker s) fd d ->
  (forall h, cell s' h = cell s h) -> own s' /\ sees s' h = Some d /\ forall h', h' <> h -> sees s' h' = sees s h'.
Proof.
  intros (O1 & O2 & O3 & O4) Hh Hk Ho. unfold own, sees, behind. rewrite Hk. cbn [tab klog k_give].
  split; [split; [|split; [|split]]|split].
  - intros h' f. rewrite Ho. intros E. destruct (Nat.eq_dec f fd) as [->|]; [rewrite upd_same; discriminate|rewrite upd_other by auto; eauto].
  - intros a b f. rewrite !Ho. eauto.
  - intros f Ef. destruct (Nat.eq_dec f fd) as [->|]; [exists h; rewrite Ho; auto|]. rewrite upd_other in Ef by auto.
    destruct (O3 f Ef) as [h' E]. exists h'. rewrite Ho. exact E.
  - exact O4.
  - rewrite Ho, Hh. apply upd_same.
  - intros h' Hne. rewrite Ho. destruct (cell s h') as [f|] eqn:E; auto. apply upd_other. intros ->. apply Hne. eauto.
Qed.

(** ** Operations *)
Definition hcell (s : hstate) (h : holder) : option nat := match h with HObj x => file_of s x | HRaw r => hraw s r end.
Lemma hcell_view s h : hcell (view s) h = sees s h.
Proof. destruct h as [x|r]; cbn; [|reflexivity]. unfold file_of, sees, cell, fd_of. cbn. destruct (objs s x) as [fd|]; reflexivity. Qed.
Lemma sees_none s h : own s -> sees s h = None -> cell s h = None.
Proof. intros (O1 & _) H. unfold sees, behind in H. destruct (cell s h) as [fd|] eqn:E; auto. destruct (O1 _ _ E H). Qed.
Definition lives (s : fstate) (x : nat) : bool := match objs s x with Some _ => true | None => false end.
Definition hlives (s : hstate) (x : nat) : bool := match hobj s x with Some _ => true | None => false end.
Lemma same_iff s h : (forall x, lives s x = hlives h x) -> (forall c, sees s c = hcell h c) -> same (view s) h.
Proof.
  intros H1 H2. split.
  - intros x. pose proof (H1 x) as A. pose proof (H2 (HObj x)) as B. unfold lives, hlives in A. unfold sees, cell, fd_of in B. cbn [hcell] in B. unfold file_of in B.
    cbn [view hobj]. destruct (objs s x), (hobj h x); try discriminate; auto. f_equal. exact B.
  - intros r. exact (H2 (HRaw r)).
Qed.
Lemma alive_lives s x : alive (view s) x <-> objs s x <> None.
Proof. unfold alive. cbn. destruct (objs s x); split; congruence. Qed.
Lemma dead_lives s x : ~ alive (view s) x <-> objs s x = None.
Proof. rewrite alive_lives. destruct (objs s x); split; intros H; try congruence. destruct H. discriminate. Qed.

Lemma cell_set_obj s x v h : cell (set_obj s x v) h = if holder_dec h (HObj x) then match v with Some fd => fd | None => None end else cell s h.
Proof.
  destruct (holder_dec h (HObj x)) as [->|Hne].
  - cbn. unfold fd_of. cbn. rewrite upd_same. reflexivity.
  - destruct h as [y|r]; cbn; [|reflexivity]. unfold fd_of. cbn. rewrite upd_other by congruence. reflexivity.
Qed.
Lemma cell_set_raw s r v h : cell (set_raw s r v) h = if holder_dec h (HRaw r) then v else cell s h.
Proof.
  destruct (holder_dec h (HRaw r)) as [->|Hne].
  - cbn. rewrite upd_same. reflexivity.
  - destruct h as [y|q]; cbn; [reflexivity|]. rewrite upd_other by congruence. reflexivity.
Qed.
Lemma cell_set_ker s k h : cell (set_ker s k) h = cell s h.
Proof. destruct h; reflexivity. Qed.
Lemma cell_close s fd h : cell (close_fd s fd) h = cell s h.
Proof. destruct fd; [apply cell_set_ker|reflexivity]. Qed.
Lemma hcell_obj s x v h : hcell (h_obj s x v) h = if holder_dec h (HObj x) then match v with Some f => f | None => None end else hcell s h.
Proof.
  destruct (holder_dec h (HObj x)) as [->|Hne].
  - cbn. unfold file_of. cbn. rewrite upd_same. reflexivity.
  - destruct h as [y|r]; cbn; [|reflexivity]. unfold file_of. cbn. rewrite upd_other by congruence. reflexivity.
Qed.
Lemma hcell_raw s r v h : hcell (h_raw s r v) h = if holder_dec h (HRaw r) then v else hcell s h.
Proof.
  destruct (holder_dec h (HRaw r)) as [->|Hne].
  - cbn. rewrite upd_same. reflexivity.
  - destruct h as [y|q]; cbn; [reflexivity|]. rewrite upd_other by congruence. reflexivity.
Qed.
Lemma lives_set_obj s x v y : lives (set_obj s x v) y = if Nat.eqb y x then match v with Some _ => true | None => false end else lives s y.
Proof. unfold lives. cbn. unfold upd. destruct (Nat.eqb y x); reflexivity. Qed.
Lemma hlives_obj s x v y : hlives (h_obj s x v) y = if Nat.eqb y x then match v with Some _ => true | None => false end else hlives s y.
Proof. unfold hlives. cbn. unfold upd. destruct (Nat.eqb y x); reflexivity. Qed.
Lemma lives_view s y : hlives (view s) y = lives s y.
Proof. unfold hlives, lives. cbn. destruct (objs s y); reflexivity. Qed.
Lemma lives_close s fd y : lives (close_fd s fd) y = lives s y.
Proof. destruct fd; reflexivity. Qed.
Lemma dead_cell s x : objs s x = None -> cell s (HObj x) = None.
Proof. intros H. cbn. unfold fd_of. rewrite H. reflexivity. Qed.
Lemma view_file s x : file_of (view s) x = sees s (HObj x).
Proof. apply (hcell_view s (HObj x)). Qed.

(** Cells after a step. *)
Ltac cells := repeat rewrite ?cell_set_obj, ?cell_set_raw, ?cell_close, ?cell_set_ker.
Ltac hcells := repeat rewrite ?hcell_obj, ?hcell_raw, ?hcell_view.
Ltac decs := repeat match goal with |- context [holder_dec ?a ?b] => destruct (holder_dec a b) end; try congruence.

(** Every step keeps ownership, and but for copies assigned to empty objects it does what the specification says. *)
Lemma step_right s o : own s -> proper (view s) o -> kernel_ok (ker s) o ->
  own (fst (fstep s o)) /\
  (no_assign_to_empty (view s) o ->
   same (view (fst (fstep s o))) (fst (hstep (view s) o)) /\ snd (fstep s o) = snd (hstep (view s) o)).
Proof.
  intros HO HP HK.
  assert (G : forall s' h' (e : bool), own s' -> (forall x, lives s' x = hlives h' x) -> (forall c, sees s' c = hcell h' c) ->
     own s' /\ (no_assign_to_empty (view s) o -> same (view s') h' /\ e = e)).
  { intros s' h' e A B C. split; auto. intros _. split; auto. apply same_iff; auto. }
  destruct o as [x|x d a|x y a|x y ok|x y|x y|r x|x r|x r|x ok|x|x y d e a|r d a|r]; cbn [proper] in HP; cbn [kernel_ok] in HK.
  - (* FEmpty *) cbn [fstep hstep fst snd]. apply dead_lives in HP.
    destruct (own_nothing s (set_obj s x (Some None)) HO eq_refl) as [A B].
    { intros h. cells. decs. subst. symmetry. apply dead_cell; auto. }
    apply (G _ _ false); auto.
    + intros y. rewrite lives_set_obj, hlives_obj, lives_view. reflexivity.
    + intros c. rewrite B. hcells. decs. subst. unfold sees. rewrite dead_cell; auto.
  - (* FOpen *) apply dead_lives in HP. destruct a as [fd|]; cbn [fstep hstep fst snd answered].
    2:{ apply (G _ _ true); auto; intros; [rewrite lives_view|hcells]; reflexivity. }
    destruct (own_give s (set_obj (set_ker s (k_give (ker s) fd d)) x (Some (Some fd))) (HObj x) fd d HO HK (dead_cell _ _ HP) eq_refl) as (A & B & C).
    { cells. decs. } { intros h Hne. cells. decs. }
    apply (G _ _ false); auto.
    + intros y. rewrite lives_set_obj, hlives_obj, lives_view. reflexivity.
    + intros c. hcells. decs; subst; auto.
  - (* FCopy *) destruct HP as [Hx Hy]. apply dead_lives in Hx. cbn [fstep hstep]. unfold sys_dup.
    rewrite view_file. change (fd_of s y) with (cell s (HObj y)).
    destruct (cell s (HObj y)) as [old|] eqn:Ey.
    2:{ unfold sees at 1 2. rewrite Ey. cbn [behind fst snd]. apply (G _ _ true); auto; intros; [rewrite lives_view|hcells]; reflexivity. }
    unfold sees at 1 2. rewrite Ey. cbn [behind]. destruct (tab (ker s) old) as [d|] eqn:Ed; [|destruct (proj1 HO _ _ Ey Ed)].
    destruct a as [fd|]; cbn [answered fst snd].
    2:{ apply (G _ _ true); auto; intros; [rewrite lives_view|hcells]; reflexivity. }
    destruct (own_give s (set_obj (set_ker s (k_give (ker s) fd d)) x (Some (Some fd))) (HObj x) fd d HO HK (dead_cell _ _ Hx) eq_refl) as (A & B & C).
    { cells. decs. } { intros h Hne. cells. decs. }
    apply (G _ _ false); auto.
    + intros z. rewrite lives_set_obj, hlives_obj, lives_view. reflexivity.
    + intros c. hcells. decs; subst; auto.
  - (* FCopyAssign *) destruct HP as [Hx Hy]. cbn [fstep hstep no_assign_to_empty]. rewrite !view_file.
    change (fd_of s y) with (cell s (HObj y)). change (fd_of s x) with (cell s (HObj x)).
    assert (Stay : forall h' (e : bool), h' = view s -> own (set_ker s (ker s)) /\ (sees s (HObj x) <> None -> same (view (set_ker s (ker s))) h' /\ e = e)).
    { intros h' e ->. destruct (own_nothing s (set_ker s (ker s)) HO eq_refl) as [A B]; [intros; apply cell_set_ker|].
      split; auto. intros _. split; auto. apply same_iff; intros; [rewrite lives_view|rewrite B; hcells]; reflexivity. }
    unfold k_dup2. destruct (cell s (HObj y)) as [old|] eqn:Ey.
    2:{ cbn [fst snd negb]. unfold sees at 2 3. rewrite Ey. cbn [behind fst snd]. apply Stay. reflexivity. }
    assert (Sy : sees s (HObj y) = tab (ker s) old) by (unfold sees; rewrite Ey; reflexivity). rewrite Sy.
    destruct (tab (ker s) old) as [d|] eqn:Ed; [|destruct (proj1 HO _ _ Ey Ed)].
    destruct (cell s (HObj x)) as [new|] eqn:Ex.
    2:{ cbn [fst snd negb]. destruct (own_nothing s (set_ker s (ker s)) HO eq_refl) as [A B]; [intros; apply cell_set_ker|].
        split; auto. intros H. exfalso. apply H. unfold sees. rewrite Ex. reflexivity. }
    destruct ok; cbn [fst snd negb]; [|apply Stay; reflexivity].
    destruct (own_redirect s (set_ker s (k_give (ker s) new d)) (HObj x) new d HO Ex eq_refl) as (A & B & C); [intros; apply cell_set_ker|].
    split; auto. intros _. split; auto. apply same_iff.
    + intros z. rewrite hlives_obj, lives_view. change (lives (set_ker s (k_give (ker s) new d)) z) with (lives s z).
      destruct (Nat.eqb_spec z x) as [->|]; auto. apply alive_lives in Hx. unfold lives. destruct (objs s x); congruence.
    + intros c. hcells. decs; subst; auto.
  - (* FMove *) destruct HP as [Hx Hy]. apply dead_lives in Hx. apply alive_lives in Hy. cbn [fstep hstep fst snd].
    assert (Hxy : x <> y) by congruence.
    destruct (own_pass s (set_obj (set_obj s x (Some (fd_of s y))) y (Some None)) (HObj y) (HObj x) HO) as (A & B & C & D); auto.
    { congruence. } { apply dead_cell; auto. } { cells. decs. reflexivity. } { cells. decs. } { intros h H1 H2. cells. decs. }
    apply (G _ _ false); auto.
    + intros z. rewrite !lives_set_obj, !hlives_obj, lives_view. reflexivity.
    + intros c. hcells. decs; subst; auto. rewrite view_file. auto.
  - (* FMoveAssign *) destruct HP as [Hx Hy]. apply alive_lives in Hx. apply alive_lives in Hy. cbn [fstep hstep fst snd].
    change (fd_of s x) with (cell s (HObj x)).
    assert (Lv : forall z, lives (set_obj (set_obj (close_fd s (cell s (HObj x))) x (Some (fd_of (close_fd s (cell s (HObj x))) y))) y (Some None)) z =
                  hlives (h_obj (h_obj (view s) x (Some (file_of (view s) y))) y (Some None)) z).
    { intros z. rewrite !lives_set_obj, !hlives_obj, lives_view, lives_close. reflexivity. }
    set (s1 := set_obj (close_fd s (cell s (HObj x))) x (Some None)).
    assert (A1 : own s1 /\ sees s1 (HObj x) = None /\ forall h, h <> HObj x -> sees s1 h = sees s h).
    { destruct (cell s (HObj x)) as [fd|] eqn:Ex.
      - apply (own_drop s s1 (HObj x) fd HO Ex eq_refl); unfold s1; [cells; decs|intros h Hne; cells; decs].
      - destruct (own_nothing s s1 HO eq_refl) as [A B]; [intros h; unfold s1; cells; decs|].
        split; auto. split; auto. rewrite B. unfold sees. rewrite Ex. reflexivity. }
    destruct A1 as (O1 & N1 & C1).
    set (s' := set_obj (set_obj (close_fd s (cell s (HObj x))) x (Some (fd_of (close_fd s (cell s (HObj x))) y))) y (Some None)) in *.
    destruct (Nat.eq_dec x y) as [->|Hxy].
    + destruct (own_nothing s1 s' O1 eq_refl) as [A B]; [intros h; unfold s', s1; cells; decs|].
      apply (G _ _ false); auto. intros c. rewrite B. hcells. decs; subst; auto.
    + destruct (own_pass s1 s' (HObj y) (HObj x) O1) as (A & B & C & D).
      { congruence. } { apply sees_none; auto. } { unfold s', s1. reflexivity. }
      { unfold s', s1. change (fd_of (close_fd s (cell s (HObj x))) y) with (cell (close_fd s (cell s (HObj x))) (HObj y)). cells. decs. }
      { unfold s', s1. cells. decs. } { intros h H1 H2. unfold s', s1. cells. decs. }
      apply (G _ _ false); auto. intros c. hcells. decs; subst; auto.
      * rewrite B, view_file. apply C1. congruence.
      * rewrite D by congruence. apply C1. auto.
  - (* FRelease *) destruct HP as [Hx Hr]. apply alive_lives in Hx. cbn [fstep hstep fst snd].
    assert (Hr' : cell s (HRaw r) = None) by (apply sees_none; auto).
    destruct (own_pass s (set_obj (set_raw s r (fd_of s x)) x (Some None)) (HObj x) (HRaw r) HO) as (A & B & C & D); auto.
    { congruence. } { cells. decs. reflexivity. } { cells. decs. } { intros h H1 H2. cells. decs. }
    apply (G _ _ false); auto.
    + intros z. rewrite lives_set_obj, hlives_obj. change (hlives (h_raw (view s) r (file_of (view s) x)) z) with (hlives (view s) z).
      rewrite lives_view. reflexivity.
    + intros c. hcells. decs; subst; auto. rewrite view_file. auto.
  - (* FAdopt *) apply dead_lives in HP. cbn [fstep hstep fst snd].
    destruct (own_pass s (set_raw (set_obj s x (Some (raws s r))) r None) (HRaw r) (HObj x) HO) as (A & B & C & D); auto.
    { congruence. } { apply dead_cell; auto. } { cells. decs. reflexivity. } { cells. decs. } { intros h H1 H2. cells. decs. }
    apply (G _ _ false); auto.
    + intros z. change (lives (set_raw (set_obj s x (Some (raws s r))) r None) z) with (lives (set_obj s x (Some (raws s r))) z).
      change (hlives (h_raw (h_obj (view s) x (Some (hraw (view s) r))) r None) z) with (hlives (h_obj (view s) x (Some (hraw (view s) r))) z).
      rewrite lives_set_obj, hlives_obj, lives_view. reflexivity.
    + intros c. hcells. decs; subst; auto.
  - (* FReset *) apply alive_lives in HP. cbn [fstep]. change (fd_of s x) with (cell s (HObj x)).
    set (s1 := set_obj (close_fd s (cell s (HObj x))) x (Some None)).
    assert (A1 : own s1 /\ sees s1 (HObj x) = None /\ forall h, h <> HObj x -> sees s1 h = sees s h).
    { destruct (cell s (HObj x)) as [fd|] eqn:Ex.
      - apply (own_drop s s1 (HObj x) fd HO Ex eq_refl); unfold s1; [cells; decs|intros h Hne; cells; decs].
      - destruct (own_nothing s s1 HO eq_refl) as [A B]; [intros h; unfold s1; cells; decs|].
        split; auto. split; auto. rewrite B. unfold sees. rewrite Ex. reflexivity. }
    destruct A1 as (O1 & N1 & C1). destruct r as [r|]; cbn [hstep fst snd].
    + set (s' := set_raw (set_obj (close_fd s (cell s (HObj x))) x (Some (raws (close_fd s (cell s (HObj x))) r))) r None).
      destruct (own_pass s1 s' (HRaw r) (HObj x) O1) as (A & B & C & D).
      { congruence. } { apply sees_none; auto. } { reflexivity. }
      { unfold s', s1. change (raws (close_fd s (cell s (HObj x))) r) with (cell (close_fd s (cell s (HObj x))) (HRaw r)). cells. decs. }
      { unfold s', s1. cells. decs. } { intros h H1 H2. unfold s', s1. cells. decs. }
      apply (G _ _ false); auto.
      * intros z. change (lives s' z) with (lives (set_obj (close_fd s (cell s (HObj x))) x (Some (raws (close_fd s (cell s (HObj x))) r))) z).
        change (hlives (h_raw (h_obj (view s) x (Some (hraw (view s) r))) r None) z) with (hlives (h_obj (view s) x (Some (hraw (view s) r))) z).
        rewrite lives_set_obj, hlives_obj, lives_view, lives_close. reflexivity.
      * intros c. hcells. decs; subst; auto.
        -- rewrite B. apply (C1 (HRaw r)). congruence.
        -- rewrite D by congruence. apply C1. auto.
    + apply (G _ _ false); auto.
      * intros z. unfold s1. rewrite lives_set_obj, hlives_obj, lives_view, lives_close. reflexivity.
      * intros c. hcells. decs; subst; auto.
  - (* FClose *) apply alive_lives in HP. cbn [fstep hstep]. rewrite view_file. change (fd_of s x) with (cell s (HObj x)).
    destruct (cell s (HObj x)) as [fd|] eqn:Ex.
    2:{ unfold sees. rewrite Ex. cbn [behind fst snd]. apply (G _ _ false); auto; intros; [rewrite lives_view|hcells]; reflexivity. }
    unfold sees at 1 2. rewrite Ex. cbn [behind]. destruct (tab (ker s) fd) as [d|] eqn:Ed; [|destruct (proj1 HO _ _ Ex Ed)].
    cbn [fst snd].
    destruct (own_drop s (set_obj (close_fd s (Some fd)) x (Some None)) (HObj x) fd HO Ex eq_refl) as (A & B & C).
    { cells. decs. } { intros h Hne. cells. decs. }
    apply (G _ _ (negb ok)); auto.
    + intros z. rewrite lives_set_obj, hlives_obj, lives_view, lives_close. reflexivity.
    + intros c. hcells. decs; subst; auto.
  - (* FDestroy *) apply alive_lives in HP. cbn [fstep hstep fst snd]. change (fd_of s x) with (cell s (HObj x)).
    set (s1 := set_obj (close_fd s (cell s (HObj x))) x None).
    assert (A1 : own s1 /\ sees s1 (HObj x) = None /\ forall h, h <> HObj x -> sees s1 h = sees s h).
    { destruct (cell s (HObj x)) as [fd|] eqn:Ex.
      - apply (own_drop s s1 (HObj x) fd HO Ex eq_refl); unfold s1; [cells; decs|intros h Hne; cells; decs].
      - destruct (own_nothing s s1 HO eq_refl) as [A B]; [intros h; unfold s1; cells; decs|].
        split; auto. split; auto. rewrite B. unfold sees. rewrite Ex. reflexivity. }
    destruct A1 as (O1 & N1 & C1). apply (G _ _ false); auto.
    + intros z. unfold s1. rewrite lives_set_obj, hlives_obj, lives_view, lives_close. reflexivity.
    + intros c. hcells. decs; subst; auto.
  - (* FPipe *) destruct HP as (Hx & Hy & Hxy). apply dead_lives in Hx. apply dead_lives in Hy.
    destruct a as [[f g]|]; cbn [fstep hstep fst snd answered].
    2:{ apply (G _ _ true); auto; intros; [rewrite lives_view|hcells]; reflexivity. }
    destruct HK as (Hf & Hg & Hfg).
    set (s1 := set_obj (set_ker s (k_give (ker s) f d)) x (Some (Some f))).
    destruct (own_give s s1 (HObj x) f d HO Hf (dead_cell _ _ Hx) eq_refl) as (A & B & C).
    { unfold s1. cells. decs. } { intros h Hne. unfold s1. cells. decs. }
    set (s' := set_obj (set_obj (set_ker s (k_give (k_give (ker s) f d) g e)) x (Some (Some f))) y (Some (Some g))).
    destruct (own_give s1 s' (HObj y) g e A) as (A' & B' & C').
    { unfold s1. cbn. rewrite upd_other by auto. exact Hg. } { unfold s1. cells. decs. apply dead_cell; auto. }
    { reflexivity. } { unfold s'. cells. decs. } { intros h Hne. unfold s', s1. cells. decs. }
    apply (G _ _ false); auto.
    + intros z. unfold s'. rewrite !lives_set_obj, !hlives_obj, lives_view. reflexivity.
    + intros c. hcells. decs; subst; auto; rewrite C' by congruence; auto.
  - (* FElse *) cbn [fstep hstep fst snd].
    destruct (own_give s (set_raw (set_ker s (k_give (ker s) a d)) r (Some a)) (HRaw r) a d HO HK) as (A & B & C); auto.
    { apply sees_none; auto. } { cells. decs. } { intros h Hne. cells. decs. }
    apply (G _ _ false); auto.
    + intros z. symmetry. exact (lives_view s z).
    + intros c. hcells. decs; subst; auto.
  - (* FElseClose *) cbn [fstep hstep fst snd]. change (raws s r) with (cell s (HRaw r)).
    set (s1 := set_raw (close_fd s (cell s (HRaw r))) r None).
    assert (A1 : own s1 /\ sees s1 (HRaw r) = None /\ forall h, h <> HRaw r -> sees s1 h = sees s h).
    { destruct (cell s (HRaw r)) as [fd|] eqn:Ex.
      - apply (own_drop s s1 (HRaw r) fd HO Ex eq_refl); unfold s1; [cells; decs|intros h Hne; cells; decs].
      - destruct (own_nothing s s1 HO eq_refl) as [A B]; [intros h; unfold s1; cells; decs|].
        split; auto. split; auto. rewrite B. unfold sees. rewrite Ex. reflexivity. }
    destruct A1 as (O1 & N1 & C1). apply (G _ _ false); auto.
    + intros z. change (lives s1 z) with (lives (close_fd s (cell s (HRaw r))) z). rewrite lives_close. symmetry. exact (lives_view s z).
    + intros c. hcells. decs; subst; auto.
Qed.

(** ** Histories *)
Lemma own_start : own fstart.
Proof.
  split; [|split; [|split]].
  - intros [x|r] fd; discriminate.
  - intros [x|r] b fd; discriminate.
  - intros fd H. destruct H. reflexivity.
  - intros fd [].
Qed.
Lemma view_start : view fstart = hstart.
Proof. reflexivity. Qed.
Lemma history_own extra : forall l s, own s -> history extra s l -> own (fst (frun s l)).
Proof.
  induction l as [|o l IH]; intros s HO H; [exact HO|]. destruct H as (H1 & H2 & _ & H3).
  cbn [frun]. pose proof (proj1 (step_right s o HO H1 H2)) as HO'. specialize (IH _ HO' H3).
  destruct (fstep s o) as [s1 e]. cbn [fst] in *. destruct (frun s1 l). exact IH.
Qed.
Lemma same_trans a b c : same a b -> same b c -> same a c.
Proof. intros [H1 H2] [H3 H4]. split; intros; congruence. Qed.
Lemma same_obj a b x v : same a b -> same (h_obj a x v) (h_obj b x v).
Proof. intros [H1 H2]. split; cbn; auto. intros y. unfold upd. destruct (Nat.eqb y x); auto. Qed.
Lemma same_raw a b x v : same a b -> same (h_raw a x v) (h_raw b x v).
Proof. intros [H1 H2]. split; cbn; auto. intros y. unfold upd. destruct (Nat.eqb y x); auto. Qed.
Lemma same_file a b x : same a b -> file_of a x = file_of b x.
Proof. intros [H1 H2]. unfold file_of. rewrite H1. reflexivity. Qed.
Lemma hstep_same o a b : same a b -> same (fst (hstep a o)) (fst (hstep b o)) /\ snd (hstep a o) = snd (hstep b o).
Proof.
  intros H. destruct o as [x|x d q|x y q|x y ok|x y|x y|r x|x r|x [r|]|x ok|x|x y d e q|r d q|r]; cbn [hstep];
    rewrite ?(same_file a b y H), ?(same_file a b x H), ?(proj2 H r);
    repeat match goal with |- context [match ?c with _ => _ end] => destruct c end; cbn [fst snd]; split; auto;
    repeat first [apply same_obj|apply same_raw]; auto.
Qed.
Lemma hrun_same : forall l a b, same a b -> same (fst (hrun a l)) (fst (hrun b l)) /\ snd (hrun a l) = snd (hrun b l).
Proof.
  induction l as [|o l IH]; intros a b H; [auto|]. cbn [hrun]. destruct (hstep_same o a b H) as [H1 H2].
  destruct (hstep a o) as [a1 e1], (hstep b o) as [b1 e2]. cbn [fst snd] in *. destruct (IH a1 b1 H1) as [H3 H4].
  destruct (hrun a1 l), (hrun b1 l). cbn [fst snd] in *. split; [auto|congruence].
Qed.
Lemma history_view : forall l s, own s -> history no_assign_to_empty s l ->
  same (view (fst (frun s l))) (fst (hrun (view s) l)) /\ snd (frun s l) = snd (hrun (view s) l).
Proof.
  induction l as [|o l IH]; intros s HO H; [split; [split; reflexivity|reflexivity]|]. destruct H as (H1 & H2 & H3 & H4).
  cbn [frun hrun]. destruct (step_right s o HO H1 H2) as [HO' Hs]. destruct (Hs H3) as [Hv He].
  destruct (IH _ HO' H4) as [I1 I2]. destruct (hrun_same l _ _ Hv) as [J1 J2].
  destruct (fstep s o) as [s1 e1], (hstep (view s) o) as [h1 e2]. cbn [fst snd] in *.
  destruct (frun s1 l) as [s2 es1]. destruct (hrun (view s1) l) as [h2 es2]. destruct (hrun h1 l) as [h3 es3]. cbn [fst snd] in *.
  split; [eapply same_trans; eauto|congruence].
Qed.
