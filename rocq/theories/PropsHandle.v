(** The properties of file objects: C69, C70. *)
From Verif Require Import Base HandleModel HandleSpec HandleProofs.

(** ** C69: a file object refers to its own file, through all copies, moves, swaps of ownership *)
(** The full claim: after every history of operations on any number of objects, with any answers of the kernel, each
    object refers to the file the specification says, and exactly the operations that should threw.
    It holds for the histories in which no copy is assigned to an empty object. *)
Theorem C69_objects_refer_partial : forall l, history no_assign_to_empty fstart l ->
  same (view (fst (frun fstart l))) (fst (hrun hstart l)) /\ snd (frun fstart l) = snd (hrun hstart l).
Proof. intros l H. apply (history_view l fstart own_start H). Qed.
Print Assumptions C69_objects_refer_partial.

(** Refutation: assigning a copy to an empty file object always throws, even though the kernel would duplicate the
    descriptor (copy construction would): the code asks dup2 to duplicate onto the descriptor -1. *)
Theorem C69_copy_to_empty_refuted : forall s x y ok, cell s (HObj x) = None ->
  snd (fstep s (FCopyAssign x y ok)) = true /\ file_of (view (fst (fstep s (FCopyAssign x y ok)))) x = None.
Proof.
  intros s x y ok Hx. cbn [fstep]. change (fd_of s x) with (cell s (HObj x)). rewrite Hx. unfold k_dup2.
  destruct (fd_of s y); cbn [fst snd negb]; (split; [reflexivity|]); rewrite view_file; unfold sees;
    rewrite cell_set_ker, Hx; reflexivity.
Qed.
Print Assumptions C69_copy_to_empty_refuted.
Definition copy_to_empty : list fop := [FOpen 0 7 (Some 3%nat); FEmpty 1; FCopyAssign 1 0 true].
Example C69_copy_to_empty_history : history anything fstart copy_to_empty /\
  snd (frun fstart copy_to_empty) = [false; false; true] /\ snd (hrun hstart copy_to_empty) = [false; false; false] /\
  file_of (fst (hrun hstart copy_to_empty)) 1 = Some 7%nat /\
  file_of (view (fst (frun fstart copy_to_empty))) 1 = None.
Proof. cbn. unfold anything, alive. cbn. repeat split; auto; try discriminate; intuition congruence. Qed.

(** ** C70: descriptors are neither leaked nor closed twice *)
(** After every history (also with copies assigned to empty objects): every descriptor an object or the program holds
    is open, no two hold the same one, every open descriptor is held by somebody, and every call of close was on an
    open descriptor. *)
Theorem C70_ownership : forall l s, history anything fstart l -> s = fst (frun fstart l) ->
  (forall h fd, holds s h fd -> tab (ker s) fd <> None) /\
  (forall a b fd, holds s a fd -> holds s b fd -> a = b) /\
  (forall fd, tab (ker s) fd <> None -> exists h, holds s h fd) /\
  (forall fd, ~ In (KClose fd false) (klog (ker s))).
Proof.
  intros l s H ->. destruct (history_own anything l fstart own_start H) as (O1 & O2 & O3 & O4).
  split; [|split; [|split]]; auto.
  - intros h fd Hh. apply holds_cell in Hh. eauto.
  - intros a b fd Ha Hb. apply holds_cell in Ha, Hb. eauto.
  - intros fd Hf. destruct (O3 fd Hf) as [h Hh]. exists h. apply holds_cell. exact Hh.
Qed.
Print Assumptions C70_ownership.
(** When every object is destroyed and the program holds no descriptors, none is open. *)
Theorem C70_no_leak : forall l, history anything fstart l ->
  (forall x, ~ alive (view (fst (frun fstart l))) x) -> (forall r, raws (fst (frun fstart l)) r = None) ->
  forall fd, tab (ker (fst (frun fstart l))) fd = None.
Proof.
  intros l H Ho Hr fd. destruct (C70_ownership l _ H eq_refl) as (_ & _ & O3 & _).
  destruct (tab (ker (fst (frun fstart l))) fd) eqn:E; auto. destruct (O3 fd) as [[x|r] Hh]; [congruence| |].
  - exfalso. apply (Ho x). apply alive_lives. cbn in Hh. congruence.
  - cbn in Hh. rewrite Hr in Hh. discriminate.
Qed.
Print Assumptions C70_no_leak.
(** A history with every kind of operation. *)
Definition everything : list fop :=
  [FElse 0 50 0%nat; FElse 1 51 1%nat; FOpen 0 7 (Some 3%nat); FCopy 1 0 (Some 4%nat); FOpen 2 8 None; FOpen 2 8 (Some 5%nat);
   FCopyAssign 2 0 true; FMove 3 2; FMoveAssign 0 3; FPipe 4 5 20 21 (Some (6%nat, 7%nat)); FRelease 2 4; FReset 5 (Some 2%nat);
   FClose 1 false; FEmpty 6; FMoveAssign 6 6; FReset 0 None; FAdopt 7 1; FElseClose 0; FDestroy 0; FDestroy 1; FDestroy 2;
   FDestroy 3; FDestroy 4; FDestroy 5; FDestroy 6; FDestroy 7].
Example C70_hypotheses_met : history no_assign_to_empty fstart everything /\ history anything fstart everything /\
  (forall x, ~ alive (view (fst (frun fstart everything))) x) /\ (forall r, raws (fst (frun fstart everything)) r = None) /\
  snd (frun fstart everything) =
   [false; false; false; false; true; false; false; false; false; false; false; false; true; false; false; false; false;
    false; false; false; false; false; false; false; false; false].
Proof.
  assert (H : forall extra : hstate -> fop -> Prop, (forall h o, In o everything -> (forall x y ok, o = FCopyAssign x y ok -> file_of h x <> None) -> extra h o) ->
     history extra fstart everything).
  { intros extra He. unfold everything.
    repeat (cbn [history]; split; [cbn; unfold alive; cbn; repeat split; try discriminate; try (intros A; apply A; reflexivity); auto|];
            split; [cbn; auto|]; split; [apply He; [unfold everything; cbn; tauto|intros ? ? ? E; inversion E; subst; cbn; discriminate]|]).
    exact I. }
  split; [|split; [|split; [|split]]].
  - apply H. intros h o _ Ho. destruct o; cbn; auto. eapply Ho. reflexivity.
  - apply H. intros h o _ Ho. exact I.
  - intros x. assert (E : hobj (view (fst (frun fstart everything))) x = None); [|intros A; exact (A E)].
    do 8 (destruct x as [|x]; [reflexivity|]). reflexivity.
  - intros r. do 3 (destruct r as [|r]; [reflexivity|]). reflexivity.
  - reflexivity.
Qed.
