(** C71-C72: process objects and the standard streams of a child. *)
From Verif Require Import Base HandleModel HandleSpec HandleProofs ProcModel ProcSpec ProcProofs.

(** ** C71 *)
Theorem C71_own_child_partial : forall stat l, phistory no_empty_wait stat pstart l -> prun stat pstart l = qrun stat pstart l.
Proof. intros stat l H. apply phistory_right; auto. apply pinv_start. Qed.
Print Assumptions C71_own_child_partial.
(** A moved-from object is destroyed while the child runs: the destructor waits for the child, and the wait of the owner
    fails. *)
Definition stat5 (p : nat) : Z := Z.of_nat p.
Definition moved_from : list pop := [PSpawn 0 5 true; PMove 1 0; PDestroy 0 (Some 5); PWait 1 None]%nat.
Theorem C71_moved_from_refuted : phistory any_history stat5 pstart moved_from /\
  snd (prun stat5 pstart moved_from) = [PDone; PDone; PDone; PThrew] /\
  snd (qrun stat5 pstart moved_from) = [PDone; PDone; PDone; PGot 5].
Proof.
  split; [|split; reflexivity]. cbn [phistory moved_from]. repeat split; try (cbn; discriminate); try (intros H; exact (H eq_refl)).
  cbn. intros p. unfold collect, upd. cbn. destruct p as [|[|[|[|[|[|p]]]]]]; reflexivity.
Qed.
Print Assumptions C71_moved_from_refuted.
(** Whatever the history: destroying or assigning to an empty object while there is a child collects some child. *)
Theorem C71_empty_collects_refuted : forall stat s x y a, pid_of s x = None -> any_child s a -> (exists p, kids s p = true) ->
  exists p, kids s p = true /\ kids (fst (pstep stat s (PDestroy x a))) p = false /\
    kids (fst (pstep stat s (PMoveAssign x y a))) p = false.
Proof.
  intros stat s x y a Hx Ha (q & Hq). destruct a as [p|]; [|cbn in Ha; rewrite Ha in Hq; discriminate].
  exists p. cbn [pstep]. rewrite Hx. cbn [waitpid after_wait fst collect set_proc kids]. rewrite !upd_same. auto.
Qed.
Print Assumptions C71_empty_collects_refuted.
(** Detaching does not detach: the destructor of the detached object waits. *)
Definition detached : list pop := [PSpawn 0 5 true; PDetach 0; PDestroy 0 (Some 5)]%nat.
Theorem C71_detach_refuted : phistory any_history stat5 pstart detached /\
  kids (fst (prun stat5 pstart detached)) 5%nat = false /\ kids (fst (qrun stat5 pstart detached)) 5%nat = true.
Proof.
  split; [|split; reflexivity]. cbn [phistory detached]. repeat split; try (cbn; discriminate); try (intros H; exact (H eq_refl)).
Qed.
Print Assumptions C71_detach_refuted.
Definition two_children : list pop :=
  [PSpawn 0 5 true; PElseFork 6; PSpawn 1 7 true; PMoveAssign 0 1 (Some 6); PWait 0 (Some 6); PElseWait 6; PDestroy 0 None; PDestroy 1 None]%nat.
Example C71_case : phistory no_empty_wait stat5 pstart two_children /\
  snd (prun stat5 pstart two_children) = [PDone; PDone; PDone; PDone; PGot 7; PGot 6; PDone; PDone].
Proof.
  split; [|reflexivity]. cbn [phistory two_children].
  repeat split; try (cbn; discriminate); try (intros H; exact (H eq_refl)); try exact I;
    try (intros p; destruct p as [|[|[|[|[|[|[|[|p]]]]]]]]; reflexivity);
    try (intros _ p; destruct p as [|[|[|[|[|[|[|[|p]]]]]]]]; reflexivity);
    try (intros [|[|x]]; cbn; discriminate).
Qed.

(** ** C72 *)
(** The child's streams: each is what was asked for, and the child keeps no useless end of a pipe. *)
Theorem C72_streams_partial : forall c rin rout rerr null a,
  std_open c -> plain_source c rin 0 -> plain_source c rout 1 -> plain_source c rerr 2 -> unshared rin rout rerr ->
  apart c rin rout rerr -> unused c rin rout rerr a ->
  exists c', child_streams c rin rout rerr null a = Some c' /\
    ctab c' 0%nat = wanted c rin 0 null /\ ctab c' 1%nat = wanted c rout 1 null /\ ctab c' 2%nat = wanted c rerr 2 null /\
    (forall r n m, In (r, n) [(rin, 0); (rout, 1); (rerr, 2)]%nat -> closed_end c r n = Some m -> ctab c' m = None).
Proof.
  intros c rin rout rerr null a Hstd Pi Po Pe Hu Hap Ha. unfold child_streams.
  pose proof (deals_spec c rin rout rerr Pi Po Pe Hu) as D.
  destruct (deal_with c rin 0) as [c1 i]. destruct (deal_with c1 rout 1) as [c2 o]. destruct (deal_with c2 rerr 2) as [c3 e].
  destruct D as (-> & -> & -> & Dc & Do).
  assert (Hbig : forall r n m, In (r, n) (streams3 rin rout rerr) -> closed_end c r n = Some m -> (3 <= m)%nat).
  { intros r n m Hin. assert (P : plain_source c r n) by (destruct Hin as [H|[H|[H|[]]]]; injection H as <- <-; auto).
    destruct r as [|p| |]; try discriminate. destruct P as (x & w & E & A & B & _). unfold closed_end. rewrite E. cbn [fst snd].
    destruct (Nat.eqb n 0); intros [= <-]; auto. }
  assert (Ha3 : (3 <= a)%nat).
  { destruct Ha as [Ha|(r & n & Hin & Hc)]; [|eauto]. destruct (Nat.le_gt_cases 3 a); auto. exfalso. exact (Hstd a H Ha). }
  assert (Ca : ctab c3 a = None).
  { destruct Ha as [Ha|(r & n & Hin & Hc)]; [|apply Dc; exists r, n; auto].
    destruct (ctab c3 a) eqn:E; auto. rewrite Do in E; [congruence|]. intros Hcl. rewrite (Dc _ Hcl) in E. discriminate. }
  assert (Hs : forall r n, In (r, n) (streams3 rin rout rerr) -> plain_source c r n -> (n < 3)%nat ->
     stream_ok c3 a (source c r n) n /\ (match source c r n with Some f => ctab c3 f | None => Some null end) = wanted c r n null).
  { intros r n Hin P Hn.
    assert (G : forall f, source c r n = Some f -> ctab c3 f = ctab c f).
    { intros f Hf. apply Do. intros (r1 & n1 & Hin1 & Hc1). apply (Hap r1 n1 r n Hin1 Hin). exists f. auto. }
    assert (F : forall f, source c r n = Some f -> ctab c f <> None /\ (f = n \/ (3 <= f)%nat)).
    { intros f Hf. destruct r as [|p|g|]; cbn [source] in Hf; try discriminate.
      - injection Hf as <-. split; auto.
      - destruct P as (x & w & E & A & B & C & D). rewrite E in Hf. cbn [fst snd] in Hf. destruct (Nat.eqb n 0); injection Hf as <-; auto.
      - injection Hf as <-. exact P. }
    split.
    - unfold stream_ok. destruct (source c r n) as [f|] eqn:E; auto. destruct (F f eq_refl) as [F1 F2].
      rewrite (G f eq_refl). repeat split; auto. intros ->. rewrite <- (G a eq_refl) in F1. contradiction.
    - destruct (source c r n) as [f|] eqn:E.
      + rewrite (G f eq_refl). destruct r as [|p|g|]; cbn [source wanted] in *; try congruence. rewrite E. reflexivity.
      + destruct r as [|p|g|]; cbn [source wanted] in *; try congruence.
        destruct P as (x & w & Ep & _). rewrite Ep in E. cbn in E. destruct (Nat.eqb n 0); discriminate. }
  destruct (Hs rin 0%nat) as [Si Wi]; [cbn; auto|auto|lia|].
  destruct (Hs rout 1%nat) as [So Wo]; [cbn; auto|auto|lia|].
  destruct (Hs rerr 2%nat) as [Se We]; [cbn; auto|auto|lia|].
  destruct (final_spec c3 a null _ _ _ Ha3 Si So Se) as (c' & E & A0 & A1 & A2 & A3 & A4).
  exists c'. split; [exact E|]. rewrite A0, A1, A2. repeat split; auto.
  intros r n m Hin Hc. destruct (Nat.eq_dec m a) as [->|Hne]; [auto|].
  rewrite A3; eauto. apply Dc. exists r, n. auto.
Qed.
Print Assumptions C72_streams_partial.
(** The parent: the child's ends of the pipes are closed in it, its own ends and everything else are as before, and the
    pipe objects know. *)
Definition child_end (c : child) (rin rout rerr : redirection) (m : nat) : Prop :=
  exists p, rin = RPipe p /\ fst (cpipe c p) = Some m \/ (rout = RPipe p \/ rerr = RPipe p) /\ snd (cpipe c p) = Some m.
Theorem C72_parent : forall c rin rout rerr, unshared rin rout rerr ->
  let c' := parent_after c rin rout rerr in
  (forall m, child_end c rin rout rerr m -> ctab c' m = None) /\
  (forall m, ~ child_end c rin rout rerr m -> ctab c' m = ctab c m) /\
  (forall p, rin = RPipe p -> cpipe c' p = (None, snd (cpipe c p))) /\
  (forall p, rout = RPipe p \/ rerr = RPipe p -> cpipe c' p = (fst (cpipe c p), None)) /\
  (forall p, rin <> RPipe p -> rout <> RPipe p -> rerr <> RPipe p -> cpipe c' p = cpipe c p).
Proof. exact parent_spec. Qed.
Print Assumptions C72_parent.

(** Swapping out and err: both end in the file err had. *)
Definition cross_child : child := mk_child (fun n => if (n <? 3)%nat then Some (10 + n)%nat else None) (fun _ => (None, None)).
Theorem C72_swap_refuted : exists c', child_streams cross_child RDefault (RFd 2) (RFd 1) 99 3 = Some c' /\
  wanted cross_child (RFd 2) 1 99 = Some 12%nat /\ wanted cross_child (RFd 1) 2 99 = Some 11%nat /\
  ctab c' 1%nat = Some 12%nat /\ ctab c' 2%nat = Some 12%nat.
Proof. eexists. repeat split. Qed.
Print Assumptions C72_swap_refuted.
(** No stdin in the parent: the null device gets descriptor 0 and is closed again; the child has no stdin. *)
Definition no_stdin : child := mk_child (fun n => if (n <? 3)%nat then if Nat.eqb n 0 then None else Some (10 + n)%nat else None) (fun _ => (None, None)).
Theorem C72_null_stdin_refuted : exists c', child_streams no_stdin RNull RDefault RDefault 99 0 = Some c' /\
  ctab no_stdin 0%nat = None /\ wanted no_stdin RNull 0 99 = Some 99%nat /\ ctab c' 0%nat = None.
Proof. eexists. repeat split. Qed.
Print Assumptions C72_null_stdin_refuted.
(** A case of C72_streams_partial: in from a pipe, out and err to another pipe; and one with the null device. *)
Definition pipes_child : child :=
  mk_child (fun n => if (n <? 8)%nat then Some (10 + n)%nat else None)
    (fun p => if Nat.eqb p 0 then (Some 3, Some 4)%nat else if Nat.eqb p 1 then (Some 5, Some 6)%nat else (None, None)).
Example C72_case : (std_open pipes_child /\ plain_source pipes_child (RPipe 0) 0 /\ plain_source pipes_child (RPipe 1) 1 /\
  plain_source pipes_child (RPipe 1) 2 /\ plain_source pipes_child (RFd 7) 2 /\ unshared (RPipe 0) (RPipe 1) (RPipe 1) /\ apart pipes_child (RPipe 0) (RPipe 1) (RPipe 1) /\
  unused pipes_child (RPipe 0) (RPipe 1) (RPipe 1) 8 /\ unused pipes_child RNull (RPipe 1) (RFd 7) 5) /\
  option_map (fun c => (ctab c 0, ctab c 1, ctab c 2, ctab c 3, ctab c 4))%nat (child_streams pipes_child (RPipe 0) (RPipe 1) (RPipe 1) 99 8) =
  Some (Some 13, Some 16, Some 16, Some 13, None)%nat /\
  option_map (fun c => (ctab c 0, ctab c 1, ctab c 2, ctab c 3, ctab c 5))%nat (child_streams pipes_child RNull (RPipe 1) (RFd 7) 99 5) =
  Some (Some 99, Some 16, Some 17, Some 13, None)%nat.
Proof.
  split; [|split; reflexivity]. repeat split; try discriminate.
  - intros [|[|[|n]]] H; try (cbn; discriminate); lia.
  - exists 3%nat, 4%nat. repeat split; try lia; discriminate.
  - exists 5%nat, 6%nat. repeat split; try lia; discriminate.
  - exists 5%nat, 6%nat. repeat split; try lia; discriminate.
  - right. lia.
  - congruence.
  - congruence.
  - intros r1 n1 r2 n2 [H1|[H1|[H1|[]]]] [H2|[H2|[H2|[]]]] (f & A & B); injection H1 as <- <-; injection H2 as <- <-; cbn in A, B; congruence.
  - left. reflexivity.
  - right. exists (RPipe 1), 1%nat. split; [right; left|]; reflexivity.
Qed.
