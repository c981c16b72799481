(** Runs of threads: an executable scheduler (for the examples), and the ends of runs. *)
From Verif Require Import Base LockModel LockSpec LockProofs.

Section Run.
Context {S R : Type}.
Notation scmd := (cmd S R).

(** ** Chosen schedules *)
Definition go (P : calls S R) (w : world S R) (t : nat) : option (list (event (R := R)) * world S R) :=
  let '(mk_world mem owner thr) := w in
  let n := next (thr t) in
  match running (thr t) with
  | None => match nth_error (P t) n with
            | Some c => Some ([Began t n], mk_world mem owner (set thr t (mk_thread (Datatypes.S n) (Some c))))
            | None => None
            end
  | Some (CEnd r) => Some ([Ended t (pred n) r], mk_world mem owner (set thr t (mk_thread n None)))
  | Some (CLock m k) =>
      match owner m with
      | None => Some ([], mk_world mem (set owner m (Some t)) (set thr t (mk_thread n (Some k))))
      | Some _ => None
      end
  | Some (CUnlock m k) =>
      match owner m with
      | Some t' => if Nat.eqb t' t then Some ([], mk_world mem (set owner m None) (set thr t (mk_thread n (Some k)))) else None
      | None => None
      end
  | Some (CLoad m k) => Some ([], mk_world mem owner (set thr t (mk_thread n (Some (k (mem m))))))
  | Some (CStore m s k) => Some ([], mk_world (set mem m s) owner (set thr t (mk_thread n (Some k))))
  end.
Lemma go_step (P : calls S R) w t e w' : go P w t = Some (e, w') -> step P w e w'.
Proof.
  destruct w as [mem owner thr]. unfold go. destruct (running (thr t)) as [[m k|m k|m k|m s k|r]|] eqn:Er.
  - destruct (owner m) eqn:Eo; [discriminate|]. intros [= <- <-]. apply SLock; auto.
  - destruct (owner m) as [t'|] eqn:Eo; [|discriminate]. destruct (Nat.eqb_spec t' t) as [->|]; [|discriminate].
    intros [= <- <-]. apply SUnlock; auto.
  - intros [= <- <-]. apply SLoad; auto.
  - intros [= <- <-]. apply SStore; auto.
  - intros [= <- <-]. apply SEnd; auto.
  - destruct (nth_error (P t) (next (thr t))) as [c|] eqn:En; [|discriminate]. intros [= <- <-]. apply SBegin; auto.
Qed.
Lemma step_go (P : calls S R) w e w' : step P w e w' -> exists t, go P w t = Some (e, w').
Proof.
  intros H. destruct H as [mem owner thr t c Hr Hn|mem owner thr t r Hr|mem owner thr t m k Hr Ho|mem owner thr t m k Hr Ho|mem owner thr t m k Hr|mem owner thr t m s k Hr]; exists t; unfold go; rewrite Hr; try reflexivity.
  - rewrite Hn. reflexivity.
  - rewrite Ho. reflexivity.
  - rewrite Ho, Nat.eqb_refl. reflexivity.
Qed.
Lemma stuck_go (P : calls S R) w : (forall t, go P w t = None) -> ~ can_go_on P w.
Proof. intros H (e & w' & Hs). destruct (step_go _ _ _ _ Hs) as [t Ht]. rewrite H in Ht. discriminate. Qed.
Fixpoint runs (P : calls S R) (w : world S R) (ts : list nat) : option (list (event (R := R)) * world S R) :=
  match ts with
  | [] => Some ([], w)
  | t :: ts =>
      match go P w t with
      | None => None
      | Some (e, w1) => match runs P w1 ts with Some (tr, w2) => Some (e ++ tr, w2) | None => None end
      end
  end.
Lemma steps_cons (P : calls S R) w e w1 tr w2 : step P w e w1 -> steps P w1 tr w2 -> steps P w (e ++ tr) w2.
Proof.
  intros H1 H2. revert H1. induction H2 as [w1|w1 tr w2 e2 w3 Hs IH H2]; intros H1.
  - change (e ++ []) with (e ++ []). pose proof (steps_more P w [] w e w1 (steps_none P w) H1) as H. cbn [app] in H.
    rewrite app_nil_r. exact H.
  - rewrite app_assoc. eapply steps_more; [apply IH; exact H1|exact H2].
Qed.
Lemma runs_steps (P : calls S R) : forall ts w tr w', runs P w ts = Some (tr, w') -> steps P w tr w'.
Proof.
  induction ts as [|t ts IH]; intros w tr w'; cbn [runs].
  - intros [= <- <-]. constructor.
  - destruct (go P w t) as [[e w1]|] eqn:Eg; [|discriminate]. destruct (runs P w1 ts) as [[tr' w2]|] eqn:Er; [|discriminate].
    intros [= <- <-]. eapply steps_cons; [eapply go_step; exact Eg|apply IH; exact Er].
Qed.
Lemma steps_app (P : calls S R) w tr w1 tr' w2 : steps P w tr w1 -> steps P w1 tr' w2 -> steps P w (tr ++ tr') w2.
Proof.
  intros H1 H2. induction H2 as [w1|w1 tr' w2 e w3 Hs IH H2]; [rewrite app_nil_r; exact H1|].
  rewrite app_assoc. eapply steps_more; [apply IH; exact H1|exact H2].
Qed.

(** ** Runs end *)
(** One move of thread [t], whatever the others do. *)
Inductive moves (P : calls S R) (t : nat) : thread S R -> thread S R -> Prop :=
| MBegin n c : nth_error (P t) n = Some c -> moves P t (mk_thread (Datatypes.S n) (Some c)) (mk_thread n None)
| MEnd n r : moves P t (mk_thread n None) (mk_thread n (Some (CEnd r)))
| MLock n m k : moves P t (mk_thread n (Some k)) (mk_thread n (Some (CLock m k)))
| MUnlock n m k : moves P t (mk_thread n (Some k)) (mk_thread n (Some (CUnlock m k)))
| MLoad n m k s : moves P t (mk_thread n (Some (k s))) (mk_thread n (Some (CLoad m k)))
| MStore n m s k : moves P t (mk_thread n (Some k)) (mk_thread n (Some (CStore m s k))).
Lemma moves_wf (P : calls S R) t th : Acc (moves P t) th.
Proof.
  assert (A : forall n, Acc (moves P t) (mk_thread n None) -> forall c, Acc (moves P t) (mk_thread n (Some c))).
  { intros n Hn. induction c as [m k IH|m k IH|m k IH|m s k IH|r]; constructor; intros y Hy; inversion Hy; subst; auto. }
  assert (B : forall d n, (length (P t) - n <= d)%nat -> Acc (moves P t) (mk_thread n None)).
  { induction d as [|d IH]; intros n Hd; constructor; intros y Hy; inversion Hy as [n0 c Hc| | | | |]; subst.
    - assert (n < length (P t))%nat by (apply nth_error_Some; congruence). lia.
    - assert (n < length (P t))%nat by (apply nth_error_Some; congruence). apply A, IH. lia. }
  destruct th as [n [c|]]; [apply A|]; apply (B (length (P t) - n)%nat); lia.
Qed.
(** Threads [0..N-1] side by side: one of them moves. *)
Inductive one_moves (P : calls S R) : nat -> list (thread S R) -> list (thread S R) -> Prop :=
| OHere t a a' l : moves P t a' a -> one_moves P t (a' :: l) (a :: l)
| OThere t a l l' : one_moves P (Datatypes.S t) l' l -> one_moves P t (a :: l') (a :: l).
Lemma one_moves_wf (P : calls S R) : forall l t, Acc (one_moves P t) l.
Proof.
  induction l as [|a l IH]; intros t; [constructor; intros y Hy; inversion Hy|].
  specialize (IH (Datatypes.S t)). revert l IH. induction (moves_wf P t a) as [a _ IHa].
  intros l Hl. induction Hl as [l Hl' IHl]. constructor. intros y Hy. inversion Hy; subst.
  - apply IHa; auto. constructor. auto.
  - apply IHl. auto.
Qed.
Definition threads (N : nat) (f : nat -> thread S R) (t : nat) : list (thread S R) := map f (seq t N).
Lemma threads_same : forall N f g t, (forall u, (t <= u)%nat -> f u = g u) -> threads N f t = threads N g t.
Proof.
  intros N f g t H. apply map_ext_in. intros u Hu. apply in_seq in Hu. apply H. lia.
Qed.
Lemma threads_move (P : calls S R) : forall N f t u a, (t <= u < t + N)%nat -> moves P u a (f u) ->
  one_moves P t (threads N (set f u a) t) (threads N f t).
Proof.
  induction N as [|N IH]; intros f t u a Hu Hm; [lia|]. unfold threads. cbn [seq map].
  destruct (Nat.eq_dec t u) as [->|Hne].
  - rewrite set_same. fold (threads N (set f u a) (Datatypes.S u)). fold (threads N f (Datatypes.S u)).
    rewrite (threads_same N (set f u a) f (Datatypes.S u)) by (intros v Hv; apply set_other; lia). constructor. exact Hm.
  - rewrite set_other by auto. constructor. apply IH; auto. lia.
Qed.
(** Threads from [N] on have nothing to do. *)
Definition idle_from (N : nat) (w : world S R) : Prop := forall t, (N <= t)%nat -> thr w t = mk_thread 0 None.
Lemma step_moves (P : calls S R) N w e w' : (forall t, (N <= t)%nat -> P t = []) -> idle_from N w -> step P w e w' ->
  idle_from N w' /\ one_moves P 0 (threads N (thr w') 0) (threads N (thr w) 0).
Proof.
  intros HP Hi H.
  assert (A : forall mem' owner' t a, moves P t a (thr w t) -> w' = mk_world mem' owner' (set (thr w) t a) ->
    idle_from N w' /\ one_moves P 0 (threads N (thr w') 0) (threads N (thr w) 0)).
  { intros mem' owner' t a Hm ->. assert (Ht : (t < N)%nat).
    { destruct (Nat.lt_ge_cases t N) as [Ht|Ht]; auto. rewrite (Hi t Ht) in Hm. inversion Hm as [n c Hc| | | | |]; subst.
      rewrite (HP t Ht) in Hc. discriminate. }
    split.
    - intros u Hu. cbn [thr]. rewrite set_other by lia. apply Hi; auto.
    - cbn [thr]. apply threads_move; auto. lia. }
  destruct H as [mem owner thr t c Hr Hn|mem owner thr t r Hr|mem owner thr t m k Hr Ho|mem owner thr t m k Hr Ho|mem owner thr t m k Hr|mem owner thr t m s k Hr];
    (eapply A; [|reflexivity]); cbn [LockModel.thr]; destruct (thr t) as [n ru]; cbn [running next] in *; subst; constructor; auto.
Qed.
Lemma run_wf (P : calls S R) N : (forall t, (N <= t)%nat -> P t = []) -> forall w, idle_from N w ->
  Acc (fun w' w => exists e, step P w e w') w.
Proof.
  intros HP w. remember (threads N (thr w) 0) as l eqn:El. revert w El.
  induction (one_moves_wf P l 0) as [l _ IH]. intros w -> Hi. constructor. intros w' [e He].
  destruct (step_moves P N w e w' HP Hi He) as [Hi' Hm]. eapply IH; eauto.
Qed.
Lemma idle_start N mem0 : idle_from N (start mem0).
Proof. intros t _. reflexivity. Qed.
Lemma idle_steps (P : calls S R) N w tr w' : (forall t, (N <= t)%nat -> P t = []) -> idle_from N w -> steps P w tr w' -> idle_from N w'.
Proof.
  intros HP Hi H. induction H as [|w tr w1 e w2 Hs IH H]; auto. eapply (proj1 (step_moves P N _ _ _ HP (IH Hi) H)).
Qed.
(** No run goes on forever. *)
Lemma no_infinite_run (P : calls S R) N mem0 : (forall t, (N <= t)%nat -> P t = []) ->
  forall f, f 0%nat = start mem0 -> ~ (forall i, exists e, step P (f i) e (f (Datatypes.S i))).
Proof.
  intros HP f H0 Hf. pose proof (run_wf P N HP (start mem0) (idle_start N mem0)) as HA. rewrite <- H0 in HA. clear H0.
  remember (f 0%nat) as w eqn:Ew. revert f Hf Ew. induction HA as [w _ IH]. intros f Hf ->.
  destruct (Hf 0%nat) as [e He]. apply (IH (f 1%nat) (ex_intro _ e He) (fun i => f (Datatypes.S i))); auto.
Qed.
(** A run that can always go on while somebody has something left to do can be completed. *)
Lemma can_complete (P : calls S R) N mem0 : (forall t, (N <= t)%nat -> P t = []) ->
  (forall tr w t, steps P (start mem0) tr w -> unfinished P w t -> can_go_on P w) ->
  forall tr w, steps P (start mem0) tr w -> exists tr' w', steps P w tr' w' /\ all_done P w'.
Proof.
  intros HP Hgo tr w H. pose proof (idle_steps P N _ _ _ HP (idle_start N mem0) H) as Hi.
  revert tr H. induction (run_wf P N HP w Hi) as [w _ IH]. intros tr H.
  assert (D : all_done P w \/ exists t, unfinished P w t).
  { assert (D : forall n, (forall t, (t < n)%nat -> running (thr w t) = None /\ nth_error (P t) (next (thr w t)) = None) \/ exists t, unfinished P w t).
    { induction n as [|n [IHn|IHn]]; [left; lia| |right; auto].
      destruct (running (thr w n)) eqn:E1; [right; exists n; left; congruence|].
      destruct (nth_error (P n) (next (thr w n))) eqn:E2; [right; exists n; right; congruence|].
      left. intros t Ht. destruct (Nat.eq_dec t n) as [->|]; [auto|apply IHn; lia]. }
    destruct (D N) as [D'|D']; [|right; auto]. left. intros t. destruct (Nat.lt_ge_cases t N) as [Ht|Ht]; auto.
    rewrite (Hi t Ht), (HP t Ht). auto. }
  destruct D as [D|[t Ht]]; [exists [], w; split; [constructor|exact D]|].
  destruct (Hgo _ _ t H Ht) as (e & w1 & Hs).
  destruct (IH w1 (ex_intro _ e Hs) (proj1 (step_moves P N _ _ _ HP Hi Hs)) (tr ++ e) (steps_more _ _ _ _ _ _ H Hs)) as (tr' & w' & Hs' & Hd).
  exists (e ++ tr'), w'. split; auto. eapply steps_cons; eauto.
Qed.
End Run.
