(** Generators (include/fast_io_freestanding_impl/generator.h). *)
From Verif Require Import Base GeneratorModel.

(** A coroutine that takes the [steps], each with some effects and then a value to yield, and goes on as [rest]. *)
Fixpoint play (steps : list (list Z * Z)) (rest : routine) : routine :=
  match steps with [] => rest | (f, v) :: r => yields f v (play r rest) end.
(** What a loop over them should come to: the effects, the body with the value, the next effects... *)
Definition in_turn (steps : list (list Z * Z)) : list event := flat_map (fun s => map Effect (fst s) ++ [Body (snd s)]) steps.

Lemma advance_yields f v r p x : advance (Co (Some (yields f v r)) p x) = Moved f (Co (Some r) (Some v) x).
Proof. reflexivity. Qed.

Lemma iterate_moved n f r v x : iterate (S (S n)) (Moved f (Co (Some r) (Some v) x)) =
  let '(t, d, c1) := iterate (S n) (advance (Co (Some r) (Some v) x)) in (map Effect f ++ Body v :: t, d, c1).
Proof. reflexivity. Qed.

Lemma iterate_end steps rest p n g : (length steps < n)%nat ->
  (forall p' m, (0 < m)%nat -> iterate m (advance (Co (Some rest) p' None)) = (fst g, snd g, Some (Co None p' (match snd g with Raised_ e => Some e | _ => None end)))) ->
  exists p', iterate n (advance (Co (Some (play steps rest)) p None)) =
    (in_turn steps ++ fst g, snd g, Some (Co None p' (match snd g with Raised_ e => Some e | _ => None end))).
Proof.
  intros L H. revert p n L. induction steps as [|[f v] steps IH]; intros p n L; cbn [play in_turn flat_map length] in *.
  - exists p. apply H. lia.
  - rewrite advance_yields. destruct n as [|[|n]]; [lia|lia|]. rewrite iterate_moved.
    destruct (IH (Some v) (S n) ltac:(lia)) as (p' & E). rewrite E. exists p'. cbn [fst snd]. rewrite <- !app_assoc. reflexivity.
Qed.

(** * C151: a loop over a generator runs its body with exactly the values yielded *)

(** If the coroutine returns after its steps, the body runs once for each value, in order, each after what the coroutine
    did before yielding it and before what it does next; then the loop ends. *)
Theorem C151_returns : forall steps effects n, (length steps < n)%nat ->
  exists c, range_for n (start (play steps (returns effects))) = (in_turn steps ++ map Effect effects, Ended, Some c).
Proof.
  intros steps f n L. destruct (iterate_end steps (returns f) None n (map Effect f, Ended) L) as (p & E).
  - intros p' m M. destruct m; [lia|]. reflexivity.
  - eexists. exact E.
Qed.
Print Assumptions C151_returns.

(** If it throws, the loop throws the same after the last value. *)
Theorem C151_throws : forall steps effects e n, (length steps < n)%nat ->
  exists c, range_for n (start (play steps (throws effects e))) = (in_turn steps ++ map Effect effects, Raised_ e, Some c).
Proof.
  intros steps f e n L. destruct (iterate_end steps (throws f e) None n (map Effect f, Raised_ e) L) as (p & E).
  - intros p' m M. destruct m; [lia|]. reflexivity.
  - eexists. exact E.
Qed.
Print Assumptions C151_throws.

Lemma iterate_left steps rest : forall s p, exists v, iterate (length (s :: steps)) (advance (Co (Some (play (s :: steps) rest)) p None)) =
  (in_turn (s :: steps), Left_, Some (Co (Some rest) (Some v) None)).
Proof.
  induction steps as [|s' steps IH]; intros [f v] p.
  - exists v. cbn [play]. rewrite advance_yields. cbn [length iterate is_done at_ current ptr in_turn flat_map fst snd]. rewrite app_nil_r. reflexivity.
  - cbn [play]. rewrite advance_yields. cbn [length]. rewrite iterate_moved. destruct (IH s' (Some v)) as (w & E). cbn [play length] in E. rewrite E.
    exists w. cbn [in_turn flat_map fst snd]. rewrite <- !app_assoc. reflexivity.
Qed.

(** If the body leaves the loop, the coroutine does nothing more, also if it would go on for ever; a second loop goes on
    with the value after the one it was left at. *)
Theorem C151_left : forall s steps rest, exists c,
  range_for (length (s :: steps)) (start (play (s :: steps) rest)) = (in_turn (s :: steps), Left_, Some c) /\
  forall steps' effects n, rest = play steps' (returns effects) -> (length steps' < n)%nat ->
    exists c', range_for n c = (in_turn steps' ++ map Effect effects, Ended, Some c').
Proof.
  intros s steps rest. destruct (iterate_left steps rest s None) as (v & E). eexists. split; [exact E|].
  intros steps' f n -> L. destruct (iterate_end steps' (returns f) (Some v) n (map Effect f, Ended) L) as (p & E').
  - intros p' m M. destruct m; [lia|]. reflexivity.
  - eexists. exact E'.
Qed.
Print Assumptions C151_left.

(** Nothing of the coroutine runs before the first begin(): [start] has no effects; the first thing a loop does are the
    effects before the first value, also if there is none. *)
Theorem C151_lazy : forall r c t d n, range_for n (start r) = (t, d, c) ->
  exists f more, t = map Effect f ++ more /\ match r with yields g _ _ => f = g | returns g => f = g /\ more = [] | throws g _ => f = g /\ more = [] end.
Proof.
  intros r c t d n E. unfold range_for, start in E. destruct r as [f v r|f|f e].
  - rewrite advance_yields in E. destruct n as [|[|n]].
    + injection E as <- <- <-. exists f, []. rewrite app_nil_r. auto.
    + injection E as <- <- <-. exists f, [Body v]. auto.
    + rewrite iterate_moved in E. destruct (iterate (S n) (advance (Co (Some r) (Some v) None))) as [[t' d'] c']. injection E as <- <- <-. eauto.
  - exists f, []. rewrite app_nil_r. destruct n; injection E as <- <- <-; auto.
  - exists f, []. rewrite app_nil_r. destruct n; injection E as <- <- <-; auto.
Qed.
Print Assumptions C151_lazy.

CoFixpoint count_from (z : Z) : routine := yields [z * 10] z (count_from (z + 1)).
Example C151_example : fst (range_for 9 (start (play [([1], 5); ([], 6)] (throws [2; 3] 7)))) =
    ([Effect 1; Body 5; Body 6; Effect 2; Effect 3], Raised_ 7) /\
  fst (range_for 3 (start (count_from 4))) = ([Effect 40; Body 4; Effect 50; Body 5; Effect 60; Body 6], Left_).
Proof. split; reflexivity. Qed.

(** * C152: a loop over a generator that has ended does nothing *)

(** True if the loop only compares an iterator it has (the end stays the end); *)
Theorem C152_end_partial : forall steps effects n t c, (length steps < n)%nat ->
  range_for n (start (play steps (returns effects))) = (t, Ended, Some c) -> is_done c = true.
Proof.
  intros steps f n t c L E. unfold range_for, start in E. destruct (iterate_end steps (returns f) None n (map Effect f, Ended) L) as (p & E').
  - intros p' m M. destruct m; [lia|]. reflexivity.
  - rewrite E in E'. injection E' as -> ->. reflexivity.
Qed.
Print Assumptions C152_end_partial.

(** false of a second loop: begin() resumes a coroutine that has ended, whatever the coroutine, returned or thrown. *)
Theorem C152_again_refuted : forall steps last n m t d c, (length steps < n)%nat ->
  (exists f, last = returns f) \/ (exists f e, last = throws f e) ->
  range_for n (start (play steps last)) = (t, d, Some c) -> range_for m c = ([], Undef, None).
Proof.
  intros steps last n m t d c L H E. assert (D : at_ c = None).
  { unfold range_for, start in E. destruct H as [(f & ->)|(f & e & ->)].
    - destruct (iterate_end steps (returns f) None n (map Effect f, Ended) L) as (p & E').
      + intros p' k M. destruct k; [lia|]. reflexivity.
      + rewrite E in E'. injection E' as _ _ ->. reflexivity.
    - destruct (iterate_end steps (throws f e) None n (map Effect f, Raised_ e) L) as (p & E').
      + intros p' k M. destruct k; [lia|]. reflexivity.
      + rewrite E in E'. injection E' as _ _ ->. reflexivity. }
  unfold range_for, advance, resume. rewrite D. destruct m; reflexivity.
Qed.
Print Assumptions C152_again_refuted.

Example C152_example : exists c, range_for 3 (start (play [([1], 5)] (returns []))) = ([Effect 1; Body 5], Ended, Some c) /\
  range_for 3 c = ([], Undef, None).
Proof. eexists. split; reflexivity. Qed.
