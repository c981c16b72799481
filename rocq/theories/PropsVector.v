(** C34, C35, C52, C53: the vector. *)
From Verif Require Import Base VectorModel VectorSpec VectorProofs VectorStepProofs VectorMoreProofs.

(** A state reached by a history the model supports (VectorSpec.v says which
    operations are left out and why: each is refuted below), and the sequence
    it stands for. *)
Definition reached {A} (kd : kind) (al : alloc) (v : vec A) (l : list A) : Prop :=
  exists os, supported_run kd [] os /\ run kd al v_empty os = VFine v /\ spec_run [] os = Some l.

Lemma reached_inv {A} kd al (v : vec A) l : good_kind kd -> sane al -> reached kd al v l ->
  inv v l /\ bounded kd v.
Proof.
  intros Hk Hal (os & H1 & H2 & H3).
  destruct (run_spec kd al Hk Hal os v_empty [] l inv_empty (bounded_empty kd) H3 H1)
    as [H|(v' & E & H4 & H5 & _)]; [congruence|].
  rewrite H2 in E. injection E as <-. auto.
Qed.

(** Concrete kinds used in the examples: a 4-byte integer and a 32-byte string
    (not trivially copyable). *)
Definition k_int : kind := mk_kind 4 true true true.
Definition k_str : kind := mk_kind 32 false false false.
Definition k_str_nothrow : kind := mk_kind 32 false false true.
(** An element type that is relocatable and has a destructor, such as
    [vector<int>] itself (vector.h 1086-1090). *)
Definition k_vec : kind := mk_kind 24 true false true.
Definition al_exact : alloc := fun n => if n <? 2 ^ 40 then Some n else None.

Lemma al_exact_sane : sane al_exact.
Proof.
  intros n c H. unfold al_exact. destruct (Z.ltb_spec n (2 ^ 40)); [|discriminate].
  intros E. injection E as <-. lia.
Qed.

(** C34: any history of operations that are right one by one ends with exactly
    the sequence those operations give, or the process ran out of memory. *)
Theorem C34_history_partial {A} : forall kd al (os : list (op A)) l,
  good_kind kd -> sane al -> supported_run kd [] os -> spec_run [] os = Some l ->
  run kd al v_empty os = VNoMem \/
  exists v, run kd al v_empty os = VFine v /\ shows v l.
Proof.
  intros kd al os l Hk Hal Hs Hsp.
  destruct (run_spec kd al Hk Hal os v_empty [] l inv_empty (bounded_empty kd) Hsp Hs)
    as [H|(v' & E & H4 & _)]; [left; exact H|right]. eauto using inv_shows.
Qed.
Print Assumptions C34_history_partial.

(** ... and it does not run out of memory when the allocator grants what such
    lengths need. *)
Theorem C34_enough_memory_partial {A} : forall kd al m (os : list (op A)) l,
  good_kind kd -> sane al -> supported_run kd [] os -> spec_run [] os = Some l -> modest m [] os ->
  k_size kd * Z.max (k_size kd) (2 * Z.of_nat m) <= 2 ^ 64 - 1 ->
  willing al (k_size kd * Z.max (k_size kd) (2 * Z.of_nat m)) ->
  exists v, run kd al v_empty os = VFine v /\ shows v l.
Proof.
  intros kd al m os l Hk Hal Hs Hsp Hm Hb Hw.
  destruct (C34_history_partial kd al os l Hk Hal Hs Hsp) as [H|H]; [|exact H].
  exfalso. exact (run_willing kd al m Hk Hal Hw Hb os v_empty [] inv_empty (bounded_empty kd) Hs Hm H).
Qed.
Print Assumptions C34_enough_memory_partial.

Example C34_history_example : exists v l,
  supported_run k_str [] [OPush (Own 1); OPush (Own 2); OPush (Own 3); OInsert 1 (Own 9);
    OInsert 2 (Elem 0); OEraseRange 0 2; OPop; OReserve 100; OShrink; OCopy; OInsertIndex 0 (Own 7)] /\
  run k_str al_exact v_empty [OPush (Own 1); OPush (Own 2); OPush (Own 3); OInsert 1 (Own 9);
    OInsert 2 (Elem 0); OEraseRange 0 2; OPop; OReserve 100; OShrink; OCopy; OInsertIndex 0 (Own 7)] = VFine v /\
  spec_run [] [OPush (Own 1); OPush (Own 2); OPush (Own 3); OInsert 1 (Own 9);
    OInsert 2 (Elem 0); OEraseRange 0 2; OPop; OReserve 100; OShrink; OCopy; OInsertIndex 0 (Own 7)] = Some l /\
  l = [7; 1; 2] /\ index v 1 = VFine 1.
Proof.
  eexists (mk_vec [Live 7; Live 1; Live 2; Raw] 3 _ _), [7; 1; 2].
  split; [cbn; intuition lia|]. split; [vm_compute; reflexivity|]. repeat split.
Qed.

(** Pushing, or inserting, a reference to one of the vector's own elements is
    right when there is room and, for insert, the element is before the
    insertion point (or the constructor may throw: a copy is made first). *)
Theorem C34_own_element_partial {A} : forall kd al (v : vec A) l i x pos,
  good_kind kd -> sane al -> reached kd al v l -> nth_error l i = Some x ->
  ((v_size v < v_cap v)%nat ->
   exists v', emplace_back kd al v (Elem i) = VFine v' /\ shows v' (l ++ [x])) /\
  ((v_size v < v_cap v)%nat -> (i < pos <= length l)%nat ->
   exists v', emplace kd al v pos (Elem i) = VFine v' /\ shows v' (firstn pos l ++ [x] ++ skipn pos l)) /\
  (k_nothrow kd = false -> (pos <= length l)%nat ->
   emplace kd al v pos (Elem i) = VNoMem \/
   exists v', emplace kd al v pos (Elem i) = VFine v' /\ shows v' (firstn pos l ++ [x] ++ skipn pos l)).
Proof.
  intros kd al v l i x pos Hk Hal Hr Hx. destruct (reached_inv kd al v l Hk Hal Hr) as [Hi Hb].
  split; [|split].
  - intros Hroom.
    destruct (push_spec kd al v l x Hk Hal Hi Hb) as [(_ & H & _)|(v' & E & H1 & _)]; [lia|].
    exists v'. split; [|exact (inv_shows _ _ H1)].
    unfold emplace_back in *.
    replace (v_size v =? v_cap v)%nat with false in * by (symmetry; apply Nat.eqb_neq; lia).
    cbn [vbind read_arg] in *. destruct Hi as (r & Hs & Hn).
    rewrite Hs, nth_error_app1, nth_error_map, Hx;
      [exact E|rewrite map_length; apply nth_error_Some; congruence].
  - intros Hroom Hp. destruct (split_at l pos ltac:(lia)) as (a & b & -> & <- & Ha & Hbb).
    rewrite Ha, Hbb.
    destruct (emplace_spec kd al v a b (Elem i) x Hk Hal Hi Hb Hx) as [(_ & H & _)|(v' & E & H1 & _)].
    + right. lia.
    + lia.
    + exists v'. split; [exact E|exact (inv_shows _ _ H1)].
  - intros Hnt Hp. destruct (split_at l pos ltac:(lia)) as (a & b & -> & <- & Ha & Hbb).
    rewrite Ha, Hbb.
    destruct (emplace_spec kd al v a b (Elem i) x Hk Hal Hi Hb Hx) as [(E & _)|(v' & E & H1 & _)].
    + left. exact Hnt.
    + left. exact E.
    + right. exists v'. split; [exact E|exact (inv_shows _ _ H1)].
Qed.
Print Assumptions C34_own_element_partial.

(** Erasing one element never makes the vector shorter, so it never gives the
    sequence without that element. *)
Theorem C34_erase_refuted :
  (forall A kd (v v' : vec A) pos, erase kd v pos = VFine v' -> v_size v' = v_size v) /\
  exists v v', run k_int al_exact v_empty [OPush (Own 1); OPush (Own 2); OPush (Own 3)] = VFine v /\
    erase k_int v 0 = VFine v' /\ shows v' [2; 3; 3] /\
    spec_op [1; 2; 3] (OErase 0) = Some [2; 3].
Proof.
  split.
  - intros A kd v v' pos. unfold erase. destruct (destroy_at _ _ _); cbn [vbind]; try discriminate.
    destruct (uninitialized_relocate _ _ _ _ _); cbn [vbind]; try discriminate.
    intros H. injection H as <-. reflexivity.
  - exists (mk_vec [Live 1; Live 2; Live 3; Raw] 3 0 3), (mk_vec [Live 2; Live 3; Live 3; Raw] 3 0 3).
    split; [vm_compute; reflexivity|]. split; [vm_compute; reflexivity|]. split; [|reflexivity].
    apply inv_shows. exists [Raw]. split; reflexivity.
Qed.
Print Assumptions C34_erase_refuted.

(** ... and for a type with a destructor the last element left behind is dead:
    reading it, or the vector's own destructor, is undefined. *)
Theorem C34_erase_dead_element_refuted : exists v v',
  run k_str al_exact v_empty [OPush (Own 1); OPush (Own 2)] = VFine v /\
  erase_index k_str v 0 = VFine v' /\ v_size v' = 2%nat /\
  index v' 1 = VSmashed /\ clear_destroy k_str v' = VSmashed.
Proof.
  exists (mk_vec (Live 1 :: Live 2 :: repeat Raw 30) 2 0 1), (mk_vec (Live 2 :: Raw :: repeat Raw 30) 2 0 1).
  vm_compute. repeat split.
Qed.
Print Assumptions C34_erase_dead_element_refuted.

(** push_back(v[0]) on a full vector reads storage that was just freed. *)
Theorem C34_push_own_element_refuted : exists v,
  run k_int al_exact v_empty [OPush (Own 1); OPush (Own 2)] = VFine v /\
  emplace_back k_int al_exact v (Elem 0) = VSmashed /\
  spec_op [1; 2] (OPush (Elem 0)) = Some [1; 2; 1].
Proof. exists (mk_vec [Live 1; Live 2] 2 0 2). vm_compute. repeat split. Qed.
Print Assumptions C34_push_own_element_refuted.

(** insert(begin(), v[1]) with room and a noexcept copy constructor inserts the
    element that was shifted into that slot. *)
Theorem C34_insert_own_element_refuted : exists v v',
  run k_int al_exact v_empty [OPush (Own 1); OPush (Own 2); OPush (Own 3)] = VFine v /\
  emplace k_int al_exact v 0 (Elem 1) = VFine v' /\ shows v' [1; 1; 2; 3] /\
  spec_op [1; 2; 3] (OInsert 0 (Elem 1)) = Some [2; 1; 2; 3].
Proof.
  exists (mk_vec [Live 1; Live 2; Live 3; Raw] 3 0 3), (mk_vec [Live 1; Live 1; Live 2; Live 3] 4 0 3).
  split; [vm_compute; reflexivity|]. split; [vm_compute; reflexivity|]. split; [|reflexivity].
  apply inv_shows. exists []. split; reflexivity.
Qed.
Print Assumptions C34_insert_own_element_refuted.

(** erase(it, it) is undefined for a type that is not relocatable. *)
Theorem C34_erase_nothing_refuted : exists v,
  run k_str al_exact v_empty [OPush (Own 1); OPush (Own 2)] = VFine v /\
  erase_range k_str v 0 0 = VSmashed /\ spec_op [1; 2] (OEraseRange 0 0) = Some [1; 2].
Proof. exists (mk_vec (Live 1 :: Live 2 :: repeat Raw 30) 2 0 1). vm_compute. repeat split. Qed.
Print Assumptions C34_erase_nothing_refuted.

(** The constructors give the sequence asked for; a copy shows the same
    elements. *)
Theorem C34_constructors {A} : forall kd al n (x : A) l v,
  good_kind kd -> sane al ->
  (construct_fill kd al n x = VFine v -> shows v (repeat x n)) /\
  (construct_list kd al l = VFine v -> shows v l) /\
  (construct_input kd al l = VFine v -> shows v l) /\
  (forall w, shows w l -> copy_construct kd al w = VFine v -> shows v l) /\
  (forall w, shows w l -> shows (fst (move_construct w)) l /\ shows (snd (move_construct w)) []).
Proof.
  intros kd al n x l v Hk Hal. split; [|split; [|split; [|split]]].
  - intros H. unfold construct_fill in H. destruct (allocate kd al n) as [m| | |] eqn:E; try discriminate.
    destruct (allocate_spec _ _ _ _ Hk E) as [-> _]. cbn [vbind] in H. injection H as <-.
    apply inv_shows. exists []. cbn [v_store v_size]. rewrite repeat_length, app_nil_r. split; [|reflexivity].
    clear. induction n; cbn; congruence.
  - intros H. unfold construct_list in H. destruct (allocate kd al (length l)) as [m| | |] eqn:E; try discriminate.
    destruct (allocate_spec _ _ _ _ Hk E) as [-> _]. cbn [vbind] in H. injection H as <-.
    apply inv_shows. exists []. rewrite app_nil_r. split; reflexivity.
  - intros H. unfold construct_input in H.
    destruct (append_grow kd al Hk Hal l v_empty [] inv_empty (bounded_empty kd)) as [H1|(v' & E & H1 & _)].
    + left. split; reflexivity.
    + congruence.
    + rewrite H in E. injection E as <-. apply inv_shows. exact H1.
  - intros w Hw H. apply shows_inv in Hw.
    destruct (copy_spec kd al w l Hk Hw) as [[E _]|(v' & E & H1 & H2 & _)]; [congruence|].
    rewrite H in E. injection E as <-. apply inv_shows. exists []. rewrite app_nil_r. auto.
  - intros w Hw. split; [exact Hw|]. apply inv_shows. exists []. split; reflexivity.
Qed.
Print Assumptions C34_constructors.

Example C34_constructors_example :
  construct_fill k_str al_exact 3 5 = VFine (mk_vec [Live 5; Live 5; Live 5] 3 0 1).
Proof. vm_compute. reflexivity. Qed.

(** [operator==] decides equality of the sequences. *)
Theorem C34_equality {A} : forall (eqb : A -> A -> bool) v w a b,
  (forall x y, eqb x y = true <-> x = y) -> shows v a -> shows w b ->
  exists r, vec_eq eqb v w = VFine r /\ (r = true <-> a = b).
Proof.
  intros eqb v w a b He Hv Hw. apply shows_inv in Hv, Hw.
  destruct (vec_eq_spec eqb v w a b He Hv Hw) as [[E H]|[E H]].
  - exists true. tauto.
  - exists false. split; [exact E|]. split; [discriminate|tauto].
Qed.
Print Assumptions C34_equality.

(** C35: the checked accessors, in every reachable state. *)
Theorem C35_index {A} : forall kd al (v : vec A) l i,
  good_kind kd -> sane al -> reached kd al v l ->
  index v i = match nth_error l i with Some x => VFine x | None => VBounds end.
Proof. intros kd al v l i Hk Hal Hr. apply inv_shows. eapply reached_inv; eauto. Qed.
Print Assumptions C35_index.

Theorem C35_front_back {A} : forall kd al (v : vec A) l,
  good_kind kd -> sane al -> reached kd al v l ->
  front v = match nth_error l 0 with Some x => VFine x | None => VBounds end /\
  back v = match rev l with x :: _ => VFine x | [] => VBounds end.
Proof.
  intros kd al v l Hk Hal Hr. destruct (reached_inv kd al v l Hk Hal Hr) as [Hi _].
  pose proof (inv_shows v l Hi) as (Hn & _ & Hx). unfold front, back.
  split.
  - pose proof (Hx 0%nat) as H0. unfold index in H0.
    destruct (Nat.eqb_spec (v_size v) 0) as [E|E].
    + rewrite E in Hn. destruct l; [reflexivity|discriminate].
    + replace (v_size v <=? 0)%nat with false in H0 by (symmetry; apply Nat.leb_gt; lia). exact H0.
  - destruct (Nat.eqb_spec (v_size v) 0) as [E|E].
    + rewrite E in Hn. destruct l; [reflexivity|discriminate].
    + destruct (@exists_last _ l) as (l1 & x & ->); [intros ->; cbn in Hn; lia|].
      rewrite rev_app_distr. cbn [rev app]. specialize (Hx (v_size v - 1)%nat). unfold index in Hx.
      replace (v_size v <=? v_size v - 1)%nat with false in Hx by (symmetry; apply Nat.leb_gt; lia).
      rewrite Hx. rewrite app_length in Hn. cbn in Hn.
      replace (v_size v - 1)%nat with (length l1) by lia.
      rewrite nth_error_app2, Nat.sub_diag by lia. reflexivity.
Qed.
Print Assumptions C35_front_back.

Theorem C35_pop_back {A} : forall kd al (v : vec A) l,
  good_kind kd -> sane al -> reached kd al v l ->
  (l = [] -> pop_back kd v = VBounds) /\
  (l <> [] -> exists v', pop_back kd v = VFine v' /\ shows v' (removelast l)).
Proof.
  intros kd al v l Hk Hal Hr. destruct (reached_inv kd al v l Hk Hal Hr) as [Hi _].
  split.
  - intros ->. destruct Hi as (r & _ & Hn). unfold pop_back. rewrite Hn. reflexivity.
  - intros Hne. destruct (@exists_last _ l Hne) as (l1 & x & ->). rewrite removelast_last.
    destruct (pop_spec kd v l1 x Hi) as (v' & E & H & _). eauto using inv_shows.
Qed.
Print Assumptions C35_pop_back.

Theorem C35_insert_index {A} : forall kd al (v : vec A) l pos x,
  good_kind kd -> sane al -> reached kd al v l ->
  ((length l < pos)%nat -> emplace_index kd al v pos (Own x) = VBounds) /\
  ((pos <= length l)%nat ->
   emplace_index kd al v pos (Own x) = VNoMem \/
   exists v', emplace_index kd al v pos (Own x) = VFine v' /\ shows v' (firstn pos l ++ [x] ++ skipn pos l)).
Proof.
  intros kd al v l pos x Hk Hal Hr. destruct (reached_inv kd al v l Hk Hal Hr) as [Hi Hb].
  assert (Hn : v_size v = length l) by (destruct Hi as (? & _ & ?); auto).
  split; intros Hp.
  - unfold emplace_index. rewrite Hn.
    replace (length l <? pos)%nat with true by (symmetry; apply Nat.ltb_lt; lia). reflexivity.
  - destruct (step kd al v l (OInsertIndex pos (Own x)) (firstn pos l ++ [x] ++ skipn pos l) Hk Hal Hi Hb)
      as [[E _]|(v' & E & H & _)].
    + cbn. replace (pos <=? length l)%nat with true by (symmetry; apply Nat.leb_le; lia). reflexivity.
    + exact I.
    + left. exact E.
    + right. eauto using inv_shows.
Qed.
Print Assumptions C35_insert_index.

(** [erase_index] stops the program for an index outside the sequence ... *)
Theorem C35_erase_index_partial {A} : forall kd al (v : vec A) l pos first last,
  good_kind kd -> sane al -> reached kd al v l ->
  ((length l <= pos)%nat -> erase_index kd v pos = VBounds) /\
  ((last < first \/ length l < last)%nat -> erase_index_range kd v first last = VBounds) /\
  ((pos < length l)%nat -> erase_index kd v pos <> VBounds) /\
  ((first < last < length l)%nat -> exists v', erase_index_range kd v first last = VFine v' /\
     shows v' (firstn first l ++ skipn last l)).
Proof.
  intros kd al v l pos first last Hk Hal Hr. destruct (reached_inv kd al v l Hk Hal Hr) as [Hi Hb].
  assert (Hn : v_size v = length l) by (destruct Hi as (? & _ & ?); auto).
  unfold erase_index. rewrite Hn. split; [|split; [|split]].
  - intros H. replace (length l <=? pos)%nat with true by (symmetry; apply Nat.leb_le; lia). reflexivity.
  - intros H. unfold erase_index_range. rewrite Hn.
    destruct (Nat.ltb_spec last first); [reflexivity|].
    replace (length l <=? last)%nat with true by (symmetry; apply Nat.leb_le; lia). reflexivity.
  - intros H. replace (length l <=? pos)%nat with false by (symmetry; apply Nat.leb_gt; lia).
    unfold erase. destruct Hi as (r & Hs & _). destruct (destroy_at kd pos (v_store v, v_lost v)) eqn:E; cbn [vbind]; try discriminate.
    + unfold uninitialized_relocate. destruct (k_reloc kd).
      * unfold memmove. destruct x as [st lost]. destruct (_ && _); discriminate.
      * assert (G : forall n s d (m : @mem A), relocate_loop kd s n d m <> VBounds).
        2:{ specialize (G (v_size v - S pos)%nat (S pos) pos x).
            destruct (relocate_loop kd (S pos) (v_size v - S pos) pos x); cbn; try discriminate.
            exfalso. apply G. reflexivity. }
        induction n as [|n IH]; intros s d m; cbn [relocate_loop]; [discriminate|].
        unfold construct_move, construct_at, destroy_at.
        destruct (s =? d)%nat; [discriminate|]. cbn [vbind].
        destruct (nth_error (fst m) s) as [c|]; [|discriminate].
        destruct c; try discriminate; destruct (nth_error (set_cell s Moved (fst m)) d); try discriminate;
          cbn [vbind]; destruct (k_tdtor kd); cbn [vbind]; try apply IH;
          destruct (nth_error _ s) as [c'|]; try discriminate; destruct c'; try discriminate; cbn [vbind]; apply IH.
    + exfalso. unfold destroy_at in E. destruct (k_tdtor kd); [discriminate|].
      destruct (nth_error (v_store v) pos) as [c|]; [destruct c|]; discriminate.
  - intros H.
    destruct (step kd al v l (OEraseIndexRange first last) (firstn first l ++ skipn last l) Hk Hal Hi Hb)
      as [[E _]|(v' & E & H1 & _)].
    + cbn. replace (first <=? last)%nat with true by (symmetry; apply Nat.leb_le; lia).
      replace (last <=? length l)%nat with true by (symmetry; apply Nat.leb_le; lia). reflexivity.
    + cbn. split; [lia|right; lia].
    + exfalso. cbn [exec] in E. unfold erase_index_range in E. rewrite Hn in E.
      destruct (_ || _); [discriminate|].
      destruct (split_at l last ltac:(lia)) as (ab & c & -> & Hlen & _ & _).
      destruct (split_at ab first ltac:(lia)) as (a & b & -> & Hlen2 & _ & _).
      rewrite app_length in Hlen. rewrite <- app_assoc in Hi.
      destruct (erase_range_spec kd v a b c Hi) as (v' & E' & _).
      { right; left. intros ->. cbn in Hlen. lia. }
      rewrite Hlen, Hlen2 in E'. congruence.
    + eauto using inv_shows.
Qed.
Print Assumptions C35_erase_index_partial.

(** ... but also for the valid range that ends at the end of the sequence. *)
Theorem C35_erase_index_to_end_refuted : exists v : vec Z,
  run k_int al_exact v_empty [OPush (Own 1); OPush (Own 2); OPush (Own 3)] = VFine v /\
  erase_index_range k_int v 1 3 = VBounds /\
  spec_op [1; 2; 3] (OEraseIndexRange 1 3) = Some [1].
Proof. exists (mk_vec [Live 1; Live 2; Live 3; Raw] 3 0 3). vm_compute. repeat split. Qed.
Print Assumptions C35_erase_index_to_end_refuted.

Example C35_example : exists v, reached k_str al_exact v [1; 2; 3] /\
  index v 2 = VFine 3 /\ index v 3 = VBounds /\ v_cap v = 32%nat.
Proof.
  exists (mk_vec (Live 1 :: Live 2 :: Live 3 :: repeat Raw 29) 3 0 1). split.
  - exists [OPush (Own 1); OPush (Own 2); OPush (Own 3)]. repeat split.
  - repeat split.
Qed.

(** C52: every object is destroyed exactly once: after any careful history no
    object was lost and the unused slots hold none (a destruction of a slot
    without an object would be [VSmashed], which C34 excludes); destroying the
    vector then leaves nothing behind. *)
Theorem C52_all_destroyed_partial {A} : forall kd al (os : list (op A)) l v,
  good_kind kd -> sane al -> supported_run kd [] os -> careful_run kd [] os ->
  spec_run [] os = Some l -> run kd al v_empty os = VFine v ->
  tidy kd v /\
  exists v', clear_destroy kd v = VFine v' /\ (k_tdtor kd = false -> v_lost v' = 0%nat).
Proof.
  intros kd al os l v Hk Hal Hs Hc Hsp Hr.
  destruct (run_spec kd al Hk Hal os v_empty [] l inv_empty (bounded_empty kd) Hsp Hs)
    as [H|(v' & E & H1 & _ & H2)]; [congruence|]. rewrite Hr in E. injection E as <-.
  specialize (H2 Hc (clean_empty kd)).
  split; [exact (clean_tidy kd v l H1 H2)|].
  destruct (clear_destroy_spec kd v l H1) as (v' & E & _ & _ & _ & H3).
  exists v'. split; [exact E|]. intros Ht. destruct (H3 H2) as [H|H]; [congruence|exact H].
Qed.
Print Assumptions C52_all_destroyed_partial.

Example C52_example : exists v : vec Z,
  let os := [OPush (Own 1); OPush (Own 2); OPush (Own 3); OInsert 1 (Own 9); OEraseRange 0 2; OPop] in
  supported_run k_vec [] os /\ careful_run k_vec [] os /\ run k_vec al_exact v_empty os = VFine v /\
  v_lost v = 0%nat /\ v_store v = [Live 2; Raw; Raw; Raw].
Proof.
  exists (mk_vec [Live 2; Raw; Raw; Raw] 1 0 3). cbn zeta.
  split; [cbn; intuition lia|]. split; [cbn; intuition lia|]. vm_compute. repeat split.
Qed.

(** Inserting in front of elements of a type that is not relocatable builds new
    objects over moved-from ones without destroying those. *)
Theorem C52_insert_refuted : exists v v',
  run k_str al_exact v_empty [OPush (Own 1); OPush (Own 2); OPush (Own 3)] = VFine v /\
  v_lost v = 0%nat /\
  emplace k_str al_exact v 0 (Own 9) = VFine v' /\ shows v' [9; 1; 2; 3] /\ v_lost v' = 3%nat.
Proof.
  exists (mk_vec (Live 1 :: Live 2 :: Live 3 :: repeat Raw 29) 3 0 1),
         (mk_vec (Live 9 :: Live 1 :: Live 2 :: Live 3 :: repeat Raw 28) 4 3 1).
  split; [vm_compute; reflexivity|]. split; [reflexivity|]. split; [vm_compute; reflexivity|].
  split; [|reflexivity]. apply inv_shows. exists (repeat Raw 28). split; reflexivity.
Qed.
Print Assumptions C52_insert_refuted.

(** C53: after a successful [reserve(n)] the following push_backs up to [n]
    elements neither fail nor move the elements to another block. *)
Theorem C53_reserve {A} : forall kd al (v w : vec A) l n xs,
  good_kind kd -> sane al -> reached kd al v l -> reserve kd al v n = VFine w ->
  n <= Z.of_nat (v_cap w) /\ shows w l /\
  (Z.of_nat (length l + length xs) <= n ->
   exists v', append_range kd al w xs = VFine v' /\ shows v' (l ++ xs) /\
              v_block v' = v_block w /\ v_cap v' = v_cap w).
Proof.
  intros kd al v w l n xs Hk Hal Hr E. destruct (reached_inv kd al v l Hk Hal Hr) as [Hi Hb].
  assert (Hw : n <= Z.of_nat (v_cap w) /\ inv w l /\ bounded kd w).
  { unfold reserve in E. destruct (Z.leb_spec n (Z.of_nat (v_cap v))) as [H|H].
    - injection E as <-. auto.
    - destruct (grow_to_size_spec kd al v l n Hk Hal Hi) as [[E' _]|(v' & E' & H1 & H2 & H3 & _)].
      + apply inv_shows in Hi. destruct Hi as (? & ? & _). lia.
      + congruence.
      + rewrite E in E'. injection E' as <-. auto. }
  destruct Hw as (H1 & H2 & H3). split; [exact H1|]. split; [exact (inv_shows _ _ H2)|].
  intros Hx. destruct (append_room kd al Hk Hal xs w l H2 H3 ltac:(lia)) as (v' & E' & H4 & H5 & H6).
  exists v'. eauto using inv_shows.
Qed.
Print Assumptions C53_reserve.

(** Removing elements never moves the elements to another block, and neither
    does adding one when there is room. *)
Theorem C53_same_block {A} : forall kd al (v v' : vec A) l x first last,
  good_kind kd -> sane al -> reached kd al v l ->
  (pop_back kd v = VFine v' \/ clear kd v = VFine v' \/ erase_range kd v first last = VFine v' \/
   (v_size v < v_cap v)%nat /\
   (emplace_back kd al v (Own x) = VFine v' \/
    (first <= length l)%nat /\ emplace kd al v first (Own x) = VFine v')) ->
  v_block v' = v_block v.
Proof.
  intros kd al v v' l x first last Hk Hal Hr H. destruct (reached_inv kd al v l Hk Hal Hr) as [Hi Hb].
  destruct H as [H|[H|[H|[Hroom [H|[Hp H]]]]]].
  - unfold pop_back, pop_back_unchecked in H. destruct (v_size v); cbn in H; [discriminate|].
    destruct (destroy_at _ _ _); cbn [vbind] in H; try discriminate. injection H as <-. reflexivity.
  - unfold clear in H. destruct (destroy_n _ _ _ _); cbn [vbind] in H; try discriminate.
    injection H as <-. reflexivity.
  - unfold erase_range in H. destruct (destroy_n _ _ _ _); cbn [vbind] in H; try discriminate.
    destruct (uninitialized_relocate _ _ _ _ _); cbn [vbind] in H; try discriminate.
    injection H as <-. reflexivity.
  - destruct (push_spec kd al v l x Hk Hal Hi Hb) as [(E & _)|(w & E & _ & _ & _ & H1 & _)]; [congruence|].
    rewrite H in E. injection E as <-. apply H1. exact Hroom.
  - destruct (split_at l first Hp) as (a & b & -> & <- & _ & _).
    destruct (emplace_spec kd al v a b (Own x) x Hk Hal Hi Hb eq_refl I) as [(E & _)|(w & E & _ & _ & _ & H1)];
      [congruence|]. rewrite H in E. injection E as <-. apply H1. exact Hroom.
Qed.
Print Assumptions C53_same_block.

(** Growth is geometric: [n] push_backs allocate [b] blocks with
    [2^(b-1) < 2 n], that is at most [1 + log2 n] times (rounded up). *)
Theorem C53_geometric {A} : forall kd al (xs : list A) v,
  good_kind kd -> sane al -> xs <> [] -> append_range kd al v_empty xs = VFine v ->
  (2 ^ (v_block v - 1) < 2 * length xs)%nat.
Proof.
  intros kd al xs v Hk Hal Hne H.
  destruct (append_grow kd al Hk Hal xs v_empty [] inv_empty (bounded_empty kd)) as [H1|(v' & E & H1 & _ & H2)].
  - left. split; reflexivity.
  - congruence.
  - rewrite H in E. injection E as <-. pose proof (inv_shows _ _ H1) as (Hn & Hc & _). cbn [app] in *.
    destruct H2 as [[H2 H3]|(H2 & H3 & H4)]; [|lia].
    destruct xs; [congruence|cbn in Hn; lia].
Qed.
Print Assumptions C53_geometric.

(** [shrink_to_fit] gives back the unused room when the allocator allocates
    exactly what it is asked for. *)
Theorem C53_shrink {A} : forall kd al (v v' : vec A) l,
  good_kind kd -> sane al -> (forall n c, al n = Some c -> c = n) ->
  reached kd al v l -> shrink_to_fit kd al v = VFine v' ->
  v_cap v' = v_size v' /\ shows v' l.
Proof.
  intros kd al v v' l Hk Hal Hex Hr E. destruct (reached_inv kd al v l Hk Hal Hr) as [Hi Hb].
  assert (Hn : v_size v = length l) by (destruct Hi as (? & _ & ?); auto).
  unfold shrink_to_fit in E. destruct (Nat.eqb_spec (v_size v) (v_cap v)) as [Hf|Hf].
  - injection E as <-. split; [lia|exact (inv_shows _ _ Hi)].
  - rewrite Hn in E.
    destruct (grow_to_size_spec kd al v l (Z.of_nat (length l)) Hk Hal Hi ltac:(lia))
      as [[E' _]|(w & E' & H1 & H2 & H3 & _ & H4)]; [congruence|].
    rewrite E in E'. injection E' as <-.
    pose proof (inv_shows _ _ H1) as Hsh. split; [|exact Hsh]. destruct Hsh as (Hn' & _ & _).
    assert (Ha : al (k_size kd * Z.of_nat (length l)) <> None).
    { intros Ha. unfold grow_to_size in E. destruct (_ <? _); [discriminate|].
      unfold regrow in E. rewrite Ha in E. discriminate. }
    destruct (al (k_size kd * Z.of_nat (length l))) as [c|] eqn:Ea; [|congruence].
    rewrite (Hex _ _ Ea) in H4. specialize (H4 eq_refl). lia.
Qed.
Print Assumptions C53_shrink.

Example C53_example : exists v w : vec Z,
  run k_int al_exact v_empty [OPush (Own 1)] = VFine v /\ reserve k_int al_exact v 10 = VFine w /\
  v_cap w = 10%nat /\ v_block w = 2%nat /\
  append_range k_int al_exact w [2; 3; 4] = VFine (mk_vec (map Live [1; 2; 3; 4] ++ repeat Raw 6) 4 0 2) /\
  shrink_to_fit k_int al_exact w = VFine (mk_vec [Live 1] 1 0 3).
Proof.
  exists (mk_vec [Live 1] 1 0 1), (mk_vec (Live 1 :: repeat Raw 9) 1 0 2). vm_compute. repeat split.
Qed.
