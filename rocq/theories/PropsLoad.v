(** C82, C83, C84: file loaders and memory maps. *)
From Coq Require Import List Bool PeanoNat Lia.
From Verif Require Import Base LoadModel LoadSpec LoadProofs.
Import ListNotations.
Local Open Scope nat_scope.

(** C82.  allocation_file_loader on a file: however the kernel cuts the reads up, the object holds the st_size bytes from the file
    offset on; if the file turns out shorter, or a read fails, the constructor throws and no memory is left behind. *)
Theorem C82_allocation : forall w f sched,
  live w (next w) = None -> ~ In Fails sched ->
  (offset f + st_size f <= length (contents f) ->
     exists x w', load Alloc w f (Whole true sched) = (Some x, w') /\ len x = st_size f
       /\ view w' x = firstn (st_size f) (skipn (offset f) (contents f)))
  /\ (length (contents f) < offset f + st_size f -> st_size f <> 0 ->
     exists w', load Alloc w f (Whole true sched) = (None, w') /\ forall id, live w' id = live w id).
Proof.
  intros w f sched Hfresh Hs. assert (Hsk : length (skipn (offset f) (contents f)) = length (contents f) - offset f) by apply skipn_length.
  destruct (load_loop_spec (st_size f) (st_size f) (skipn (offset f) (contents f)) sched (Nat.le_refl _)) as [A [B _]].
  split; intro H.
  - unfold load. destruct (st_size f) as [| n] eqn:En.
    + exists (mk_loader Null 0), w. repeat split.
    + rewrite <- En in *. rewrite (A Hs) by lia. cbn [new_block]. eexists _, _. split; [reflexivity |]. cbn [len]. split; [reflexivity |].
      unfold view. cbn [address_begin live]. rewrite set_same. cbn [len b_bytes]. rewrite firstn_firstn, Nat.min_id. reflexivity.
  - intro Hn. unfold load. rewrite B by lia. destruct (st_size f) as [| n] eqn:En; [congruence |]. cbn [new_block free live].
    rewrite set_same. cbn [b_kind]. eexists. split; [reflexivity |]. cbn [live]. intro id.
    destruct (Nat.eq_dec id (next w)) as [-> | N]; [rewrite set_same; auto | now rewrite !set_other by exact N].
Qed.
Print Assumptions C82_allocation.

(** A constructor that throws - for whatever reason, in any of the three classes - leaves the memory of the program as it was; one
    that does not gives an object holding exactly the wanted bytes. *)
Theorem C82_all_or_nothing : forall fl os st a f q, history fl os st a ->
  match load fl (mem st) f q with
  | (Some x, w) => view w x = wanted fl f q /\ len x = length (wanted fl f q) /\ (forall s y, objs st s = Some y -> view w y = view (mem st) y)
  | (None, w) => forall id, live w id = live (mem st) id
  end.
Proof.
  intros fl os st a f q H. pose proof (history_inv _ _ _ _ H) as I. destruct (load fl (mem st) f q) as [[x |] w] eqn:El.
  - pose proof (load_ok _ _ _ _ _ _ El) as L.
    assert (Hout : forall s y, objs st s = Some y -> view w y = view (mem st) y).
    { intros s y Hy. destruct L as [[_ [-> _]] | [bs [-> _]]]; [reflexivity |]. unfold view. destruct (address_begin y) as [| | id] eqn:Ea; try reflexivity.
      cbn [new_block snd live]. rewrite set_other; [reflexivity |]. intros ->.
      pose proof (i_rep _ _ _ I s) as R. rewrite Hy in R. destruct (a s); [| contradiction]. destruct R as [[-> _] | [id [b [A [B _]]]]]; [destruct fl; discriminate |].
      rewrite A in Ea. injection Ea as ->. pose proof (i_next _ _ _ I _ _ B). lia. }
    destruct L as [[-> [-> ->]] | [bs [-> [Ho [Hw [Hl _]]]]]]; [destruct fl; repeat split; exact Hout |].
    split; [| split; [exact Hl | exact Hout]]. unfold view. unfold owns in Ho. rewrite Ho. cbn [new_block snd live]. rewrite set_same. cbn [b_bytes]. auto.
  - exact (proj1 (load_throw _ _ _ _ _ _ I El)).
Qed.
Print Assumptions C82_all_or_nothing.

(** The extra bytes asked for follow the contents and are zero. *)
Theorem C82_extra_bytes : forall w f exsz sched, ~ In Fails sched -> (0 <= exsz)%Z -> (Z.of_nat (st_size f) + exsz <= 2 ^ 64 - 1)%Z ->
  offset f + st_size f <= length (contents f) ->
  exists id w' b, load Alloc w f (Extra exsz true sched) = (Some (mk_loader (At id) (st_size f)), w') /\ live w' id = Some b
    /\ firstn (st_size f) (b_bytes b) = firstn (st_size f) (skipn (offset f) (contents f))
    /\ skipn (st_size f) (b_bytes b) = repeat 0%Z (Z.to_nat exsz).
Proof.
  intros w f exsz sched Hs He Hm H. assert (Hsk : length (skipn (offset f) (contents f)) = length (contents f) - offset f) by apply skipn_length.
  destruct (load_loop_spec (st_size f) (st_size f) (skipn (offset f) (contents f)) sched (Nat.le_refl _)) as [A _].
  unfold load, size_max. destruct (Z.gtb_spec (Z.of_nat (st_size f)) (2 ^ 64 - 1 - exsz)) as [G | G]; [lia |]. rewrite (A Hs) by lia. cbn [new_block].
  eexists _, _, _. split; [reflexivity |]. cbn [live]. rewrite set_same. split; [reflexivity |]. cbn [b_bytes].
  assert (Hl : length (firstn (st_size f) (skipn (offset f) (contents f))) = st_size f) by (rewrite firstn_length; lia).
  split.
  - rewrite firstn_app, Hl, Nat.sub_diag, firstn_O, app_nil_r, firstn_firstn, Nat.min_id. reflexivity.
  - rewrite skipn_app, Hl, Nat.sub_diag, skipn_O, skipn_all2 by lia. reflexivity.
Qed.
Print Assumptions C82_extra_bytes.

(** Refuted: the two loaders made from an open descriptor do not hold the same bytes - with the offset not at the beginning the mapping
    holds the whole file while the allocating loader throws. *)
Theorem C82_descriptor_offset_refuted :
  exists f, st_size f = length (contents f) /\
    forall w, (exists x w', load MapLoader w f (Whole true []) = (Some x, w') /\ view w' x = contents f)
    /\ (exists w', load Alloc w f (Whole true []) = (None, w')).
Proof.
  exists (mk_file [104%Z; 105%Z] 1 2). split; [reflexivity |]. intro w. split.
  - eexists _, _. split; [reflexivity |]. unfold view. cbn [address_begin live]. rewrite set_same. reflexivity.
  - eexists. reflexivity.
Qed.
Print Assumptions C82_descriptor_offset_refuted.

(** Refuted: an empty file with no extra bytes asked: malloc(0) may return a null pointer, and then the constructor throws although the
    same file loads without the argument. *)
Theorem C82_empty_extra_refuted :
  forall w, load Alloc w (mk_file [] 0 0) (Extra 0 false []) = (None, w) /\ load Alloc w (mk_file [] 0 0) (Whole false []) = (Some (mk_loader Null 0), w).
Proof. intro w. split; reflexivity. Qed.
Print Assumptions C82_empty_extra_refuted.

Example C82_hypotheses_hold :
  let f := mk_file [1%Z; 2%Z; 3%Z; 4%Z; 5%Z] 0 5 in
  let w := mk_world 0 (fun _ => None) in
  live w (next w) = None /\ ~ In Fails [Gives 2; Gives 0] /\ offset f + st_size f <= length (contents f)
  /\ load_loop 5 5 (contents f) [Gives 2; Gives 0] = Some [1%Z; 2%Z; 3%Z; 4%Z; 5%Z].
Proof. cbv zeta. split; [reflexivity |]. split; [intros [H | [H | []]]; discriminate |]. split; [cbn; lia | reflexivity]. Qed.

(** C83.  Any program of constructions, loads, moves (also onto themselves), closes, releases and destructions of loaders: every
    operation is defined (no double free or unmap, no unmap of foreign memory) and only loading throws; every object always shows
    exactly the bytes it was given; two objects never share memory; when no object is left, the only live memory is what release()
    handed out. *)
Theorem C83_loaders : forall fl os st a, history fl os st a ->
  (forall o, allowed o a -> kind_of_op fl o ->
     (exists st', step fl o st = Next st') \/ (exists st' s f q, o = Load s f q /\ step fl o st = Throws st'))
  /\ (forall s, match objs st s with Some x => a s = Some (view (mem st) x) /\ len x = length (view (mem st) x) | None => a s = None end)
  /\ (forall s t x y id, objs st s = Some x -> objs st t = Some y -> address_begin x = At id -> address_begin y = At id -> s = t)
  /\ ((forall s, a s = None) -> forall id b, live (mem st) id = Some b -> In (At id) (given st)).
Proof.
  intros fl os st a H. pose proof (history_inv _ _ _ _ H) as I. split; [| split; [| split]].
  - intros o Ha Hk. destruct (step_inv fl st a o I Ha Hk) as [[st' [E _]] | [st' [s [f [q [E [E' _]]]]]]]; [left; exists st'; exact E | right; exists st', s, f, q; auto].
  - intro s. pose proof (i_rep _ _ _ I s) as R. destruct (objs st s) as [x |], (a s) as [c |]; try contradiction; [| reflexivity].
    destruct (rep_view _ _ _ _ R) as [<- L]. split; [reflexivity | exact L].
  - intros s t x y id. apply (i_uniq _ _ _ I).
  - intros Ha id b Hb. destruct (i_leak _ _ _ I _ _ Hb) as [[s [x [Hs _]]] | G]; [| exact G].
    pose proof (i_rep _ _ _ I s) as R. rewrite Hs, Ha in R. contradiction.
Qed.
Print Assumptions C83_loaders.

Example C83_hypotheses_hold : exists st a,
  let f := mk_file [7%Z; 8%Z] 0 2 in
  history MapLoader [Load 0 f (Whole true []); Construct 1; MoveAssign 1 0; Destroy 0] st a /\ a 1 = Some [7%Z; 8%Z] /\ a 0 = None.
Proof.
  eexists _, _. cbv zeta. split.
  - change [?p; ?q; ?r; ?s] with (((([] ++ [p]) ++ [q]) ++ [r]) ++ [s]).
    eapply h_next; [eapply h_next; [eapply h_next; [eapply h_next; [apply h_start | ..] | ..] | ..] | ..]; try (cbn; reflexivity); try exact Logic.I;
      try (cbn; split; discriminate); try (cbn; discriminate).
  - split; reflexivity.
Qed.

(** C84.  posix_memory_map_file: a mapping of a window of a file, as in C83 (same theorem with MemMap); without default construction. *)
Theorem C84_maps_partial : forall os st a, history MemMap os st a ->
  (forall o, allowed o a -> kind_of_op MemMap o ->
     (exists st', step MemMap o st = Next st') \/ (exists st' s f q, o = Load s f q /\ step MemMap o st = Throws st'))
  /\ (forall s x, objs st s = Some x -> a s = Some (view (mem st) x))
  /\ ((forall s, a s = None) -> forall id, live (mem st) id = None).
Proof.
  intros os st a H. destruct (C83_loaders _ _ _ _ H) as [A [B [_ D]]]. split; [exact A |]. split.
  - intros s x Hx. specialize (B s). rewrite Hx in B. exact (proj1 B).
  - intros Ha id. destruct (live (mem st) id) as [b |] eqn:E; [| reflexivity]. exfalso. pose proof (D Ha id b E) as G.
    assert (Hg : given st = []).
    { clear - H. induction H as [| os st a o st' H IH Ha Hk Es | os st a o st' H IH Ha Hk Es]; [reflexivity | |].
      - destruct o as [s | s f q | d s | d s | s | s | s]; cbn [step kind_of_op] in *; try contradiction.
        + destruct (load MemMap (mem st) f q) as [[x |] w]; [injection Es as <-; exact IH | discriminate].
        + destruct (objs st s); [injection Es as <-; exact IH | discriminate].
        + destruct (objs st d) as [old |]; [| discriminate]. destruct (unload _ _ _) as [[ok w] |]; [| discriminate]. destruct (objs st s); [injection Es as <-; exact IH | discriminate].
        + destruct (objs st s) as [x |]; [| discriminate]. destruct (unload _ _ _) as [[[] w] |]; [injection Es as <-; exact IH | discriminate | discriminate].
        + destruct (objs st s) as [x |]; [| discriminate]. destruct (unload _ _ _) as [[ok w] |]; [injection Es as <-; exact IH | discriminate].
      - destruct o as [s | s f q | d s | d s | s | s | s]; cbn [step kind_of_op] in *; try contradiction; try discriminate.
        + destruct (load MemMap (mem st) f q) as [[x |] w]; [discriminate | injection Es as <-; exact IH].
        + destruct (objs st s); discriminate.
        + destruct (objs st d) as [old |]; [| discriminate]. destruct (unload _ _ _) as [[ok w] |]; [| discriminate]. destruct (objs st s); discriminate.
        + destruct (objs st s) as [x |]; [| discriminate]. destruct (unload _ _ _) as [[[] w] |]; discriminate.
        + destruct (objs st s) as [x |]; [| discriminate]. destruct (unload _ _ _) as [[ok w] |]; discriminate. }
    rewrite Hg in G. destruct G.
Qed.
Print Assumptions C84_maps_partial.

(** Refuted: closing a default-constructed map ends the program (munmap(nullptr, 0) fails and close(), which is noexcept, throws). *)
Theorem C84_close_default_refuted : allowed (Construct 0) (fun _ => None) /\
  run MemMap [Construct 0; Close 0] LoadModel.start = Terminates.
Proof. split; reflexivity. Qed.
Print Assumptions C84_close_default_refuted.

(** The permissions of a mapping are those its attribute names, for read_only, read_write and execute_read. *)
Definition gives (x : file_map_attribute) : bool * bool * bool * bool :=
  let p := to_posix_file_map_attribute x in (Z.testbit p 0, Z.testbit p 1, Z.testbit p 2, negb (map_is_shared x)).
Theorem C84_attribute_partial : forall x, x <> execute_read_write -> x <> execute_write_copy -> x <> write_copy -> gives x = promised x.
Proof. intros [] A B C; try contradiction; reflexivity. Qed.
Print Assumptions C84_attribute_partial.
(** Refuted: execute_read_write is not writable; the copy attributes are neither readable nor private (writes reach the file). *)
Theorem C84_attribute_refuted :
  gives execute_read_write = (true, false, true, false) /\ promised execute_read_write = (true, true, true, false)
  /\ gives write_copy = (false, true, false, false) /\ promised write_copy = (true, true, false, true)
  /\ gives execute_write_copy = (false, true, true, false) /\ promised execute_write_copy = (true, true, true, true).
Proof. repeat split; reflexivity. Qed.
Print Assumptions C84_attribute_refuted.
Example C84_hypotheses_hold : exists st a,
  let f := mk_file [7%Z; 8%Z; 9%Z] 0 3 in
  history MemMap [Load 0 f (Window 2 0 true); MoveConstruct 1 0; Close 0] st a /\ a 1 = Some [7%Z; 8%Z].
Proof.
  eexists _, _. cbv zeta. split.
  - change [?p; ?q; ?r] with ((([] ++ [p]) ++ [q]) ++ [r]).
    eapply h_next; [eapply h_next; [eapply h_next; [apply h_start | ..] | ..] | ..]; try (cbn; reflexivity); try exact Logic.I;
      try (cbn; split; [reflexivity | discriminate]); try (cbn; discriminate).
  - reflexivity.
Qed.
