From Verif Require Import Base DecoModel DecoSpec.
Local Open Scope nat_scope.

Lemma skipn_skip {A} : forall b a (l : list A), skipn a (skipn b l) = skipn (a + b) l.
Proof.
  induction b as [|b IH]; intros a l; [rewrite Nat.add_0_r; reflexivity|].
  destruct l as [|x l]; [rewrite !skipn_nil; reflexivity|]. rewrite Nat.add_succ_r. cbn [skipn]. apply IH.
Qed.

Lemma dev_read_spec n d : n <> 0 -> Forall (fun p => p <> []) d ->
  exists k, fst (dev_read n d) = firstn k (concat d) /\ concat (snd (dev_read n d)) = skipn k (concat d) /\
    k <= n /\ Forall (fun p => p <> []) (snd (dev_read n d)) /\ (fst (dev_read n d) = [] -> concat d = []).
Proof.
  intros N HF. destruct d as [|p r]; cbn [dev_read].
  - exists 0. repeat split; auto with arith.
  - cbn [fst snd]. exists (Nat.min n (length p)). pose proof (Forall_inv HF) as P. apply Forall_inv_tail in HF.
    cbn [concat]. rewrite firstn_app, skipn_app.
    replace (Nat.min n (length p) - length p) with 0 by lia. rewrite firstn_O, app_nil_r. cbn [skipn].
    assert (F : firstn (Nat.min n (length p)) p = firstn n p).
    { destruct (Nat.le_ge_cases n (length p)) as [L|L].
      - rewrite Nat.min_l by exact L. reflexivity.
      - rewrite Nat.min_r by exact L. rewrite firstn_all, firstn_all2 by exact L. reflexivity. }
    assert (G : skipn (Nat.min n (length p)) p = skipn n p).
    { destruct (Nat.le_ge_cases n (length p)) as [L|L].
      - rewrite Nat.min_l by exact L. reflexivity.
      - rewrite Nat.min_r by exact L. rewrite skipn_all, skipn_all2 by exact L. reflexivity. }
    rewrite F, G. split; [reflexivity|]. split; [|split; [lia|split]].
    + destruct (skipn n p); reflexivity.
    + destruct (skipn n p) eqn:E; [exact HF|constructor; [discriminate|exact HF]].
    + intros E. destruct p as [|z p]; [congruence|]. destruct n; [lia|]. discriminate E.
Qed.

Lemma fill_spec : forall fuel n d, n <= fuel -> Forall (fun p => p <> []) d ->
  fst (fill fuel n d) = firstn n (concat d) /\ concat (snd (fill fuel n d)) = skipn n (concat d) /\ Forall (fun p => p <> []) (snd (fill fuel n d)).
Proof.
  induction fuel as [|fuel IH]; intros n d L HF; cbn [fill].
  - assert (n = 0) by lia. subst n. repeat split; auto.
  - destruct (Nat.eqb_spec n 0) as [->|N]; [repeat split; auto|].
    destruct (dev_read_spec n d N HF) as (k & A & B & C & D & E). destruct (dev_read n d) as [x d1]. cbn [fst snd] in *.
    destruct x as [|z x].
    + cbn [fst snd]. specialize (E eq_refl). rewrite E in *. rewrite firstn_nil, skipn_nil in *. auto.
    + assert (LX : length (z :: x) <= k) by (rewrite A, firstn_length; lia).
      assert (LP : length (z :: x) <> 0) by discriminate.
      specialize (IH (n - length (z :: x)) d1 ltac:(lia) D). destruct (fill fuel (n - length (z :: x)) d1) as [y d2]. cbn [fst snd] in *.
      destruct IH as (P & Q & R). rewrite P, Q, B.
      assert (K : firstn (length (z :: x)) (concat d) = z :: x /\ skipn (length (z :: x)) (concat d) = skipn k (concat d)).
      { rewrite A, firstn_length. split.
        - destruct (Nat.le_ge_cases k (length (concat d))) as [G|G]; [rewrite Nat.min_l by exact G; reflexivity|].
          rewrite Nat.min_r by exact G. rewrite firstn_all, firstn_all2 by exact G. reflexivity.
        - destruct (Nat.le_ge_cases k (length (concat d))) as [G|G]; [rewrite Nat.min_l by exact G; reflexivity|].
          rewrite Nat.min_r by exact G. rewrite skipn_all, skipn_all2 by exact G. reflexivity. }
      destruct K as (K1 & K2). rewrite <- K2. split; [|split; [|exact R]].
      * transitivity (firstn (length (z :: x)) (concat d) ++ firstn (n - length (z :: x)) (skipn (length (z :: x)) (concat d))); [rewrite K1; reflexivity|].
        rewrite <- (firstn_skipn (length (z :: x)) (firstn n (concat d))). rewrite firstn_firstn, Nat.min_l by lia. f_equal.
        rewrite skipn_firstn_comm. reflexivity.
      * rewrite skipn_skip. f_equal. lia.
Qed.

(** The invariant of the reading side: what was [given] and what is unread is the conversion of what was taken from the
    device. *)
Definition Reading {St} (d : decorator St) (s0 : St) (content given : list Z) (st : istate St) : Prop :=
  exists consumed, content = consumed ++ concat (dev st) /\ conv d s0 consumed = (istate_of st, given ++ unread st) /\
    Forall (fun p => p <> []) (dev st).

Lemma chunk {St} bfs (d : decorator St) s0 content given st raw d1 s1 out : chunked d ->
  Reading d s0 content given st -> unread st = [] -> fill bfs bfs (dev st) = (raw, d1) -> conv d (istate_of st) raw = (s1, out) ->
  (forall c, Reading d s0 content given (IS out c s1 d1)) /\ (forall c, Reading d s0 content (given ++ out) (IS [] c s1 d1)) /\
  (length (concat d1) = length (concat (dev st)) - length raw) /\ (length raw <= length (concat (dev st))) /\
  (length raw <> bfs -> concat d1 = []) /\ (raw = [] -> bfs <> 0 -> concat (dev st) = []).
Proof.
  intros (C0 & C1) (consumed & E1 & E2 & HF) U F V.
  destruct (fill_spec bfs bfs (dev st) (le_n _) HF) as (A & B & D). rewrite F in A, B, D. cbn [fst snd] in *.
  rewrite U, app_nil_r in E2.
  assert (J : content = (consumed ++ raw) ++ concat d1) by (rewrite <- app_assoc, A, B, firstn_skipn; exact E1).
  assert (K : conv d s0 (consumed ++ raw) = (s1, given ++ out)) by (rewrite C1, E2, V; reflexivity).
  split; [|split; [|split; [|split; [|split]]]].
  - intros c. exists (consumed ++ raw). auto.
  - intros c. exists (consumed ++ raw). cbn [unread dev istate_of]. rewrite app_nil_r. auto.
  - rewrite B, A, skipn_length, firstn_length. lia.
  - rewrite A, firstn_length. lia.
  - intros N. rewrite B. apply skipn_all2. rewrite A, firstn_length in N. lia.
  - intros R N. rewrite A in R. destruct (concat (dev st)); [reflexivity|]. destruct bfs; [contradiction|discriminate].
Qed.

Lemma lively_out {St} bfs (d : decorator St) s raw s1 : lively bfs d -> conv d s raw = (s1, []) -> length raw <> bfs.
Proof. intros L E N. apply (L s raw N). rewrite E. reflexivity. Qed.

Lemma read_loop_spec {St} bfs (d : decorator St) s0 content : chunked d -> announced d -> bfs <> 0 ->
  forall fuel want st given, Reading d s0 content given st -> (want <> 0 -> unread st = []) -> length (concat (dev st)) < fuel ->
  exists out st', read_loop fuel bfs d want st = Some (out, st') /\ Reading d s0 content (given ++ out) st' /\ length out <= want /\
    (lively bfs d -> length out < want -> concat (dev st') = [] /\ unread st' = []).
Proof.
  intros C AN N. induction fuel as [|fuel IH]; intros want st given R U F; [lia|]. cbn [read_loop].
  destruct (Nat.eqb_spec want 0) as [->|W].
  { exists [], st. rewrite app_nil_r. repeat split; auto with arith; cbn [length] in *; lia. }
  specialize (U W).
  destruct (fill bfs bfs (dev st)) as [raw d1] eqn:E1. destruct (conv d (istate_of st) raw) as [s1 out] eqn:E2.
  destruct (chunk _ _ _ _ _ _ _ _ _ _ C R U E1 E2) as (P & Q & L1 & L2 & L3 & L4).
  destruct raw as [|z raw].
  { specialize (L4 eq_refl N). exists [], (IS (unread st) (cap st) (istate_of st) d1). rewrite app_nil_r.
    assert (X : (s1, out) = (istate_of st, [])) by (rewrite <- E2; apply (proj1 C)). injection X as -> ->.
    split; [reflexivity|]. split; [|split; [cbn [length]; lia|]].
    - rewrite U. exact (P (cap st)).
    - intros _ _. cbn [dev unread]. split; [|exact U]. apply length_zero_iff_nil. rewrite L1, L4. reflexivity. }
  set (full := z :: raw) in *. assert (LR : length full <> 0) by discriminate.
  pose proof (AN (istate_of st) full (length full) (le_n _)) as B. rewrite E2 in B. cbn [snd] in B.
  change (match full with [] => Some ([], IS (unread st) (cap st) (istate_of st) d1) | _ :: _ => _ end) with
    (if size d (length full) <? want then if want <? length out then None
      else match read_loop fuel bfs d (want - length out) (IS (unread st) (cap st) s1 d1) with Some (rest, st') => Some (out ++ rest, st') | None => None end
     else let c := if cap st <? size d (length full) then size d (length full) else cap st in
       if c <? length out then None else match out with [] => Some ([], IS [] c s1 d1) | _ =>
         let k := if want <? length out then want else length out in
         match read_loop fuel bfs d (want - k) (IS (skipn k out) c s1 d1) with Some (rest, st') => Some (firstn k out ++ rest, st') | None => None end end).
  destruct (Nat.ltb_spec (size d (length full)) want) as [G|G].
  - destruct (Nat.ltb_spec want (length out)) as [H|H]; [lia|].
    destruct (IH (want - length out) (IS (unread st) (cap st) s1 d1) (given ++ out)) as (o & st' & X & Y & V1 & V2).
    { rewrite U. apply Q. } { intros _. exact U. } { cbn [dev]. lia. }
    rewrite X. exists (out ++ o), st'. split; [reflexivity|]. rewrite app_assoc. split; [exact Y|]. rewrite app_length.
    split; [lia|]. intros LV LT. apply V2; [exact LV|lia].
  - cbv zeta. set (c := if cap st <? size d (length full) then size d (length full) else cap st).
    assert (HC : length out <= c) by (unfold c; destruct (Nat.ltb_spec (cap st) (size d (length full))); lia).
    destruct (Nat.ltb_spec c (length out)) as [H|_]; [lia|].
    destruct out as [|o1 out].
    { exists [], (IS [] c s1 d1). rewrite app_nil_r. split; [reflexivity|]. split; [exact (P c)|]. split; [cbn [length]; lia|].
      intros LV _. split; [|reflexivity]. apply L3. exact (lively_out _ _ _ _ _ LV E2). }
    set (o := o1 :: out) in *.
    change (match o with [] => Some ([], IS [] c s1 d1) | _ :: _ => _ end) with
      (match read_loop fuel bfs d (want - (if want <? length o then want else length o)) (IS (skipn (if want <? length o then want else length o) o) c s1 d1) with
       Some (rest, st') => Some (firstn (if want <? length o then want else length o) o ++ rest, st') | None => None end).
    set (k := if want <? length o then want else length o).
    assert (HK : k <= want /\ k <= length o /\ (want - k <> 0 -> k = length o)).
    { unfold k. destruct (Nat.ltb_spec want (length o)); lia. }
    destruct HK as (K1 & K2 & K3).
    assert (LK : length (firstn k o) = k) by (rewrite firstn_length; lia).
    destruct (IH (want - k) (IS (skipn k o) c s1 d1) (given ++ firstn k o)) as (o' & st' & X & Y & V1 & V2).
    { destruct (P c) as (cs & A1 & A2 & A3). exists cs. cbn [unread dev istate_of] in *. rewrite <- app_assoc, firstn_skipn. auto. }
    { intros W2. cbn [unread]. rewrite (K3 W2). apply skipn_all. } { cbn [dev]. lia. }
    rewrite X. exists (firstn k o ++ o'), st'. split; [reflexivity|]. rewrite app_assoc. split; [exact Y|]. rewrite app_length, LK.
    split; [lia|]. intros LV LT. apply V2; [exact LV|lia].
Qed.

Lemma read_spec {St} bfs (d : decorator St) s0 content want st given : chunked d -> announced d -> bfs <> 0 ->
  Reading d s0 content given st ->
  exists out st', read bfs d want st = Some (out, st') /\ Reading d s0 content (given ++ out) st' /\ length out <= want /\
    (lively bfs d -> length out < want -> concat (dev st') = [] /\ unread st' = []).
Proof.
  intros C AN N R. unfold read. destruct (Nat.ltb_spec (length (unread st)) want) as [H|H].
  - destruct (read_loop_spec bfs d s0 content C AN N (S (length (concat (dev st)))) (want - length (unread st))
      (IS [] (cap st) (istate_of st) (dev st)) (given ++ unread st)) as (o & st' & X & Y & V1 & V2).
    + destruct R as (cs & A1 & A2 & A3). exists cs. cbn [unread dev istate_of]. rewrite app_nil_r. auto.
    + intros _. reflexivity.
    + cbn [dev]. lia.
    + rewrite X. exists (unread st ++ o), st'. split; [reflexivity|]. rewrite app_assoc. split; [exact Y|]. rewrite app_length.
      split; [lia|]. intros LV LT. apply V2; [exact LV|lia].
  - eexists _, _. split; [reflexivity|]. split; [|split].
    + destruct R as (cs & A1 & A2 & A3). exists cs. cbn [unread dev istate_of]. rewrite <- app_assoc, firstn_skipn. auto.
    + rewrite firstn_length. lia.
    + intros _ LT. rewrite firstn_length in LT. lia.
Qed.

Lemma take_spec {St} (d : decorator St) s0 content k st given : Reading d s0 content given st ->
  Reading d s0 content (given ++ fst (take k st)) (snd (take k st)) /\ length (fst (take k st)) <= k /\
  (unread st <> [] -> k <> 0 -> fst (take k st) <> []).
Proof.
  intros (cs & A1 & A2 & A3). unfold take. cbn [fst snd]. split; [|split].
  - exists cs. cbn [unread dev istate_of]. rewrite <- app_assoc, firstn_skipn. auto.
  - rewrite firstn_length. lia.
  - intros U K. destruct (unread st); [contradiction|]. destruct k; [contradiction|discriminate].
Qed.

Lemma scan_spec {St} bfs (d : decorator St) s0 content k st given : chunked d -> announced d -> bfs <> 0 ->
  Reading d s0 content given st ->
  exists out st', scan bfs d k st = Some (out, st') /\ Reading d s0 content (given ++ out) st' /\ length out <= k /\
    (lively bfs d -> k <> 0 -> out = [] -> concat (dev st') = [] /\ unread st' = []).
Proof.
  intros C AN N R. unfold scan. destruct (unread st) as [|u us] eqn:U.
  - unfold underflow. destruct (fill bfs bfs (dev st)) as [raw d1] eqn:E1. destruct (conv d (istate_of st) raw) as [s1 out] eqn:E2.
    destruct (chunk _ _ _ _ _ _ _ _ _ _ C R U E1 E2) as (P & Q & L1 & L2 & L3 & L4).
    destruct raw as [|z raw].
    + specialize (L4 eq_refl N). eexists _, _. split; [reflexivity|]. rewrite app_nil_r.
      assert (X : (s1, out) = (istate_of st, [])) by (rewrite <- E2; apply (proj1 C)). injection X as -> ->.
      split; [rewrite U; exact (P (cap st))|]. split; [cbn [length]; lia|]. intros _ _ _. cbn [dev unread]. split; [|exact U].
      apply length_zero_iff_nil. rewrite L1, L4. reflexivity.
    + set (full := z :: raw) in *.
      pose proof (AN (istate_of st) full (length full) (le_n _)) as B. rewrite E2 in B. cbn [snd] in B. cbv zeta.
      set (c := if cap st <? size d (length full) then size d (length full) else cap st).
      assert (HC : length out <= c) by (unfold c; destruct (Nat.ltb_spec (cap st) (size d (length full))); lia).
      destruct (Nat.ltb_spec c (length out)) as [H|_]; [lia|].
      destruct out as [|o1 out].
      * eexists _, _. split; [reflexivity|]. rewrite app_nil_r. split; [exact (P c)|]. split; [cbn [length]; lia|].
        intros LV _ _. split; [|reflexivity]. apply L3. exact (lively_out _ _ _ _ _ LV E2).
      * set (o := o1 :: out) in *. eexists _, _. split; [reflexivity|].
        destruct (take_spec d s0 content k (IS o c s1 d1) given (P c)) as (A & B' & D).
        split; [exact A|]. split; [exact B'|]. intros _ K E. exfalso. exact (D ltac:(discriminate) K E).
  - eexists _, _. split; [reflexivity|]. destruct (take_spec d s0 content k st given R) as (A & B & D).
    split; [exact A|]. split; [exact B|]. intros _ K E. exfalso. apply D; [rewrite U; discriminate|exact K|exact E].
Qed.

Lemma irun_spec {St} bfs (d : decorator St) s0 content : chunked d -> announced d -> bfs <> 0 ->
  forall os st given, Reading d s0 content given st ->
  exists outs st', irun bfs d os st = Some (outs, st') /\ Reading d s0 content (given ++ concat outs) st'.
Proof.
  intros C AN N. induction os as [|o os IH]; intros st given R; cbn [irun].
  - exists [], st. cbn [concat]. rewrite app_nil_r. auto.
  - assert (H : exists out st', istep bfs d o st = Some (out, st') /\ Reading d s0 content (given ++ out) st').
    { destruct o as [n|k]; cbn [istep].
      - destruct (read_spec bfs d s0 content n st given C AN N R) as (x & st' & A & B & _). eauto.
      - destruct (scan_spec bfs d s0 content k st given C AN N R) as (x & st' & A & B & _). eauto. }
    destruct H as (x & st1 & A & B). rewrite A. destruct (IH st1 _ B) as (xs & st2 & D & E). rewrite D.
    exists (x :: xs), st2. split; [reflexivity|]. cbn [concat]. rewrite app_assoc. exact E.
Qed.

Lemma opened_reading {St} (d : decorator St) s0 content dv : chunked d -> delivers content dv -> Reading d s0 content [] (opened s0 dv).
Proof. intros (C0 & _) (E & HF). exists []. cbn. auto. Qed.

(** The writing side. *)
Definition held {St} (st : ostate St) : list Z := match obuf st with None => [] | Some b => b end.
Definition Writing {St} (bfs : nat) (d : decorator St) (s0 : St) (text : list Z) (st : ostate St) : Prop :=
  exists sent, text = sent ++ held st /\ conv d s0 sent = (ostate_of st, concat (written st)) /\
    (forall e, ext st = Some e -> e = size d bfs) /\ length (held st) <= bfs.

Lemma deco_loop_spec {St} bfs (d : decorator St) s0 : chunked d -> announced d -> bfs <> 0 ->
  forall fuel x st sent, length x <= fuel -> conv d s0 sent = (ostate_of st, concat (written st)) ->
  exists st', deco_loop fuel bfs (size d bfs) d x st = Some st' /\ conv d s0 (sent ++ x) = (ostate_of st', concat (written st')) /\
    obuf st' = obuf st /\ ext st' = ext st.
Proof.
  intros C AN N. induction fuel as [|fuel IH]; intros x st sent L E.
  - destruct x; [|cbn [length] in L; lia]. exists st. rewrite app_nil_r. auto.
  - destruct x as [|z x]; [exists st; rewrite app_nil_r; auto|]. cbn [deco_loop]. set (full := z :: x) in *. cbv zeta.
    set (k := if length full <? bfs then length full else bfs).
    assert (K : 0 < k /\ k <= bfs /\ k <= length full) by (unfold k; unfold full in *; cbn [length] in *; destruct (Nat.ltb_spec (S (length x)) bfs); lia).
    destruct (conv d (ostate_of st) (firstn k full)) as [s1 out] eqn:E2.
    pose proof (AN (ostate_of st) (firstn k full) bfs ltac:(rewrite firstn_length; lia)) as B. rewrite E2 in B. cbn [snd] in B.
    destruct (Nat.ltb_spec (size d bfs) (length out)) as [H|_]; [lia|].
    destruct (IH (skipn k full) (OS (obuf st) (ext st) s1 (written st ++ [out])) (sent ++ firstn k full)) as (st' & X & Y & P & Q).
    + rewrite skipn_length. lia.
    + cbn [ostate_of written]. rewrite (proj2 C), E, E2, concat_app. cbn [concat]. rewrite app_nil_r. reflexivity.
    + exists st'. rewrite <- app_assoc, firstn_skipn in Y. auto.
Qed.

Lemma write_with_deco_spec {St} bfs (d : decorator St) s0 x st sent : chunked d -> announced d -> bfs <> 0 ->
  conv d s0 sent = (ostate_of st, concat (written st)) -> (forall e, ext st = Some e -> e = size d bfs) ->
  exists st', write_with_deco bfs d x st = Some st' /\ conv d s0 (sent ++ x) = (ostate_of st', concat (written st')) /\
    obuf st' = obuf st /\ (forall e, ext st' = Some e -> e = size d bfs).
Proof.
  intros C AN N E X. unfold write_with_deco. cbv zeta.
  assert (H : match ext st with None => size d bfs | Some e => e end = size d bfs) by (destruct (ext st); [apply X; reflexivity|reflexivity]).
  rewrite H. destruct (deco_loop_spec bfs d s0 C AN N (length x) x (OS (obuf st) (Some (size d bfs)) (ostate_of st) (written st)) sent (le_n _) E) as (st' & P & Q & R & T).
  exists st'. split; [exact P|]. split; [exact Q|]. split; [exact R|]. intros e Y. rewrite T in Y. cbn [ext] in Y. congruence.
Qed.

Lemma held_after {St} bfs (d : decorator St) s0 text sent b (st st' : ostate St) : text = sent ++ b -> length b <= bfs ->
  conv d s0 sent = (ostate_of st', concat (written st')) -> (forall e, ext st' = Some e -> e = size d bfs) -> obuf st' = obuf st ->
  Writing bfs d s0 text (set_obuf (Some b) st').
Proof. intros E L C X O. exists sent. unfold held, set_obuf. cbn [obuf ext ostate_of written]. auto. Qed.

Lemma write_spec {St} direct bfs (d : decorator St) s0 text x st : chunked d -> announced d -> bfs <> 0 ->
  Writing bfs d s0 text st -> (direct = true -> obuf st = None) ->
  exists st', write direct bfs d x st = Some st' /\ Writing bfs d s0 (text ++ x) st' /\ (direct = true -> obuf st' = None).
Proof.
  intros C AN N (sent & E & F & G & L) O. unfold write.
  assert (NB : obuf st = None -> exists st', write_with_deco bfs d x st = Some st' /\ Writing bfs d s0 (text ++ x) st' /\ obuf st' = None).
  { intros U. destruct (write_with_deco_spec bfs d s0 x st sent C AN N F G) as (st' & A & B & D & H). exists st'. split; [exact A|].
    rewrite U in D. split; [|exact D]. exists (sent ++ x). unfold held in *. rewrite D. rewrite U in E. rewrite app_nil_r in *. subst text.
    cbn [length]. repeat split; auto with arith. }
  destruct direct.
  { destruct (NB (O eq_refl)) as (st' & A & B & D). exists st'. auto. }
  cbv zeta. unfold held in E, L. destruct (obuf st) as [b|] eqn:U.
  - destruct (Nat.ltb_spec (bfs - length b) (length x)) as [H|H].
    + unfold write_unhappy. rewrite U. unfold write_no_alloc. cbv zeta.
      destruct (write_with_deco_spec bfs d s0 (b ++ firstn (bfs - length b) x) st sent C AN N F G) as (s1 & A & B & D & X). rewrite A.
      set (r := skipn (bfs - length b) x) in *.
      assert (T : text ++ x = (sent ++ b ++ firstn (bfs - length b) x) ++ r).
      { rewrite E. unfold r. rewrite <- !app_assoc. do 2 f_equal. symmetry. apply firstn_skipn. }
      destruct (Nat.ltb_spec bfs (length r)) as [K|K].
      * destruct (write_with_deco_spec bfs d s0 r (set_obuf (Some []) s1) (sent ++ b ++ firstn (bfs - length b) x) C AN N B X) as (s2 & A2 & B2 & D2 & X2).
        rewrite A2. exists s2. split; [reflexivity|]. split; [|discriminate]. rewrite T. eexists. unfold held. rewrite D2. cbn [set_obuf obuf].
        rewrite app_nil_r. split; [reflexivity|]. split; [exact B2|]. split; [exact X2|]. cbn [length]. lia.
      * exists (set_obuf (Some r) s1). split; [reflexivity|]. split; [|discriminate]. rewrite T.
        exact (held_after bfs d s0 _ _ r st s1 eq_refl K B X D).
    + exists (set_obuf (Some (b ++ x)) st). split; [reflexivity|]. split; [|discriminate]. exists sent. unfold held, set_obuf. cbn [obuf ext ostate_of written].
      rewrite E, app_assoc. rewrite app_length. repeat split; auto. lia.
  - destruct (Nat.ltb_spec 0 (length x)) as [H|H].
    + unfold write_unhappy. rewrite U. destruct (Nat.ltb_spec (length x) bfs) as [K|K].
      * exists (set_obuf (Some x) st). split; [reflexivity|]. split; [|discriminate]. rewrite app_nil_r in E. subst text.
        exact (held_after bfs d s0 _ sent x st st eq_refl ltac:(lia) F G eq_refl).
      * destruct (NB eq_refl) as (st' & A & B & D). exists st'. repeat split; auto.
    + exists st. split; [reflexivity|]. split; [|discriminate]. destruct x; [|cbn [length] in H; lia]. rewrite app_nil_r. exists sent. unfold held. rewrite U. auto.
Qed.

Lemma flush_spec {St} bfs (d : decorator St) s0 text st : chunked d -> announced d -> bfs <> 0 -> Writing bfs d s0 text st ->
  exists st', flush bfs d st = Some st' /\ conv d s0 text = (ostate_of st', concat (written st')) /\ held st' = [] /\
    (forall e, ext st' = Some e -> e = size d bfs).
Proof.
  intros C AN N (sent & E & F & G & L). unfold flush, held in *.
  destruct (obuf st) as [[|z b]|] eqn:U; try (exists st; rewrite U; rewrite app_nil_r in E; subst text; auto; fail).
  destruct (write_with_deco_spec bfs d s0 (z :: b) st sent C AN N F G) as (s1 & A & B & D & X). rewrite A.
  exists (set_obuf (Some []) s1). split; [reflexivity|]. rewrite E. auto.
Qed.

Lemma ostep_spec {St} direct bfs (d : decorator St) s0 text o st : chunked d -> announced d -> bfs <> 0 ->
  Writing bfs d s0 text st -> (direct = true -> obuf st = None) ->
  exists st', ostep direct bfs d o st = Some st' /\ Writing bfs d s0 (text ++ text_of o) st' /\ (direct = true -> obuf st' = None).
Proof.
  intros C AN N W O. destruct o as [x|c]; cbn [ostep text_of].
  - exact (write_spec direct bfs d s0 text x st C AN N W O).
  - destruct direct; [exact (write_spec true bfs d s0 text [c] st C AN N W O)|]. unfold overflow.
    assert (OB : length [c] <= bfs) by (cbn [length]; lia).
    destruct (obuf st) as [b|] eqn:U.
    + destruct (flush_spec bfs d s0 text st C AN N W) as (s1 & A & B & D & X). rewrite A. eexists. split; [reflexivity|].
      split; [|discriminate]. exact (held_after bfs d s0 _ text [c] s1 s1 eq_refl OB B X eq_refl).
    + destruct W as (sent & E & F & G & L). unfold held in E. rewrite U, app_nil_r in E. subst text. eexists. split; [reflexivity|].
      split; [|discriminate]. exact (held_after bfs d s0 _ sent [c] st st eq_refl OB F G eq_refl).
Qed.

Lemma orun_spec {St} direct bfs (d : decorator St) s0 : chunked d -> announced d -> bfs <> 0 ->
  forall os text st, Writing bfs d s0 text st -> (direct = true -> obuf st = None) ->
  exists st', orun direct bfs d os st = Some st' /\ Writing bfs d s0 (text ++ concat (map text_of os)) st' /\ (direct = true -> obuf st' = None).
Proof.
  intros C AN N. induction os as [|o os IH]; intros text st W O; cbn [orun map concat].
  - exists st. rewrite app_nil_r. auto.
  - destruct (ostep_spec direct bfs d s0 text o st C AN N W O) as (s1 & A & B & D). rewrite A.
    destruct (IH _ _ B D) as (s2 & X & Y & V). exists s2. rewrite app_assoc. auto.
Qed.

Lemma close_spec {St} direct bfs (d : decorator St) s0 text st : chunked d -> announced d -> bfs <> 0 ->
  Writing bfs d s0 text st -> (direct = true -> obuf st = None) ->
  exists st', close direct bfs d st = Some st' /\ conv d s0 text = (ostate_of st', concat (written st')).
Proof.
  intros C AN N (sent & E & F & G & L) O. unfold close, held in *. destruct direct.
  - rewrite (O eq_refl), app_nil_r in E. subst text. eauto.
  - destruct (obuf st) as [[|z b]|] eqn:U; try (exists st; rewrite app_nil_r in E; subst text; auto; fail).
    destruct (write_with_deco_spec bfs d s0 (z :: b) st sent C AN N F G) as (s1 & A & B & D & X). rewrite A. exists s1. rewrite E. auto.
Qed.

Lemma created_writing {St} bfs (d : decorator St) s0 : chunked d -> Writing bfs d s0 [] (created s0).
Proof. intros (C0 & _). exists []. cbn. repeat split; auto; [discriminate|lia]. Qed.
