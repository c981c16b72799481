(** Properties C99-C102: the freestanding algorithms. *)
From Coq Require Import List.
From Verif Require Import Base AlgoModel AlgoSpec AlgoProofs.
Import ListNotations.
Local Open Scope nat_scope.

(** ** C99: searching *)
Section Search.
Context {A : Type} (eqb : A -> A -> bool) (eqb_ok : forall x y, eqb x y = true <-> x = y).
Implicit Types (m s : list A).

Theorem C99_find_if (q : A -> bool) m first last : first <= last <= length m ->
  exists r, find_if q m first last = Some r /\ first_that (fun x => q x = true) m first last r.
Proof.
  intros H. destruct (find_if_ok q m (last - first) first ltac:(lia)) as (r & E & F).
  replace (first + (last - first)) with last in F by lia. exists r. split; [exact E|exact F].
Qed.

Lemma weaken_first (P Q : A -> Prop) m first last r : (forall x, P x <-> Q x) -> first_that P m first last r -> first_that Q m first last r.
Proof.
  intros I (B & N & F). split; [exact B|]. split.
  - intros i x Hi Hx K. apply (N i x Hi Hx). now apply I.
  - intros K. destruct (F K) as (x & E & X). exists x. split; [exact E|now apply I].
Qed.
Lemma weaken_last (P Q : A -> Prop) m first last r : (forall x, P x <-> Q x) -> last_that P m first last r -> last_that Q m first last r.
Proof.
  intros I [(B & N)|(B & (x & E & X) & N)].
  - left. split; [exact B|]. intros i x Hi Hx K. apply (N i x Hi Hx). now apply I.
  - right. split; [exact B|]. split; [exists x; split; [exact E|now apply I]|]. intros i y Hi Hy K. apply (N i y Hi Hy). now apply I.
Qed.
Lemma neq_ok x t : negb (eqb x t) = true <-> x <> t.
Proof. rewrite negb_true_iff. split; [intros H ->|intros H]. { assert (eqb t t = true) by now apply eqb_ok. congruence. }
  destruct (eqb x t) eqn:E; [|reflexivity]. now apply eqb_ok in E. Qed.

Theorem C99_find t m first last : first <= last <= length m ->
  exists r, find eqb t m first last = Some r /\ first_that (fun x => x = t) m first last r.
Proof.
  intros H. unfold find. rewrite find_is. destruct (C99_find_if (fun x => eqb x t) m first last H) as (r & E & F).
  exists r. split; [exact E|]. revert F. apply weaken_first. intros x. apply eqb_ok.
Qed.
Theorem C99_find_not t m first last : first <= last <= length m ->
  exists r, find_not eqb t m first last = Some r /\ first_that (fun x => x <> t) m first last r.
Proof.
  intros H. unfold find_not. rewrite find_not_is. destruct (C99_find_if (fun x => negb (eqb x t)) m first last H) as (r & E & F).
  exists r. split; [exact E|]. revert F. apply weaken_first. intros x. apply neq_ok.
Qed.
Lemma last_if_range (q : A -> bool) m first last : first <= last <= length m ->
  exists r, last_if_loop q m (last - first) last last = Some r /\ last_that (fun x => q x = true) m first last r.
Proof.
  intros H. destruct (last_if_ok q m (last - first) first last ltac:(lia) ltac:(lia)) as (r & E & F); [intros; lia|].
  replace (first + (last - first)) with last in E by lia. eauto.
Qed.
Theorem C99_find_last t m first last : first <= last <= length m ->
  exists r, find_last eqb t m first last = Some r /\ last_that (fun x => x = t) m first last r.
Proof.
  intros H. unfold find_last. rewrite find_last_is. destruct (last_if_range (fun x => eqb x t) m first last H) as (r & E & F).
  exists r. split; [exact E|]. revert F. apply weaken_last. intros x. apply eqb_ok.
Qed.
Theorem C99_find_last_not t m first last : first <= last <= length m ->
  exists r, find_last_not eqb t m first last = Some r /\ last_that (fun x => x <> t) m first last r.
Proof.
  intros H. unfold find_last_not. rewrite find_last_not_is.
  destruct (last_if_range (fun x => negb (eqb x t)) m first last H) as (r & E & F).
  exists r. split; [exact E|]. revert F. apply weaken_last. intros x. apply neq_ok.
Qed.
Lemma in_set x (l : list A) : existsb (fun y => eqb y x) l = true <-> In x l.
Proof. rewrite existsb_exists. split; [intros (y & I & E); apply eqb_ok in E; now subst|intros I; exists x; split; [exact I|now apply eqb_ok]]. Qed.
Lemma in_set' x (l : list A) : existsb (fun y => eqb x y) l = true <-> In x l.
Proof. rewrite existsb_exists. split; [intros (y & I & E); apply eqb_ok in E; now subst|intros I; exists x; split; [exact I|now apply eqb_ok]]. Qed.
Lemma out_set x (l : list A) : negb (existsb (fun y => eqb y x) l) = true <-> ~ In x l.
Proof. rewrite <- in_set. destruct (existsb _ _); cbn; split; congruence. Qed.

Theorem C99_find_first_not_of m first last s sfirst slast : first <= last <= length m -> sfirst <= slast <= length s ->
  exists r, find_first_not_of eqb m first last s sfirst slast = Some r
    /\ first_that (fun x => ~ In x (range s sfirst slast)) m first last r.
Proof.
  intros H K. unfold find_first_not_of. rewrite find_first_not_of_is by exact K.
  destruct (C99_find_if (fun x => negb (existsb (fun y => eqb y x) (range s sfirst slast))) m first last H) as (r & E & F).
  exists r. split; [exact E|]. revert F. apply weaken_first. intros x. apply out_set.
Qed.
Theorem C99_find_last_of m first last s sfirst slast : first <= last <= length m -> sfirst <= slast <= length s ->
  exists r, find_last_of eqb m first last s sfirst slast = Some r
    /\ last_that (fun x => In x (range s sfirst slast)) m first last r.
Proof.
  intros H K. unfold find_last_of. rewrite find_last_of_is by exact K.
  destruct (last_if_range (fun x => existsb (fun y => eqb x y) (range s sfirst slast)) m first last H) as (r & E & F).
  exists r. split; [exact E|]. revert F. apply weaken_last. intros x. apply in_set'.
Qed.
Theorem C99_find_last_not_of m first last s sfirst slast : first <= last <= length m -> sfirst <= slast <= length s ->
  exists r, find_last_not_of eqb m first last s sfirst slast = Some r
    /\ last_that (fun x => ~ In x (range s sfirst slast)) m first last r.
Proof.
  intros H K. unfold find_last_not_of. rewrite find_last_not_of_is by exact K.
  destruct (last_if_range (fun x => negb (existsb (fun y => eqb y x) (range s sfirst slast))) m first last H) as (r & E & F).
  exists r. split; [exact E|]. revert F. apply weaken_last. intros x. apply out_set.
Qed.

(** ** C100: comparing and reordering *)
(** the two positions returned are equally far from the starts, everything before them is equal, and they
    are at an end of a range or at different elements *)
Theorem C100_mismatch m1 a1 b1 m2 a2 b2 : a1 <= b1 <= length m1 -> a2 <= b2 <= length m2 ->
  exists k, my_mismatch eqb m1 a1 b1 m2 a2 b2 = Some (a1 + k, a2 + k) /\ a1 + k <= b1 /\ a2 + k <= b2
    /\ range m1 a1 (a1 + k) = range m2 a2 (a2 + k)
    /\ (a1 + k < b1 -> a2 + k < b2 -> nth_error m1 (a1 + k) <> nth_error m2 (a2 + k)).
Proof.
  intros H1 H2. destruct (mismatch_ok eqb eqb_ok m1 m2 (b1 - a1) (b2 - a2) a1 a2 ltac:(lia) ltac:(lia)) as (k & E & K1 & K2 & R & D).
  exists k. split; [exact E|]. split; [lia|]. split; [lia|]. split; [exact R|]. intros L1 L2. apply D; lia.
Qed.
Theorem C100_equal m1 a1 b1 m2 a2 b2 : a1 <= b1 <= length m1 -> a2 <= b2 <= length m2 ->
  exists r, equal eqb m1 a1 b1 m2 a2 b2 = Some r /\ (r = true <-> range m1 a1 b1 = range m2 a2 b2).
Proof.
  intros H1 H2. destruct (C100_mismatch m1 a1 b1 m2 a2 b2 H1 H2) as (k & E & K1 & K2 & R & D).
  unfold my_mismatch in E. unfold equal. rewrite E. eexists. split; [reflexivity|].
  rewrite andb_true_iff, !Nat.eqb_eq. split.
  - intros [Q1 Q2]. rewrite Q1, Q2 in R. exact R.
  - intros Q. pose proof (f_equal (@length A) Q) as L. rewrite !range_length in L by lia.
    destruct (Nat.lt_ge_cases (a1 + k) b1) as [C|C]; [|lia]. exfalso.
    assert (C2 : a2 + k < b2) by lia. specialize (D C C2).
    rewrite (range_split m1 a1 (a1 + k) b1), (range_split m2 a2 (a2 + k) b2), R in Q by lia.
    apply app_inv_head in Q.
    destruct (load_some m1 (a1 + k) ltac:(lia)) as (x & Ex). destruct (load_some m2 (a2 + k) ltac:(lia)) as (y & Ey).
    unfold load in Ex, Ey. rewrite (range_cons m1 (a1 + k) b1 x), (range_cons m2 (a2 + k) b2 y) in Q by (lia || assumption).
    apply D. rewrite Ex, Ey. congruence.
Qed.
Theorem C100_lexicographical_compare (ltb : A -> A -> bool) m1 a1 b1 m2 a2 b2 :
  (forall x, ltb x x = false) -> (forall x y, ltb x y = true -> ltb y x = false) ->
  (forall x y, ltb x y = false -> ltb y x = false -> x = y) ->
  a1 <= b1 <= length m1 -> a2 <= b2 <= length m2 ->
  exists r, lexicographical_compare ltb m1 a1 b1 m2 a2 b2 = Some r
    /\ (r = true <-> before (fun x y => ltb x y = true) (range m1 a1 b1) (range m2 a2 b2)).
Proof.
  intros I S T H1 H2. destruct (lexi_ok ltb m1 m2 (b1 - a1) (b2 - a2) a1 a2 I S T ltac:(lia) ltac:(lia)) as (r & E & R).
  replace (a1 + (b1 - a1)) with b1 in R by lia. replace (a2 + (b2 - a2)) with b2 in R by lia. eauto.
Qed.

(** lower_bound: on a range partitioned by the comparison it returns the partition point, with at most
    floor(log2 n) + 1 comparisons *)
Theorem C100_lower_bound (c : A -> bool) m first last k : first <= k <= last -> last <= length m ->
  (forall i x, first <= i < last -> nth_error m i = Some x -> (c x = true <-> i < k)) ->
  exists n, lower_bound c m first last = Some (k, n) /\ (first < last -> n <= S (Nat.log2 (last - first))) /\ (first = last -> n = 0).
Proof.
  intros Hk HL Hc. destruct (lower_bound_ok c m k (last - first) (last - first) first 0) as (n & E & N0 & N1); [lia|lia|lia| |].
  - intros i x Hi. apply Hc. lia.
  - exists n. split; [exact E|]. split; [intros; apply N1; lia|intros; apply N0; lia].
Qed.
(** ... and on any range it stays inside, terminates and reads nothing outside *)
Theorem C100_lower_bound_safe (c : A -> bool) m first last : first <= last <= length m ->
  exists r n, lower_bound c m first last = Some (r, n) /\ first <= r <= last.
Proof.
  intros H. unfold lower_bound.
  assert (K : forall fuel count f calls, count <= fuel -> f + count <= length m -> exists r, lower_bound_loop fuel c m count f calls = Some r).
  { clear. induction fuel as [|fuel IH]; intros count f calls Hf Hm.
    - assert (count = 0) by lia. subst. cbn. eauto.
    - destruct count as [|c']; [cbn; eauto|]. set (count := S c') in *.
      assert (Hd : count / 2 < count) by (apply Nat.div_lt; unfold count; lia).
      change (exists r, match load m (f + count / 2) with
       | None => None
       | Some x => if c x then lower_bound_loop fuel c m (count - (count / 2 + 1)) (S (f + count / 2)) (S calls)
                   else lower_bound_loop fuel c m (count / 2) f (S calls) end = Some r).
      clearbody count. destruct (load_some m (f + count / 2) ltac:(lia)) as (x & ->). destruct (c x); apply IH; lia. }
  destruct (K (last - first) (last - first) first 0 ltac:(lia) ltac:(lia)) as ((r & n) & E). exists r, n. split; [exact E|].
  apply lower_bound_inside in E. cbn in E. lia.
Qed.

(** remove: the elements kept stand in their order at the front, the position after them is returned, nothing outside changes *)
Theorem C100_remove m first last t : first <= last <= length m ->
  exists m' r, remove eqb m first last t = Some (m', r) /\ first <= r <= last /\ length m' = length m
    /\ range m' first r = filter (fun x => negb (eqb x t)) (range m first last)
    /\ firstn first m' = firstn first m /\ skipn last m' = skipn last m.
Proof.
  intros H. unfold remove. destruct (C99_find t m first last H) as (p & E & (B & N & F)). rewrite E.
  assert (KEEP : filter (fun x => negb (eqb x t)) (range m first p) = range m first p).
  { clear E F. assert (G : forall n a, first <= a -> a + n <= p -> filter (fun x => negb (eqb x t)) (range m a (a + n)) = range m a (a + n)).
    { induction n as [|n IH]; intros a Ha Hn; [now rewrite range_nil by lia|].
      destruct (load_some m a ltac:(lia)) as (x & Ex). unfold load in Ex. rewrite (range_cons m a _ x) by (lia || exact Ex).
      cbn [filter]. replace (negb (eqb x t)) with true by (symmetry; apply neq_ok; intros ->; apply (N a t); [lia|exact Ex|reflexivity]).
      f_equal. replace (a + S n) with (S a + n) by lia. apply IH; lia. }
    specialize (G (p - first) first ltac:(lia) ltac:(lia)). replace (first + (p - first)) with p in G by lia. exact G. }
  destruct (Nat.eqb_spec p last) as [->|NE].
  - exists m, last. repeat split; try lia; try reflexivity. now rewrite KEEP.
  - destruct (F ltac:(lia)) as (x & Ex & ->).
    destruct (remove_loop_ok eqb t (range m (S p) last) (range m first p) [t] (firstn first m) (skipn last m)) as (G' & R & L); [discriminate|].
    assert (LF : length (firstn first m) = first) by (rewrite firstn_length; lia).
    rewrite !range_length in R, L by lia. rewrite LF in R. cbn [length] in R, L.
    replace (firstn first m ++ range m first p ++ [t] ++ range m (S p) last ++ skipn last m) with m in R.
    2:{ rewrite (split3 m first last) at 1 by lia. rewrite (range_split m first p last) by lia. rewrite (range_cons m p last t) by (lia || exact Ex).
        rewrite <- !app_assoc. reflexivity. }
    replace (first + (p - first) + 1) with (S p) in R by lia. replace (first + (p - first)) with p in R by lia. rewrite R.
    set (K := filter (fun x => negb (eqb x t)) (range m (S p) last)) in *.
    assert (LT : length (firstn first m ++ (range m first p ++ K) ++ G' ++ skipn last m) = length m).
    { rewrite !app_length, LF, range_length, skipn_length by lia. lia. }
    eexists _, _. split; [reflexivity|]. split; [lia|]. split; [exact LT|]. split; [|split].
    + rewrite (range_split m first p last) by lia. rewrite (range_cons m p last t) by (lia || exact Ex). rewrite filter_app. cbn [filter].
      replace (negb (eqb t t)) with false by (symmetry; apply negb_false_iff; now apply eqb_ok). rewrite KEEP. fold K.
      unfold range at 1. rewrite skipn_app, skipn_all2 by lia. rewrite LF, Nat.sub_diag. cbn [skipn app].
      rewrite firstn_app, firstn_all2 by (rewrite app_length, range_length by lia; lia).
      rewrite app_length, range_length by lia. replace (p + length K - first - (p - first + length K)) with 0 by lia. cbn [firstn]. now rewrite app_nil_r.
    + rewrite firstn_app, firstn_all2 by lia. rewrite LF, Nat.sub_diag. cbn [firstn]. now rewrite app_nil_r.
    + rewrite !app_assoc. rewrite skipn_app, skipn_all2 by (rewrite !app_length, LF, range_length by lia; lia).
      rewrite !app_length, LF, range_length by lia. replace (last - _) with 0 by lia. reflexivity.
Qed.

(** rotate: [first, middle) and [middle, last) change places; the new position of the first element is returned *)
Theorem C100_rotate m first middle last : first <= middle <= last -> last <= length m ->
  rotate m first middle last
  = Some (firstn first m ++ (range m middle last ++ range m first middle) ++ skipn last m, first + (last - middle)).
Proof.
  intros H HL. unfold rotate.
  destruct (rotate_rec_ok (last - first) (firstn first m) (range m first middle) (range m middle last) (skipn last m)) as (w & E & W).
  { rewrite !range_length by lia. lia. }
  assert (LF : length (firstn first m) = first) by (rewrite firstn_length; lia).
  rewrite (range_length m first middle), (range_length m middle last), LF in E by lia. rewrite (range_length m middle last), LF in W by lia. replace (first + (middle - first)) with middle in E by lia.
  replace (middle + (last - middle)) with last in E by lia.
  replace (firstn first m ++ range m first middle ++ range m middle last ++ skipn last m) with m in E.
  2:{ rewrite (split3 m first last) at 1 by lia. rewrite (range_split m first middle last) by lia. now rewrite <- app_assoc. }
  rewrite E, W, <- app_assoc. reflexivity.
Qed.

Theorem C101_fill m first n v : first + n <= length m ->
  exists m', fill_n m first n v = Some m' /\ fill m first (first + n) v = Some m' /\ length m' = length m
    /\ (forall i, i < n -> nth_error m' (first + i) = Some v)
    /\ (forall j, j < first \/ first + n <= j -> nth_error m' j = nth_error m j).
Proof.
  intros H. destruct (fill_ok v n m first H) as (m' & E & R). exists m'. split; [exact E|]. split; [|exact R].
  unfold fill. replace (first + n - first) with n by lia. exact E.
Qed.
End Search.
Print Assumptions C99_find_if.
Print Assumptions C99_find.
Print Assumptions C99_find_not.
Print Assumptions C99_find_last.
Print Assumptions C99_find_last_not.
Print Assumptions C99_find_first_not_of.
Print Assumptions C99_find_last_of.
Print Assumptions C99_find_last_not_of.
Print Assumptions C100_mismatch.
Print Assumptions C100_equal.
Print Assumptions C100_lexicographical_compare.
Print Assumptions C100_lower_bound.
Print Assumptions C100_lower_bound_safe.
Print Assumptions C100_remove.
Print Assumptions C100_rotate.
Print Assumptions C101_fill.

Example C99_example : find_last Nat.eqb 7 [1; 7; 3; 7; 5] 1 5 = Some 3 /\ find_last Nat.eqb 9 [1; 7; 3; 7; 5] 1 5 = Some 5
  /\ find_first_not_of Nat.eqb [1; 7; 3; 7; 5] 0 5 [7; 1; 1] 0 2 = Some 2 /\ (1 <= 5 <= length [1; 7; 3; 7; 5]).
Proof. repeat split; cbn; lia. Qed.
Example C100_example : rotate [0; 1; 2; 3; 4; 5; 6] 1 3 6 = Some ([0; 3; 4; 5; 1; 2; 6], 4)
  /\ remove Nat.eqb [0; 1; 2; 1; 4; 5; 1] 0 6 1 = Some ([0; 2; 4; 5; 4; 5; 1], 4)
  /\ lower_bound (fun x => x <? 5) [1; 3; 4; 5; 5; 8] 0 6 = Some (3, 3)
  /\ lexicographical_compare Nat.ltb [1; 2; 3] 0 3 [1; 2; 4; 0] 0 4 = Some true.
Proof. repeat split. Qed.

(** ** C101: copying *)
Section Copy.
Context {A : Type} (cast : A -> A).

(** my_copy_n at run time between contiguous ranges of trivially copyable elements: right for every overlap *)
Theorem C101_copy_n_bitwise ti to m src dst n : bitwise true false ti to = true ->
  src + n <= length m -> dst + n <= length m ->
  exists m', my_copy_n cast false true ti to m src n dst = Some (m', dst + n) /\ copied cast m m' src dst n.
Proof.
  intros B H1 H2. unfold my_copy_n. rewrite B. destruct (Nat.eqb_spec n 0) as [->|N].
  - exists m. split; [reflexivity|apply copied_zero].
  - destruct (memmove_ok cast m dst src n H1 H2) as (m' & E & C). rewrite E. eauto.
Qed.
(** my_copy_n, non_overlapped_copy_n in every other case: right unless the destination starts inside of the source *)
Theorem C101_copy_n ce contiguous ti to m src dst n : src + n <= length m -> dst + n <= length m -> (dst <= src \/ src + n <= dst) ->
  exists m', my_copy_n cast ce contiguous ti to m src n dst = Some (m', dst + n) /\ copied cast m m' src dst n.
Proof.
  intros H1 H2 H3. unfold my_copy_n, copy_n.
  destruct (copy_n_ok cast n m src dst H1 H2 H3) as (m' & E & C). destruct ce; [eauto|].
  destruct (bitwise contiguous false ti to) eqn:B; [|eauto].
  destruct (Nat.eqb_spec n 0) as [->|N]; [exists m; split; [reflexivity|apply copied_zero]|].
  destruct (memmove_ok cast m dst src n H1 H2) as (m1 & E1 & C1). rewrite E1. eauto.
Qed.
Theorem C101_non_overlapped_copy_n ce contiguous ti to m src dst n : src + n <= length m -> dst + n <= length m ->
  (dst + n <= src \/ src + n <= dst) ->
  exists m', non_overlapped_copy_n cast ce contiguous ti to m src n dst = Some (m', dst + n) /\ copied cast m m' src dst n.
Proof.
  intros H1 H2 H3. unfold non_overlapped_copy_n, copy_n, memcpy, overlap.
  destruct (copy_n_ok cast n m src dst H1 H2 ltac:(lia)) as (m' & E & C). destruct ce; [eauto|].
  destruct (bitwise contiguous true ti to); [|eauto].
  destruct (Nat.eqb_spec n 0) as [->|N]; [exists m; split; [reflexivity|apply copied_zero]|].
  replace ((dst <? src + n) && (src <? dst + n)) with false
    by (symmetry; apply andb_false_iff; destruct H3; [right|left]; apply Nat.ltb_ge; lia).
  destruct (memmove_ok cast m dst src n H1 H2) as (m1 & E1 & C1). rewrite E1. eauto.
Qed.
Theorem C101_copy_backward ce contiguous ti to m first last d_last :
  first <= last <= length m -> last - first <= d_last <= length m ->
  (first <= d_last - (last - first) \/ d_last <= first) ->
  exists m', my_copy_backward cast ce contiguous ti to m first last d_last = Some (m', d_last - (last - first))
    /\ copied cast m m' first (d_last - (last - first)) (last - first).
Proof.
  intros H1 H2 H3. unfold my_copy_backward, copy_backward.
  set (n := last - first) in *. set (dst := d_last - n) in *.
  destruct (copy_backward_ok cast n m first dst ltac:(lia) ltac:(lia) ltac:(lia)) as (m' & E & C).
  replace (first + n) with last in E by lia. replace (dst + n) with d_last in E by lia. destruct ce; [eauto|].
  destruct (bitwise contiguous false ti to); [|eauto].
  destruct (Nat.ltb_spec d_last n); [lia|]. fold dst. destruct (Nat.eqb_spec n 0) as [Z|N].
  - exists m. split; [reflexivity|]. rewrite Z. apply copied_zero.
  - destruct (memmove_ok cast m dst first n ltac:(lia) ltac:(lia)) as (m1 & E1 & C1). rewrite E1. eauto.
Qed.

(** my_copy(first, last, result): right for contiguous ranges of trivially copyable elements of one type, of
    integers, and between bytes and integers *)
Theorem C101_my_copy_partial ce contiguous ti to m first last dst :
  bitwise_my_copy contiguous ti to || (is_byte ti && integral to) || (integral ti && is_byte to) = true ->
  first <= last <= length m -> dst + (last - first) <= length m -> (dst <= first \/ last <= dst) ->
  exists m', my_copy cast ce contiguous ti to m first last dst = Some (m', dst + (last - first))
    /\ copied cast m m' first dst (last - first).
Proof.
  intros K H1 H2 H3. unfold my_copy. destruct (bitwise_my_copy contiguous ti to) eqn:B.
  - destruct (C101_copy_n ce contiguous ti to m first dst (last - first) ltac:(lia) ltac:(lia) ltac:(lia)) as (m' & E & C).
    rewrite E. eauto.
  - assert (CS : copy_stores ti to = true) by (destruct ti, to; cbn in K |- *; try reflexivity; try discriminate K; exact K).
    unfold copy. rewrite CS. apply copy_n_ok; lia.
Qed.
(** for every other pair of types nothing at all is copied, although the result says so; the same for non_overlapped_copy
    during constant evaluation of any pair of types but a byte and an integer *)
Theorem C101_my_copy_nothing ce contiguous ti to m first last dst :
  bitwise_my_copy contiguous ti to || (is_byte ti && integral to) || (integral ti && is_byte to) = false ->
  my_copy cast ce contiguous ti to m first last dst = Some (m, dst + (last - first)).
Proof.
  intros K. unfold my_copy. destruct (bitwise_my_copy contiguous ti to) eqn:B; [discriminate|].
  assert (CS : copy_stores ti to = false).
  { destruct ti, to; cbn in K |- *; rewrite ?andb_false_r; try reflexivity; discriminate K. }
  unfold copy. now rewrite CS.
Qed.
Theorem C101_non_overlapped_copy_partial ce contiguous ti to m first last dst :
  (ce = false /\ bitwise contiguous true ti to = true) \/ (is_byte ti = true /\ integral to = true) \/ (integral ti = true /\ is_byte to = true) ->
  first <= last <= length m -> dst + (last - first) <= length m -> (dst + (last - first) <= first \/ last <= dst) ->
  exists m', non_overlapped_copy cast ce contiguous ti to m first last dst = Some (m', dst + (last - first))
    /\ copied cast m m' first dst (last - first).
Proof.
  intros K H1 H2 H3.
  assert (MC : exists m', (if last - first =? 0 then Some (m, dst + (last - first))
      else match memcpy cast m dst first (last - first) with Some m' => Some (m', dst + (last - first)) | None => None end)
      = Some (m', dst + (last - first)) /\ copied cast m m' first dst (last - first)).
  { destruct (Nat.eqb_spec (last - first) 0) as [Z|N]; [exists m; split; [reflexivity|rewrite Z; apply copied_zero]|].
    unfold memcpy, overlap.
    replace ((dst <? first + (last - first)) && (first <? dst + (last - first))) with false
      by (symmetry; apply andb_false_iff; destruct H3; [right|left]; apply Nat.ltb_ge; lia).
    destruct (memmove_ok cast m dst first (last - first) ltac:(lia) ltac:(lia)) as (m1 & E1 & C1). rewrite E1. eauto. }
  assert (CP : forall b, (b = false -> (is_byte ti = true /\ integral to = true) \/ (integral ti = true /\ is_byte to = true)) ->
     b = false -> exists m', copy cast ti to m first last dst = Some (m', dst + (last - first)) /\ copied cast m m' first dst (last - first)).
  { intros b I Hb. specialize (I Hb). assert (CS : copy_stores ti to = true).
    { destruct I as [[I1 I2]|[I1 I2]]; destruct ti, to; try discriminate I1; try discriminate I2; reflexivity. }
    unfold copy. rewrite CS. apply copy_n_ok; lia. }
  unfold non_overlapped_copy. destruct ce.
  - apply (CP false); [|reflexivity]. intros _. destruct K as [[C _]|K]; [discriminate|exact K].
  - destruct (bitwise contiguous true ti to) eqn:B; [exact MC|]. apply (CP false); [|reflexivity]. intros _.
    destruct K as [[_ C]|K]; [discriminate|exact K].
Qed.
Theorem C101_non_overlapped_copy_nothing contiguous ti to m first last dst :
  (is_byte ti && integral to) || (integral ti && is_byte to) = false ->
  non_overlapped_copy cast true contiguous ti to m first last dst = Some (m, dst + (last - first)).
Proof.
  intros K. unfold non_overlapped_copy, copy.
  assert (CS : copy_stores ti to = false) by (destruct ti, to; cbn in K |- *; rewrite ?andb_false_r; try reflexivity; discriminate K).
  now rewrite CS.
Qed.
End Copy.
Print Assumptions C101_copy_n_bitwise.
Print Assumptions C101_copy_n.
Print Assumptions C101_non_overlapped_copy_n.
Print Assumptions C101_copy_backward.
Print Assumptions C101_my_copy_partial.
Print Assumptions C101_my_copy_nothing.
Print Assumptions C101_non_overlapped_copy_partial.
Print Assumptions C101_non_overlapped_copy_nothing.

(** copying two strings (not trivially copyable) with my_copy changes nothing; copying two chars in a constant expression neither *)
Theorem C101_my_copy_refuted :
  exists m m' : list nat, my_copy (fun x : nat => x) false true (EObj false 32 0) (EObj false 32 0) m 0 2 2 = Some (m', 4)
    /\ ~ copied (fun x : nat => x) m m' 0 2 2.
Proof.
  exists [1; 2; 0; 0], [1; 2; 0; 0]. split; [reflexivity|]. intros (_ & F & _). specialize (F 0 ltac:(lia)). discriminate F.
Qed.
Print Assumptions C101_my_copy_refuted.
Theorem C101_non_overlapped_copy_refuted :
  exists m m' : list nat, non_overlapped_copy (fun x : nat => x) true true (EInt 1 0) (EInt 1 0) m 0 2 2 = Some (m', 4)
    /\ ~ copied (fun x : nat => x) m m' 0 2 2.
Proof.
  exists [1; 2; 0; 0], [1; 2; 0; 0]. split; [reflexivity|]. intros (_ & F & _). specialize (F 0 ltac:(lia)). discriminate F.
Qed.
Print Assumptions C101_non_overlapped_copy_refuted.
(** my_copy_n and bytes_copy_n in a constant expression: a copy to the right by one repeats the first element, where
    the same call at run time moves the elements *)
Theorem C101_constant_evaluation_refuted :
  my_copy_n (fun x : nat => x) false true EByte EByte [1; 2; 3] 0 2 1 = Some ([1; 1; 2], 3)
  /\ my_copy_n (fun x : nat => x) true true EByte EByte [1; 2; 3] 0 2 1 = Some ([1; 1; 1], 3).
Proof. split; reflexivity. Qed.
Print Assumptions C101_constant_evaluation_refuted.

(** my_compare_iter_n: right in constant expressions and for elements of one byte *)
Section Compare.
Context {A : Type} (eqb : A -> A -> bool) (eqb_ok : forall x y, eqb x y = true <-> x = y).
Context (bytes : A -> list Z) (bytes_inj : forall x y, bytes x = bytes y -> x = y).
Lemma compare_loop_ok m1 m2 n : forall a b, a + n <= length m1 -> b + n <= length m2 ->
  exists r, compare_loop eqb m1 m2 n a b = Some r /\ (r = true <-> range m1 a (a + n) = range m2 b (b + n)).
Proof.
  induction n as [|n IH]; intros a b H1 H2; cbn [compare_loop].
  - exists true. split; [reflexivity|]. now rewrite !range_nil by lia.
  - destruct (load_some m1 a ltac:(lia)) as (x & Ex). destruct (load_some m2 b ltac:(lia)) as (y & Ey). rewrite Ex, Ey. unfold load in Ex, Ey.
    rewrite (range_cons m1 a _ x), (range_cons m2 b _ y) by (lia || assumption).
    destruct (eqb x y) eqn:Q; cbn [negb].
    + apply eqb_ok in Q. subst y. destruct (IH (S a) (S b) ltac:(lia) ltac:(lia)) as (r & E & I). exists r. split; [exact E|].
      rewrite I. replace (a + S n) with (S a + n) by lia. replace (b + S n) with (S b + n) by lia.
      split; [intros ->; reflexivity|intros K; congruence].
    + exists false. split; [reflexivity|]. split; [discriminate|]. intros K. injection K as -> _.
      assert (eqb y y = true) by now apply eqb_ok. congruence.
Qed.
Theorem C101_compare_constant contiguous ti to m1 a n m2 b : a + n <= length m1 -> b + n <= length m2 ->
  exists r, my_compare_iter_n eqb true contiguous ti to bytes m1 a n m2 b = Some r
    /\ (r = true <-> range m1 a (a + n) = range m2 b (b + n)).
Proof. apply compare_loop_ok. Qed.
Lemma concat_firstn_one (l : list A) n : (forall x, length (bytes x) = 1) ->
  firstn n (concat (map bytes l)) = concat (map bytes (firstn n l)).
Proof.
  intros H. revert n; induction l as [|x t IH]; intros [|n]; cbn [map concat firstn]; [reflexivity|reflexivity|reflexivity|].
  specialize (H x). destruct (bytes x) as [|z [|? ?]] eqn:E; try discriminate. cbn [app firstn]. f_equal. apply IH.
Qed.
Lemma concat_inj (l1 l2 : list A) : (forall x, length (bytes x) = 1) -> concat (map bytes l1) = concat (map bytes l2) -> l1 = l2.
Proof.
  intros H. revert l2; induction l1 as [|x t IH]; intros [|y u] E; cbn [map concat] in E; [reflexivity| | |].
  - pose proof (H y). destruct (bytes y); discriminate.
  - pose proof (H x). destruct (bytes x); discriminate.
  - pose proof (H x) as HX. pose proof (H y) as HY. destruct (bytes x) as [|z [|? ?]] eqn:EX; try discriminate.
    destruct (bytes y) as [|z' [|? ?]] eqn:EY; try discriminate. cbn [app] in E. injection E as -> E.
    f_equal; [apply bytes_inj; congruence|now apply IH].
Qed.
Theorem C101_compare_bytes_partial ti to m1 a n m2 b : (forall x, length (bytes x) = 1) -> bitwise true false ti to = true ->
  a + n <= length m1 -> b + n <= length m2 ->
  exists r, my_compare_iter_n eqb false true ti to bytes m1 a n m2 b = Some r
    /\ (r = true <-> range m1 a (a + n) = range m2 b (b + n)).
Proof.
  intros L B H1 H2. unfold my_compare_iter_n. rewrite B.
  replace ((a + n <=? length m1) && (b + n <=? length m2)) with true by (symmetry; apply andb_true_iff; split; apply Nat.leb_le; lia).
  eexists. split; [reflexivity|]. unfold memcmp_zero. rewrite !concat_firstn_one by exact L. unfold range.
  replace (a + n - a) with n by lia. replace (b + n - b) with n by lia.
  destruct (list_eq_dec _ _ _) as [E|E]; split; intros K; try reflexivity; try discriminate.
  - exact (concat_inj _ _ L E).
  - exfalso. apply E. now rewrite K.
Qed.
(** for all elements: ranges that are equal are reported equal *)
Theorem C101_compare_equal ti to m1 a n m2 b : (forall x, bytes x <> []) -> bitwise true false ti to = true ->
  a + n <= length m1 -> b + n <= length m2 -> range m1 a (a + n) = range m2 b (b + n) ->
  my_compare_iter_n eqb false true ti to bytes m1 a n m2 b = Some true.
Proof.
  intros NE B H1 H2 E. unfold my_compare_iter_n. rewrite B.
  replace ((a + n <=? length m1) && (b + n <=? length m2)) with true by (symmetry; apply andb_true_iff; split; apply Nat.leb_le; lia).
  f_equal. unfold memcmp_zero, range in *. replace (a + n - a) with n in E by lia. replace (b + n - b) with n in E by lia.
  assert (G : forall k (l : list A), k <= length l -> firstn k (concat (map bytes l)) = firstn k (concat (map bytes (firstn k l)))).
  { clear - NE. assert (LE : forall l : list A, length l <= length (concat (map bytes l))).
    { induction l as [|x t IH]; cbn [map concat length]; [lia|]. rewrite app_length. specialize (NE x). destruct (bytes x); [congruence|cbn [length]; lia]. }
    intros k l Hk. rewrite <- (firstn_skipn k l) at 1. rewrite map_app, concat_app, firstn_app.
    replace (k - length (concat (map bytes (firstn k l)))) with 0.
    - cbn [firstn]. now rewrite app_nil_r.
    - specialize (LE (firstn k l)). rewrite firstn_length in LE. lia. }
  rewrite (G n (skipn a m1)), (G n (skipn b m2)), E by (rewrite skipn_length; lia).
  destruct (list_eq_dec _ _ _) as [_|C]; [reflexivity|now destruct C].
Qed.
End Compare.
Print Assumptions C101_compare_constant.
Print Assumptions C101_compare_bytes_partial.
Print Assumptions C101_compare_equal.
(** ... but of two char16_t only the first two bytes are compared *)
Theorem C101_compare_refuted :
  my_compare_iter_n Z.eqb false true (EInt 2 0) (EInt 2 0) (fun x => [x mod 256; x / 256])%Z [97; 98]%Z 0 2 [97; 99]%Z 0 = Some true
  /\ range [97; 98]%Z 0 2 <> range [97; 99]%Z 0 2.
Proof. split; [reflexivity|discriminate]. Qed.
Print Assumptions C101_compare_refuted.
Example C101_example : bitwise true false (EInt 1 0) (EInt 1 1) = true
  /\ my_copy_n (fun x : nat => x) false true (EInt 1 0) (EInt 1 1) [1; 2; 3; 4; 5] 1 3 2 = Some ([1; 2; 2; 3; 4], 5)
  /\ my_copy_backward (fun x : nat => x) true true (EInt 1 0) (EInt 1 1) [1; 2; 3; 4; 5] 1 4 5 = Some ([1; 2; 2; 3; 4], 2).
Proof. repeat split. Qed.

(** ** C102: uninitialized_copy, uninitialized_copy_n *)
Section Uninit.
Context {A : Type} (throws : A -> bool).
(** the destination is free storage for n objects at d: *)
Theorem C102_built ce contiguous ti to (m : list A) (P S : list (option A)) first n :
  first + n <= length m -> existsb throws (range m first (first + n)) = false ->
  uninitialized_copy ce contiguous ti to throws m (P ++ repeat None n ++ S) first n (length P)
  = Built (P ++ map Some (range m first (first + n)) ++ S) (length P + n).
Proof.
  intros H T. unfold uninitialized_copy.
  assert (G : forall th, existsb th (range m first (first + n)) = false ->
    construct_loop th m (P ++ repeat None n ++ S) n first (length P) (length P) = Built (P ++ map Some (range m first (first + n)) ++ S) (length P + n)).
  { intros th Hth.
    assert (L : length (range m first (first + n)) = n) by (rewrite range_length by lia; lia).
    pose proof (construct_loop_ok th (range m first (first + n)) (firstn first m) [] (skipn (first + n) m) P S Hth) as E.
    rewrite L in E. rewrite firstn_length in E. replace (Nat.min first (length m)) with first in E by lia.
    rewrite <- split3 in E by lia. cbn [map app length] in E. rewrite Nat.add_0_r in E. exact E. }
  destruct (_ && _); [|now apply G]. apply G. clear. induction (range m first (first + n)); [reflexivity|assumption].
Qed.
(** a copy constructor throws: whatever had been built is destroyed, exactly once, and nothing else: the storage is as it was *)
Theorem C102_threw ce contiguous ti to (m : list A) (P S : list (option A)) first n :
  bitwise contiguous false ti to && negb ce = false ->
  first + n <= length m -> existsb throws (range m first (first + n)) = true ->
  uninitialized_copy ce contiguous ti to throws m (P ++ repeat None n ++ S) first n (length P)
  = Threw (P ++ repeat None n ++ S).
Proof.
  intros B H T. unfold uninitialized_copy. rewrite B.
  assert (L : length (range m first (first + n)) = n) by (rewrite range_length by lia; lia).
  pose proof (construct_loop_throw throws (range m first (first + n)) (firstn first m) [] (skipn (first + n) m) P S T) as E.
  rewrite L in E. rewrite firstn_length in E. replace (Nat.min first (length m)) with first in E by lia.
  rewrite <- split3 in E by lia. cbn [map app length] in E. rewrite Nat.add_0_r in E. exact E.
Qed.
End Uninit.
Print Assumptions C102_built.
Print Assumptions C102_threw.
Example C102_example :
  uninitialized_copy false true (EObj false 8 0) (EObj false 8 0) (fun x => x =? 3) [1; 2; 3; 4] [Some 9; None; None; None; Some 8] 0 3 1
  = Threw [Some 9; None; None; None; Some 8]
  /\ uninitialized_copy false true (EObj false 8 0) (EObj false 8 0) (fun x => x =? 4) [1; 2; 3; 4] [Some 9; None; None; None; Some 8] 0 3 1
  = Built [Some 9; Some 1; Some 2; Some 3; Some 8] 4.
Proof. split; reflexivity. Qed.
