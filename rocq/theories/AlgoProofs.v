(** Proofs about the freestanding algorithms. *)
From Coq Require Import List.
From Verif Require Import Base AlgoModel AlgoSpec.
Import ListNotations.
Local Open Scope nat_scope.

Section P.
Context {A : Type}.
Implicit Types (m s : list A).

Lemma load_some m i : i < length m -> exists x, load m i = Some x.
Proof. intros H. unfold load. destruct (nth_error m i) eqn:E; [eauto|]. apply nth_error_None in E. lia. Qed.

Lemma store_some m i v : i < length m -> exists m', store m i v = Some m'
  /\ length m' = length m /\ nth_error m' i = Some v /\ forall j, j <> i -> nth_error m' j = nth_error m j.
Proof.
  revert i. induction m as [|x t IH]; intros i H; cbn in H; [lia|]. destruct i as [|i].
  - exists (v :: t). cbn. split; [reflexivity|]. split; [reflexivity|]. split; [reflexivity|]. intros [|j] K; [lia|reflexivity].
  - destruct (IH i ltac:(lia)) as (m' & E & L & G & O). exists (x :: m'). cbn. rewrite E. split; [reflexivity|]. split; [lia|]. split; [exact G|].
    intros [|j] K; [reflexivity|]. cbn. apply O. lia.
Qed.
Lemma store_app m1 x m2 v i : i = length m1 -> store (m1 ++ x :: m2) i v = Some (m1 ++ v :: m2).
Proof. intros ->. induction m1 as [|y t IH]; cbn; [reflexivity|]. now rewrite IH. Qed.
Lemma load_app m1 x m2 i : i = length m1 -> load (m1 ++ x :: m2) i = Some x.
Proof. intros ->. unfold load. rewrite nth_error_app2 by lia. now rewrite Nat.sub_diag. Qed.

Lemma skipn_nth m a x : nth_error m a = Some x -> skipn a m = x :: skipn (S a) m.
Proof. revert a; induction m as [|y t IH]; intros [|a] E; cbn in E; try discriminate; [injection E as ->; reflexivity|]. cbn [skipn]. now apply IH. Qed.
Lemma range_cons m a b x : a < b -> nth_error m a = Some x -> range m a b = x :: range m (S a) b.
Proof. intros H E. unfold range. replace (b - a) with (S (b - S a)) by lia. rewrite (skipn_nth m a x E). reflexivity. Qed.

(** ** Searching *)
Lemma find_if_ok q m n first : first + n <= length m ->
  exists r, find_if_loop q m n first = Some r /\ first_that (fun x => q x = true) m first (first + n) r.
Proof.
  revert first. induction n as [|n IH]; intros first H; cbn [find_if_loop].
  - exists first. split; [reflexivity|]. split; [lia|]. split; [intros; lia|lia].
  - destruct (load_some m first ltac:(lia)) as (x & E). rewrite E. destruct (q x) eqn:Q.
    + exists first. split; [reflexivity|]. split; [lia|]. split; [intros; lia|]. intros _. eauto.
    + destruct (IH (S first) ltac:(lia)) as (r & Er & B & N & F). exists r. split; [exact Er|]. split; [lia|]. split.
      * intros i y Hi Hy. destruct (Nat.eq_dec i first) as [->|D].
        -- unfold load in E. rewrite E in Hy. injection Hy as <-. congruence.
        -- apply (N i y); [lia|exact Hy].
      * intros K. apply F. lia.
Qed.
Context (eqb : A -> A -> bool).
Lemma find_is t m n first : find_loop eqb t m n first = find_if_loop (fun x => eqb x t) m n first.
Proof. revert first; induction n as [|n IH]; intros first; cbn; [reflexivity|]. destruct (load m first); [|reflexivity]. now rewrite IH. Qed.
Lemma find_not_is t m n first : find_not_loop eqb t m n first = find_if_loop (fun x => negb (eqb x t)) m n first.
Proof. revert first; induction n as [|n IH]; intros first; cbn; [reflexivity|]. destruct (load m first); [|reflexivity]. now rewrite IH. Qed.

Fixpoint last_if_loop (q : A -> bool) m (n it last : nat) : option nat :=
  match n with
  | O => Some last
  | S n' => match load m (it - 1) with
            | None => None
            | Some x => if q x then Some (it - 1) else last_if_loop q m n' (it - 1) last
            end
  end.
Lemma last_if_ok q m n first last : last <= length m -> first + n <= last ->
  (forall i x, first + n <= i < last -> nth_error m i = Some x -> q x <> true) ->
  exists r, last_if_loop q m n (first + n) last = Some r /\ last_that (fun x => q x = true) m first last r.
Proof.
  intros HL. induction n as [|n IH]; intros H N; cbn [last_if_loop].
  - exists last. split; [reflexivity|]. left. split; [reflexivity|]. intros i x Hi. apply (N i x). lia.
  - replace (first + S n - 1) with (first + n) by lia.
    destruct (load_some m (first + n) ltac:(lia)) as (x & E). rewrite E. destruct (q x) eqn:Q.
    + exists (first + n). split; [reflexivity|]. right. split; [lia|]. split; [eauto|].
      intros i y Hi. apply (N i y). lia.
    + apply IH; [lia|]. intros i y Hi Hy. destruct (Nat.eq_dec i (first + n)) as [->|D].
      * unfold load in E. rewrite E in Hy. injection Hy as <-. congruence.
      * apply (N i y); [lia|exact Hy].
Qed.
Lemma find_last_is t m n it last : find_last_loop eqb t m n it last = last_if_loop (fun x => eqb x t) m n it last.
Proof. revert it; induction n as [|n IH]; intros it; cbn; [reflexivity|]. destruct (load m (it - 1)); [|reflexivity]. now rewrite IH. Qed.
Lemma find_last_not_is t m n it last :
  find_last_not_loop eqb t m n it last = last_if_loop (fun x => negb (eqb x t)) m n it last.
Proof. revert it; induction n as [|n IH]; intros it; cbn; [reflexivity|]. destruct (load m (it - 1)); [|reflexivity]. now rewrite IH. Qed.

Lemma none_of_ok x s n k : k + n <= length s ->
  none_of_loop eqb x s n k = Some (negb (existsb (fun y => eqb y x) (range s k (k + n)))).
Proof.
  revert k. induction n as [|n IH]; intros k H; cbn [none_of_loop].
  - unfold range. replace (k + 0 - k) with 0 by lia. reflexivity.
  - destruct (load_some s k ltac:(lia)) as (y & E). rewrite E.
    assert (R : range s k (k + S n) = y :: range s (S k) (S k + n)).
    { rewrite (range_cons s k _ y) by (lia || exact E). f_equal. f_equal. lia. }
    rewrite R. cbn [existsb]. destruct (eqb y x); cbn [negb orb]; [reflexivity|]. apply IH. lia.
Qed.
Lemma some_of_ok x s n k : k + n <= length s ->
  some_of_loop eqb x s n k = Some (existsb (fun y => eqb x y) (range s k (k + n))).
Proof.
  revert k. induction n as [|n IH]; intros k H; cbn [some_of_loop].
  - unfold range. replace (k + 0 - k) with 0 by lia. reflexivity.
  - destruct (load_some s k ltac:(lia)) as (y & E). rewrite E.
    assert (R : range s k (k + S n) = y :: range s (S k) (S k + n)).
    { rewrite (range_cons s k _ y) by (lia || exact E). f_equal. f_equal. lia. }
    rewrite R. cbn [existsb]. destruct (eqb x y); cbn [orb]; [reflexivity|]. apply IH. lia.
Qed.
Lemma find_first_not_of_is s sf sl m n first : sf <= sl <= length s ->
  find_first_not_of_loop eqb s sf sl m n first
  = find_if_loop (fun x => negb (existsb (fun y => eqb y x) (range s sf sl))) m n first.
Proof.
  intros H. revert first; induction n as [|n IH]; intros first; cbn; [reflexivity|]. destruct (load m first) as [x|]; [|reflexivity].
  rewrite none_of_ok by lia. replace (sf + (sl - sf)) with sl by lia.
  destruct (negb _); [reflexivity|apply IH].
Qed.
Lemma find_last_of_is s sf sl m n it last : sf <= sl <= length s ->
  find_last_of_loop eqb s sf sl m n it last
  = last_if_loop (fun x => existsb (fun y => eqb x y) (range s sf sl)) m n it last.
Proof.
  intros H. revert it; induction n as [|n IH]; intros it; cbn; [reflexivity|]. destruct (load m (it - 1)) as [x|]; [|reflexivity].
  rewrite some_of_ok by lia. replace (sf + (sl - sf)) with sl by lia.
  destruct (existsb _ _); [reflexivity|apply IH].
Qed.
Lemma find_last_not_of_is s sf sl m n it last : sf <= sl <= length s ->
  find_last_not_of_loop eqb s sf sl m n it last
  = last_if_loop (fun x => negb (existsb (fun y => eqb y x) (range s sf sl))) m n it last.
Proof.
  intros H. revert it; induction n as [|n IH]; intros it; cbn; [reflexivity|]. destruct (load m (it - 1)) as [x|]; [|reflexivity].
  rewrite none_of_ok by lia. replace (sf + (sl - sf)) with sl by lia.
  destruct (negb _); [reflexivity|apply IH].
Qed.

(** ** Ranges as lists *)
Lemma range_nil m a b : b <= a -> range m a b = [].
Proof. intros H. unfold range. now replace (b - a) with 0 by lia. Qed.
Lemma range_length m a b : a <= b <= length m -> length (range m a b) = b - a.
Proof. intros H. unfold range. rewrite firstn_length, skipn_length. lia. Qed.
Lemma firstn_skipn_comm_nat (n k : nat) (l : list A) : firstn n (skipn k l) = skipn k (firstn (k + n) l).
Proof. revert l; induction k as [|k IH]; intros l; cbn; [reflexivity|]. destruct l as [|x t]; [now rewrite firstn_nil|]. apply IH. Qed.
Lemma skipn_skipn' (a b : nat) (l : list A) : skipn a (skipn b l) = skipn (a + b) l.
Proof. revert l; induction b as [|b IH]; intros l; [now rewrite Nat.add_0_r|]. destruct l as [|x t]; [now rewrite !skipn_nil|]. rewrite Nat.add_succ_r. cbn. apply IH. Qed.
Lemma range_split m a b c : a <= b <= c -> range m a c = range m a b ++ range m b c.
Proof.
  intros H. unfold range. rewrite <- (firstn_skipn (b - a) (firstn (c - a) (skipn a m))). f_equal.
  - rewrite firstn_firstn. f_equal. lia.
  - rewrite <- (firstn_skipn (b - a) (skipn a m)) at 1.
    rewrite skipn_firstn_comm. rewrite firstn_skipn. rewrite skipn_skipn'. f_equal; [lia|f_equal; lia].
Qed.
Lemma split3 m a b : a <= b <= length m -> m = firstn a m ++ range m a b ++ skipn b m.
Proof.
  intros H. rewrite <- (firstn_skipn a m) at 1. f_equal. unfold range.
  rewrite <- (firstn_skipn (b - a) (skipn a m)) at 1. f_equal. rewrite skipn_skipn'. f_equal. lia.
Qed.

(** ** Comparing *)
Context (eqb_ok : forall x y, eqb x y = true <-> x = y).
Lemma mismatch_ok m1 m2 n1 n2 a b : a + n1 <= length m1 -> b + n2 <= length m2 ->
  exists k, mismatch_loop eqb m1 m2 n1 n2 a b = Some (a + k, b + k)
    /\ k <= n1 /\ k <= n2
    /\ range m1 a (a + k) = range m2 b (b + k)
    /\ (k < n1 -> k < n2 -> nth_error m1 (a + k) <> nth_error m2 (b + k)).
Proof.
  revert n2 a b. induction n1 as [|n1 IH]; intros n2 a b H1 H2; cbn [mismatch_loop].
  - exists 0. rewrite !Nat.add_0_r. repeat split; [lia|lia| |lia]. now rewrite !range_nil by lia.
  - destruct n2 as [|n2].
    + exists 0. rewrite !Nat.add_0_r. repeat split; [lia|lia| |lia]. now rewrite !range_nil by lia.
    + destruct (load_some m1 a ltac:(lia)) as (x & Ex). destruct (load_some m2 b ltac:(lia)) as (y & Ey).
      rewrite Ex, Ey. unfold load in Ex, Ey. destruct (eqb x y) eqn:Q.
      * apply eqb_ok in Q. subst y. destruct (IH n2 (S a) (S b) ltac:(lia) ltac:(lia)) as (k & E & B1 & B2 & R & D).
        exists (S k). rewrite !Nat.add_succ_r. rewrite E. repeat split; [lia|lia| |].
        -- rewrite (range_cons m1 a _ x), (range_cons m2 b _ x) by (lia || assumption). f_equal. exact R.
        -- intros K1 K2. apply D; lia.
      * exists 0. rewrite !Nat.add_0_r. repeat split; [lia|lia| |].
        -- now rewrite !range_nil by lia.
        -- intros _ _ E. rewrite Ex, Ey in E. injection E as ->. assert (eqb y y = true) by now apply eqb_ok. congruence.
Qed.

Context (ltb : A -> A -> bool).
Lemma lexi_ok m1 m2 n1 n2 a b :
  (forall x, ltb x x = false) -> (forall x y, ltb x y = true -> ltb y x = false) ->
  (forall x y, ltb x y = false -> ltb y x = false -> x = y) ->
  a + n1 <= length m1 -> b + n2 <= length m2 ->
  exists r, lexicographical_loop ltb m1 m2 n1 n2 a b = Some r
    /\ (r = true <-> before (fun x y => ltb x y = true) (range m1 a (a + n1)) (range m2 b (b + n2))).
Proof.
  intros Irr Asym Tri. revert n2 a b. induction n1 as [|n1 IH]; intros n2 a b H1 H2; cbn [lexicographical_loop].
  - rewrite (range_nil m1) by lia. destruct n2 as [|n2].
    + exists false. split; [reflexivity|]. rewrite range_nil by lia. split; [discriminate|]. intros [(y & t & E)|(p & x & y & t1 & t2 & E & _)].
      * discriminate E.
      * destruct p; discriminate E.
    + exists true. split; [reflexivity|]. destruct (load_some m2 b ltac:(lia)) as (y & Ey). unfold load in Ey.
      rewrite (range_cons m2 b _ y) by (lia || assumption). split; [|reflexivity]. intros _. left. cbn. eauto.
  - destruct (load_some m1 a ltac:(lia)) as (x & Ex). unfold load in Ex.
    rewrite (range_cons m1 a _ x) by (lia || assumption).
    destruct n2 as [|n2].
    + exists false. split; [reflexivity|]. rewrite (range_nil m2) by lia. split; [discriminate|].
      intros [(y & t & E)|(p & x' & y & t1 & t2 & _ & E & _)]; [discriminate E|destruct p; discriminate E].
    + destruct (load_some m2 b ltac:(lia)) as (y & Ey). unfold load in Ey.
      rewrite (range_cons m2 b _ y) by (lia || assumption). unfold load. rewrite Ex, Ey.
      destruct (ltb x y) eqn:Q1; [|destruct (ltb y x) eqn:Q2].
      * exists true. split; [reflexivity|]. split; [|reflexivity]. intros _. right. exists [], x, y. cbn. eauto 6.
      * exists false. split; [reflexivity|]. split; [discriminate|].
        intros [(z & t & E)|(p & x' & y' & t1 & t2 & E1 & E2 & L)].
        -- cbn in E. injection E as -> _. rewrite Irr in Q2. discriminate.
        -- destruct p as [|h p].
           ++ cbn [app] in E1, E2. injection E1 as -> _. injection E2 as -> _. congruence.
           ++ cbn [app] in E1, E2. injection E1 as -> _. injection E2 as -> _. rewrite Irr in Q2. discriminate.
      * assert (x = y) by (apply Tri; assumption). subst y.
        destruct (IH n2 (S a) (S b) ltac:(lia) ltac:(lia)) as (r & E & I). rewrite E. exists r. split; [reflexivity|].
        rewrite I. replace (a + S n1) with (S a + n1) by lia. replace (b + S n2) with (S b + n2) by lia. split.
        -- intros [(z & t & E')|(p & x' & y' & t1 & t2 & E1 & E2 & L)].
           ++ left. exists z, t. cbn [app]. now rewrite E'.
           ++ right. exists (x :: p), x', y', t1, t2. cbn [app]. rewrite E1, E2. auto.
        -- intros [(z & t & E')|(p & x' & y' & t1 & t2 & E1 & E2 & L)].
           ++ left. exists z, t. cbn [app] in E'. now injection E'.
           ++ destruct p as [|h p].
              ** cbn [app] in E1, E2. injection E1 as -> _. injection E2 as -> _. rewrite Irr in L. discriminate.
              ** cbn [app] in E1, E2. injection E1 as -> E1. injection E2 as E2. right. exists p, x', y', t1, t2. auto.
Qed.

(** ** lower_bound *)
Lemma lower_bound_ok c m k : forall fuel count first calls,
  count <= fuel -> first + count <= length m -> first <= k <= first + count ->
  (forall i x, first <= i < first + count -> nth_error m i = Some x -> (c x = true <-> i < k)) ->
  exists n, lower_bound_loop fuel c m count first calls = Some (k, calls + n)
    /\ (count = 0 -> n = 0) /\ (0 < count -> n <= S (Nat.log2 count)).
Proof.
  induction fuel as [|fuel IH]; intros count first calls Hf Hm Hk Hc.
  - assert (count = 0) by lia. subst count. cbn. exists 0. split; [f_equal; f_equal; lia|]. lia.
  - destruct count as [|count'].
    { cbn. exists 0. split; [f_equal; f_equal; lia|]. lia. }
    set (count := S count') in *. assert (Hp : 0 < count) by (unfold count; lia).
    replace (lower_bound_loop (S fuel) c m count first calls) with
      (match load m (first + count / 2) with
       | None => None
       | Some x => if c x then lower_bound_loop fuel c m (count - (count / 2 + 1)) (S (first + count / 2)) (S calls)
                   else lower_bound_loop fuel c m (count / 2) first (S calls) end) by reflexivity.
    clearbody count. assert (Hd : count / 2 < count) by (apply Nat.div_lt; lia).
    assert (Hh : 2 * (count / 2) <= count < 2 * (count / 2) + 2).
    { pose proof (Nat.div_mod count 2 ltac:(lia)). pose proof (Nat.mod_upper_bound count 2 ltac:(lia)). lia. }
    destruct (load_some m (first + count / 2) ltac:(lia)) as (x & E). rewrite E. unfold load in E.
    pose proof (Hc (first + count / 2) x ltac:(lia) E) as C.
    assert (LG : forall n' s : nat, s <= count / 2 -> (s = 0 -> n' = 0) -> (0 < s -> n' <= S (Nat.log2 s)) -> S n' <= S (Nat.log2 count)).
    { intros n' s Hs H0 H1. destruct (Nat.eq_dec s 0) as [Z|Z]; [rewrite (H0 Z); lia|]. specialize (H1 ltac:(lia)).
      assert (Nat.log2 s <= Nat.log2 (count / 2)) by (apply Nat.log2_le_mono; lia).
      assert (Nat.log2 (2 * (count / 2)) = S (Nat.log2 (count / 2))) by (apply Nat.log2_double; lia).
      assert (Nat.log2 (2 * (count / 2)) <= Nat.log2 count) by (apply Nat.log2_le_mono; lia). lia. }
    destruct (c x) eqn:Q.
    + assert (first + count / 2 < k) by (apply C; reflexivity).
      destruct (IH (count - (count / 2 + 1)) (S (first + count / 2)) (S calls)) as (n & R & N0 & N1); [lia|lia|lia| |].
      * intros i y Hi. apply Hc. lia.
      * rewrite R. exists (S n). split; [f_equal; f_equal; lia|]. split; [lia|]. intros _.
        apply (LG n (count - (count / 2 + 1))); [lia|exact N0|exact N1].
    + assert (~ first + count / 2 < k) by (intros K; apply C in K; discriminate).
      destruct (IH (count / 2) first (S calls)) as (n & R & N0 & N1); [lia|lia|lia| |].
      * intros i y Hi. apply Hc. lia.
      * rewrite R. exists (S n). split; [f_equal; f_equal; lia|]. split; [lia|]. intros _.
        apply (LG n (count / 2)); [lia|exact N0|exact N1].
Qed.
Lemma lower_bound_inside c m : forall fuel count first calls r,
  lower_bound_loop fuel c m count first calls = Some r -> first <= fst r <= first + count.
Proof.
  induction fuel as [|fuel IH]; intros count first calls r H.
  - destruct count; cbn in H; [injection H as <-; cbn; lia|discriminate].
  - destruct count as [|count']; [cbn in H; injection H as <-; cbn; lia|]. set (count := S count') in *.
    assert (Hp : 0 < count) by (unfold count; lia).
    change (match load m (first + count / 2) with
       | None => None
       | Some x => if c x then lower_bound_loop fuel c m (count - (count / 2 + 1)) (S (first + count / 2)) (S calls)
                   else lower_bound_loop fuel c m (count / 2) first (S calls) end = Some r) in H.
    clearbody count. assert (Hd : count / 2 < count) by (apply Nat.div_lt; lia).
    destruct (load m (first + count / 2)) as [x|]; [|discriminate]. destruct (c x); apply IH in H; lia.
Qed.

(** ** fill *)
Lemma fill_ok v n : forall m first, first + n <= length m ->
  exists m', fill_loop v m n first = Some m' /\ length m' = length m
    /\ (forall i, i < n -> nth_error m' (first + i) = Some v)
    /\ (forall j, j < first \/ first + n <= j -> nth_error m' j = nth_error m j).
Proof.
  induction n as [|n IH]; intros m first H; cbn [fill_loop].
  - exists m. repeat split; auto. intros i K; lia.
  - destruct (store_some m first v ltac:(lia)) as (m1 & E & L & G & O). rewrite E.
    destruct (IH m1 (S first) ltac:(lia)) as (m' & E' & L' & F & O'). exists m'. split; [exact E'|]. split; [lia|]. split.
    + intros i Hi. destruct i as [|i].
      * rewrite Nat.add_0_r. rewrite O' by lia. exact G.
      * replace (first + S i) with (S first + i) by lia. apply F. lia.
    + intros j Hj. rewrite O' by lia. apply O. lia.
Qed.

(** ** remove *)
Lemma store_list m1 x m2 v i : i = length m1 -> store (m1 ++ x :: m2) i v = Some (m1 ++ v :: m2).
Proof. apply store_app. Qed.
Lemma remove_loop_ok t : forall R K G P S : list A, G <> [] ->
  exists G', remove_loop eqb t (P ++ K ++ G ++ R ++ S) (length R) (length P + length K + length G) (length P + length K)
     = Some (P ++ (K ++ filter (fun x => negb (eqb x t)) R) ++ G' ++ S, length P + length K + length (filter (fun x => negb (eqb x t)) R))
     /\ length K + length (filter (fun x => negb (eqb x t)) R) + length G' = length K + length G + length R.
Proof.
  induction R as [|x R IH]; intros K G P S' NG.
  - cbn [length remove_loop filter app]. exists G. rewrite app_nil_r, Nat.add_0_r. split; [reflexivity|]. lia.
  - cbn [length remove_loop].
    replace (P ++ K ++ G ++ (x :: R) ++ S') with ((P ++ K ++ G) ++ x :: (R ++ S')) by now rewrite <- !app_assoc.
    rewrite load_app by (rewrite !app_length; lia). cbn [filter].
    destruct (negb (eqb x t)) eqn:Q.
    + destruct G as [|g G]; [congruence|].
      replace ((P ++ K ++ g :: G) ++ x :: (R ++ S')) with ((P ++ K) ++ g :: (G ++ x :: R ++ S')) by (rewrite <- !app_assoc; reflexivity).
      rewrite store_app by (rewrite app_length; lia).
      destruct (IH (K ++ [x]) (G ++ [x]) P S') as (G' & E & L); [destruct G; discriminate|].
      replace ((P ++ K) ++ x :: G ++ x :: R ++ S') with (P ++ (K ++ [x]) ++ (G ++ [x]) ++ R ++ S') by (rewrite <- !app_assoc; reflexivity).
      replace (Datatypes.S (length P + length K + length (g :: G))) with (length P + length (K ++ [x]) + length (G ++ [x]))
        by (rewrite !app_length; cbn [length]; lia).
      replace (Datatypes.S (length P + length K)) with (length P + length (K ++ [x])) by (rewrite app_length; cbn [length]; lia).
      rewrite E. exists G'. rewrite !app_length in *. cbn [length] in *. split; [|lia]. f_equal. f_equal; [|lia].
      rewrite <- !app_assoc. reflexivity.
    + destruct (IH K (G ++ [x]) P S') as (G' & E & L); [destruct G; discriminate|].
      replace ((P ++ K ++ G) ++ x :: R ++ S') with (P ++ K ++ (G ++ [x]) ++ R ++ S') by (rewrite <- !app_assoc; reflexivity).
      replace (Datatypes.S (length P + length K + length G)) with (length P + length K + length (G ++ [x])) by (rewrite app_length; cbn [length]; lia).
      rewrite E. exists G'. rewrite !app_length in *. cbn [length] in *. split; [reflexivity|lia].
Qed.

(** ** rotate *)
Lemma swap_app (P : list A) x M y (S : list A) : swap (P ++ x :: M ++ y :: S) (length P) (length P + 1 + length M) = Some (P ++ y :: M ++ x :: S).
Proof.
  unfold swap. rewrite load_app by reflexivity.
  replace (P ++ x :: M ++ y :: S) with ((P ++ x :: M) ++ y :: S) by (rewrite <- app_assoc; reflexivity).
  rewrite load_app by (rewrite app_length; cbn; lia).
  replace ((P ++ x :: M) ++ y :: S) with (P ++ x :: (M ++ y :: S)) by (rewrite <- app_assoc; reflexivity).
  rewrite store_app by reflexivity.
  replace (P ++ y :: M ++ y :: S) with ((P ++ y :: M) ++ y :: S) by (rewrite <- app_assoc; reflexivity).
  rewrite store_app by (rewrite app_length; cbn; lia). rewrite <- app_assoc. reflexivity.
Qed.
Lemma rotate_loop_ok : forall R P X Y S : list A, Y ++ X <> [] ->
  exists X' Y', rotate_loop (P ++ X ++ Y ++ R ++ S) (length R) (length P) (length P + length X) (length P + length X + length Y)
     = Some (P ++ R ++ X' ++ Y' ++ S, length P + length R, length P + length R + length X')
     /\ Y' ++ X' = Y ++ X.
Proof.
  induction R as [|r R IH]; intros P X Y S NE.
  - exists X, Y. cbn [length rotate_loop app]. rewrite Nat.add_0_r. auto.
  - cbn [length rotate_loop].
    destruct X as [|x X].
    + cbn [length app]. rewrite Nat.add_0_r, Nat.eqb_refl. destruct Y as [|y Y]; [now destruct NE|].
      assert (SW : swap (P ++ (y :: Y) ++ (r :: R) ++ S) (length P) (length P + length (y :: Y)) = Some (P ++ r :: Y ++ y :: (R ++ S))).
      { pose proof (swap_app P y Y r (R ++ S)) as W. cbn [length app]. replace (length P + Datatypes.S (length Y)) with (length P + 1 + length Y) by lia. exact W. }
      cbn [app length] in SW |- *. rewrite SW.
      destruct (IH (P ++ [r]) Y [y] S) as (X' & Y' & E & EQ); [discriminate|].
      exists X', Y'. rewrite app_length in E. cbn [length] in E.
      replace (P ++ r :: Y ++ y :: R ++ S) with ((P ++ [r]) ++ Y ++ [y] ++ R ++ S) by (rewrite <- !app_assoc; reflexivity).
      cbn [length].
      replace (Datatypes.S (length P)) with (length P + 1) by lia.
      replace (length P + Datatypes.S (length Y)) with (length P + 1 + length Y) by lia.
      replace (Datatypes.S (length P + 1 + length Y)) with (length P + 1 + length Y + 1) by lia.
      rewrite E. split.
      * rewrite <- !app_assoc. cbn [app]. f_equal. f_equal; [f_equal|]; lia.
      * rewrite EQ. now rewrite app_nil_r.
    + destruct (Nat.eqb_spec (length P) (length P + length (x :: X))) as [C|_]; [cbn in C; lia|].
      assert (SW : swap (P ++ (x :: X) ++ Y ++ (r :: R) ++ S) (length P) (length P + length (x :: X) + length Y)
                   = Some (P ++ r :: (X ++ Y) ++ x :: (R ++ S))).
      { pose proof (swap_app P x (X ++ Y) r (R ++ S)) as W. rewrite app_length in W. cbn [length app].
        replace (length P + Datatypes.S (length X) + length Y) with (length P + 1 + (length X + length Y)) by lia.
        rewrite <- W. f_equal. rewrite <- !app_assoc. reflexivity. }
      cbn [app length] in SW |- *. rewrite SW.
      destruct (IH (P ++ [r]) X (Y ++ [x]) S) as (X' & Y' & E & EQ); [destruct Y; discriminate|].
      exists X', Y'. rewrite !app_length in E. cbn [length] in E.
      replace (P ++ r :: (X ++ Y) ++ x :: R ++ S) with ((P ++ [r]) ++ X ++ (Y ++ [x]) ++ R ++ S) by (rewrite <- !app_assoc; reflexivity).
      cbn [length].
      replace (Datatypes.S (length P)) with (length P + 1) by lia.
      replace (length P + Datatypes.S (length X)) with (length P + 1 + length X) by lia.
      replace (Datatypes.S (length P + 1 + length X + length Y)) with (length P + 1 + length X + (length Y + 1)) by lia.
      rewrite E. split.
      * rewrite <- !app_assoc. cbn [app]. f_equal. f_equal; [f_equal|]; lia.
      * rewrite EQ. rewrite <- app_assoc. reflexivity.
Qed.
Lemma rotate_rec_ok : forall fuel (P L R S : list A), length L + length R <= fuel ->
  exists w, rotate_rec fuel (P ++ L ++ R ++ S) (length P) (length P + length L) (length P + length L + length R)
    = Some (P ++ R ++ L ++ S, w) /\ (w = length P + length R).
Proof.
  induction fuel as [|fuel IH]; intros P L R S HF.
  - destruct L; [|cbn in HF; lia]. destruct R; [|cbn in HF; lia]. cbn [length app rotate_rec]. rewrite Nat.add_0_r, Nat.eqb_refl.
    eexists. split; [reflexivity|]. lia.
  - cbn [rotate_rec]. destruct (Nat.eqb_spec (length P) (length P + length L)) as [C|C].
    + destruct L; [|cbn in C; lia]. cbn [app length]. eexists. split; [reflexivity|]. lia.
    + destruct (Nat.eqb_spec (length P + length L) (length P + length L + length R)) as [D|D].
      * destruct R; [|cbn in D; lia]. cbn [app length]. eexists. split; [reflexivity|]. lia.
      * replace (length P + length L + length R - (length P + length L)) with (length R) by lia.
        destruct (rotate_loop_ok R P [] L S) as (X & Y & E & EQ); [destruct L; [cbn in C; lia|discriminate]|].
        cbn [length app] in E. rewrite Nat.add_0_r in E. rewrite E.
        rewrite app_nil_r in EQ. assert (LL : length L = length Y + length X) by (rewrite <- EQ, app_length; lia).
        destruct (IH (P ++ R) X Y S) as (w & E' & _); [cbn in *; lia|].
        rewrite app_length, <- !app_assoc in E'.
        replace (length P + length L + length R) with (length P + length R + length X + length Y) by lia.
        rewrite E'. eexists. split; [|reflexivity]. f_equal. f_equal. f_equal. f_equal. rewrite app_assoc. now rewrite EQ.
Qed.

(** ** Copying *)
Context (cast : A -> A).
Lemma copy_n_ok : forall n m src dst, src + n <= length m -> dst + n <= length m -> (dst <= src \/ src + n <= dst) ->
  exists m', copy_n_loop cast m n src dst = Some (m', dst + n) /\ copied cast m m' src dst n.
Proof.
  induction n as [|n IH]; intros m src dst H1 H2 H3; cbn [copy_n_loop].
  - exists m. rewrite Nat.add_0_r. split; [reflexivity|]. split; [reflexivity|]. split; [intros; lia|reflexivity].
  - destruct (load_some m src ltac:(lia)) as (x & E). rewrite E. unfold load in E.
    destruct (store_some m dst (cast x) ltac:(lia)) as (m1 & E1 & L & G & O). rewrite E1.
    destruct (IH m1 (S src) (S dst) ltac:(lia) ltac:(lia) ltac:(lia)) as (m' & E2 & L2 & F & K).
    exists m'. rewrite E2. split; [f_equal; f_equal; lia|]. split; [lia|]. split.
    + intros i Hi. destruct i as [|i].
      * rewrite !Nat.add_0_r. rewrite K by lia. rewrite G, E. reflexivity.
      * replace (dst + S i) with (S dst + i) by lia. rewrite F by lia.
        replace (src + S i) with (S src + i) by lia. rewrite O by lia. reflexivity.
    + intros j Hj. rewrite K by lia. apply O. lia.
Qed.
Lemma copy_backward_ok : forall n m src dst, src + n <= length m -> dst + n <= length m -> (src <= dst \/ dst + n <= src) ->
  exists m', copy_backward_loop cast m n (src + n) (dst + n) = Some (m', dst) /\ copied cast m m' src dst n.
Proof.
  induction n as [|n IH]; intros m src dst H1 H2 H3; cbn [copy_backward_loop].
  - exists m. rewrite !Nat.add_0_r. split; [reflexivity|]. split; [reflexivity|]. split; [intros; lia|reflexivity].
  - replace (src + S n - 1) with (src + n) by lia. destruct (load_some m (src + n) ltac:(lia)) as (x & E). rewrite E. unfold load in E.
    rewrite Nat.add_succ_r.
    destruct (store_some m (dst + n) (cast x) ltac:(lia)) as (m1 & E1 & L & G & O). rewrite E1.
    destruct (IH m1 src dst ltac:(lia) ltac:(lia) ltac:(lia)) as (m' & E2 & L2 & F & K).
    exists m'. rewrite E2. split; [reflexivity|]. split; [lia|]. split.
    + intros i Hi. destruct (Nat.eq_dec i n) as [->|D].
      * rewrite K by lia. rewrite G, E. reflexivity.
      * rewrite F by lia. rewrite O by lia. reflexivity.
    + intros j Hj. rewrite K by lia. apply O. lia.
Qed.
Lemma memmove_ok m dst src n : src + n <= length m -> dst + n <= length m ->
  exists m', memmove cast m dst src n = Some m' /\ copied cast m m' src dst n.
Proof.
  intros H1 H2. unfold memmove.
  replace ((src + n <=? length m) && (dst + n <=? length m)) with true
    by (symmetry; apply andb_true_iff; split; apply Nat.leb_le; lia).
  eexists. split; [reflexivity|].
  assert (LM : length (map cast (firstn n (skipn src m))) = n) by (rewrite map_length, firstn_length, skipn_length; lia).
  assert (LF : length (firstn dst m) = dst) by (rewrite firstn_length; lia).
  split; [|split].
  - rewrite !app_length, LM, LF, skipn_length. lia.
  - intros i Hi. rewrite nth_error_app2 by lia. rewrite LF. replace (dst + i - dst) with i by lia.
    rewrite nth_error_app1 by lia. rewrite nth_error_map. f_equal.
    rewrite <- (firstn_skipn src m) at 2. rewrite nth_error_app2 by (rewrite firstn_length; lia).
    rewrite firstn_length. replace (src + i - Nat.min src (length m)) with i by lia.
    rewrite <- (firstn_skipn n (skipn src m)) at 2. rewrite nth_error_app1; [reflexivity|]. rewrite firstn_length, skipn_length. lia.
  - intros j Hj. destruct Hj as [Hj|Hj].
    + rewrite nth_error_app1 by lia. rewrite <- (firstn_skipn dst m) at 2. rewrite nth_error_app1 by lia. reflexivity.
    + rewrite nth_error_app2 by lia. rewrite nth_error_app2 by lia. rewrite LF, LM.
      rewrite <- (firstn_skipn (dst + n) m) at 2. rewrite nth_error_app2 by (rewrite firstn_length; lia).
      rewrite firstn_length. f_equal. lia.
Qed.
Lemma same_nth m1 m2 : (forall j, nth_error m1 j = nth_error m2 j) -> m1 = m2.
Proof.
  revert m2; induction m1 as [|x t IH]; intros [|y u] H; [reflexivity|discriminate (H 0)|discriminate (H 0)|].
  pose proof (H 0) as H0. cbn in H0. injection H0 as ->. f_equal. apply IH. intros j. exact (H (S j)).
Qed.
Lemma copied_unique m m1 m2 src dst n : copied cast m m1 src dst n -> copied cast m m2 src dst n -> m1 = m2.
Proof.
  intros (L1 & F1 & O1) (L2 & F2 & O2). apply same_nth. intros j.
  destruct (Nat.lt_ge_cases j dst) as [K|K]; [rewrite O1, O2 by lia; reflexivity|].
  destruct (Nat.lt_ge_cases j (dst + n)) as [K2|K2]; [|rewrite O1, O2 by lia; reflexivity].
  replace j with (dst + (j - dst)) by lia. rewrite F1, F2 by lia. reflexivity.
Qed.
Lemma copied_zero m src dst : copied cast m m src dst 0.
Proof. split; [reflexivity|]. split; [intros; lia|reflexivity]. Qed.

(** ** Constructing *)
Lemma nth_split (d : list (option A)) i v : nth_error d i = Some v -> d = firstn i d ++ v :: skipn (S i) d /\ length (firstn i d) = i.
Proof.
  intros E. pose proof E as E0. apply nth_error_split in E as (s1 & s2 & -> & <-).
  rewrite firstn_app, Nat.sub_diag, firstn_all. cbn [firstn]. rewrite app_nil_r. split; [|reflexivity]. f_equal. f_equal.
  replace (S (length s1)) with (length (s1 ++ [v])) by (rewrite app_length; cbn; lia).
  replace (s1 ++ v :: s2) with ((s1 ++ [v]) ++ s2) by now rewrite <- app_assoc.
  now rewrite skipn_app, skipn_all, Nat.sub_diag.
Qed.
Lemma construct_app (P : list (option A)) S v : construct (P ++ None :: S) (length P) v = Some (P ++ Some v :: S).
Proof.
  unfold construct. rewrite nth_error_app2, Nat.sub_diag by lia. cbn [nth_error]. f_equal.
  rewrite firstn_app, Nat.sub_diag, firstn_all. cbn [firstn]. rewrite app_nil_r. f_equal. f_equal.
  replace (Datatypes.S (length P)) with (length (P ++ [None])) by (rewrite app_length; cbn; lia).
  replace (P ++ None :: S) with ((P ++ [None]) ++ S) by now rewrite <- app_assoc.
  now rewrite skipn_app, skipn_all, Nat.sub_diag.
Qed.
Lemma destroy_app (P : list (option A)) S v : destroy (P ++ Some v :: S) (length P) = Some (P ++ None :: S).
Proof.
  unfold destroy. rewrite nth_error_app2, Nat.sub_diag by lia. cbn [nth_error]. f_equal.
  rewrite firstn_app, Nat.sub_diag, firstn_all. cbn [firstn]. rewrite app_nil_r. f_equal. f_equal.
  replace (Datatypes.S (length P)) with (length (P ++ [Some v])) by (rewrite app_length; cbn; lia).
  replace (P ++ Some v :: S) with ((P ++ [Some v]) ++ S) by now rewrite <- app_assoc.
  now rewrite skipn_app, skipn_all, Nat.sub_diag.
Qed.
Lemma destroy_loop_ok : forall (K : list A) (P S : list (option A)),
  destroy_loop (P ++ map Some K ++ S) (length K) (length P) = Some (P ++ repeat None (length K) ++ S).
Proof.
  induction K as [|x K IH]; intros P S; cbn [map length destroy_loop repeat app]; [reflexivity|].
  rewrite destroy_app. replace (P ++ None :: map Some K ++ S) with ((P ++ [None]) ++ map Some K ++ S) by (rewrite <- app_assoc; reflexivity).
  replace (Datatypes.S (length P)) with (length (P ++ [@None A])) by (rewrite app_length; cbn; lia).
  rewrite IH. rewrite <- app_assoc. reflexivity.
Qed.
Lemma construct_loop_ok throws : forall (R Q1 K Q2 : list A) (P S : list (option A)),
  existsb throws R = false ->
  construct_loop throws (Q1 ++ R ++ Q2) (P ++ map Some K ++ repeat None (length R) ++ S) (length R) (length Q1) (length P) (length P + length K)
  = Built (P ++ map Some (K ++ R) ++ S) (length P + length K + length R).
Proof.
  induction R as [|x R IH]; intros Q1 K Q2 P S H.
  - cbn [length construct_loop repeat app]. rewrite Nat.sub_diag. cbn [destroy_loop]. rewrite app_nil_r, Nat.add_0_r. reflexivity.
  - cbn [length construct_loop]. cbn [existsb] in H. apply orb_false_iff in H as [H1 H2].
    cbn [app]. rewrite load_app by reflexivity. rewrite H1. cbn [repeat app].
    replace (P ++ map Some K ++ None :: repeat None (length R) ++ S) with ((P ++ map Some K) ++ None :: (repeat None (length R) ++ S)) by (now rewrite <- app_assoc).
    assert (LP : length P + length K = length (P ++ map Some K)) by (rewrite app_length, map_length; reflexivity).
    rewrite LP at 1. rewrite construct_app.
    pose proof (IH (Q1 ++ [x]) (K ++ [x]) Q2 P S H2) as E. rewrite !app_length in E. cbn [length] in E.
    rewrite map_app in E. cbn [map] in E. rewrite <- !app_assoc in E. cbn [app] in E.
    rewrite <- !app_assoc. cbn [app].
    replace (Datatypes.S (length Q1)) with (length Q1 + 1) by lia.
    replace (Datatypes.S (length P + length K)) with (length P + (length K + 1)) by lia.
    rewrite E. f_equal. lia.
Qed.
Lemma construct_loop_throw throws : forall (R Q1 K Q2 : list A) (P S : list (option A)),
  existsb throws R = true ->
  construct_loop throws (Q1 ++ R ++ Q2) (P ++ map Some K ++ repeat None (length R) ++ S) (length R) (length Q1) (length P) (length P + length K)
  = Threw (P ++ repeat None (length K + length R) ++ S).
Proof.
  induction R as [|x R IH]; intros Q1 K Q2 P S H; [discriminate|].
  cbn [length construct_loop]. cbn [existsb] in H.
  cbn [app]. rewrite load_app by reflexivity. cbn [repeat app].
  destruct (throws x) eqn:T.
  - replace (length P + length K - length P) with (length K) by lia. rewrite destroy_loop_ok.
    rewrite repeat_app. cbn [repeat]. rewrite <- !app_assoc. reflexivity.
  - cbn [orb] in H.
    replace (P ++ map Some K ++ None :: repeat None (length R) ++ S) with ((P ++ map Some K) ++ None :: (repeat None (length R) ++ S)) by (now rewrite <- app_assoc).
    assert (LP : length P + length K = length (P ++ map Some K)) by (rewrite app_length, map_length; reflexivity).
    rewrite LP at 1. rewrite construct_app.
    pose proof (IH (Q1 ++ [x]) (K ++ [x]) Q2 P S H) as E. rewrite !app_length in E. cbn [length] in E.
    rewrite map_app in E. cbn [map] in E. rewrite <- !app_assoc in E. cbn [app] in E.
    rewrite <- !app_assoc. cbn [app].
    replace (Datatypes.S (length Q1)) with (length Q1 + 1) by lia.
    replace (Datatypes.S (length P + length K)) with (length P + (length K + 1)) by lia.
    rewrite E. f_equal. f_equal. f_equal. f_equal. lia.
Qed.
End P.
