(** Input one character at a time over an unbuffered stream (include/fast_io_core_impl/unit_character_input_buffer.h). *)
From Verif Require Import Base SinglecModel.
Local Open Scope nat_scope.

(** The character taken from the unbuffered stream and not yet given, if there is one. *)
Definition pending (b : ibuf) : list Z := if pos_end b && negb (pos b) then [single_character b] else [].

(** * Supporting lemmas *)
Definition good (b : ibuf) : Prop := pos b = true -> pos_end b = true.
Lemma src_read_split n s : match src_read n s with (Some t, s') => rest s = t ++ rest s' /\ length t <= n | (None, s') => rest s' = rest s end.
Proof.
  unfold src_read. destruct (reads s) as [|[k|] o].
  - cbn [rest]. rewrite firstn_skipn. split; [reflexivity|apply firstn_le_length].
  - cbn [rest]. rewrite firstn_skipn. split; [reflexivity|]. etransitivity; [apply firstn_le_length|]. lia.
  - reflexivity.
Qed.
Lemma run_op_good o b : good b ->
  match run_op o b with
  | (Some t, b') => good b' /\ pending b ++ rest (reference b) = t ++ pending b' ++ rest (reference b')
  | (None, b') => good b' /\ rest (reference b') = rest (reference b) /\
      ((forall n, o = Read n -> pending b = []) -> pending b' = pending b) /\ (forall n, o = Read n -> pending b' = [])
  end.
Proof.
  assert (U : forall take, good b ->
    match step take b with
    | (Some t, b') => good b' /\ pending b ++ rest (reference b) = t ++ pending b' ++ rest (reference b')
    | (None, b') => good b' /\ rest (reference b') = rest (reference b) /\ pending b' = pending b
    end).
  { intros take G. unfold step, good, pending in *. destruct b as [s c p e]. cbn [pos pos_end single_character reference] in *.
    destruct p, e; cbn [Bool.eqb]; try (specialize (G eq_refl); discriminate).
    - unfold underflow. cbn [reference]. pose proof (src_read_split 1 s) as X. destruct (src_read 1 s) as [[[|d t]|] s'].
      + destruct X as [X _]. cbn. split; [discriminate|]. exact X.
      + destruct X as [X L]. cbn [length] in L. destruct t; [|cbn [length] in L; lia]. destruct take; cbn; (split; [auto; discriminate|exact X]).
      + cbn. auto.
    - destruct take; cbn; (split; [auto|reflexivity]).
    - unfold underflow. cbn [reference]. pose proof (src_read_split 1 s) as X. destruct (src_read 1 s) as [[[|d t]|] s'].
      + destruct X as [X _]. cbn. split; [discriminate|]. exact X.
      + destruct X as [X L]. cbn [length] in L. destruct t; [|cbn [length] in L; lia]. destruct take; cbn; (split; [auto; discriminate|exact X]).
      + cbn. auto. }
  intros G. destruct o as [| |n]; cbn [run_op].
  - specialize (U false G). destruct (step false b) as [[t|] b']; [exact U|]. destruct U as (U1 & U2 & U3). repeat split; auto; discriminate.
  - specialize (U true G). destruct (step true b) as [[t|] b']; [exact U|]. destruct U as (U1 & U2 & U3). repeat split; auto; discriminate.
  - unfold read, good, pending in *. destruct b as [s c p e]. cbn [pos pos_end single_character reference] in *.
    destruct (Bool.eqb p e) eqn:E.
    + apply Bool.eqb_prop in E. subst e. pose proof (src_read_split n s) as X. destruct (src_read n s) as [[t|] s'].
      * destruct X as [X _]. cbn. split; [auto|]. destruct p; cbn; exact X.
      * cbn. split; [auto|]. split; [exact X|]. split; [reflexivity|]. intros _ _. destruct p; reflexivity.
    + destruct p, e; try discriminate; [specialize (G eq_refl); discriminate|].
      destruct (Nat.eqb_spec n 0) as [_|N]; [cbn; split; [auto|reflexivity]|].
      pose proof (src_read_split (n - 1) s) as X. destruct (src_read (n - 1) s) as [[t|] s'].
      * destruct X as [X _]. cbn. split; [auto|]. rewrite X. reflexivity.
      * cbn. split; [auto|]. split; [exact X|]. split; [|reflexivity]. intros K. specialize (K n eq_refl). discriminate K.
Qed.
Lemma run_good ops : forall b, good b ->
  match run ops b with (t, x, b') => good b' /\ (x = false -> pending b ++ rest (reference b) = t ++ pending b' ++ rest (reference b')) end.
Proof.
  induction ops as [|o ops IH]; intros b G; cbn [run]; [auto|].
  pose proof (run_op_good o b G) as R. destruct (run_op o b) as [[t|] b'].
  - destruct R as [R1 R2]. specialize (IH b' R1). destruct (run ops b') as [[t' x] b'']. destruct IH as [IH1 IH2].
    split; [exact IH1|]. intros X. rewrite R2, (IH2 X), app_assoc. reflexivity.
  - split; [apply R|discriminate].
Qed.

(** * C163: a single_character_input_buffer gives the characters of its stream, and takes at most one ahead *)

(** Whatever mixture of scans and reads it is used with, as long as nothing throws: what was given, at most one character
    that was looked at, and what the unbuffered stream still has are the characters of the stream, in order. *)
Theorem C163_in_order : forall s ops t b, run ops (fresh s) = (t, false, b) ->
  rest s = t ++ pending b ++ rest (reference b) /\ length (pending b) <= 1 /\ (In Peek ops \/ pending b = []).
Proof.
  intros s ops t b E. assert (G : good (fresh s)) by (intros H; discriminate H).
  pose proof (run_good ops (fresh s) G) as R. rewrite E in R. destruct R as [_ R]. specialize (R eq_refl).
  split; [exact R|]. split; [unfold pending; destruct (pos_end b && negb (pos b)); cbn; lia|].
  destruct (in_dec (fun a c : op => ltac:(decide equality; apply Nat.eq_dec)) Peek ops) as [I|I]; [left; exact I|right].
  assert (K : forall ops b0, ~ In Peek ops -> good b0 -> pending b0 = [] -> forall t x b1, run ops b0 = (t, x, b1) -> x = false -> pending b1 = []).
  { clear. induction ops as [|o ops IH]; intros b0 N G P t x b1 E X; cbn [run] in E; [injection E as <- <- <-; exact P|].
    pose proof (run_op_good o b0 G) as R.
    assert (Q : pending (snd (run_op o b0)) = []).
    { destruct o as [| |n]; [exfalso; apply N; left; reflexivity| |].
      - cbn [run_op]. unfold step. destruct b0 as [s0 c p e]. unfold good, pending in *. cbn [pos pos_end] in *.
        destruct p, e; cbn in P; try discriminate; try (specialize (G eq_refl); discriminate); cbn [Bool.eqb];
          unfold underflow; cbn [reference single_character pos pos_end]; destruct (src_read 1 s0) as [[[|d r]|] s1]; reflexivity.
      - cbn [run_op]. unfold read. destruct b0 as [s0 c p e]. unfold good, pending in *. cbn [pos pos_end] in *.
        destruct p, e; cbn in P; try discriminate; try (specialize (G eq_refl); discriminate); cbn [Bool.eqb];
          cbn [reference single_character]; destruct (src_read n s0) as [r s1]; reflexivity. }
    destruct (run_op o b0) as [[t0|] b'] eqn:E0; cbn [snd] in Q.
    - destruct (run ops b') as [[t' x'] b''] eqn:E'. injection E as <- <- <-. apply (IH b') with (t := t') (x := x'); try assumption.
      + intros H. apply N. right. exact H.
      + apply R.
    - injection E as <- <- <-. discriminate X. }
  apply (K ops (fresh s) I G eq_refl t false b E eq_refl).
Qed.
Print Assumptions C163_in_order.

(** A read gives no more than was asked for. *)
Theorem C163_read_length : forall n b t b', run_op (Read n) b = (Some t, b') -> length t <= n.
Proof.
  intros n b t b' E. cbn [run_op] in E. unfold read in E. destruct (Bool.eqb (pos b) (pos_end b)).
  - pose proof (src_read_split n (reference b)) as X. destruct (src_read n (reference b)) as [[u|] s']; [|discriminate E].
    injection E as <- <-. apply X.
  - destruct (Nat.eqb_spec n 0) as [Z0|N]; [injection E as <- <-; cbn; lia|].
    pose proof (src_read_split (n - 1) (reference b)) as X. destruct (src_read (n - 1) (reference b)) as [[u|] s']; [|discriminate E].
    injection E as <- <-. cbn [length]. lia.
Qed.
Print Assumptions C163_read_length.

(** Looking at the first character, a read of two of which the stream gives one, and a scan of one more *)
Example C163_example :
  run [Peek; Read 3; Take; Peek] (fresh (mk_source [1; 2; 3; 4; 5]%Z [Some 1; Some 1])) =
    ([1; 2; 3]%Z, false, mk_ibuf (mk_source [5]%Z []) 4 false true).
Proof. reflexivity. Qed.

(** * C164: an operation that throws loses no character *)

(** A look or a scan loses none, and neither does a read when no character was looked at. *)
Theorem C164_throw_partial : forall s ops t b o b', run ops (fresh s) = (t, false, b) -> run_op o b = (None, b') ->
  (forall n, o = Read n -> pending b = []) -> rest s = t ++ pending b' ++ rest (reference b').
Proof.
  intros s ops t b o b' E O H. destruct (C163_in_order s ops t b E) as [R _].
  assert (G : good b).
  { pose proof (run_good ops (fresh s) ltac:(intros K; discriminate K)) as K. rewrite E in K. apply K. }
  pose proof (run_op_good o b G) as K. rewrite O in K. destruct K as (_ & K2 & K3 & _). rewrite (K3 H), K2. exact R.
Qed.
Print Assumptions C164_throw_partial.

(** A read that throws after a look always loses the character looked at: the next operation gives the one after. *)
Theorem C164_throw_refuted :
  (forall s ops t b n b', run ops (fresh s) = (t, false, b) -> run_op (Read n) b = (None, b') -> pending b <> [] ->
     exists c, pending b = [c] /\ rest s = t ++ [c] ++ rest (reference b') /\ pending b' = []) /\
  run_op (Read 2) (snd (run [Peek] (fresh (mk_source [1; 2; 3]%Z [Some 1; None])))) = (None, mk_ibuf (mk_source [2; 3]%Z []) 1 true true) /\
  run_op Take (mk_ibuf (mk_source [2; 3]%Z []) 1 true true) = (Some [2]%Z, mk_ibuf (mk_source [3]%Z []) 2 true true).
Proof.
  split; [|split; reflexivity].
  intros s ops t b n b' E O P. destruct (C163_in_order s ops t b E) as (R & L & _).
  assert (G : good b).
  { pose proof (run_good ops (fresh s) ltac:(intros K; discriminate K)) as K. rewrite E in K. apply K. }
  pose proof (run_op_good (Read n) b G) as K. rewrite O in K. destruct K as (_ & K2 & _ & K4).
  destruct (pending b) as [|c [|d l]] eqn:Q; [contradiction| |cbn in L; lia].
  exists c. split; [reflexivity|]. rewrite K2. split; [exact R|]. apply (K4 n eq_refl).
Qed.
Print Assumptions C164_throw_refuted.
