(** Loops over the characters of a buffered input stream (include/fast_io_core_impl/igenerator.h). *)
From Verif Require Import Base IgenModel.
Local Open Scope nat_scope.

(** The characters that can be read from the stream until the end of the file: a fill that finds nothing. *)
Fixpoint until_eof (fills : list (list Z)) : list Z :=
  match fills with [] => [] | [] :: _ => [] | c :: l => c ++ until_eof l end.
Definition unread (contiguous : bool) (s : stream) : list Z := buf s ++ (if contiguous then [] else until_eof (later s)).

(** What a loop over the characters of a text does: the characters its body is given, and, when the body leaves it, the
    text from the character with which it did. *)
Fixpoint loop_over (leave : list Z -> bool) (seen : list Z) (t : list Z) : list Z * option (list Z) :=
  match t with
  | [] => (seen, None)
  | c :: t' => if leave (seen ++ [c]) then (seen ++ [c], Some t) else loop_over leave (seen ++ [c]) t'
  end.

(** * Supporting lemmas *)
Definition ready (contiguous ptr : bool) (s : stream) : Prop :=
  if contiguous then True else if ptr then buf s <> [] else buf s = [].
Definition left_over (contiguous ptr : bool) (s : stream) : list Z :=
  if contiguous then buf s else if ptr then unread false s else [].
Lemma after_underflow s : let '(ptr, s') := underflow s in ready false ptr s' /\ left_over false ptr s' = until_eof (later s).
Proof. destruct s as [b [|[|c r] l]]; cbn; repeat split; discriminate. Qed.
Lemma for_loop_is contiguous leave t : forall n seen ptr s, ready contiguous ptr s -> left_over contiguous ptr s = t -> length t < n ->
  match for_loop n contiguous leave seen ptr s with
  | Finished seen' s' true => loop_over leave seen t = (seen', Some (unread contiguous s'))
  | Finished seen' s' false => loop_over leave seen t = (seen', None) /\ buf s' = []
  | _ => False
  end.
Proof.
  induction t as [|c t IH]; intros n seen ptr s R L H; (destruct n as [|n]; [cbn in H; lia|]); cbn [for_loop].
  - destruct contiguous; cbn [ready left_over not_end] in *.
    + unfold at_end. rewrite L. cbn [negb]. auto.
    + destruct ptr; [|auto]. unfold unread in L. destruct (buf s); [contradiction|discriminate L].
  - assert (B : exists r, buf s = c :: r /\ not_end contiguous ptr s = true).
    { destruct contiguous; cbn [ready left_over not_end] in *; [exists t; unfold at_end; rewrite L; auto|].
      destruct ptr; [|discriminate L]. unfold unread in L. destruct (buf s) as [|d r]; [contradiction|].
      cbn [app] in L. injection L as -> _. eauto. }
    destruct B as (r & B & N). rewrite N. unfold deref. rewrite B. cbn [loop_over].
    destruct (leave (seen ++ [c])) eqn:E.
    + do 2 f_equal. unfold unread. destruct contiguous; cbn [left_over] in L; [rewrite app_nil_r; congruence|].
      destruct ptr; [|discriminate L]. unfold unread in L. congruence.
    + assert (A : let '(ptr', s') := advance contiguous s in ready contiguous ptr' s' /\ left_over contiguous ptr' s' = t).
      { unfold advance. rewrite B. cbn [tl]. destruct contiguous; cbn [ready left_over buf] in *; [split; [exact Logic.I|congruence]|].
        destruct ptr; [|discriminate L]. unfold unread in L. rewrite B in L. cbn [app] in L. injection L as L.
        unfold at_end. cbn [buf]. destruct r as [|d r].
        - pose proof (after_underflow (mk_stream [] (later s))) as U. destruct (underflow (mk_stream [] (later s))) as [p' s'].
          cbn [later] in U. cbn [app] in L. rewrite L in U. exact U.
        - cbn [ready left_over buf]. split; [discriminate|]. unfold unread. cbn [buf later]. exact L. }
      destruct (advance contiguous s) as [ptr' s']. destruct A as [A1 A2]. apply IH; [exact A1|exact A2|cbn in H; lia].
Qed.

(** * C161: a loop over igenerator(in) gives its body the characters of the stream *)

(** Whatever the pieces are in which the stream is filled: each character until the end of the file, in order, once. When
    the body leaves the loop the character with which it did is the next that will be read. The loop terminates, and reads
    nothing outside the buffer. *)
Theorem C161_igenerator : forall contiguous leave s n, length (unread contiguous s) < n ->
  match range_for n contiguous leave s with
  | Finished seen s' true => loop_over leave [] (unread contiguous s) = (seen, Some (unread contiguous s'))
  | Finished seen s' false => loop_over leave [] (unread contiguous s) = (seen, None) /\ buf s' = []
  | _ => False
  end.
Proof.
  intros contiguous leave s n H. unfold range_for.
  assert (A : let '(ptr', s') := igenerator contiguous s in ready contiguous ptr' s' /\ left_over contiguous ptr' s' = unread contiguous s).
  { unfold igenerator, unread. destruct contiguous; [split; [exact Logic.I|]; cbn [left_over]; rewrite app_nil_r; reflexivity|].
    unfold at_end. destruct (buf s) as [|c r] eqn:B.
    - exact (after_underflow s).
    - cbn [ready left_over]. rewrite B. split; [discriminate|]. unfold unread. rewrite B. reflexivity. }
  destruct (igenerator contiguous s) as [p s']. destruct A as [A1 A2]. apply for_loop_is; assumption.
Qed.
Print Assumptions C161_igenerator.

(** A body that never leaves the loop is given all characters. *)
Lemma loop_over_all t : forall seen, loop_over (fun _ => false) seen t = (seen ++ t, None).
Proof. induction t as [|c t IH]; intros seen; cbn [loop_over]; [rewrite app_nil_r; reflexivity|]. rewrite IH, <- app_assoc. reflexivity. Qed.
Theorem C161_all_characters : forall contiguous s n, length (unread contiguous s) < n ->
  exists s', range_for n contiguous (fun _ => false) s = Finished (unread contiguous s) s' false.
Proof.
  intros contiguous s n H. pose proof (C161_igenerator contiguous (fun _ => false) s n H) as C. rewrite loop_over_all in C. cbn [app] in C.
  destruct (range_for n contiguous (fun _ => false) s) as [seen s' [|]| |]; try contradiction; [discriminate C|].
  destruct C as [C _]. injection C as <-. eauto.
Qed.
Print Assumptions C161_all_characters.

(** Two fills, an end of file, and more after it; and a body that leaves at the character 3 *)
Example C161_example :
  range_for 10 false (fun _ => false) (mk_stream [1; 2]%Z [[3; 4]; [5]; []; [6]]%Z) = Finished [1; 2; 3; 4; 5]%Z (mk_stream [] [[6]]%Z) false /\
  range_for 10 false (fun seen => Z.eqb (last seen 0%Z) 3) (mk_stream [1; 2]%Z [[3; 4]; [5]; []; [6]]%Z) =
    Finished [1; 2; 3]%Z (mk_stream [3; 4] [[5]; []; [6]])%Z true /\
  range_for 3 true (fun _ => false) (mk_stream [1; 2]%Z []) = Finished [1; 2]%Z (mk_stream [] []) false.
Proof. repeat split. Qed.

(** * C162: a loop over igenerator(in) consumes the characters it gives to its body *)

(** But for the one with which the body leaves the loop. *)
Lemma loop_over_split leave t : forall seen seen' r, loop_over leave seen t = (seen', Some r) ->
  exists a c r', t = a ++ c :: r' /\ seen' = seen ++ a ++ [c] /\ r = c :: r'.
Proof.
  induction t as [|c t IH]; intros seen seen' r H; cbn [loop_over] in H; [discriminate|].
  destruct (leave (seen ++ [c])).
  - injection H as <- <-. exists [], c, t. auto.
  - destruct (IH _ _ _ H) as (a & d & r' & -> & -> & ->). exists (c :: a), d, r'. split; [reflexivity|]. split; [|reflexivity].
    rewrite <- app_assoc. reflexivity.
Qed.
Theorem C162_consumed_partial : forall contiguous leave s n seen s', length (unread contiguous s) < n ->
  range_for n contiguous leave s = Finished seen s' true ->
  exists before c after, seen = before ++ [c] /\ unread contiguous s = before ++ [c] ++ after /\ unread contiguous s' = [c] ++ after.
Proof.
  intros contiguous leave s n seen s' H E. pose proof (C161_igenerator contiguous leave s n H) as C. rewrite E in C.
  destruct (loop_over_split _ _ _ _ _ C) as (a & c & r & T & S1 & R). exists a, c, r. auto.
Qed.
Print Assumptions C162_consumed_partial.

(** So every loop that is left gives its last character again to the next loop. *)
Theorem C162_consumed_refuted : forall contiguous leave s n seen s', length (unread contiguous s) < n ->
  range_for n contiguous leave s = Finished seen s' true -> unread contiguous s <> seen ++ unread contiguous s'.
Proof.
  intros contiguous leave s n seen s' H E. destruct (C162_consumed_partial _ _ _ _ _ _ H E) as (a & c & r & -> & U & ->). rewrite U.
  intros X. apply (f_equal (@length Z)) in X. rewrite !app_length in X. cbn in X. lia.
Qed.
Print Assumptions C162_consumed_refuted.

Example C162_example :
  range_for 5 true (fun seen => Z.eqb (last seen 0%Z) 2) (mk_stream [1; 2; 3]%Z []) = Finished [1; 2]%Z (mk_stream [2; 3]%Z []) true.
Proof. reflexivity. Qed.
