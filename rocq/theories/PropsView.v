(** C104-C106: views over an array of characters, and the growing buffer. *)
From Coq Require Import String.
From Coq Require Import List.
From Verif Require Import Base NumSpec BufModel PrintModel BufSpec ViewModel ViewSpec ViewProofs.
Local Open Scope nat_scope.

(** ** C104: basic_obuffer_view *)
(** For every history of write, put, print, println and clear: the process is at most terminated, never does an
    operation store outside the array, and if all operations return the view shows the text output since the last clear. *)
Theorem C104_never_outside : forall v xs, view_ok v -> Forall vop_ok xs ->
  match do_vops v xs with
  | Fine v' | Died v' => same_outside v v'
  | Raised _ | Smashed => False
  end.
Proof. intros v xs Hok Hx. pose proof (run_safe xs v Hok Hx) as H. destruct (do_vops v xs); auto. Qed.
Print Assumptions C104_never_outside.

Theorem C104_shows : forall m first last xs v', first <= last -> Forall vop_ok xs ->
  do_vops (view_of m first last) xs = Fine v' ->
  view_content v' = shown [] xs /\ view_size v' = length (shown [] xs) /\
  view_size v' <= view_capacity v' /\ view_capacity v' = last - first.
Proof.
  intros m first last xs v' Hle Hx Hr.
  assert (Hok : view_ok (view_of m first last)) by (unfold view_ok, view_of; cbn; lia).
  destruct (run_content xs _ _ Hok Hx Hr) as [O C].
  assert (C0 : view_content (view_of m first last) = []) by (apply clear_content with (v := view_of m first last)).
  rewrite C0 in C. split; [exact C|]. split; [rewrite <- C; symmetry; apply content_length; exact O|].
  split; [destruct O; unfold view_size, view_capacity; lia|].
  pose proof (run_safe xs _ Hok Hx) as S. rewrite Hr in S. destruct S as (B & E & _).
  unfold view_capacity. rewrite B, E. reflexivity.
Qed.
Print Assumptions C104_shows.

(** Nothing is ever cut off silently: when all operations return every text had room; when every operation has room for
    what its arguments announce all operations return. *)
Theorem C104_returns_only_if_it_fits : forall m first last xs v', first <= last -> Forall vop_ok xs ->
  do_vops (view_of m first last) xs = Fine v' -> text_fits (last - first) 0 xs.
Proof.
  intros m first last xs v' Hle Hx Hr.
  assert (Hok : view_ok (view_of m first last)) by (unfold view_ok, view_of; cbn; lia).
  pose proof (run_text_fits xs _ _ Hok Hx Hr) as H.
  unfold view_capacity, view_size, view_of in H. cbn in H. rewrite Nat.sub_diag in H. exact H.
Qed.
Print Assumptions C104_returns_only_if_it_fits.
Theorem C104_returns_if_announced_fits : forall m first last xs, first <= last -> Forall vop_ok xs ->
  fits (last - first) 0 xs -> exists v', do_vops (view_of m first last) xs = Fine v'.
Proof.
  intros m first last xs Hle Hx Hf.
  assert (Hok : view_ok (view_of m first last)) by (unfold view_ok, view_of; cbn; lia).
  apply run_fits; auto. unfold view_capacity, view_size, view_of. cbn. rewrite Nat.sub_diag. exact Hf.
Qed.
Print Assumptions C104_returns_if_announced_fits.
(** When no argument announces more than its text the process is terminated exactly when a text does not fit. *)
Theorem C104_terminates_exactly : forall m first last xs, first <= last -> Forall vop_ok xs -> Forall exact_op xs ->
  (exists v', do_vops (view_of m first last) xs = Died v') <-> ~ text_fits (last - first) 0 xs.
Proof.
  intros m first last xs Hle Hx He. split.
  - intros [v' Hr] Hf. apply (exact_fits xs _ _ He) in Hf.
    destruct (C104_returns_if_announced_fits m first last xs Hle Hx Hf) as [w Hw]. rewrite Hw in Hr. discriminate Hr.
  - intros Hn.
    assert (Hok : view_ok (view_of m first last)) by (unfold view_ok, view_of; cbn; lia).
    pose proof (run_safe xs _ Hok Hx) as S.
    destruct (do_vops (view_of m first last) xs) as [w | w | w |] eqn:E; try contradiction.
    + exfalso. apply Hn. exact (C104_returns_only_if_it_fits m first last xs w Hle Hx E).
    + exists w. reflexivity.
Qed.
Print Assumptions C104_terminates_exactly.

(** A text with a compile-time bound may be refused although it fits. *)
Theorem C104_refuses_fitting_text_refuted :
  ~ (forall m first last xs, first <= last -> Forall vop_ok xs -> text_fits (last - first) 0 xs ->
       exists v', do_vops (view_of m first last) xs = Fine v').
Proof.
  intros H.
  destruct (H (fun _ => 0%Z) 0 5 [VPrint true true [PReserve 11 (text "42")]]) as [v' E]; [lia | | | discriminate E].
  - repeat constructor.
  - cbn. lia.
Qed.
Print Assumptions C104_refuses_fitting_text_refuted.
(** An argument with a run-time bound is printed before its room is looked at. *)
Theorem C104_dynamic_argument_refuted :
  ~ (forall v xs, view_ok v -> Forall (fun x => match x with VPrint _ _ args => Forall arg_ok args | _ => True end) xs ->
       match do_vops v xs with Fine v' | Died v' => same_outside v v' | Raised _ | Smashed => False end).
Proof.
  intros H.
  specialize (H (view_of (fun _ => 0%Z) 0 2) [VPrint true false [PDynamic 3 (text "abc")]]).
  cbn in H. destruct H as (_ & _ & H).
  - unfold view_ok. cbn. lia.
  - repeat (constructor; cbn; try lia).
  - specialize (H 2 (or_intror (le_n 2))). discriminate H.
Qed.
Print Assumptions C104_dynamic_argument_refuted.

Example C104_nonvacuous :
  let xs := [VWrite (text "lost"); VClear; VWrite (text "ab"); VPut 45%Z;
             VPrint true true [PScatter (text "x="); PReserve 3 (text "7"); PReserve 3 (text "12"); PDefine [text "!"]]] in
  Forall vop_ok xs /\
  exists v', do_vops (view_of (fun _ => 9%Z) 10 30) xs = Fine v' /\ view_content v' = text "ab-x=712!" ++ [10%Z] /\
             v_mem v' 9 = 9%Z /\ fits 20 0 xs.
Proof. cbn. split; [repeat (constructor; cbn; try lia)|]. eexists. split; [reflexivity|]. cbn. repeat split; lia. Qed.

(** ** C105: basic_ibuffer_view, read *)
(** read(view,first,last) should store the next min(last-first, unread) characters and consume them.  It stores all the
    unread characters: right only when they fit. *)
Theorem C105_read_partial : forall v first last, view_ok v -> first <= last ->
  length (iview_unread v) <= last - first ->
  let '(v', it) := iview_read v first last in
  it = first + length (iview_unread v) /\ it <= last /\
  chars (v_mem v') first (it - first) = iview_unread v /\
  (forall i, i < first \/ it <= i -> v_mem v' i = v_mem v i) /\
  v_begin v' = v_begin v /\ v_end v' = v_end v /\ v_curr v' = v_end v.
Proof.
  intros v first last [O1 O2] Hle Hn. unfold iview_unread in *. rewrite chars_length in *.
  unfold iview_read. cbn [v_mem v_begin v_end v_curr].
  set (n := v_end v - v_curr v) in *. set (u := chars (v_mem v) (v_curr v) n).
  assert (Hu : length u = n) by apply chars_length.
  split; [reflexivity|]. split; [lia|].
  split; [replace (first + n - first) with (length u) by lia; apply chars_store|].
  split; [intros i Hi; apply store_at_out; lia|].
  split; [reflexivity|]. split; [reflexivity|].
  destruct (Nat.ltb_spec n (last - first)); lia.
Qed.
Print Assumptions C105_read_partial.
(** Otherwise it stores behind the range it was given and returns an iterator behind it, whatever the view. *)
Theorem C105_read_overruns : forall v first last, view_ok v -> first <= last ->
  last - first < length (iview_unread v) ->
  let '(v', it) := iview_read v first last in
  last < it /\ v_mem v' last = nth (last - first) (iview_unread v) 0%Z /\ v_curr v' = v_curr v + (last - first).
Proof.
  intros v first last [O1 O2] Hle Hn. unfold iview_unread in *. rewrite chars_length in Hn.
  unfold iview_read. cbn [v_mem v_begin v_end v_curr].
  split; [lia|]. split.
  - replace last with (first + (last - first)) at 1 by lia. apply store_at_in. rewrite chars_length. exact Hn.
  - destruct (Nat.ltb_spec (v_end v - v_curr v) (last - first)); lia.
Qed.
Print Assumptions C105_read_overruns.
Theorem C105_read_refuted :
  ~ (forall v first last, view_ok v -> first <= last ->
       forall i, i < first \/ last <= i -> v_mem (fst (iview_read v first last)) i = v_mem v i).
Proof.
  intros H.
  specialize (H (view_of (fun i => Z.of_nat i) 0 5) 10 13). cbn in H.
  assert (A : view_ok (view_of (fun i => Z.of_nat i) 0 5)) by (unfold view_ok; cbn; lia).
  specialize (H A ltac:(lia) 13 ltac:(lia)). discriminate H.
Qed.
Print Assumptions C105_read_refuted.
Example C105_nonvacuous :
  let v := view_of (fun i => Z.of_nat i) 2 5 in
  view_ok v /\ length (iview_unread v) <= 20 - 10 /\ snd (iview_read v 10 20) = 13 /\
  chars (v_mem (fst (iview_read v 10 20))) 10 4 = [2; 3; 4; 13]%Z.
Proof. cbn. unfold view_ok. cbn. repeat split; lia. Qed.

(** ** C106: dynamic_io_buffer *)
(** The buffer should hold everything output to it.  It does so far as every write finds it empty or too small, the first
    character is not output by put, and oreserve is not asked for less than what is stored. *)
Theorem C106_holds_partial : forall xs, careful_run db_fresh xs ->
  exists b, do_dops db_fresh xs = Fine b /\ db_text b = concat (map dsaid xs) /\ length (db_text b) <= db_cap b.
Proof.
  intros xs H. destruct (drun_careful xs db_fresh (le_n 0) H) as (b & E & O & T).
  exists b. split; [exact E|]. split; [exact T | exact O].
Qed.
Print Assumptions C106_holds_partial.
(** A write that finds room in a buffer that holds something loses what it holds, whatever the buffer and the text. *)
Theorem C106_write_loses : forall b t, length t <= db_cap b - length (db_text b) -> db_text b <> [] ->
  exists b', db_write b t = Fine b' /\ db_text b' = t /\ db_text b' <> db_text b ++ t.
Proof.
  intros b t H Hne. unfold db_write.
  destruct (Nat.ltb_spec (db_cap b - length (db_text b)) (length t)); [lia|].
  eexists. split; [reflexivity|]. cbn [db_text]. split; [reflexivity|].
  intros E. apply (f_equal (@length Z)) in E. rewrite app_length in E.
  destruct (db_text b); [congruence | cbn in E; lia].
Qed.
Print Assumptions C106_write_loses.
Theorem C106_holds_refuted :
  ~ (forall xs b, do_dops db_fresh xs = Fine b -> db_text b = concat (map dsaid xs)).
Proof.
  intros H. specialize (H [DWrite (text "ab"); DWrite (text "c"); DWrite (text "d")] _ eq_refl). discriminate H.
Qed.
Print Assumptions C106_holds_refuted.
Theorem C106_put_first_refuted : ~ (forall ch, do_dops db_fresh [DPut ch] <> Smashed).
Proof. intros H. exact (H 65%Z eq_refl). Qed.
Print Assumptions C106_put_first_refuted.
(** oreserve(n) does not make room for n characters, and gives away room that is there. *)
Theorem C106_reserve_never_grows : forall b n b', db_reserve b n = Fine b' -> db_cap b' <= db_cap b.
Proof.
  intros b n b'. unfold db_reserve, db_reallocate. destruct (Nat.leb_spec (db_cap b) n).
  - intros E. inversion E; subst. lia.
  - destruct (Nat.leb (length (db_text b)) n); intros E; inversion E; subst. cbn. lia.
Qed.
Print Assumptions C106_reserve_never_grows.
Theorem C106_reserve_refuted : ~ (forall b n b', db_reserve b n = Fine b' -> n <= db_cap b').
Proof. intros H. specialize (H db_fresh 10 _ eq_refl). cbn in H. lia. Qed.
Print Assumptions C106_reserve_refuted.
Example C106_nonvacuous :
  careful_run db_fresh [DWrite (text "ab"); DPut 99%Z; DShrink; DWrite (text "de")] /\
  do_dops db_fresh [DWrite (text "ab"); DPut 99%Z; DShrink; DWrite (text "de")] = Fine (mk_dbuf (text "abcde") 6).
Proof.
  split; [|reflexivity]. cbn [careful_run careful].
  split; [left; reflexivity|]. intros b1 E1. vm_compute in E1. inversion E1; subst.
  split; [cbn; lia|]. intros b2 E2. vm_compute in E2. inversion E2; subst.
  split; [exact Logic.I|]. intros b3 E3. vm_compute in E3. inversion E3; subst.
  split; [right; cbn; lia|]. intros; exact Logic.I.
Qed.
