(** Buffered streams with a decorator (include/fast_io_freestanding_impl/io_buffer/input_deco.h, output_deco.h, main.h). *)
From Verif Require Import Base DecoModel DecoSpec DecoProofs.
Local Open Scope nat_scope.

(** Decorators for the examples: every unit becomes two, its quotient and remainder by 256; two units become one
    again; every zero is left out. *)
Definition two (x : Z) : list Z := [x / 256; x mod 256]%Z.
Definition split_units : decorator unit := Deco (fun n => 2 * n) (fun s x => (s, flat_map two x)).
Fixpoint join (s : option Z) (x : list Z) : option Z * list Z :=
  match x with
  | [] => (s, [])
  | z :: r => match s with
              | None => join (Some z) r
              | Some h => let '(s1, y) := join None r in (s1, (h * 256 + z)%Z :: y)
              end
  end.
Definition join_units : decorator (option Z) := Deco (fun n => n) join.
Definition drop_zeros : decorator unit := Deco (fun n => n) (fun s x => (s, filter (fun z => negb (z =? 0)%Z) x)).

Lemma split_chunked : chunked split_units.
Proof. split; [reflexivity|]. intros s a b. cbn [conv split_units]. rewrite flat_map_app. reflexivity. Qed.
Lemma split_announced : announced split_units.
Proof.
  intros s a n L. cbn [conv split_units snd size]. assert (E : length (flat_map two a) = 2 * length a)
    by (clear; induction a as [|z a IH]; [reflexivity|]; cbn [flat_map two app length]; rewrite IH; lia). lia.
Qed.
Lemma split_lively bfs : bfs <> 0 -> lively bfs split_units.
Proof. intros N s a L. destruct a; [cbn [length] in L; lia|]. cbn [conv split_units snd flat_map two app]. discriminate. Qed.

Lemma join_app : forall a s b, join s (a ++ b) = let '(s1, x) := join s a in let '(s2, y) := join s1 b in (s2, x ++ y).
Proof.
  induction a as [|z a IH]; intros s b; cbn [join app].
  - destruct (join s b). reflexivity.
  - destruct s as [h|].
    + rewrite IH. destruct (join None a) as [s1 x]. destruct (join s1 b) as [s2 y]. reflexivity.
    + apply IH.
Qed.
Lemma join_chunked : chunked join_units.
Proof. split; [reflexivity|]. intros s a b. apply join_app. Qed.
Lemma join_length : forall a s, length (snd (join s a)) <= length a.
Proof.
  induction a as [|z a IH]; intros s; cbn [join snd length]; [lia|]. destruct s as [h|].
  - specialize (IH None). destruct (join None a) as [s1 y]. cbn [snd length] in *. lia.
  - specialize (IH (Some z)). lia.
Qed.
Lemma join_announced : announced join_units.
Proof. intros s a n L. cbn [conv join_units size]. pose proof (join_length a s). lia. Qed.
Lemma join_lively bfs : 2 <= bfs -> lively bfs join_units.
Proof.
  intros N s a L. destruct a as [|x [|y a]]; cbn [length] in L; [lia|lia|]. cbn [conv join_units join]. destruct s as [h|].
  - destruct (join (Some y) a). discriminate.
  - destruct (join None a). discriminate.
Qed.
Lemma drop_chunked : chunked drop_zeros.
Proof. split; [reflexivity|]. intros s a b. cbn [conv drop_zeros]. rewrite filter_app. reflexivity. Qed.
Lemma drop_announced : announced drop_zeros.
Proof.
  intros s a n L. cbn [conv drop_zeros snd size]. assert (length (filter (fun z => negb (z =? 0)%Z) a) <= length a)
    by (clear; induction a as [|z a IH]; [auto|]; cbn [filter length]; destruct (negb (z =? 0)%Z); cbn [length]; lia). lia.
Qed.

(** * C146: reading a decorated stream gives the converted file *)

(** Whatever is read, in pieces of whatever sizes, by read and by scanning, with whatever pieces the device delivers: it
    is the beginning of the conversion of the file, nothing left out, nothing twice, and no buffer is overrun. *)
Theorem C146_text : forall St (d : decorator St) s0 bfs content pieces os, chunked d -> announced d -> bfs <> 0 -> delivers content pieces ->
  exists outs st more, irun bfs d os (opened s0 pieces) = Some (outs, st) /\ snd (conv d s0 content) = concat outs ++ more.
Proof.
  intros St d s0 bfs content pieces os C AN N D.
  destruct (irun_spec bfs d s0 content C AN N os _ [] (opened_reading d s0 content pieces C D)) as (outs & st & A & consumed & E1 & E2 & _).
  cbn [app] in E2. exists outs, st. destruct (conv d (istate_of st) (concat (dev st))) as [s2 y] eqn:E3. exists (unread st ++ y).
  split; [exact A|]. rewrite E1, (proj2 C), E2, E3. cbn [snd]. rewrite app_assoc. reflexivity.
Qed.
Print Assumptions C146_text.

(** read() gives no more than asked for; if it gives less, or a scan finds nothing, all of the file has been read -
    provided a full buffer of the file always converts to something; *)
Theorem C146_end_partial : forall St (d : decorator St) s0 bfs content pieces os outs st o x st', chunked d -> announced d -> bfs <> 0 ->
  delivers content pieces -> lively bfs d -> irun bfs d os (opened s0 pieces) = Some (outs, st) -> istep bfs d o st = Some (x, st') ->
  match o with op_read n => length x <= n /\ (length x < n -> concat outs ++ x = snd (conv d s0 content))
             | op_scan k => length x <= k /\ (k <> 0 -> x = [] -> concat outs = snd (conv d s0 content)) end.
Proof.
  intros St d s0 bfs content pieces os outs st o x st' C AN N D LV R E.
  destruct (irun_spec bfs d s0 content C AN N os _ [] (opened_reading d s0 content pieces C D)) as (outs' & st1 & A & W).
  rewrite R in A. injection A as <- <-. cbn [app] in W.
  assert (F : forall y, Reading d s0 content (concat outs ++ y) st' -> concat (dev st') = [] -> unread st' = [] -> concat outs ++ y = snd (conv d s0 content)).
  { intros y (consumed & E1 & E2 & _) X Y. rewrite X, app_nil_r in E1. subst consumed. rewrite E2, Y, app_nil_r. reflexivity. }
  destruct o as [n|k]; cbn [istep] in E.
  - destruct (read_spec bfs d s0 content n st (concat outs) C AN N W) as (y & st2 & A & B & L & T). rewrite E in A. injection A as <- <-.
    split; [exact L|]. intros LT. destruct (T LV LT) as (X & Y). exact (F x B X Y).
  - destruct (scan_spec bfs d s0 content k st (concat outs) C AN N W) as (y & st2 & A & B & L & T). rewrite E in A. injection A as <- <-.
    split; [exact L|]. intros K Z0. destruct (T LV K Z0) as (X & Y). specialize (F x B X Y). rewrite Z0, app_nil_r in F. exact F.
Qed.
Print Assumptions C146_end_partial.

(** otherwise a buffer that converts to nothing is taken for the end of the file, in read and in scanning, whatever the
    size of the buffer. *)
Theorem C146_end_refuted : forall bfs, bfs <> 0 -> exists d : decorator unit, chunked d /\ announced d /\ exists content pieces,
  delivers content pieces /\ snd (conv d tt content) = [1%Z] /\
  (exists st, read bfs d 1 (opened tt pieces) = Some ([], st)) /\ (exists st, scan bfs d 1 (opened tt pieces) = Some ([], st)).
Proof.
  intros bfs N. exists drop_zeros. split; [exact drop_chunked|]. split; [exact drop_announced|].
  exists (repeat 0%Z bfs ++ [1%Z]), [repeat 0%Z bfs ++ [1%Z]].
  assert (D : delivers (repeat 0%Z bfs ++ [1%Z]) [repeat 0%Z bfs ++ [1%Z]]).
  { split; [cbn [concat]; apply app_nil_r|]. constructor; [|constructor]. destruct bfs; discriminate. }
  split; [exact D|]. split.
  { cbn [conv drop_zeros snd]. rewrite filter_app. cbn [filter]. assert (E : filter (fun z => negb (z =? 0)%Z) (repeat 0%Z bfs) = [])
      by (clear; induction bfs as [|n IH]; [reflexivity|exact IH]). rewrite E. reflexivity. }
  destruct (fill_spec bfs bfs [repeat 0%Z bfs ++ [1%Z]] (le_n _) (proj2 D)) as (A & B & _). rewrite (proj1 D) in A, B.
  assert (A' : firstn bfs (repeat 0%Z bfs ++ [1%Z]) = repeat 0%Z bfs).
  { rewrite firstn_app, repeat_length, Nat.sub_diag, firstn_O, app_nil_r. apply firstn_all2. rewrite repeat_length. lia. }
  rewrite A' in A. destruct (fill bfs bfs [repeat 0%Z bfs ++ [1%Z]]) as [raw d1] eqn:E. cbn [fst snd] in A, B. subst raw.
  assert (F : filter (fun z => negb (z =? 0)%Z) (repeat 0%Z bfs) = []) by (clear; induction bfs as [|n IH]; [reflexivity|exact IH]).
  assert (G : exists r, repeat 0%Z bfs = 0%Z :: r) by (destruct bfs; [contradiction|eexists; reflexivity]). destruct G as (r & G).
  assert (LN : length (repeat 0%Z bfs) = bfs) by apply repeat_length.
  split.
  - unfold read, opened. cbn [unread length dev cap istate_of Nat.ltb Nat.leb Nat.sub]. cbn [read_loop Nat.eqb dev istate_of unread cap]. rewrite E.
    cbn [size conv drop_zeros]. rewrite F. rewrite LN. rewrite G. cbv zeta. cbn [length].
    assert (T : (bfs <? 1) = false) by (apply Nat.ltb_ge; lia). rewrite T.
    destruct (if 0 <? bfs then bfs else 0); eexists; reflexivity.
  - unfold scan, underflow, opened. cbn [unread dev cap istate_of]. rewrite E. cbn [size conv drop_zeros]. rewrite F, LN, G. cbv zeta. cbn [length].
    destruct (if 0 <? bfs then bfs else 0); eexists; reflexivity.
Qed.
Print Assumptions C146_end_refuted.

Example C146_example : chunked join_units /\ announced join_units /\ lively 2 join_units /\
  delivers [1; 2; 0; 7; 3; 4; 9]%Z [[1]; [2; 0; 7]; [3; 4; 9]]%Z /\
  option_map fst (irun 3 join_units [op_scan 5; op_read 1; op_read 2; op_scan 1] (opened None [[1]; [2; 0; 7]; [3; 4; 9]]%Z)) =
    Some [[258]; [7]; [772]; []]%Z.
Proof.
  split; [exact join_chunked|]. split; [exact join_announced|]. split; [apply join_lively; lia|].
  split; [split; [reflexivity|repeat constructor; discriminate]|reflexivity].
Qed.

(** * C147: what is printed to a decorated stream is converted once, in order *)

(** After any writes of any sizes, with or without a buffer, and the end of the stream, the device has received the
    conversion of all of the text; no buffer is overrun. *)
Theorem C147_file : forall St (d : decorator St) s0 direct bfs os, chunked d -> announced d -> bfs <> 0 ->
  exists st st', orun direct bfs d os (created s0) = Some st /\ close direct bfs d st = Some st' /\
    concat (written st') = snd (conv d s0 (concat (map text_of os))).
Proof.
  intros St d s0 direct bfs os C AN N.
  destruct (orun_spec direct bfs d s0 C AN N os [] (created s0) (created_writing bfs d s0 C) (fun _ => eq_refl)) as (st & A & B & O).
  destruct (close_spec direct bfs d s0 _ st C AN N B O) as (st' & D & E). exists st, st'. cbn [app] in E. rewrite E. auto.
Qed.
Print Assumptions C147_file.

(** At any time before, it has received the conversion of a beginning of the text, and what it has not is at most a
    buffer. *)
Theorem C147_before : forall St (d : decorator St) s0 direct bfs os st, chunked d -> announced d -> bfs <> 0 ->
  orun direct bfs d os (created s0) = Some st ->
  exists sent rest, concat (map text_of os) = sent ++ rest /\ concat (written st) = snd (conv d s0 sent) /\ length rest <= bfs /\
    (direct = true -> rest = []).
Proof.
  intros St d s0 direct bfs os st C AN N R.
  destruct (orun_spec direct bfs d s0 C AN N os [] (created s0) (created_writing bfs d s0 C) (fun _ => eq_refl)) as (st1 & A & (sent & E & F & _ & L) & O).
  rewrite R in A. injection A as <-. exists sent, (held st). cbn [app] in E. rewrite F. repeat split; auto. intros Q. unfold held. rewrite (O Q). reflexivity.
Qed.
Print Assumptions C147_before.

(** So what was printed through one decorator and is read to the end through one that undoes it, with any sizes on both
    sides, is the text. *)
Theorem C147_round_trip : forall St Su (e : decorator St) s0 (d : decorator Su) u0 direct bfs bfs' os st st' pieces ops outs st1 n x st2,
  chunked e -> announced e -> bfs <> 0 -> chunked d -> announced d -> bfs' <> 0 -> lively bfs' d ->
  snd (conv d u0 (snd (conv e s0 (concat (map text_of os))))) = concat (map text_of os) ->
  orun direct bfs e os (created s0) = Some st -> close direct bfs e st = Some st' -> delivers (concat (written st')) pieces ->
  irun bfs' d ops (opened u0 pieces) = Some (outs, st1) -> istep bfs' d (op_read n) st1 = Some (x, st2) -> length x < n ->
  concat outs ++ x = concat (map text_of os).
Proof.
  intros St Su e s0 d u0 direct bfs bfs' os st st' pieces ops outs st1 n x st2 C AN N C' AN' N' LV I R K D R' E L.
  destruct (C147_file St e s0 direct bfs os C AN N) as (a & b & A & B & W). rewrite R in A. injection A as <-. rewrite K in B. injection B as <-.
  destruct (C146_end_partial Su d u0 bfs' _ pieces ops outs st1 (op_read n) x st2 C' AN' N' D LV R' E) as (_ & F).
  rewrite (F L), W. exact I.
Qed.
Print Assumptions C147_round_trip.

Example C147_example : chunked split_units /\ announced split_units /\
  (match orun false 4 split_units [op_write [258; 7]; op_write [772; 1; 2]; op_overflow 5; op_write [6; 7; 8; 9; 10; 11; 12; 13; 14]]%Z (created tt) with
   | Some st => option_map written (close false 4 split_units st) | None => None end) =
  Some [[1; 2; 0; 7; 3; 4; 0; 1]; [0; 2]; [0; 5; 0; 6; 0; 7; 0; 8]; [0; 9; 0; 10; 0; 11; 0; 12]; [0; 13; 0; 14]]%Z /\
  snd (conv join_units None (snd (conv split_units tt [258; 7; 772]%Z))) = [258; 7; 772]%Z.
Proof. split; [exact split_chunked|]. split; [exact split_announced|]. split; reflexivity. Qed.

(** * C148: after a write that failed, the end of the stream writes what was printed before *)

(** True if the decorator keeps no state. *)
Theorem C148_failed_write_partial : forall St (d : decorator St) s0 bfs os x st, chunked d -> announced d -> bfs <> 0 ->
  (forall s a, fst (conv d s a) = s) -> orun false bfs d os (created s0) = Some st ->
  exists st', close false bfs d (write_throws bfs d x st) = Some st' /\ concat (written st') = snd (conv d s0 (concat (map text_of os))).
Proof.
  intros St d s0 bfs os x st C AN N H R.
  destruct (orun_spec false bfs d s0 C AN N os [] (created s0) (created_writing bfs d s0 C) (fun _ => eq_refl)) as (st1 & A & W & _).
  rewrite R in A. injection A as <-. cbn [app] in W.
  assert (V : Writing bfs d s0 (concat (map text_of os)) (write_throws bfs d x st)).
  { destruct W as (sent & E & F & G & L). exists sent. unfold write_throws, first_write_throws, held in *. cbv zeta.
    destruct (obuf st) as [b|]; cbn [obuf ext ostate_of written]; rewrite H.
    - split; [exact E|]. split; [exact F|]. split; [|exact L]. intros e X. injection X as <-. destruct (ext st) as [f|]; [apply G; reflexivity|reflexivity].
    - split; [exact E|]. split; [exact F|]. split; [|exact L]. intros e X. injection X as <-. destruct (ext st) as [f|]; [apply G; reflexivity|reflexivity]. }
  destruct (close_spec false bfs d s0 _ _ C AN N V ltac:(discriminate)) as (st' & D & E). exists st'. rewrite E. auto.
Qed.
Print Assumptions C148_failed_write_partial.

(** False otherwise: the text is converted a second time, with the state the first time left. *)
Theorem C148_failed_write_refuted : chunked join_units /\ announced join_units /\ exists st st',
  orun false 3 join_units [op_write [1; 2]%Z] (created None) = Some st /\
  close false 3 join_units (write_throws 3 join_units [3; 4]%Z st) = Some st' /\
  snd (conv join_units None [1; 2]%Z) = [258]%Z /\ concat (written st') = [769]%Z.
Proof. split; [exact join_chunked|]. split; [exact join_announced|]. eexists _, _. repeat split; reflexivity. Qed.
Print Assumptions C148_failed_write_refuted.

Example C148_example : (forall s a, fst (conv split_units s a) = s) /\
  exists st', close false 3 split_units (write_throws 3 split_units [3; 4]%Z (OS (Some [1; 2]%Z) None tt [])) = Some st' /\
    written st' = [[0; 1; 0; 2]]%Z.
Proof. split; [reflexivity|]. eexists. split; reflexivity. Qed.
