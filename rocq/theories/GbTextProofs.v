(** Proofs about texts converted to and from GB18030. *)
From Verif Require Import Base ByteSpec UtfSpec UtfModel UtfProofs UtfLoopProofs GbSpec GbTables GbModel GbProofs.

Definition dest_ok (d : dest) : Prop := match d with ToUtf cw => In cw [8; 16; 32] | ToGb => True end.

(** ** One character *)
Lemma step_scalar s u r : gb_step s u r -> scalar u.
Proof. destruct 1; try assumption; split; lia. Qed.
Lemma advance8_spec src s : Forall is_byte s -> s <> [] ->
  exists r, advance8 src s = Some r /\ match r with None => (length s <= 3)%nat | Some (u, s2) => scalar u /\ exists p, p <> [] /\ s = p ++ s2 end.
Proof.
  intros Hs Ne. destruct src; cbn [advance8].
  - exists (utf8_advance s). split; [reflexivity|]. destruct (utf8_advance s) as [[u s2]|] eqn:E.
    + split; [exact (advance_scalar _ _ _ Hs E)|]. destruct (advance_local _ _ _ E) as (p & P1 & P2 & _). exists p. auto.
    + apply none_short; assumption.
  - destruct (advance_cases_gb s Hs Ne) as [(u & n & E & G & N & L)|(E & U)]; rewrite E; cbn [option_map fst snd]; eexists; (split; [reflexivity|]); cbn iota.
    + split; [exact (step_scalar _ _ _ G)|]. exists (firstn n s). split; [|symmetry; apply firstn_skipn]. destruct s; [contradiction|]. destruct n; [lia|]. discriminate.
    + destruct s as [|a [|b [|c [|d s]]]]; cbn [length gb_unfinished] in *; lia || contradiction.
Qed.
Lemma advance8_ascii src b s : 0 <= b < 0x80 -> advance8 src (b :: s) = Some (Some (b, s)).
Proof.
  intros Hb. destruct src; cbn [advance8].
  - rewrite advance_ascii by exact Hb. reflexivity.
  - unfold gb_advance, advance_checked. cbn [nth_error]. destruct (Z.ltb_spec b 0x80); [|lia]. reflexivity.
Qed.
Lemma gb_agree s : Forall is_byte s -> (4 <= length s)%nat -> exists u n, gb_advance s = Some (Some (u, n)) /\ gb_advance_unchecked s = Some (u, n).
Proof.
  intros Hs L. destruct (advance_cases_gb s Hs ltac:(destruct s; [cbn in L; lia|discriminate])) as [(u & n & E & _)|(E & U)].
  - exists u, n. split; [exact E|]. unfold gb_advance in E. rewrite advance_agree in E by exact L. fold (gb_advance_unchecked s) in E. destruct (gb_advance_unchecked s) as [r|]; [|discriminate]. cbn in E. congruence.
  - destruct s as [|a [|b [|c [|d s]]]]; cbn [length gb_unfinished] in *; lia || contradiction.
Qed.
Lemma advance8_unchecked_eq src s : Forall is_byte s -> (4 <= length s)%nat -> advance8_unchecked src s = advance8 src s.
Proof.
  intros Hs L. destruct src; [reflexivity|]. cbn [advance8 advance8_unchecked]. destruct (gb_agree s Hs L) as (u & n & -> & ->). reflexivity.
Qed.
Lemma advance8_mono src s u r t : Forall is_byte s -> s <> [] -> advance8 src s = Some (Some (u, r)) -> advance8 src (s ++ t) = Some (Some (u, r ++ t)).
Proof.
  intros Hs Ne. destruct src; cbn [advance8].
  - intros E. assert (E' : utf8_advance s = Some (u, r)) by congruence. rewrite (UtfLoopProofs.advance_mono _ _ _ t E'). reflexivity.
  - destruct (advance_cases_gb s Hs Ne) as [(x & n & E & _ & N & L)|(E & _)]; rewrite E; [|discriminate]. unfold gb_advance in *. rewrite (GbProofs.advance_mono _ _ _ t _ _ E). cbn [option_map fst snd]. intros Q.
    rewrite skipn_app. replace (n - length s)%nat with O by lia. cbn [skipn]. congruence.
Qed.

Lemma put_ascii d b : dest_ok d -> 0 <= b < 0x80 -> put d b = Some [b].
Proof.
  intros Hd Hb. destruct d as [cw|]; cbn [put].
  - destruct (cw =? 32) eqn:E; [reflexivity|]. rewrite units_spec by (auto; lia). unfold utf_units, utf8, utf16. destruct Hd as [<-|[<-|[<-|[]]]]; cbn [Z.eqb Pos.eqb]; [zcase; reflexivity|zcase; reflexivity|reflexivity].
  - apply encode_ascii. lia.
Qed.
Lemma put_utf cw u : In cw [8; 16; 32] -> scalar u -> put (ToUtf cw) u = Some (utf_units cw u).
Proof.
  intros Hd [Hu _]. cbn [put]. rewrite <- (units_spec cw u Hd Hu). destruct (Z.eqb_spec cw 32) as [->|]; [|reflexivity]. rewrite units_spec by (auto; lia). reflexivity.
Qed.
Lemma put_total d u : dest_ok d -> scalar u -> exists o, put d u = Some o.
Proof.
  intros Hd Hu. destruct d as [cw|]; [rewrite put_utf by assumption; eauto|]. destruct Hu as [Hu _]. destruct (encode_total u ltac:(lia)) as (bs & E & _). exists bs. exact E.
Qed.

(** ** The scalar loop *)
Definition whole (src : source8) (d : dest) (s : list Z) : option (list Z * list Z) := c8_loop (length s) src d s.
Lemma loop_step f src d s : Forall is_byte s -> dest_ok d -> s <> [] ->
  c8_loop (S f) src d s = match advance8 src s with
                          | Some (Some (u, s2)) => match put d u with Some o => emit o (c8_loop f src d s2) | None => None end
                          | _ => Some ([], s) end.
Proof.
  intros Hs Hd Ne. cbn [c8_loop]. destruct s as [|b s]; [contradiction|]. destruct (Z.ltb_spec b 0x80) as [L|L].
  - assert (Hb : is_byte b) by (inversion Hs; assumption). unfold is_byte in Hb. rewrite advance8_ascii by lia. rewrite put_ascii by (auto; lia). reflexivity.
  - destruct (advance8_spec src (b :: s) Hs Ne) as (r & -> & R). destruct r as [[u s2]|]; reflexivity.
Qed.
Lemma bytes_tail p r s : Forall is_byte s -> s = p ++ r -> Forall is_byte r.
Proof. intros H ->. apply Forall_app in H. apply H. Qed.
Lemma loop_fuel8 src d : dest_ok d -> forall f s, Forall is_byte s -> (length s <= f)%nat -> c8_loop f src d s = whole src d s.
Proof.
  intros Hd. unfold whole. assert (G : forall f g s, Forall is_byte s -> (length s <= f)%nat -> (length s <= g)%nat -> c8_loop f src d s = c8_loop g src d s).
  2: { intros f s Hs L. apply G; auto. }
  induction f as [|f IH]; intros g s Hs Lf Lg.
  - destruct s; [|cbn in Lf; lia]. destruct g; reflexivity.
  - destruct s as [|b s]; [destruct g; reflexivity|]. destruct g as [|g]; [cbn in Lg; lia|]. rewrite !loop_step by (auto; discriminate).
    destruct (advance8_spec src (b :: s) Hs ltac:(discriminate)) as (r & -> & R). destruct r as [[u s2]|]; [|reflexivity]. destruct R as [_ (p & Np & E)].
    assert (L2 : (length s2 < length (b :: s))%nat) by (rewrite E, app_length; destruct p; [contradiction|cbn; lia]).
    destruct (put d u); [|reflexivity]. rewrite (IH g s2); [reflexivity| |cbn in *; lia|cbn in *; lia]. exact (bytes_tail _ _ _ Hs E).
Qed.
Lemma whole_step src d s : Forall is_byte s -> dest_ok d -> s <> [] ->
  whole src d s = match advance8 src s with
                  | Some (Some (u, s2)) => match put d u with Some o => emit o (whole src d s2) | None => None end
                  | _ => Some ([], s) end.
Proof.
  intros Hs Hd Ne. unfold whole at 1. destruct s as [|b s]; [contradiction|]. cbn [length]. rewrite loop_step by auto.
  destruct (advance8_spec src (b :: s) Hs Ne) as (r & -> & R). destruct r as [[u s2]|]; [|reflexivity]. destruct R as [_ (p & Np & E)].
  assert (L2 : (length s2 < length (b :: s))%nat) by (rewrite E, app_length; destruct p; [contradiction|cbn; lia]).
  destruct (put d u); [|reflexivity]. rewrite loop_fuel8; [reflexivity|exact Hd|exact (bytes_tail _ _ _ Hs E)|cbn in L2; lia].
Qed.
Lemma emit_app a b r : emit (a ++ b) r = emit a (emit b r).
Proof. unfold emit. destruct r as [[o l]|]; [|reflexivity]. cbn. rewrite app_assoc. reflexivity. Qed.
Lemma emit_nil r : emit [] r = r.
Proof. unfold emit. destruct r as [[o l]|]; reflexivity. Qed.
Lemma whole_ascii src d k : dest_ok d -> forall s, Forall is_byte s -> whole src d s = emit (firstn (ascii_run k s) s) (whole src d (skipn (ascii_run k s) s)).
Proof.
  intros Hd. induction k as [|k IH]; intros s Hs; [cbn; rewrite emit_nil; reflexivity|]. destruct s as [|b s]; [reflexivity|]. cbn [ascii_run].
  destruct (Z.ltb_spec b 128) as [L|L]; [|cbn; rewrite emit_nil; reflexivity]. cbn [firstn skipn]. assert (Hb : is_byte b) by (inversion Hs; assumption). unfold is_byte in Hb.
  rewrite whole_step by (auto; discriminate). rewrite advance8_ascii by lia. rewrite put_ascii by (auto; lia). rewrite (IH s) by (inversion Hs; assumption). rewrite <- emit_app. reflexivity.
Qed.
(** The vector loop does not change the result. *)
Lemma sse_same src d : dest_ok d -> forall f s, Forall is_byte s ->
  exists o s1, c8_sse_loop f src d s = Some (o, s1) /\ whole src d s = emit o (whole src d s1) /\ Forall is_byte s1.
Proof.
  intros Hd. induction f as [|f IH]; intros s Hs; cbn [c8_sse_loop]; [exists [], s; rewrite emit_nil; auto|].
  destruct (Nat.ltb_spec 16 (length s)) as [L|L]; [|exists [], s; rewrite emit_nil; auto]. destruct s as [|b s]; [cbn in L; lia|].
  destruct (Z.ltb_spec b 0x80).
  - cbv zeta. set (k := ascii_run 16 (b :: s)). destruct (IH (skipn k (b :: s))) as (o & s1 & E & W & B).
    { apply (bytes_tail (firstn k (b :: s)) _ (b :: s) Hs). symmetry. apply firstn_skipn. }
    rewrite E. exists (firstn k (b :: s) ++ o), s1. split; [reflexivity|]. split; [|exact B]. rewrite (whole_ascii src d 16 Hd _ Hs). fold k. rewrite W, emit_app. reflexivity.
  - rewrite advance8_unchecked_eq by (auto; cbn in *; lia). rewrite whole_step by (auto; discriminate).
    destruct (advance8_spec src (b :: s) Hs ltac:(discriminate)) as (r & -> & R). destruct r as [[u s2]|]; [|cbn in *; lia]. destruct R as [Su (p & Np & E)].
    destruct (put_total d u Hd Su) as (o & ->). destruct (IH s2) as (o1 & s1 & E1 & W & B); [exact (bytes_tail _ _ _ Hs E)|]. rewrite E1. exists (o ++ o1), s1. split; [reflexivity|]. split; [|exact B]. rewrite W, emit_app. reflexivity.
Qed.
Lemma convert8_whole sse src d s : dest_ok d -> Forall is_byte s -> convert8 sse src d s = whole src d s.
Proof.
  intros Hd Hs. unfold convert8. destruct sse; [|rewrite emit_nil; reflexivity]. destruct (sse_same src d Hd (length s) s Hs) as (o & s1 & -> & W & B). exact (eq_sym W).
Qed.

(** ** What a text is converted to *)
(** [reads src s cs left]: the code points read and the bytes left over. *)
Inductive reads (src : source8) : list Z -> list Z -> list Z -> Prop :=
| reads_end : reads src [] [] []
| reads_left s : s <> [] -> advance8 src s = Some None -> reads src s [] s
| reads_char s u s2 cs left : s <> [] -> advance8 src s = Some (Some (u, s2)) -> scalar u -> reads src s2 cs left -> reads src s (u :: cs) left.
Fixpoint puts (d : dest) (cs : list Z) : option (list Z) :=
  match cs with [] => Some [] | c :: cs' => match put d c, puts d cs' with Some a, Some b => Some (a ++ b) | _, _ => None end end.
Lemma puts_utf cw cs : In cw [8; 16; 32] -> Forall scalar cs -> puts (ToUtf cw) cs = Some (utf_text cw cs).
Proof. intros Hw H. induction H as [|c cs Hc H IH]; [reflexivity|]. cbn [puts]. rewrite put_utf, IH by assumption. reflexivity. Qed.
Lemma whole_reads src s : Forall is_byte s -> exists cs left, reads src s cs left /\ Forall scalar cs /\
  forall d, dest_ok d -> exists o, puts d cs = Some o /\ whole src d s = Some (o, left).
Proof.
  remember (length s) as n eqn:En. revert s En. induction n as [n IH] using lt_wf_ind. intros s En Hs. destruct s as [|b s].
  - exists [], []. split; [constructor|]. split; [constructor|]. intros d Hd. exists []. auto.
  - destruct (advance8_spec src (b :: s) Hs ltac:(discriminate)) as (r & E & R). destruct r as [[u s2]|].
    + destruct R as [Su (p & Np & Ep)]. assert (L2 : (length s2 < length (b :: s))%nat) by (rewrite Ep, app_length; destruct p; [contradiction|cbn; lia]).
      destruct (IH (length s2) ltac:(lia) s2 eq_refl (bytes_tail _ _ _ Hs Ep)) as (cs & left & Rd & Sc & W). exists (u :: cs), left.
      split; [apply (reads_char src (b :: s) u s2); auto; discriminate|]. split; [constructor; assumption|]. intros d Hd. destruct (W d Hd) as (o & P & W'). destruct (put_total d u Hd Su) as (a & A).
      exists (a ++ o). cbn [puts]. rewrite A, P. split; [reflexivity|]. rewrite whole_step by (auto; discriminate). rewrite E, A, W'. reflexivity.
    + exists [], (b :: s). split; [apply reads_left; [discriminate|exact E]|]. split; [constructor|]. intros d Hd. exists []. split; [reflexivity|]. rewrite whole_step by (auto; discriminate). rewrite E. reflexivity.
Qed.
Lemma reads_det src s cs left : reads src s cs left -> forall cs' left', reads src s cs' left' -> cs = cs' /\ left = left'.
Proof.
  induction 1 as [|s N E|s u s2 cs left N E Su R IH]; intros cs' left' R'; inversion R' as [|s' N' E'|s' u' t' cs'' left'' N' E' Su' R'']; subst; try contradiction; try congruence; auto.
  assert (s2 = t' /\ u = u') as [-> ->] by (split; congruence). destruct (IH _ _ R'') as [-> ->]. auto.
Qed.
Lemma reads_app src s cs : reads src s cs [] -> Forall is_byte s -> forall t cs' left, reads src t cs' left -> reads src (s ++ t) (cs ++ cs') left.
Proof.
  intros R. remember [] as l eqn:El. induction R as [|s N E|s u s2 cs left N E Su R IH]; intros Hs t cs' left' R'; [exact R'|contradiction|].
  destruct (advance8_spec src s Hs N) as (r & E2 & P). rewrite E in E2. assert (r = Some (u, s2)) by congruence. subst r. destruct P as [_ (p & Np & Ep)].
  cbn [app]. apply (reads_char src (s ++ t) u (s2 ++ t)); [destruct s; [contradiction|discriminate]|apply advance8_mono; assumption|exact Su|]. apply IH; [exact El|exact (bytes_tail _ _ _ Hs Ep)|exact R'].
Qed.

(** ** Chunks *)
Local Ltac peel := repeat (cbv zeta; match goal with
  | |- Some None = Some (Some _) -> _ => discriminate
  | |- None = _ -> _ => discriminate
  | |- Some (Some _) = Some None -> _ => discriminate
  | |- Some (Some _) = Some (Some _) -> _ => intros [= <- <-]; cbn [length]; lia
  | |- option_map _ ?x = _ -> _ => destruct x; cbn [option_map]
  | |- (if ?c then _ else _) = _ -> _ => destruct c
  | |- (match ?c with Some _ => _ | None => _ end) = _ -> _ => destruct c end).
Lemma advance_none_extend st x u n : st <> [] -> gb_advance st = Some None -> gb_advance (st ++ x) = Some (Some (u, n)) -> (length st <= n)%nat.
Proof.
  intros Ne. unfold gb_advance, advance_checked. destruct st as [|a st]; [contradiction|]. cbn [nth_error app length].
  destruct (a <? 0x80); [discriminate|]. destruct (a =? 0x80); [discriminate|]. destruct (a =? 0xFF); [discriminate|].
  destruct st as [|b st]; [intros _; peel|].
  cbn [nth_error app length Nat.ltb Nat.leb].
  destruct (b =? 0x7F); [discriminate|]. destruct (wrap 8 (b - 0x40) <? 0xFF - 0x40); [cbv zeta; destruct (table_at gb_to_uni2 _); discriminate|]. destruct ((b <? 0x30) || (b =? 0xFF)); [discriminate|].
  destruct st as [|c st]; [intros _; peel|]. destruct st as [|d st]; [intros _; peel|].
  cbn [nth_error app length Nat.ltb Nat.leb]. destruct (_ <=? _); [discriminate|]. destruct (_ <=? _); [discriminate|]. destruct (index_code _ _); discriminate.
Qed.
(** What may be kept between calls. *)
Definition pending (st : list Z) : Prop := Forall is_byte st /\ (st = [] \/ gb_advance st = Some None).
Lemma gb_none_short s : Forall is_byte s -> s <> [] -> gb_advance s = Some None -> (length s <= 3)%nat /\ gb_unfinished s.
Proof.
  intros Hs Ne E. destruct (advance_cases_gb s Hs Ne) as [(u & n & E' & _)|(_ & U)]; [congruence|]. split; [|exact U].
  destruct s as [|a [|b [|c [|d s]]]]; cbn [length gb_unfinished] in *; lia || contradiction.
Qed.
Lemma state_whole sse d st s : dest_ok d -> pending st -> Forall is_byte s -> gb_state sse d st s = whole FromGb d (st ++ s).
Proof.
  intros Hd [Hst P] Hs. assert (Hb : Forall is_byte (st ++ s)) by (apply Forall_app; auto). destruct st as [|a st]; [apply convert8_whole; assumption|].
  destruct P as [P|P]; [discriminate|]. destruct (gb_none_short _ Hst ltac:(discriminate) P) as [L3 _].
  unfold gb_state. destruct s as [|b s].
  { rewrite app_nil_r. rewrite whole_step by (auto; discriminate). cbn [advance8]. rewrite P. reflexivity. }
  cbv zeta. set (take := Nat.min (length (b :: s)) (8 - length (a :: st))). set (x := firstn take (b :: s)).
  assert (Sx : b :: s = x ++ skipn take (b :: s)) by (symmetry; apply firstn_skipn).
  assert (Hbx : Forall is_byte ((a :: st) ++ x)). { apply Forall_app. split; [exact Hst|]. rewrite Sx in Hs. apply Forall_app in Hs. apply Hs. }
  rewrite whole_step by (auto; discriminate). cbn [advance8].
  destruct (advance_cases_gb _ Hbx ltac:(discriminate)) as [(u & n & E & G & N & Ln)|(E & U)]; rewrite E.
  - assert (E2 : gb_advance ((a :: st) ++ b :: s) = Some (Some (u, n))). { rewrite Sx, app_assoc. unfold gb_advance in *. apply GbProofs.advance_mono, E. }
    rewrite E2. cbn [option_map fst snd]. pose proof (advance_none_extend (a :: st) _ _ _ ltac:(discriminate) P E) as Lst.
    destruct (put d u) as [o|]; [|reflexivity]. f_equal. rewrite skipn_app. replace (skipn n (a :: st)) with (@nil Z) by (symmetry; apply skipn_all2; exact Lst). cbn [app].
    apply convert8_whole; [exact Hd|]. apply (bytes_tail (firstn (n - length (a :: st)) (b :: s)) _ (b :: s) Hs). symmetry. apply firstn_skipn.
  - destruct (gb_none_short _ Hbx ltac:(discriminate) E) as [L4 _]. rewrite app_length in L4. unfold x in L4. rewrite firstn_length in L4.
    assert (Ex : x = b :: s). { unfold x. apply firstn_all2. unfold take in *. cbn [length] in *. lia. }
    rewrite Ex in *. rewrite E. reflexivity.
Qed.
Lemma reads_left_ok s cs left : reads FromGb s cs left -> Forall is_byte s -> pending left.
Proof.
  induction 1 as [|s N E|s u s2 cs left N E Su R IH]; intros Hs.
  - split; [constructor|left; reflexivity].
  - split; [exact Hs|right]. cbn [advance8] in E. destruct (gb_advance s) as [[r|]|]; [discriminate|reflexivity|discriminate].
  - destruct (advance8_spec FromGb s Hs N) as (r & E2 & P). rewrite E in E2. assert (r = Some (u, s2)) by congruence. subst r. destruct P as [_ (p & Np & Ep)]. exact (IH (bytes_tail _ _ _ Hs Ep)).
Qed.
(** A text continued: what was read stays, the rest continues with the bytes left over. *)
Lemma whole_app d s t o left : dest_ok d -> Forall is_byte s -> Forall is_byte t -> whole FromGb d s = Some (o, left) -> whole FromGb d (s ++ t) = emit o (whole FromGb d (left ++ t)).
Proof.
  intros Hd. remember (length s) as n eqn:En. revert s o left En. induction n as [n IH] using lt_wf_ind. intros s o left En Hs Ht W. destruct s as [|b s].
  - assert (o = [] /\ left = []) as [-> ->] by (cbv in W; split; congruence). rewrite emit_nil. reflexivity.
  - rewrite whole_step in W by (auto; discriminate). destruct (advance8_spec FromGb (b :: s) Hs ltac:(discriminate)) as (r & E & R). rewrite E in W. destruct r as [[u s2]|].
    + destruct R as [Su (p & Np & Ep)]. assert (L2 : (length s2 < length (b :: s))%nat) by (rewrite Ep, app_length; destruct p; [contradiction|cbn; lia]).
      destruct (put_total d u Hd Su) as (a & A). rewrite A in W. destruct (whole FromGb d s2) as [[o2 l2]|] eqn:W2; [|discriminate]. cbn in W.
      assert (o = a ++ o2 /\ left = l2) as [-> ->] by (split; congruence). rewrite whole_step; [|apply Forall_app; auto|exact Hd|discriminate].
      rewrite (advance8_mono FromGb (b :: s) u s2 t Hs ltac:(discriminate) E), A. rewrite (IH (length s2) ltac:(lia) s2 o2 l2 eq_refl (bytes_tail _ _ _ Hs Ep) Ht W2). rewrite emit_app. reflexivity.
    + assert (o = [] /\ left = b :: s) as [-> ->] by (split; congruence). rewrite emit_nil. reflexivity.
Qed.
Lemma whole_left d s o left : dest_ok d -> Forall is_byte s -> whole FromGb d s = Some (o, left) -> pending left.
Proof.
  intros Hd Hs W. destruct (whole_reads FromGb s Hs) as (cs & l & R & _ & H). destruct (H d Hd) as (o' & _ & W'). assert (l = left) by congruence. subst l. exact (reads_left_ok _ _ _ R Hs).
Qed.
Lemma chunks_whole sse d : dest_ok d -> forall chunks st, Forall (Forall is_byte) chunks -> pending st -> gb_chunks sse d st chunks = whole FromGb d (st ++ concat chunks).
Proof.
  intros Hd. induction chunks as [|c cs IH]; intros st Hc P.
  - cbn [gb_chunks concat]. rewrite app_nil_r. destruct P as [Hst [->|E]]; [reflexivity|]. destruct st as [|a st]; [reflexivity|]. rewrite whole_step by (auto; discriminate). cbn [advance8]. rewrite E. reflexivity.
  - inversion Hc as [|? ? Hc1 Hc2]; subst. cbn [gb_chunks concat]. rewrite state_whole by assumption. destruct P as [Hst P].
    assert (Hb : Forall is_byte (st ++ c)) by (apply Forall_app; auto).
    assert (Hcs : Forall is_byte (concat cs)) by (clear - Hc2; induction Hc2; cbn [concat]; [constructor|apply Forall_app; auto]).
    destruct (whole_reads FromGb (st ++ c) Hb) as (us & l & R & _ & H). destruct (H d Hd) as (o & _ & W). rewrite W. rewrite app_assoc. rewrite (whole_app d (st ++ c) (concat cs) o l Hd Hb Hcs W).
    rewrite IH; [reflexivity|exact Hc2|exact (whole_left d _ _ _ Hd Hb W)].
Qed.
