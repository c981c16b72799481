(** Proofs about the conversion loops, chunking and sizes. *)
From Verif Require Import Base ByteSpec LebeModel UtfTables UtfSpec UtfModel IntPrintModel IntPrintProofs IntScanModel IntScanProofs Leb128Model Leb128Proofs ByteProofs UtfProofs.
Ltac Zify.zify_post_hook ::= Z.div_mod_to_equations.

Lemma dfa_mono s : forall cd st c r t, utf8_dfa cd st s = Some (c, r) -> utf8_dfa cd st (s ++ t) = Some (c, r ++ t).
Proof.
  induction s as [|u s IH]; intros cd st c r t H; cbn [utf8_dfa app] in *.
  - destruct (12 <? st) eqn:E; [discriminate|]. injection H as <- <-. destruct t; cbn [utf8_dfa]; rewrite E; reflexivity.
  - destruct (12 <? st) eqn:E; [apply IH, H|]. injection H as <- <-. reflexivity.
Qed.
Lemma advance_mono s c r t : utf8_advance s = Some (c, r) -> utf8_advance (s ++ t) = Some (c, r ++ t).
Proof. destruct s as [|b s]; [discriminate|]. cbn [utf8_advance app]. apply dfa_mono. Qed.

Lemma dfa_local s : forall cd st c r, utf8_dfa cd st s = Some (c, r) -> exists p, s = p ++ r /\ utf8_dfa cd st p = Some (c, []).
Proof.
  induction s as [|u s IH]; intros cd st c r H; cbn [utf8_dfa] in H.
  - destruct (12 <? st) eqn:E; [discriminate|]. injection H as <- <-. exists []. split; [reflexivity|]. cbn [utf8_dfa]. rewrite E. reflexivity.
  - destruct (12 <? st) eqn:E.
    + apply IH in H as (p & -> & H). exists (u :: p). split; [reflexivity|]. cbn [utf8_dfa]. rewrite E. exact H.
    + injection H as <- <-. exists []. split; [reflexivity|]. cbn [utf8_dfa]. rewrite E. reflexivity.
Qed.
Lemma advance_local s c r : utf8_advance s = Some (c, r) -> exists p, p <> [] /\ s = p ++ r /\ utf8_advance p = Some (c, []).
Proof.
  destruct s as [|b s]; [discriminate|]. cbn [utf8_advance]. intros H. apply dfa_local in H as (p & -> & H).
  exists (b :: p). split; [discriminate|]. split; [reflexivity|exact H].
Qed.

Lemma utf8_length c : (1 <= length (utf8 c) <= 4)%nat.
Proof. unfold utf8. destruct (c <? 128), (c <? 2048), (c <? 65536); cbn [length]; lia. Qed.
Lemma advance_consumes s c r : Forall is_byte s -> utf8_advance s = Some (c, r) -> (length r < length s <= length r + 4)%nat.
Proof.
  intros Hs H. apply advance_sound in H as [[_ ->]|[_ (bad & -> & N & L & _)]]; [| |exact Hs].
  - rewrite app_length. pose proof (utf8_length c). lia.
  - rewrite app_length. destruct bad; [contradiction|]. cbn [length] in *. lia.
Qed.
Lemma advance_bytes s c r : Forall is_byte s -> utf8_advance s = Some (c, r) -> Forall is_byte r.
Proof. intros Hs H. apply advance_local in H as (p & _ & -> & _). apply Forall_app in Hs as [_ Hs]. exact Hs. Qed.
Lemma advance_scalar s c r : Forall is_byte s -> utf8_advance s = Some (c, r) -> scalar c.
Proof. intros Hs H. apply advance_sound in H as [[S _]|[-> _]]; [exact S|split; lia|exact Hs]. Qed.

Lemma wf8_seq_length p : wf8_seq p -> (1 <= length p <= 4)%nat.
Proof. intros H. destruct H; cbn [length]; lia. Qed.
Lemma wf8_seq_bytes p : wf8_seq p -> Forall is_byte p.
Proof. intros H. apply wf8_seq_utf8 in H as (c & S & ->). apply utf8_bytes, S. Qed.

Lemma prefix_none s : wf8_prefix s -> utf8_advance s = None.
Proof.
  intros (N & t & Ht & W). destruct (utf8_advance s) as [[c r]|] eqn:E; [|reflexivity]. exfalso.
  apply (advance_mono s c r t) in E. apply wf8_seq_utf8 in W as (c' & S & W). rewrite W in E.
  pose proof (advance_utf8 c' [] S (Forall_nil _)) as E'. rewrite app_nil_r in E'. rewrite E' in E. injection E as _ E.
  destruct r; destruct t; try discriminate. contradiction.
Qed.

Lemma none_prefix s : Forall is_byte s -> s <> [] -> utf8_advance s = None -> wf8_prefix s.
Proof.
  intros Hs N H. split; [exact N|]. destruct Hs as [|b s Hb Hs]; [contradiction|]. rewrite advance_cases in H by assumption. unfold is_byte in Hb.
  repeat match type of H with (if ?x then _ else _) = _ => let E := fresh "E" in destruct x eqn:E end; zbool; try discriminate;
  unfold need3, need2, need1 in H;
  repeat match type of H with
   | match ?s with [] => _ | _ :: _ => _ end = None => destruct s as [|? ?]
   | (if ?x then _ else _) = None => let E := fresh "R" in destruct x eqn:E; [apply rng_spec in E|apply rng_f in E]
   end; try discriminate; cbn [app];
  first [ exists [128]; split; [discriminate|]; cbn [app]; first [apply wf8_2; lia | apply wf3; lia | apply wf4; lia]
        | exists [128; 128]; split; [discriminate|]; cbn [app]; first [apply wf3; lia | apply wf4; lia]
        | exists [160; 128]; split; [discriminate|]; cbn [app]; first [apply wf3; lia | apply wf4; lia]
        | exists [128; 128; 128]; split; [discriminate|]; cbn [app]; apply wf4; lia
        | exists [144; 128; 128]; split; [discriminate|]; cbn [app]; apply wf4; lia ].
Qed.

Lemma none_short s : Forall is_byte s -> utf8_advance s = None -> (length s <= 3)%nat.
Proof.
  intros Hs H. destruct s as [|b s]; [cbn; lia|]. apply none_prefix in H as (_ & t & Ht & W); [|exact Hs|discriminate].
  apply wf8_seq_length in W. rewrite app_length in W. destruct t; [contradiction|]. cbn [length] in *. lia.
Qed.

(** ** The scalar loop as a function of the text *)
Definition dec8 (cw : Z) (nat : bool) (s : list Z) := u8_loop (length s) cw nat s.

Lemma sw_units32 nat c : get_utf_code_units 32 nat c = [sw nat 32 c]. Proof. reflexivity. Qed.
Lemma sw_units_ascii cw nat b : In cw [16; 32] -> 0 <= b < 128 -> get_utf_code_units cw nat b = [sw nat cw b].
Proof.
  intros [<-|[<-|[]]] H; [|reflexivity]. unfold get_utf_code_units. change (16 =? 32) with false. change (16 =? 16) with true. cbv iota.
  rewrite (proj2 (Z.ltb_lt b 65536)) by lia. rewrite wrap_small by (change (2 ^ 16) with 65536; lia). reflexivity.
Qed.
Lemma out_units cw nat c : In cw [16; 32] -> (if cw =? 32 then [sw nat 32 c] else get_utf_code_units cw nat c) = get_utf_code_units cw nat c.
Proof. intros [<-|[<-|[]]]; reflexivity. Qed.

Lemma advance_ascii b s : 0 <= b < 128 -> utf8_advance (b :: s) = Some (b, s).
Proof.
  intros H. cbn [utf8_advance]. assert (Hb : is_byte b) by (unfold is_byte; lia). rewrite first_state by exact Hb.
  pose proof (first_cdpt b Hb) as Hc. unfold first_class in *. rewrite (proj2 (Z.ltb_lt b 128)) in * by lia. cbn [fst snd] in *.
  rewrite Hc by lia. apply dfa_end0.
Qed.

Lemma loop_fuel cw nat : In cw [16; 32] -> forall f s, Forall is_byte s -> (length s <= f)%nat ->
  u8_loop f cw nat s = match utf8_advance s with
    | None => ([], s) | Some (code, s2) => let '(o, r) := dec8 cw nat s2 in (get_utf_code_units cw nat code ++ o, r) end.
Proof.
  intros Hcw. induction f as [f IH] using lt_wf_ind. intros s Hs Hf. destruct f as [|f].
  { destruct s; [reflexivity|cbn in Hf; lia]. }
  destruct s as [|b s]; [reflexivity|]. cbn [u8_loop].
  assert (Hstep : forall s2, Forall is_byte s2 -> (length s2 <= f)%nat -> u8_loop f cw nat s2 = dec8 cw nat s2).
  { intros s2 H2 L2. rewrite (IH f) by (assumption || lia). change (dec8 cw nat s2) with (u8_loop (length s2) cw nat s2). symmetry. apply IH; [lia|exact H2|lia]. }
  destruct (b <? 128) eqn:E; zbool.
  - pose proof (Forall_inv Hs) as Hb. unfold is_byte in Hb. rewrite advance_ascii by lia. apply Forall_inv_tail in Hs. cbn [length] in Hf.
    rewrite Hstep by (assumption || lia). destruct (dec8 cw nat s) as [o r]. rewrite sw_units_ascii by (assumption || lia). reflexivity.
  - destruct (utf8_advance (b :: s)) as [[code s2]|] eqn:A; [|reflexivity]. pose proof (advance_consumes _ _ _ Hs A) as L. cbn [length] in L, Hf.
    pose proof (advance_bytes _ _ _ Hs A) as Hs2. rewrite Hstep by (assumption || lia). destruct (dec8 cw nat s2) as [o r].
    rewrite out_units by exact Hcw. reflexivity.
Qed.

Lemma dec8_step cw nat s : In cw [16; 32] -> Forall is_byte s ->
  dec8 cw nat s = match utf8_advance s with
    | None => ([], s) | Some (code, s2) => let '(o, r) := dec8 cw nat s2 in (get_utf_code_units cw nat code ++ o, r) end.
Proof. intros Hcw Hs. apply loop_fuel; [exact Hcw|exact Hs|lia]. Qed.

(** Induction over the characters of a byte string. *)
Lemma dec8_ind (P : list Z -> Prop) :
  (forall s, Forall is_byte s -> utf8_advance s = None -> P s) ->
  (forall s c r, Forall is_byte s -> utf8_advance s = Some (c, r) -> P r -> P s) ->
  forall s, Forall is_byte s -> P s.
Proof.
  intros H0 H1 s. remember (length s) as n eqn:En. revert s En. induction n as [n IH] using lt_wf_ind. intros s -> Hs.
  destruct (utf8_advance s) as [[c r]|] eqn:A; [|apply H0; assumption].
  eapply H1; [exact Hs|exact A|]. eapply IH; [|reflexivity|]; [apply (advance_consumes s c r Hs A)|apply (advance_bytes s c r Hs A)].
Qed.

(** What is left over is empty or an unfinished character. *)
Lemma dec8_left cw nat s o r : In cw [16; 32] -> Forall is_byte s -> dec8 cw nat s = (o, r) -> Forall is_byte r /\ utf8_advance r = None.
Proof.
  intros Hcw Hs. revert o r. revert s Hs. apply (dec8_ind (fun s => forall o r, dec8 cw nat s = (o, r) -> Forall is_byte r /\ utf8_advance r = None)); [intros s Hs A|intros s c r0 Hs A IH]; intros o r H; rewrite dec8_step in H by assumption; rewrite A in H.
  - injection H as <- <-. split; assumption.
  - destruct (dec8 cw nat r0) as [o' r'] eqn:D. injection H as <- <-. eapply IH, eq_refl.
Qed.

Lemma dec8_app cw nat s t : In cw [16; 32] -> Forall is_byte s -> Forall is_byte t ->
  dec8 cw nat (s ++ t) = let '(o, r) := dec8 cw nat s in let '(o2, r2) := dec8 cw nat (r ++ t) in (o ++ o2, r2).
Proof.
  intros Hcw Hs Ht. revert s Hs. apply (dec8_ind (fun s => dec8 cw nat (s ++ t) = let '(o, r) := dec8 cw nat s in let '(o2, r2) := dec8 cw nat (r ++ t) in (o ++ o2, r2))); [intros s Hs A|intros s c r0 Hs A IH].
  - rewrite (dec8_step cw nat s) by assumption. rewrite A. destruct (dec8 cw nat (s ++ t)); reflexivity.
  - rewrite (dec8_step cw nat s) by assumption. rewrite A. rewrite (dec8_step cw nat (s ++ t)) by (try apply Forall_app; auto).
    rewrite (advance_mono s c r0 t A), IH. destruct (dec8 cw nat r0) as [o r]. destruct (dec8 cw nat (r ++ t)) as [o2 r2]. rewrite app_assoc. reflexivity.
Qed.

(** ** The SSE loop *)
Lemma ascii_run_le n : forall s, (ascii_run n s <= length s)%nat.
Proof. induction n as [|n IH]; intros [|b s]; cbn; try lia. destruct (b <? 128); [specialize (IH s)|]; lia. Qed.
Lemma ascii_run_16 n : forall s, (ascii_run n s <= n)%nat.
Proof. induction n as [|n IH]; intros [|b s]; cbn; try lia. destruct (b <? 128); [specialize (IH s)|]; lia. Qed.
Lemma ascii_run_dec cw n : In cw [16; 32] -> forall s, Forall is_byte s ->
  dec8 cw true s = let k := ascii_run n s in let '(o, r) := dec8 cw true (skipn k s) in (firstn k s ++ o, r).
Proof.
  intros Hcw. induction n as [|n IH]; intros s Hs; cbn [ascii_run]; [cbn [skipn firstn app]; destruct (dec8 cw true s); reflexivity|].
  destruct Hs as [|b s Hb Hs]; [reflexivity|]. destruct (b <? 128) eqn:E; zbool; [|cbn zeta; cbn [skipn firstn app]; destruct (dec8 cw true (b :: s)); reflexivity].
  unfold is_byte in Hb. cbn zeta. cbn [skipn firstn]. rewrite (dec8_step cw true (b :: s)) by (first [exact Hcw|constructor; [unfold is_byte; lia|exact Hs]]).
  rewrite advance_ascii by lia. rewrite (IH s Hs). cbn zeta. destruct (dec8 cw true (skipn (ascii_run n s) s)).
  rewrite sw_units_ascii by (assumption || lia). reflexivity.
Qed.

Lemma sse_loop_dec cw : In cw [16; 32] -> forall f s, Forall is_byte s ->
  dec8 cw true s = let '(o, r) := u8_sse_loop f cw true s in let '(o2, r2) := dec8 cw true r in (o ++ o2, r2).
Proof.
  intros Hcw. induction f as [|f IH]; intros s Hs; cbn [u8_sse_loop]; [destruct (dec8 cw true s); reflexivity|].
  destruct (16 <? zlen s) eqn:E; [|destruct (dec8 cw true s); reflexivity]. destruct s as [|b s]; [reflexivity|].
  destruct (b <? 128) eqn:Eb.
  - rewrite (ascii_run_dec cw 16 Hcw (b :: s) Hs). cbn zeta.
    assert (Hsk : Forall is_byte (skipn (ascii_run 16 (b :: s)) (b :: s))).
    { rewrite <- (firstn_skipn (ascii_run 16 (b :: s)) (b :: s)) in Hs. apply Forall_app in Hs as [_ Hs]. exact Hs. }
    rewrite (IH _ Hsk). destruct (u8_sse_loop f cw true _) as [o r]. destruct (dec8 cw true r) as [o2 r2]. rewrite app_assoc. reflexivity.
  - rewrite (dec8_step cw true (b :: s)) by assumption. destruct (utf8_advance (b :: s)) as [[c r0]|] eqn:A.
    + pose proof (advance_bytes _ _ _ Hs A) as Hr. rewrite (IH r0 Hr). destruct (u8_sse_loop f cw true r0) as [o r]. destruct (dec8 cw true r) as [o2 r2].
      rewrite app_assoc. pose proof (out_units cw true c Hcw) as Q. cbn [sw] in Q. rewrite Q. reflexivity.
    + cbn [app]. rewrite (dec8_step cw true (b :: s)) by assumption. rewrite A. reflexivity.
Qed.

Lemma sse_loop_bytes cw : forall f s, Forall is_byte s -> Forall is_byte (snd (u8_sse_loop f cw true s)).
Proof.
  induction f as [|f IH]; intros s Hs; cbn [u8_sse_loop]; [exact Hs|].
  destruct (16 <? zlen s); [|exact Hs]. destruct s as [|b s]; [exact Hs|]. destruct (b <? 128).
  - assert (Hsk : Forall is_byte (skipn (ascii_run 16 (b :: s)) (b :: s))).
    { rewrite <- (firstn_skipn (ascii_run 16 (b :: s)) (b :: s)) in Hs. apply Forall_app in Hs as [_ Hs]. exact Hs. }
    specialize (IH _ Hsk). cbn zeta. destruct (u8_sse_loop f cw true _). exact IH.
  - destruct (utf8_advance (b :: s)) as [[c r0]|] eqn:A; [|exact Hs]. specialize (IH _ (advance_bytes _ _ _ Hs A)). destruct (u8_sse_loop f cw true r0). exact IH.
Qed.

Lemma cvt8_dec sse cw s : In cw [16; 32] -> Forall is_byte s -> cvt8 sse cw true s = dec8 cw true s.
Proof.
  intros Hcw Hs. unfold cvt8. destruct sse.
  - rewrite (sse_loop_dec cw Hcw (length s) s Hs). destruct (u8_sse_loop (length s) cw true s) as [o1 s1]. unfold dec8. destruct (u8_loop (length s1) cw true s1). reflexivity.
  - unfold dec8. destruct (u8_loop (length s) cw true s). reflexivity.
Qed.
Lemma cvt8_dec_nosse cw nat s : cvt8 false cw nat s = dec8 cw nat s.
Proof. unfold cvt8, dec8. destruct (u8_loop (length s) cw nat s). reflexivity. Qed.

(** ** Chunks, UTF-8 source *)
Lemma skipn_app_exact {A} (p r : list A) n : length p = n -> skipn n (p ++ r) = r.
Proof. intros <-. rewrite skipn_app, skipn_all, Nat.sub_diag. reflexivity. Qed.

Lemma state8_step cw nat st s : In cw [16; 32] -> Forall is_byte st -> Forall is_byte s -> utf8_advance st = None ->
  cvt8_state false cw nat st s = dec8 cw nat (st ++ s).
Proof.
  intros Hcw Hst Hs Hn. unfold cvt8_state. destruct st as [|b st]; [rewrite cvt8_dec_nosse; destruct (dec8 cw nat s) eqn:D; cbn [app]; rewrite D; reflexivity|].
  set (S0 := b :: st) in *. destruct s as [|u s].
  { rewrite app_nil_r. rewrite dec8_step by assumption. rewrite Hn. reflexivity. }
  set (S1 := u :: s) in *. set (take := Nat.min (length S1) (8 - length S0)). cbn zeta.
  assert (H1 : Forall is_byte (firstn take S1)) by (rewrite <- (firstn_skipn take S1) in Hs; apply Forall_app in Hs as [Hs _]; exact Hs).
  assert (HB : Forall is_byte (S0 ++ firstn take S1)) by (apply Forall_app; auto).
  pose proof (none_short S0 Hst Hn) as L0.
  rewrite dec8_step by (try apply Forall_app; auto).
  destruct (utf8_advance (S0 ++ firstn take S1)) as [[c rest]|] eqn:A.
  - assert (E : S0 ++ S1 = (S0 ++ firstn take S1) ++ skipn take S1) by (rewrite <- app_assoc, firstn_skipn; reflexivity).
    rewrite E, (advance_mono _ _ _ (skipn take S1) A). rewrite cvt8_dec_nosse.
    rewrite out_units by exact Hcw. f_equal.
    destruct (advance_local _ _ _ A) as (p & Np & Ep & Ap).
    assert (Lp : (length S0 <= length p)%nat).
    { destruct (le_lt_dec (length S0) (length p)) as [|Hlt]; [assumption|]. exfalso.
      assert (EQ : S0 = p ++ firstn (length S0 - length p) rest).
      { assert (Q : firstn (length S0) (S0 ++ firstn take S1) = firstn (length S0) (p ++ rest)) by (rewrite Ep; reflexivity).
        rewrite firstn_app, firstn_all, Nat.sub_diag, firstn_O, app_nil_r in Q. rewrite firstn_app in Q.
        rewrite (firstn_all2 p) in Q by lia. exact Q. }
      apply (advance_mono _ _ _ (firstn (length S0 - length p) rest)) in Ap. rewrite <- EQ in Ap. congruence. }
    assert (ES : p ++ (rest ++ skipn take S1) = S0 ++ S1) by (rewrite app_assoc, <- Ep; symmetry; exact E).
    assert (Q : skipn (length (S0 ++ firstn take S1) - length rest - length S0) S1 = rest ++ skipn take S1).
    { assert (LL : (length (S0 ++ firstn take S1) - length rest - length S0 = length p - length S0)%nat) by (rewrite Ep, app_length; lia).
      rewrite LL. assert (QQ : skipn (length p) (S0 ++ S1) = rest ++ skipn take S1) by (rewrite <- ES; apply skipn_app_exact; reflexivity).
      rewrite skipn_app in QQ. rewrite (skipn_all2 S0) in QQ by lia. exact QQ. }
    rewrite Q. reflexivity.
  - pose proof (none_short _ HB A) as LB. rewrite app_length, firstn_length in LB.
    assert (ET : take = length S1) by (unfold take in *; lia). rewrite ET, firstn_all in A |- *. rewrite A. reflexivity.
Qed.

Lemma state8_sse sse cw st s : In cw [16; 32] -> Forall is_byte st -> Forall is_byte s -> utf8_advance st = None ->
  cvt8_state sse cw true st s = cvt8_state false cw true st s.
Proof.
  intros Hcw Hst Hs Hn. unfold cvt8_state. destruct st as [|b st]; [rewrite !cvt8_dec by assumption; reflexivity|].
  destruct s as [|u s]; [reflexivity|]. cbv zeta. match goal with |- match ?x with _ => _ end = _ => destruct x as [[c rest]|] end; [|reflexivity].
  set (n := (_ - _ - _)%nat). assert (H2 : Forall is_byte (skipn n (u :: s))) by (rewrite <- (firstn_skipn n (u :: s)) in Hs; apply Forall_app in Hs as [_ Hs]; exact Hs).
  rewrite !cvt8_dec by assumption. reflexivity.
Qed.

Lemma run8 sse cw nat : In cw [16; 32] -> sse = false \/ nat = true -> forall chunks st, Forall is_byte st -> utf8_advance st = None -> Forall (Forall is_byte) chunks ->
  run_chunks (cvt8_state sse cw nat) st chunks = dec8 cw nat (st ++ concat chunks).
Proof.
  intros Hcw Hd. induction chunks as [|c cs IH]; intros st Hst Hn Hc.
  - cbn [run_chunks concat]. rewrite app_nil_r, dec8_step by assumption. rewrite Hn. reflexivity.
  - cbn [run_chunks concat]. inversion Hc as [|? ? Hc1 Hcs]; subst.
    assert (E : cvt8_state sse cw nat st c = dec8 cw nat (st ++ c)).
    { destruct Hd as [->| ->]; [|rewrite state8_sse by assumption]; apply state8_step; assumption. }
    rewrite E. assert (HB : Forall is_byte (st ++ c)) by (apply Forall_app; auto).
    assert (HCs : Forall is_byte (concat cs)) by (clear - Hcs; induction Hcs; cbn [concat]; [constructor|apply Forall_app; auto]).
    destruct (dec8 cw nat (st ++ c)) as [o st'] eqn:D. destruct (dec8_left _ _ _ _ _ Hcw HB D) as [Hst' Hn'].
    rewrite (IH st' Hst' Hn' Hcs). rewrite app_assoc, (dec8_app cw nat (st ++ c) (concat cs)) by assumption. rewrite D. reflexivity.
Qed.

(** ** Well-formed UTF-8 text *)
Lemma dec8_text cw nat cs rest : In cw [16; 32] -> Forall scalar cs -> Forall is_byte rest ->
  dec8 cw nat (utf_text 8 cs ++ rest) = let '(o, r) := dec8 cw nat rest in (flat_map (get_utf_code_units cw nat) cs ++ o, r).
Proof.
  intros Hcw Hcs Hr. induction Hcs as [|c cs Hc Hcs IH]; [cbn [flat_map utf_text]; unfold utf_text; cbn [flat_map app]; destruct (dec8 cw nat rest); reflexivity|].
  unfold utf_text in *. cbn [flat_map]. change (utf_units 8 c) with (utf8 c). rewrite <- app_assoc.
  assert (HT : Forall is_byte (flat_map (utf_units 8) cs)) by (apply Forall_flat_map; eapply Forall_impl; [|exact Hcs]; intros; apply utf8_bytes; assumption).
  rewrite dec8_step; [|exact Hcw|apply Forall_app; split; [apply utf8_bytes, Hc|apply Forall_app; split; assumption]].
  rewrite advance_utf8; [|exact Hc|apply Forall_app; split; assumption]. rewrite IH. destruct (dec8 cw nat rest). rewrite app_assoc. reflexivity.
Qed.

(** ** UTF-16 source *)

Lemma surr_spec u : is_u16 u -> is_surrogate u = ((55296 <=? u) && (u <=? 57343)).
Proof.
  unfold is_u16, is_surrogate. intros H. destruct (Z_le_dec 55296 u).
  - rewrite wrap_small by (change (2 ^ 32) with 4294967296; lia). rewrite (proj2 (Z.leb_le 55296 u)) by lia. cbn [andb].
    destruct (Z.ltb_spec (u - 55296) 2048), (Z.leb_spec u 57343); try lia; reflexivity.
  - rewrite (proj2 (Z.leb_gt 55296 u)) by lia. cbn [andb]. unfold wrap. change (2 ^ 32) with 4294967296. apply Z.ltb_ge. lia.
Qed.
Lemma land_hi u : is_u16 u -> Z.land u 4294966272 = u / 1024 * 1024.
Proof.
  unfold is_u16. intros H. replace 4294966272 with (Z.shiftl (Z.ones 22) 10) by reflexivity.
  replace (u / 1024 * 1024) with (Z.shiftl (Z.shiftr u 10) 10) by (rewrite Z.shiftl_mul_pow2, Z.shiftr_div_pow2 by lia; reflexivity).
  apply Z.bits_inj'. intros n Hn. rewrite Z.land_spec. destruct (Z_lt_dec n 10).
  - rewrite !Z.shiftl_spec_low by lia. apply andb_false_r.
  - rewrite !Z.shiftl_spec by lia. rewrite Z.shiftr_spec by lia. replace (n - 10 + 10) with n by lia.
    destruct (Z_lt_dec n 32). { rewrite Z.ones_spec_low by lia. apply andb_true_r. }
    rewrite Z.ones_spec_high by lia. rewrite andb_false_r. symmetry.
    destruct (Z.eq_dec u 0) as [->|]; [apply Z.bits_0|]. apply Z.bits_above_log2; [lia|].
    apply Z.log2_lt_pow2; [lia|]. apply Z.lt_le_trans with (2 ^ 32); [change (2 ^ 32) with 4294967296; lia|apply Z.pow_le_mono_r; lia].
Qed.
Lemma high_spec u : is_u16 u -> is_high u = ((55296 <=? u) && (u <=? 56319)).
Proof.
  intros H. unfold is_high. rewrite land_hi by exact H. unfold is_u16 in H.
  destruct (Z.eqb_spec (u / 1024 * 1024) 55296), (Z.leb_spec 55296 u), (Z.leb_spec u 56319); cbn [andb]; try reflexivity; lia.
Qed.
Lemma low_spec u : is_u16 u -> is_low u = ((56320 <=? u) && (u <=? 57343)).
Proof.
  intros H. unfold is_low. rewrite land_hi by exact H. unfold is_u16 in H.
  destruct (Z.eqb_spec (u / 1024 * 1024) 56320), (Z.leb_spec 56320 u), (Z.leb_spec u 57343); cbn [andb]; try reflexivity; lia.
Qed.


Lemma surr_pair h l : hi_unit h -> lo_unit l -> surrogate_to_utf32 h l = 65536 + (h - 55296) * 1024 + (l - 56320).
Proof.
  unfold hi_unit, lo_unit, surrogate_to_utf32. intros Hh Hl. rewrite Z.shiftl_mul_pow2 by lia. change (2 ^ 10) with 1024.
  rewrite (wrap_small 32 (h * 1024)) by (change (2 ^ 32) with 4294967296; lia). rewrite wrap_small by (change (2 ^ 32) with 4294967296; lia). lia.
Qed.
Lemma pair_utf16 h l : hi_unit h -> lo_unit l -> let c := 65536 + (h - 55296) * 1024 + (l - 56320) in utf16 c = [h; l] /\ scalar c /\ 65536 <= c.
Proof.
  unfold hi_unit, lo_unit. intros Hh Hl. cbv zeta. set (c := 65536 + (h - 55296) * 1024 + (l - 56320)). assert (65536 <= c <= 1114111) by lia.
  split; [|split; [split|]; lia]. unfold utf16. rewrite (proj2 (Z.ltb_ge c 65536)) by lia. unfold c. f_equal; [lia|f_equal; lia].
Qed.

(** Scalars denoted by arbitrary UTF-16 text as the library reads it: a high surrogate takes the next unit with it. *)
Inductive step16 : list Z -> Z -> list Z -> Prop :=
| st_bmp u s : is_u16 u -> ~ (55296 <= u <= 57343) -> step16 (u :: s) u s
| st_pair h l s : hi_unit h -> lo_unit l -> step16 (h :: l :: s) (65536 + (h - 55296) * 1024 + (l - 56320)) s
| st_hi_bad h l s : hi_unit h -> ~ lo_unit l -> step16 (h :: l :: s) 65533 s
| st_lo_bad l s : lo_unit l -> step16 (l :: s) 65533 s.

Lemma surr_false u : is_u16 u -> ~ (55296 <= u <= 57343) -> is_surrogate u = false.
Proof. intros H N. rewrite surr_spec by exact H. destruct (Z.leb_spec 55296 u), (Z.leb_spec u 57343); try reflexivity; lia. Qed.
Lemma surr_true u : 55296 <= u <= 57343 -> is_surrogate u = true.
Proof. intros H. rewrite surr_spec by (unfold is_u16; lia). rewrite (proj2 (Z.leb_le 55296 u)), (proj2 (Z.leb_le u 57343)) by lia. reflexivity. Qed.
Lemma high_true u : hi_unit u -> is_high u = true.
Proof. unfold hi_unit. intros H. rewrite high_spec by (unfold is_u16; lia). rewrite (proj2 (Z.leb_le 55296 u)), (proj2 (Z.leb_le u 56319)) by lia. reflexivity. Qed.
Lemma high_false u : lo_unit u -> is_high u = false.
Proof. unfold lo_unit. intros H. rewrite high_spec by (unfold is_u16; lia). rewrite (proj2 (Z.leb_gt u 56319)) by lia. apply andb_false_r. Qed.
Lemma low_true u : lo_unit u -> is_low u = true.
Proof. unfold lo_unit. intros H. rewrite low_spec by (unfold is_u16; lia). rewrite (proj2 (Z.leb_le 56320 u)), (proj2 (Z.leb_le u 57343)) by lia. reflexivity. Qed.
Lemma low_false u : is_u16 u -> ~ lo_unit u -> is_low u = false.
Proof. intros H N. rewrite low_spec by exact H. unfold lo_unit in N. destruct (Z.leb_spec 56320 u), (Z.leb_spec u 57343); try reflexivity; lia. Qed.

Lemma invalid_spec cw : In cw [8; 16; 32] -> invalid_units cw true = utf_units cw 65533.
Proof. intros [<-|[<-|[<-|[]]]]; reflexivity. Qed.

Lemma units_out16 cw c : In cw [8; 32] -> 0 <= c <= 1114111 -> (if cw =? 32 then [c] else get_utf_code_units cw true c) = utf_units cw c.
Proof. intros [<-|[<-|[]]] H; [apply units8_spec, H|reflexivity]. Qed.

Lemma cvt16_step cw s c s' : In cw [8; 32] -> Forall is_u16 s -> step16 s c s' ->
  scalar c /\ cvt16 true cw true s = (let '(o, r) := cvt16 true cw true s' in (utf_units cw c ++ o, r)).
Proof.
  intros Hcw Hs H. assert (Hcw' : In cw [8; 16; 32]) by (destruct Hcw as [<-|[<-|[]]]; cbn; auto). destruct H as [u s Hu N|h l s Hh Hl|h l s Hh Hl|l s Hl].
  - split; [split; [unfold is_u16 in Hu; lia|exact N]|]. cbn [cvt16 sw Bool.eqb]. rewrite surr_false by assumption. destruct (cvt16 true cw true s).
    rewrite units_out16 by (unfold is_u16 in Hu; assumption || lia). reflexivity.
  - pose proof (pair_utf16 h l Hh Hl) as (_ & S & _). split; [exact S|]. cbn [cvt16 sw]. rewrite surr_true by (unfold hi_unit in Hh; lia).
    rewrite high_true, low_true by assumption. rewrite surr_pair by assumption. destruct (cvt16 true cw true s). rewrite units_out16 by (assumption || apply S). reflexivity.
  - split; [split; lia|]. cbn [cvt16 sw]. rewrite surr_true by (unfold hi_unit in Hh; lia). inversion Hs as [|? ? H1 H2]; subst. inversion H2; subst.
    rewrite high_true, low_false by assumption. destruct (cvt16 true cw true s). rewrite invalid_spec by assumption. reflexivity.
  - split; [split; lia|]. cbn [cvt16 sw]. rewrite surr_true by (unfold lo_unit in Hl; lia). rewrite high_false by assumption. destruct (cvt16 true cw true s). rewrite invalid_spec by assumption. reflexivity.
Qed.

Lemma step16_total s : Forall is_u16 s -> s = [] \/ (exists h, hi_unit h /\ s = [h]) \/ exists c s', step16 s c s' /\ (length s' < length s)%nat /\ Forall is_u16 s'.
Proof.
  intros Hs. destruct Hs as [|u s Hu Hs]; [left; reflexivity|right]. unfold is_u16 in Hu. destruct (Z_le_dec 55296 u), (Z_le_dec u 57343).
  - destruct (Z_le_dec u 56319).
    + assert (Hh : hi_unit u) by (unfold hi_unit; lia). destruct s as [|v s]; [left; exists u; auto|right]. inversion Hs; subst.
      destruct (Z_le_dec 56320 v), (Z_le_dec v 57343);
      [exists (65536 + (u - 55296) * 1024 + (v - 56320)), s; split; [apply st_pair; [exact Hh|unfold lo_unit; lia]|cbn; split; [lia|assumption]]|..];
      exists 65533, s; (split; [apply st_hi_bad; [exact Hh|unfold lo_unit; lia]|cbn; split; [lia|assumption]]).
    + right. exists 65533, s. split; [apply st_lo_bad; unfold lo_unit; lia|cbn; split; [lia|assumption]].
  - right. exists u, s. split; [apply st_bmp; [exact Hu|lia]|cbn; split; [lia|assumption]].
  - right. exists u, s. split; [apply st_bmp; [exact Hu|lia]|cbn; split; [lia|assumption]].
  - right. exists u, s. split; [apply st_bmp; [exact Hu|lia]|cbn; split; [lia|assumption]].
Qed.

Lemma cvt16_out cw : In cw [8; 32] -> forall s, Forall is_u16 s ->
  exists cs, Forall scalar cs /\ (length cs <= length s)%nat /\
    (cvt16 true cw true s = (utf_text cw cs, []) \/ exists h, hi_unit h /\ (length cs < length s)%nat /\ cvt16 true cw true s = (utf_text cw cs, [h])).
Proof.
  intros Hcw s. remember (length s) as n eqn:En. revert s En. induction n as [n IH] using lt_wf_ind. intros s -> Hs.
  destruct (step16_total s Hs) as [->|[(h & Hh & ->)|(c & s' & St & L & Hs')]].
  - exists []. repeat split; [constructor|cbn; lia|left; reflexivity].
  - exists []. repeat split; [constructor|cbn; lia|right]. exists h. split; [exact Hh|]. split; [cbn; lia|]. cbn [cvt16 sw]. rewrite surr_true by (unfold hi_unit in Hh; lia). rewrite high_true by exact Hh. reflexivity.
  - destruct (cvt16_step cw s c s' Hcw Hs St) as [Sc E]. destruct (IH (length s') L s' eq_refl Hs') as (cs & Hcs & Lc & D).
    exists (c :: cs). split; [constructor; assumption|]. split; [cbn [length]; lia|].
    destruct D as [D|(h & Hh & L2 & D)]; rewrite E, D; [left|right; exists h; split; [exact Hh|split; [cbn [length]; lia|]]]; reflexivity.
Qed.

(** Well-formed UTF-16 text. *)
Lemma cvt16_text cw cs rest : In cw [8; 32] -> Forall scalar cs -> Forall is_u16 rest ->
  cvt16 true cw true (utf_text 16 cs ++ rest) = let '(o, r) := cvt16 true cw true rest in (utf_text cw cs ++ o, r).
Proof.
  intros Hcw Hcs Hr. induction Hcs as [|c cs Hc Hcs IH]; [unfold utf_text; cbn [flat_map app]; destruct (cvt16 true cw true rest); reflexivity|].
  unfold utf_text in *. cbn [flat_map]. change (utf_units 16 c) with (utf16 c). rewrite <- app_assoc.
  assert (HT : Forall is_u16 (flat_map (utf_units 16) cs ++ rest)).
  { apply Forall_app. split; [|exact Hr]. apply Forall_flat_map. eapply Forall_impl; [|exact Hcs]. intros a [Ha _]. change (utf_units 16 a) with (utf16 a).
    unfold utf16. destruct (a <? 65536) eqn:E; zbool; repeat constructor; unfold is_u16; lia. }
  destruct Hc as [Hc Hn]. assert (Sc : scalar c) by (split; assumption).
  assert (HS : step16 (utf16 c ++ flat_map (utf_units 16) cs ++ rest) c (flat_map (utf_units 16) cs ++ rest) /\ Forall is_u16 (utf16 c)).
  { unfold utf16. destruct (c <? 65536) eqn:E; zbool.
    - split; [apply st_bmp; [unfold is_u16|]; lia|repeat constructor; lia].
    - split; [|repeat constructor; lia]. cbn [app]. pattern c at 3. replace c with (65536 + (55296 + (c - 65536) / 1024 - 55296) * 1024 + (56320 + (c - 65536) mod 1024 - 56320)) by lia.
      apply st_pair; [unfold hi_unit|unfold lo_unit]; lia. }
  destruct HS as [HS HU]. destruct (cvt16_step cw _ _ _ Hcw (proj2 (Forall_app _ _ _) (conj HU HT)) HS) as [_ E]. rewrite E, IH. destruct (cvt16 true cw true rest). rewrite app_assoc. reflexivity.
Qed.
