From Verif Require Import Base CharModel CharSpec.
Open Scope Z_scope.

(** * C38: character classification and case mapping *)

Lemma switch_spec : forall ch cases, switch ch cases = true <-> In ch cases.
Proof.
  intros ch cases. unfold switch. rewrite existsb_exists. split.
  - intros [x [Hx E]]. apply Z.eqb_eq in E. subst. exact Hx.
  - intros H. exists ch. split; [exact H|apply Z.eqb_refl].
Qed.

Lemma low_cases : forall (P : Z -> Prop) (dec : Z -> bool) (cases : list Z),
  (forall c, dec c = true <-> P c) ->
  (forall c, P c -> 0 <= c < 128) ->
  forallb (fun i => Bool.eqb (dec (Z.of_nat i)) (switch (Z.of_nat i) cases)) (seq 0 128) = true ->
  forallb (fun c => (0 <=? c) && (c <? 128)) cases = true ->
  forall ch, switch ch cases = true <-> P ch.
Proof.
  intros P dec cases Hdec Hlow Htab Hall ch.
  rewrite forallb_forall in Htab. rewrite forallb_forall in Hall.
  assert (K : 0 <= ch < 128 -> dec ch = switch ch cases).
  { intros H. specialize (Htab (Z.to_nat ch)).
    rewrite Z2Nat.id in Htab by lia.
    apply Bool.eqb_prop. apply Htab. apply in_seq. lia. }
  split.
  - intros H. assert (H' : 0 <= ch < 128).
    { apply switch_spec in H. specialize (Hall _ H). apply andb_prop in Hall. lia. }
    apply Hdec. rewrite K by exact H'. exact H.
  - intros H. rewrite <- (K (Hlow _ H)). apply Hdec. exact H.
Qed.

Ltac dec_range :=
  intros c; unfold C_punct, C_graph, C_print, C_xdigit, C_alnum, C_alpha, C_upper, C_lower, C_digit;
  rewrite ?andb_true_iff, ?orb_true_iff, ?negb_true_iff, ?orb_false_iff, ?andb_false_iff;
  rewrite ?Z.leb_le, ?Z.leb_gt, ?Z.eqb_eq, ?Z.eqb_neq; lia.
Ltac low_range :=
  intros c; unfold C_punct, C_graph, C_print, C_xdigit, C_alnum, C_alpha, C_upper, C_lower, C_digit; lia.

Definition rng (a b c : Z) : bool := (a <=? c) && (c <=? b).

Theorem C38_digit : forall ch, is_c_digit ch = true <-> C_digit ch.
Proof.
  apply (low_cases C_digit (rng 48 57)); [unfold rng; dec_range|low_range|vm_compute; reflexivity..].
Qed.
Print Assumptions C38_digit.

Theorem C38_upper : forall ch, is_c_upper ch = true <-> C_upper ch.
Proof.
  apply (low_cases C_upper (rng 65 90)); [unfold rng; dec_range|low_range|vm_compute; reflexivity..].
Qed.
Print Assumptions C38_upper.

Theorem C38_lower : forall ch, is_c_lower ch = true <-> C_lower ch.
Proof.
  apply (low_cases C_lower (rng 97 122)); [unfold rng; dec_range|low_range|vm_compute; reflexivity..].
Qed.
Print Assumptions C38_lower.

Theorem C38_alpha : forall ch, is_c_alpha ch = true <-> C_alpha ch.
Proof.
  apply (low_cases C_alpha (fun c => rng 65 90 c || rng 97 122 c));
    [unfold rng; dec_range|low_range|vm_compute; reflexivity..].
Qed.
Print Assumptions C38_alpha.

Theorem C38_alnum : forall ch, is_c_alnum ch = true <-> C_alnum ch.
Proof.
  apply (low_cases C_alnum (fun c => rng 65 90 c || rng 97 122 c || rng 48 57 c));
    [unfold rng; dec_range|low_range|vm_compute; reflexivity..].
Qed.
Print Assumptions C38_alnum.

Theorem C38_xdigit : forall ch, is_c_xdigit ch = true <-> C_xdigit ch.
Proof.
  apply (low_cases C_xdigit (fun c => rng 48 57 c || rng 65 70 c || rng 97 102 c));
    [unfold rng; dec_range|low_range|vm_compute; reflexivity..].
Qed.
Print Assumptions C38_xdigit.

Theorem C38_print : forall ch, is_c_print ch = true <-> C_print ch.
Proof.
  apply (low_cases C_print (rng 32 126)); [unfold rng; dec_range|low_range|vm_compute; reflexivity..].
Qed.
Print Assumptions C38_print.

Theorem C38_graph : forall ch, is_c_graph ch = true <-> C_graph ch.
Proof.
  apply (low_cases C_graph (rng 33 126)); [unfold rng; dec_range|low_range|vm_compute; reflexivity..].
Qed.
Print Assumptions C38_graph.

Theorem C38_punct : forall ch, is_c_punct ch = true <-> C_punct ch.
Proof.
  apply (low_cases C_punct (fun c => rng 33 47 c || rng 58 64 c || rng 91 96 c || rng 123 126 c));
    [unfold rng; dec_range|low_range|vm_compute; reflexivity..].
Qed.
Print Assumptions C38_punct.

Lemma space_impl_spec : forall w ch, 8 <= w -> 0 <= ch < 2 ^ w ->
  is_c_space_impl w ch = true <-> C_space ch.
Proof.
  intros w ch Hw H. unfold is_c_space_impl, C_space.
  assert (B : 2 ^ 8 <= 2 ^ w) by (apply Z.pow_le_mono_r; lia).
  change (2 ^ 8) with 256 in B.
  rewrite orb_true_iff, Z.eqb_eq, Z.ltb_lt.
  destruct (Z_lt_dec ch 9).
  - rewrite <- (Z.mod_unique (ch - 9) (2 ^ w) (-1) (ch - 9 + 2 ^ w)) by lia. lia.
  - rewrite Z.mod_small by lia. lia.
Qed.

Theorem C38_space : forall w ch, char_width w -> code_unit w ch ->
  is_c_space w ch = true <-> C_space ch.
Proof.
  intros w ch Hw H. unfold code_unit in H. unfold is_c_space.
  assert (Hw' : 8 <= w) by (unfold char_width in Hw; lia).
  destruct (w =? 8) eqn:E.
  - apply Z.eqb_eq in E. subst w. unfold is_c_space_tb.
    rewrite nth_indep with (d' := (fun i => is_c_space_impl 8 (Z.of_nat i)) 0%nat)
      by (rewrite map_length, seq_length; change (2 ^ 8) with 256 in H; lia).
    rewrite (map_nth (fun i => is_c_space_impl 8 (Z.of_nat i))).
    rewrite seq_nth by (change (2 ^ 8) with 256 in H; lia).
    cbn [Nat.add]. rewrite Z2Nat.id by lia. apply space_impl_spec; lia.
  - apply space_impl_spec; [lia|].
    assert (B : 2 ^ w <= 2 ^ 32).
    { apply Z.pow_le_mono_r; unfold char_width in Hw; lia. }
    lia.
Qed.
Print Assumptions C38_space.

Theorem C38_html_whitespace : forall ch, is_html_whitespace ch = true <-> HTML_whitespace ch.
Proof.
  intros ch. unfold is_html_whitespace. rewrite switch_spec. cbn [In].
  unfold HTML_whitespace, C_space. lia.
Qed.
Print Assumptions C38_html_whitespace.

(** Case mapping changes the letters of the other case by 32 and nothing else. *)
Theorem C38_to_lower : forall w ch, char_width w -> code_unit w ch ->
  (C_upper ch -> to_c_lower w ch = ch + 32) /\ (~ C_upper ch -> to_c_lower w ch = ch).
Proof.
  intros w ch Hw H. unfold code_unit in H. unfold to_c_lower, to_c_lower_ascii, C_upper.
  assert (B : 2 ^ 8 <= 2 ^ w <= 2 ^ 32).
  { split; apply Z.pow_le_mono_r; unfold char_width in Hw; lia. }
  change (2 ^ 8) with 256 in B.
  set (M := 2 ^ w) in *. clearbody M.
  split; intros C.
  - rewrite (Z.mod_small (ch - 65)) by lia.
    destruct (ch - 65 <? 26) eqn:E; [|lia].
    rewrite (Z.mod_small (ch - 65 + 97)) by lia. rewrite Z.mod_small; lia.
  - assert (E : ((ch - 65) mod 2 ^ 32 <? 26) = false).
    { apply Z.ltb_ge. destruct (Z_lt_dec ch 65).
      - rewrite <- (Z.mod_unique (ch - 65) (2 ^ 32) (-1) (ch - 65 + 2 ^ 32)) by lia. lia.
      - rewrite Z.mod_small by lia. lia. }
    rewrite E. apply Z.mod_small. lia.
Qed.
Print Assumptions C38_to_lower.

Theorem C38_to_upper : forall w ch, char_width w -> code_unit w ch ->
  (C_lower ch -> to_c_upper w ch = ch - 32) /\ (~ C_lower ch -> to_c_upper w ch = ch).
Proof.
  intros w ch Hw H. unfold code_unit in H. unfold to_c_upper, to_c_upper_ascii, C_lower.
  assert (B : 2 ^ 8 <= 2 ^ w <= 2 ^ 32).
  { split; apply Z.pow_le_mono_r; unfold char_width in Hw; lia. }
  change (2 ^ 8) with 256 in B.
  set (M := 2 ^ w) in *. clearbody M.
  split; intros C.
  - rewrite (Z.mod_small (ch - 97)) by lia.
    destruct (ch - 97 <? 26) eqn:E; [|lia].
    rewrite (Z.mod_small (ch - 97 + 65)) by lia. rewrite Z.mod_small; lia.
  - assert (E : ((ch - 97) mod 2 ^ 32 <? 26) = false).
    { apply Z.ltb_ge. destruct (Z_lt_dec ch 97).
      - rewrite <- (Z.mod_unique (ch - 97) (2 ^ 32) (-1) (ch - 97 + 2 ^ 32)) by lia. lia.
      - rewrite Z.mod_small by lia. lia. }
    rewrite E. apply Z.mod_small. lia.
Qed.
Print Assumptions C38_to_upper.

(** The width tests and the mapping to half width are right for 32-bit character types ... *)
Theorem C38_width_partial : forall ch, code_unit 32 ch ->
  (is_c_halfwidth 32 ch = true <-> halfwidth ch) /\
  (is_c_fullwidth 32 ch = true <-> fullwidth ch) /\
  (fullwidth ch -> to_c_halfwidth 32 ch = ch - 65281 + 33) /\
  (~ fullwidth ch -> to_c_halfwidth 32 ch = ch).
Proof.
  intros ch H. unfold code_unit in H.
  unfold is_c_halfwidth, is_c_fullwidth, to_c_halfwidth, halfwidth, fullwidth.
  change (32 <? 32) with false. cbn iota.
  assert (F : forall a, 0 <= a < 2 ^ 31 ->
    (ch - a) mod 2 ^ 32 = if ch <? a then ch - a + 2 ^ 32 else ch - a).
  { intros a Ha. destruct (ch <? a) eqn:E.
    - symmetry. apply (Z.mod_unique _ _ (-1)); lia.
    - apply Z.mod_small. lia. }
  rewrite (F 33), (F 65281) by lia.
  rewrite !Z.ltb_lt.
  split; [destruct (ch <? 33) eqn:E; lia|].
  split; [destruct (ch <? 65281) eqn:E; lia|].
  destruct (ch <? 65281) eqn:E.
  - split; [lia|]. intros _.
    destruct (ch - 65281 + 2 ^ 32 <? 94) eqn:E2; [lia|reflexivity].
  - split; intros K.
    + destruct (ch - 65281 <? 94) eqn:E2; [|lia]. apply Z.mod_small. lia.
    + destruct (ch - 65281 <? 94) eqn:E2; [lia|reflexivity].
Qed.
Print Assumptions C38_width_partial.

(** ... and wrong for the narrower ones: every character but NUL is reported to be of full width and
    of half width at once (the letter 'a' is not of full width, the character U+FF21 is not of half
    width). *)
Theorem C38_width_refuted :
  (exists ch, code_unit 8 ch /\ is_c_fullwidth 8 ch = true /\ ~ fullwidth ch) /\
  (exists ch, code_unit 16 ch /\ is_c_halfwidth 16 ch = true /\ ~ halfwidth ch).
Proof.
  split.
  - exists 97. unfold code_unit, fullwidth. repeat split; try (cbn; lia); vm_compute; reflexivity.
  - exists 65313. unfold code_unit, halfwidth. repeat split; try (cbn; lia); vm_compute; reflexivity.
Qed.
Print Assumptions C38_width_refuted.

Example C38_example :
  is_c_punct 126 = true /\ is_c_punct 127 = false /\ is_c_space 8 11 = true /\ is_c_space 8 139 = false /\
  is_c_space 32 (2 ^ 32 - 1) = false /\ to_c_lower 16 90 = 122 /\ to_c_lower 16 91 = 91 /\
  is_c_graph 233 = false /\ to_c_halfwidth 32 65313 = 65 /\ char_width 16 /\ code_unit 16 91.
Proof. unfold char_width, code_unit. repeat split; try (vm_compute; reflexivity); try lia. Qed.
