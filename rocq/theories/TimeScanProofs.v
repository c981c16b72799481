(** Where the ISO 8601 scanner can leave its text. *)
From Verif Require Import Base NumSpec ScanSpec IntPrintModel IntScanModel IntScanProofs IntSseProofs TimeSpec TimeModel TimeTextModel TimeTextProofs.

Definition suffix (r s : list Z) : Prop := exists p, s = p ++ r.
Lemma suffix_refl s : suffix s s. Proof. now exists []. Qed.
Lemma suffix_trans a b c : suffix a b -> suffix b c -> suffix a c.
Proof. intros [p ->] [q ->]. exists (q ++ p). now rewrite app_assoc. Qed.
Lemma suffix_skipn n s : suffix (skipn n s) s.
Proof. exists (firstn n s). symmetry. apply firstn_skipn. Qed.
Lemma suffix_cons c s r : suffix r s -> suffix r (c :: s).
Proof. intros [p ->]. now exists (c :: p). Qed.
Lemma suffix_units cw r s : suffix r s -> units cw s -> units cw r.
Proof. intros [p ->] H. apply Forall_app in H. tauto. Qed.

Lemma char_digit10 cw c : exists o, char_digit 10 cw c = Some o.
Proof. unfold char_digit. change (10 <=? 10) with true. eauto. Qed.
Lemma skip_digits10 cw s : exists r, skip_digits 10 cw s = Some r /\ suffix r s.
Proof.
  induction s as [|c s (r & IH & S)]; cbn [skip_digits]; [eexists; split; [reflexivity|apply suffix_refl]|].
  destruct (char_digit10 cw c) as [[d|] ->]; eexists; (split; [eassumption || reflexivity|]).
  - now apply suffix_cons.
  - apply suffix_refl.
Qed.
Lemma first_phase10 cw w n : forall s res, exists x, first_phase 10 cw w n s res = Some x.
Proof.
  induction n as [|n IH]; intros s res; cbn [first_phase]; [destruct s; eauto|].
  destruct s as [|c s]; [eauto|]. destruct (char_digit10 cw c) as [[d|] ->]; eauto.
Qed.
Lemma scan_scalar10 cw w s : exists x, scan_scalar 10 cw w s = Some x.
Proof.
  unfold scan_scalar. destruct (first_phase10 cw w (Z.to_nat (cal_max_int_size (mk_int w false) 10 - (if special_base 10 then 0 else 1))) s 0) as [[res l] ->].
  destruct l as [|c s1]; [eauto|]. destruct (char_digit10 cw c) as [[d|] ->]; [|eauto].
  change (special_base 10) with false. cbv iota. destruct s1 as [|c2 s2]; [eauto|].
  destruct (char_digit10 cw c2) as [[d2|] ->]; [|eauto].
  destruct (skip_digits10 cw s2) as (r & -> & _). cbn [option_map]. eauto.
Qed.
Lemma scan_digits10 cfg sign u s : sc_base cfg = 10 -> no_sse cfg s -> exists x, scan_digits_part cfg sign u s = Some x.
Proof.
  intros Hb Hn. unfold scan_digits_part, no_sse in *. rewrite Hb in *. rewrite Hn.
  destruct (scan_scalar10 (sc_cw cfg) (iw (sc_ty cfg)) s) as [[[ec res] rest] ->].
  destruct (negb _); [eauto|]. eauto.
Qed.
Lemma skip_zeros_suffix s : suffix (skip_zeros s) s.
Proof. induction s as [|c s IH]; cbn [skip_zeros]; [apply suffix_refl|]. destruct (c =? 48); [now apply suffix_cons|apply suffix_refl]. Qed.
Lemma skip_space_suffix cw s : suffix (skip_space cw s) s.
Proof. induction s as [|c s IH]; cbn [skip_space]; [apply suffix_refl|]. destruct (is_c_space cw c); [now apply suffix_cons|apply suffix_refl]. Qed.

Lemma scan_zero10 cfg sign u s : sc_base cfg = 10 -> (forall t, suffix t s -> no_sse cfg t) -> exists x, scan_zero_part cfg sign u s = Some x.
Proof.
  intros Hb Hn. unfold scan_zero_part. destruct s as [|c s1].
  - apply scan_digits10; [exact Hb|apply Hn, suffix_refl].
  - rewrite Hb. destruct (char_digit10 (sc_cw cfg) c) as [[d|] ->]; [|eauto].
    destruct (c =? 48).
    + destruct (sc_skipzero cfg).
      * destruct (skip_zeros s1) as [|c2 s2] eqn:E; [eauto|]. apply scan_digits10; [exact Hb|]. apply Hn.
        rewrite <- E. apply suffix_cons, skip_zeros_suffix.
      * destruct s1 as [|c1 s2]; [eauto|]. destruct (char_digit10 (sc_cw cfg) c1) as [[d1|] ->]; eauto.
    + apply scan_digits10; [exact Hb|apply Hn, suffix_refl].
Qed.
Lemma scan_int10 cfg s : sc_base cfg = 10 -> sc_shbase cfg = false -> (forall t, suffix t s -> no_sse cfg t) -> exists x, scan_int cfg s = Some x.
Proof.
  intros Hb Hsh Hn. unfold scan_int. rewrite Hsh. cbn [andb]. rewrite andb_false_r.
  assert (G : forall t u, suffix t s -> exists x, scan_none_space cfg false u t = Some x).
  { intros t u Ht. unfold scan_none_space. cbn [andb]. destruct (isigned (sc_ty cfg)).
    - destruct t as [|c s1]; [eauto|]. destruct (c =? 45); apply scan_zero10; auto.
      + intros r Hr. apply Hn. eapply suffix_trans; [|exact Ht]. now apply suffix_cons.
      + intros r Hr. apply Hn. eapply suffix_trans; eassumption.
    - apply scan_zero10; auto. intros r Hr. apply Hn. eapply suffix_trans; eassumption. }
  destruct (sc_noskipws cfg).
  - apply G, suffix_refl.
  - destruct (skip_space (sc_cw cfg) s) as [|c t] eqn:E; [eauto|]. apply G. rewrite <- E. apply skip_space_suffix.
Qed.
Lemma scan_year_int cw sse s : In cw char_widths -> units cw s -> exists x, scan_int (mk_scfg 10 true false false int64_ty cw sse) s = Some x.
Proof.
  intros Hw Hu. destruct (sse && (cw =? 8)) eqn:E.
  - apply andb_true_iff in E as [-> E]. apply Z.eqb_eq in E. subst cw.
    destruct (scan_int_agree (mk_scfg 10 true false false int64_ty 8 false) s) as (rv & rs & E1 & _); auto.
    + apply int64_cfg. exact Hw.
    + exists rv. exact E1.
  - apply scan_int10; auto. intros t _. unfold no_sse. cbn [sc_sse sc_base sc_cw]. change (10 =? 10) with true.
    destruct sse; cbn [andb] in *; [rewrite E|]; reflexivity.
Qed.
Lemma scan_year_safe cw sse s : In cw char_widths -> units cw s ->
  scan_year cw sse s <> SUb /\ (forall y r, scan_year cw sse s = SGo (y, r) -> suffix r s).
Proof.
  intros Hw Hu. unfold scan_year. destruct (Z.ltb_spec (zlen s) 20) as [L|L]; [split; [discriminate|intros; discriminate]|].
  set (sign := match s with c :: _ => c =? 45 | [] => false end). clearbody sign.
  set (s' := if sign then skipn 1 s else s).
  assert (S' : suffix s' s) by (unfold s'; destruct sign; [apply suffix_skipn|apply suffix_refl]).
  assert (L' : (19 <= length s')%nat) by (unfold s', zlen in *; destruct sign; [rewrite skipn_length|]; lia).
  destruct (scan_year_int cw sse s' Hw (suffix_units _ _ _ S' Hu)) as [x EX].
  clearbody s'.
  destruct s' as [|c0 [|c1 [|c2 [|c3 [|c4 t]]]]]; cbn [length] in L'; try lia. 
  destruct (is_dec cw c0); [|split; [discriminate|intros; discriminate]].
  destruct (is_dec cw c1); [|split; [discriminate|intros; discriminate]].
  destruct (is_dec cw c2); [|split; [discriminate|intros; discriminate]].
  destruct (is_dec cw c3); [|split; [discriminate|intros; discriminate]]. cbn [sbind].
  destruct (is_dec cw c4).
  - rewrite EX. destruct (p_code x); try (split; [discriminate|intros; discriminate]).
    destruct (p_val x); try (split; [discriminate|intros; discriminate]). split; [discriminate|].
    intros y r E. injection E as _ <-. eapply suffix_trans; [apply suffix_skipn|exact S'].
  - split; [discriminate|]. intros y r E. injection E as _ <-. eapply suffix_trans; [|exact S'].
    do 4 apply suffix_cons. apply suffix_refl.
Qed.
Lemma scan_fraction_safe cw sse s : In cw char_widths -> 
  scan_fraction cw sse true s <> SUb /\ (forall v r, scan_fraction cw sse true s = SGo (v, r) -> suffix r s).
Proof.
  intros Hw. unfold scan_fraction. destruct s as [|c s0] eqn:Es; [split; [discriminate|intros; discriminate]|].
  rewrite <- Es. clear Es.
  destruct (scan_int10 (mk_scfg 10 true false true uint64_ty cw sse) (firstn 19 s)) as [x EX]; try reflexivity.
  { intros t [p Hp]. unfold no_sse. cbn [sc_base sc_ty sc_cw sc_sse].
    rewrite (proj2 (Z.leb_gt 32 (zlen t))); [apply andb_false_r|].
    assert (H : (length (firstn 19 s) <= 19)%nat) by (rewrite firstn_length; lia). rewrite Hp, app_length in H. unfold zlen. lia. }
  rewrite EX. destruct (p_code x); try (split; [discriminate|intros; discriminate]).
  destruct (p_val x) as [v|]; try (split; [discriminate|intros; discriminate]).
  destruct (p_used x =? 0); try (split; [discriminate|intros; discriminate]).
  pose proof (suffix_skipn (Z.to_nat (p_used x)) s) as SX.
  destruct (skipn (Z.to_nat (p_used x)) s) as [|c1 t1] eqn:ET.
  { split; [discriminate|]. intros v' r' E. injection E as _ <-. exact SX. }
  destruct (true && (p_used x =? zlen (firstn 19 s))).
  - destruct (skip_digits10 cw (c1 :: t1)) as (r & -> & Sr).
    destruct (firstn (length (c1 :: t1) - length r) (c1 :: t1)) as [|d ds] eqn:EF.
    + split; [discriminate|]. intros v' r' E. injection E as _ <-. exact SX.
    + assert (RF : exists w, round_fraction (d :: ds) (times10 (Z.to_nat (19 - p_used x)) v) = Some w).
      { unfold round_fraction. destruct (_ <? _); [eauto|]. destruct (_ <? _); [eauto|]. destruct (existsb _ _); [eauto|]. destruct (_ =? _); eauto. }
      destruct RF as [w ->]. split; [discriminate|]. intros v' r' E. injection E as _ <-. eapply suffix_trans; eassumption.
  - split; [discriminate|]. intros v' r' E. injection E as _ <-. exact SX.
Qed.

(** The five characters whose sixth is missing. *)
Definition truncated_zone (cw : Z) (t : list Z) : Prop :=
  exists c h1 h2 m, t = [c; h1; h2; 58; m] /\ (c = 43 \/ c = 45) /\ is_dec cw h1 = true /\ is_dec cw h2 = true /\ is_dec cw m = true.

Lemma scan_zone_safe cw neg c t : (c = 43 \/ c = 45) -> scan_zone cw neg (c :: t) = SUb -> truncated_zone cw (c :: t).
Proof.
  intros Hc. unfold scan_zone. destruct (Z.ltb_spec (zlen (c :: t)) 5) as [L|L]; [discriminate|].
  change (skipn 1 (c :: t)) with t. unfold zlen in L. destruct t as [|h1 [|h2 [|col [|m t]]]]; cbn [length] in L; try lia.
  unfold scan_field, scan_two. destruct (is_dec cw h1) eqn:E1; [|discriminate]. destruct (is_dec cw h2) eqn:E2; [|discriminate].
  cbn [negb sbind]. destruct (_ || _); [discriminate|]. cbn [sbind skipn]. unfold scan_char.
  destruct (Z.eqb_spec col 58) as [->|]; [|discriminate]. cbn [sbind].
  destruct (is_dec cw m) eqn:E3; [|discriminate]. cbn [negb].
  destruct t as [|m2 t].
  - intros _. exists c, h1, h2, m. auto.
  - destruct (is_dec cw m2); [|discriminate]. cbn [negb sbind]. destruct (_ || _); discriminate.
Qed.

Lemma field_cons cw lo hi a b t : scan_field cw lo hi (a :: b :: t) <> SUb /\ forall v r, scan_field cw lo hi (a :: b :: t) = SGo (v, r) -> r = t.
Proof.
  unfold scan_field, scan_two. destruct (is_dec cw a); [|split; [discriminate|intros; discriminate]].
  destruct (is_dec cw b); [|split; [discriminate|intros; discriminate]]. cbn [negb sbind].
  destruct (_ || _); [split; [discriminate|intros; discriminate]|]. split; [discriminate|]. intros v r E. injection E as _ <-. reflexivity.
Qed.
Lemma char_cons ch a t : scan_char ch (a :: t) <> SUb /\ forall r, scan_char ch (a :: t) = SGo r -> r = t.
Proof. unfold scan_char. destruct (_ =? _); (split; [discriminate|]); intros r E; [injection E as <-; reflexivity|discriminate]. Qed.

Theorem scan_iso_safe cw sse s : In cw char_widths -> units cw s -> scan_iso8601 cw sse s = SUb ->
  exists p t, s = p ++ t /\ truncated_zone cw t.
Proof.
  intros Hw Hu. unfold scan_iso8601.
  pose proof (skip_space_suffix cw s) as S0. set (s1 := skip_space cw s) in *. clearbody s1.
  destruct (scan_year_safe cw sse s1 Hw (suffix_units _ _ _ S0 Hu)) as [Y1 Y2].
  destruct (scan_year cw sse s1) as [| |[y s2]]; [contradiction|discriminate|]. cbn [sbind].
  specialize (Y2 y s2 eq_refl). assert (S2 : suffix s2 s) by (eapply suffix_trans; eassumption). clear Y1 Y2.
  destruct (Z.ltb_spec (zlen s2) 16) as [L|L]; [discriminate|]. unfold zlen in L.
  destruct s2 as [|a0 [|a1 [|a2 [|a3 [|a4 [|a5 [|a6 [|a7 [|a8 [|a9 [|a10 [|a11 [|a12 [|a13 [|a14 [|a15 t]]]]]]]]]]]]]]]]; cbn [length] in L; try lia.
  assert (ST : suffix (a15 :: t) s).
  { eapply suffix_trans; [|exact S2]. do 15 apply suffix_cons. apply suffix_refl. }
  assert (STT : suffix t s) by (eapply suffix_trans; [apply suffix_cons, suffix_refl|exact ST]).
  clear S2 L S0.
  Ltac go_char := match goal with |- context [scan_char ?ch (?a :: ?t)] =>
     let A := fresh in let B := fresh in let r := fresh in let v := fresh in destruct (char_cons ch a t) as [A B];
     destruct (scan_char ch (a :: t)) as [| |r]; [contradiction|discriminate|]; specialize (B r eq_refl); subst r; clear A; cbn [sbind] end.
  Ltac go_field := match goal with |- context [scan_field ?cw ?lo ?hi (?a :: ?b :: ?t)] =>
     let A := fresh in let B := fresh in let r := fresh in let v := fresh in destruct (field_cons cw lo hi a b t) as [A B];
     destruct (scan_field cw lo hi (a :: b :: t)) as [| |[v r]]; [contradiction|discriminate|]; specialize (B v r eq_refl); subst r; clear A; cbn [sbind] end.
  go_char. go_field. go_char. go_field. go_char. go_field. go_char. go_field. go_char. go_field.
  assert (ZONE : forall (f : Z -> list Z -> step (civil * list Z)) l, (forall a b, f a b <> SUb) -> suffix l s -> l <> [] ->
    match l with
    | [] => SUb
    | c :: s' => if c =? 90 then f 0 s' else if c =? 43 then let* (tz, s) := scan_zone cw false l in f tz s
                 else if c =? 45 then let* (tz, s) := scan_zone cw true l in f tz s else SFail pc_invalid l
    end = SUb -> exists p t, s = p ++ t /\ truncated_zone cw t).
  { intros f l Hf [p ->] Hl H. exists p, l. split; [reflexivity|]. destruct l as [|c l']; [contradiction|].
    destruct (c =? 90); [exfalso; exact (Hf _ _ H)|].
    destruct (Z.eqb_spec c 43) as [->|].
    - destruct (scan_zone cw false (43 :: l')) as [| |[tz r']] eqn:E; [|discriminate|exfalso; exact (Hf _ _ H)].
      apply (scan_zone_safe cw false); auto.
    - destruct (Z.eqb_spec c 45) as [->|]; [|discriminate].
      destruct (scan_zone cw true (45 :: l')) as [| |[tz r']] eqn:E; [|discriminate|exfalso; exact (Hf _ _ H)].
      apply (scan_zone_safe cw true); auto. }
  destruct (Z.eqb_spec a15 46) as [->|].
  - destruct (scan_fraction_safe cw sse t Hw) as [F1 F2].
    destruct (scan_fraction cw sse true t) as [| |[sub r']]; [contradiction|discriminate|]. cbn [sbind].
    specialize (F2 sub r' eq_refl). destruct r' as [|c l]; [discriminate|].
    intros H. eapply (ZONE (fun tz s => SGo (mk_civil _ _ _ _ _ _ sub tz, s)) (c :: l)); [discriminate| |discriminate|exact H].
    eapply suffix_trans; eassumption.
  - intros H. eapply (ZONE (fun tz s => SGo (mk_civil _ _ _ _ _ _ 0 tz, s)) (a15 :: t)); [discriminate|exact ST|discriminate|exact H].
Qed.
