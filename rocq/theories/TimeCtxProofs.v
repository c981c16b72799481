(** The chunked scanner of ISO 8601 timestamps: reading a chunk is reading its characters one by one. *)
From Coq Require Import String.
From Coq Require Import List.
From Verif Require Import Base NumSpec NumFacts IntPrintModel IntPrintProofs IntScanModel ScanSpec
  IntScanProofs IntSseProofs TimeSpec TimeModel TimeTextSpec TimeTextModel TimeTextProofs TimeScanProofs TimeCtxModel.
Import ListNotations.

(** ** Runs of digits *)
Section RUNS.
  Context (cw : Z).
  Fixpoint take_dec (s : list Z) : list Z :=
    match s with [] => [] | c :: s' => if is_dec cw c then c :: take_dec s' else [] end.
  Fixpoint drop_dec (s : list Z) : list Z :=
    match s with [] => [] | c :: s' => if is_dec cw c then drop_dec s' else s end.
  Lemma take_drop s : take_dec s ++ drop_dec s = s.
  Proof. induction s as [|c s IH]; cbn [take_dec drop_dec]; [reflexivity|]. destruct (is_dec cw c); cbn [app]; congruence. Qed.
  Lemma take_all s : Forall (fun c => is_dec cw c = true) (take_dec s).
  Proof. induction s as [|c s IH]; cbn [take_dec]; [constructor|]. destruct (is_dec cw c) eqn:E; constructor; auto. Qed.
  Lemma take_app a s : Forall (fun c => is_dec cw c = true) a -> take_dec (a ++ s) = a ++ take_dec s.
  Proof. induction 1 as [|c a Hc _ IH]; cbn [app take_dec]; [reflexivity|]. rewrite Hc. congruence. Qed.
  Lemma drop_app a s : Forall (fun c => is_dec cw c = true) a -> drop_dec (a ++ s) = drop_dec s.
  Proof. induction 1 as [|c a Hc _ IH]; cbn [app drop_dec]; [reflexivity|]. rewrite Hc. exact IH. Qed.
  Lemma drop_head s c r : drop_dec s = c :: r -> is_dec cw c = false.
  Proof.
    induction s as [|x s IH]; cbn [drop_dec]; [discriminate|]. destruct (is_dec cw x) eqn:E; [exact IH|].
    intros H. injection H as -> ->. exact E.
  Qed.
  Lemma char_digit_dec c : char_digit 10 cw c = Some (if is_dec cw c then Some (wrap cw (c - 48)) else None).
  Proof.
    unfold char_digit, is_dec. change (10 <=? 10) with true. cbv iota zeta.
    destruct (Z.leb_spec 10 (wrap cw (c - 48))), (Z.ltb_spec (wrap cw (c - 48)) 10); try reflexivity; exfalso; lia.
  Qed.
  Lemma skip_digits_drop s : skip_digits 10 cw s = Some (drop_dec s).
  Proof.
    induction s as [|c s IH]; cbn [skip_digits drop_dec]; [reflexivity|]. rewrite char_digit_dec.
    destruct (is_dec cw c); [exact IH|reflexivity].
  Qed.
  Lemma zlen_take s : zlen s - zlen (drop_dec s) = zlen (take_dec s).
  Proof. pose proof (take_drop s) as E. apply (f_equal zlen) in E. rewrite zlen_app in E. lia. Qed.
  Lemma firstn_take s : firstn (length s - length (drop_dec s)) s = take_dec s.
  Proof.
    pose proof (take_drop s) as E. pose proof (f_equal (@length Z) E) as L. rewrite app_length in L.
    replace (length s - length (drop_dec s))%nat with (length (take_dec s)) by lia.
    rewrite <- E at 2. rewrite firstn_app, firstn_all, Nat.sub_diag. cbn. apply app_nil_r.
  Qed.
  Lemma firstn_ztake s : firstn (Z.to_nat (zlen (take_dec s))) s = take_dec s.
  Proof.
    rewrite <- firstn_take at 2. f_equal. pose proof (zlen_take s). unfold zlen in *. lia.
  Qed.
End RUNS.

(** No run of more than 19 digits. *)
Definition short_runs (cw : Z) (s : list Z) : Prop :=
  forall p d q, s = p ++ d ++ q -> Forall (fun c => is_dec cw c = true) d -> zlen d <= 19.
Lemma short_suffix cw a b : short_runs cw (a ++ b) -> short_runs cw b.
Proof. intros H p d q -> Hd. apply (H (a ++ p) d q); [now rewrite <- app_assoc|exact Hd]. Qed.
Lemma short_prefix cw a b : short_runs cw (a ++ b) -> short_runs cw a.
Proof. intros H p d q -> Hd. apply (H p d (q ++ b)); [now rewrite <- !app_assoc|exact Hd]. Qed.
Lemma short_take cw s : short_runs cw s -> zlen (take_dec cw s) <= 19.
Proof. intros H. apply (H [] (take_dec cw s) (drop_dec cw s)); [symmetry; apply take_drop|apply take_all]. Qed.

(** ** Digit characters of a text *)
Section DIGITS.
  Context (cw : Z) (Hw : In cw char_widths).
  Definition dec_char (c : Z) : Prop := 48 <= c <= 57.
  Lemma is_dec_iff c : 0 <= c < 2 ^ cw -> (is_dec cw c = true <-> dec_char c).
  Proof.
    intros Hc. rewrite is_dec_spec by assumption. unfold dec_char. rewrite andb_true_iff, !Z.leb_le. reflexivity.
  Qed.
  Lemma dec_is c : dec_char c -> is_dec cw c = true.
  Proof. intros H. unfold dec_char in H. replace c with (48 + (c - 48)) by lia. apply is_dec_digit; [exact Hw|lia]. Qed.
  Lemma decs s : units cw s -> Forall (fun c => is_dec cw c = true) s -> Forall dec_char s.
  Proof.
    unfold units. intros U H. induction H as [|c s Hc _ IH]; [constructor|]. inversion U; subst. constructor; [|auto].
    now apply is_dec_iff.
  Qed.
  Definition dval (s : list Z) : list Z := map (fun c => c - 48) s.
  Lemma dval_ok s : Forall dec_char s -> digits_ok 10 (dval s).
  Proof. induction 1 as [|c s Hc _ IH]; cbn [dval map]; constructor; [unfold dec_char in Hc; lia|exact IH]. Qed.
  Lemma dval_text s : Forall dec_char s -> map (digit_char false) (dval s) = s.
  Proof.
    induction 1 as [|c s Hc _ IH]; cbn [dval map]; [reflexivity|]. unfold dec_char in Hc.
    rewrite digit_char_small by lia. fold (dval s). rewrite IH. f_equal. lia.
  Qed.
  Lemma dval_len s : zlen (dval s) = zlen s. Proof. unfold zlen, dval. now rewrite map_length. Qed.
  Lemma text_dec ds : digits_ok 10 ds -> Forall dec_char (map (digit_char false) ds) /\ dval (map (digit_char false) ds) = ds.
  Proof.
    induction 1 as [|d ds Hd _ [IH1 IH2]]; cbn [map dval]; [split; [constructor|reflexivity]|].
    rewrite digit_char_small by lia. split; [constructor; [unfold dec_char; lia|exact IH1]|].
    fold (dval (map (digit_char false) ds)). rewrite IH2. f_equal. lia.
  Qed.
  Lemma not_dec_first c r : units cw (c :: r) -> is_dec cw c = false -> safe_first 10 cw (c :: r) /\ no_digit_first 10 (c :: r).
  Proof.
    intros U H. pose proof (Forall_inv U) as Hc. cbv beta in Hc.
    rewrite is_dec_spec in H by assumption. apply andb_false_iff in H. rewrite !Z.leb_gt in H.
    split.
    - split; [lia|]. lia.
    - intros [d Hd]. apply denotes_cases in Hd; lia.
  Qed.
End DIGITS.

(** ** The fraction *)
Definition frac_val (ds : list Z) : Z := value_of 10 (dval ds) * 10 ^ (19 - zlen ds).
Definition frac_canon (cw : Z) (buf s : list Z) : fstep :=
  match drop_dec cw s with
  | [] => FKeep (buf ++ take_dec cw s)
  | itr => match buf ++ take_dec cw s with [] => FBad itr | ds => FDone (frac_val ds) itr end
  end.
Lemma scan_fraction_digits cw sse ds : In cw char_widths -> Forall dec_char ds -> 1 <= zlen ds <= 19 ->
  scan_fraction cw sse false ds = SGo (frac_val ds, []).
Proof.
  intros Hw Hd Hl. pose proof (scan_fraction_exact cw sse false (dval ds) [] Hw (dval_ok ds Hd)) as E.
  rewrite dval_len, dval_text, app_nil_r in E by assumption. apply E; [lia|exact I|exact I].
Qed.
Lemma frac_chunk_canon cw sse buf s : In cw char_widths -> s <> [] -> units cw (buf ++ s) -> Forall dec_char buf ->
  zlen (buf ++ take_dec cw s) <= 19 -> fraction_chunk cw sse buf s = Some (frac_canon cw buf s).
Proof.
  intros Hw Hs U Hb Hl. unfold fraction_chunk, frac_canon. rewrite skip_digits_drop, firstn_take.
  apply Forall_app in U as [Ub Us].
  pose proof (take_drop cw s) as TD. assert (Ud : units cw (take_dec cw s)).
  { rewrite <- TD in Us. apply Forall_app in Us. tauto. }
  pose proof (decs cw Hw _ Ud (take_all cw s)) as Hd.
  assert (Hall : Forall dec_char (buf ++ take_dec cw s)) by (apply Forall_app; auto).
  set (ds := take_dec cw s) in *. rewrite zlen_app in Hl. pose proof (zlen_nonneg buf). pose proof (zlen_nonneg ds).
  rewrite (wrap_small 8 (zlen ds)) by lia.
  destruct (Z.ltb_spec (19 - zlen buf) (zlen ds)) as [L|L]; [lia|].
  replace (firstn (Z.to_nat (zlen ds)) s) with ds by (symmetry; apply firstn_ztake).
  destruct (drop_dec cw s) as [|c r] eqn:ED; [reflexivity|].
  destruct buf as [|b buf].
  - cbn [app]. destruct ds as [|d ds'] eqn:Eds; [reflexivity|].
    rewrite scan_fraction_digits; [reflexivity|exact Hw|exact Hd|].
    unfold zlen in *; cbn [length] in *; lia.
  - rewrite scan_fraction_digits; [reflexivity|exact Hw|exact Hall|].
    rewrite zlen_app. unfold zlen in *; cbn [length] in *; lia.
Qed.
Lemma frac_canon_cons cw buf c s : is_dec cw c = true -> frac_canon cw buf (c :: s) = frac_canon cw (buf ++ [c]) s.
Proof. intros H. unfold frac_canon. cbn [take_dec drop_dec]. rewrite H, <- !app_assoc. reflexivity. Qed.

(** ** The year *)
Definition sgn (neg : bool) : list Z := if neg then [45] else [].
Definition ynorm (y : option ystep) : option ystep :=
  match y with
  | Some (YPartial _ ph_overflow) => Some (YPartial [] ph_overflow)
  | Some (YBad pc_ok _) | Some (YBad pc_partial _) => y
  | Some (YBad _ _) => Some (YBad pc_invalid [])
  | _ => y
  end.
(** The year by the digits [ds] (one or more) after the sign, at the end of a run of digits. *)
Definition year_of (neg : bool) (ds : list Z) : option Z :=
  let v := signed neg (value_of 10 (dval ds)) in
  if match ds with c :: _ :: _ => c =? 48 | _ => false end then None
  else if in_rangeb int64_ty v then Some v else None.
Lemma scan_year_digits cw sse neg ds : In cw char_widths -> Forall dec_char ds -> ds <> [] -> zlen ds <= 20 ->
  exists r, scan_none_space (mk_scfg 10 false false false int64_ty cw sse) false 0 (sgn neg ++ ds) = Some r /\
    match year_of neg ds with
    | Some v => p_code r = pc_ok /\ p_val r = Some v /\ p_used r = zlen (sgn neg ++ ds)
    | None => p_code r <> pc_ok /\ p_code r <> pc_partial
    end.
Proof.
  intros Hw Hd Hne Hl. unfold year_of.
  destruct (match ds with c :: _ :: _ => c =? 48 | _ => false end) eqn:Z0.
  - destruct ds as [|c [|c1 t]]; try discriminate. apply Z.eqb_eq in Z0. subst c.
    inversion Hd as [|? ? H0 Ht]; subst. inversion Ht as [|? ? H1 Ht']; subst.
    pose proof (dec_is cw Hw _ H0) as D0. pose proof (dec_is cw Hw _ H1) as D1.
    assert (E : forall u, scan_zero_part (mk_scfg 10 false false false int64_ty cw sse) neg u (48 :: c1 :: t)
      = Some (mk_pres pc_invalid (u + 1) None)).
    { intros u. unfold scan_zero_part. cbn [sc_base sc_cw sc_skipzero]. rewrite !char_digit_dec, D0, D1. reflexivity. }
    destruct neg; cbn [sgn app]; unfold scan_none_space; cbn [isigned int64_ty sc_ty];
      (eexists; split; [apply E|cbn [p_code]; split; discriminate]).
  - assert (NL : no_leading_zero (dval ds)).
    { destruct ds as [|c [|c1 t]]; [contradiction|exact I|]. cbn [dval map no_leading_zero]. apply Z.eqb_neq in Z0. lia. }
    pose proof (scan_none_space_spec (mk_scfg 10 false false false int64_ty cw sse) 0 neg ds (dval ds) []) as S.
    cbn [sc_base sc_cw sc_skipzero sc_ty sc_sse] in S. rewrite app_nil_r in S.
    change (IntScanProofs.sign_chars neg) with (sgn neg) in S. eexists. split.
    + apply S; auto.
      * apply int64_cfg. exact Hw.
      * discriminate.
      * unfold no_sse. cbn [sc_sse sc_base sc_cw sc_ty]. rewrite (proj2 (Z.leb_gt 32 (zlen ds))) by lia. apply andb_false_r.
      * rewrite <- (dval_text ds) at 1 by exact Hd. apply digits_denote. now apply dval_ok.
      * destruct ds; [contradiction|discriminate].
      * exact I.
      * exact I.
    + unfold outcome, signed_value, signed. destruct (in_rangeb int64_ty _) eqn:ER; cbn [p_code p_val p_used].
      * split; [reflexivity|]. split; [reflexivity|]. rewrite zlen_app. lia.
      * split; discriminate.
Qed.

(** The digits phase by the whole run: [a] in the buffer, [b] to come. *)
Definition ydigits_canon (cw : Z) (neg : bool) (w : list Z) : option ystep :=
  let ds := take_dec cw w in
  let fits := zlen (sgn neg ++ ds) <? 20 in
  match drop_dec cw w with
  | [] => Some (if fits then YPartial (sgn neg ++ ds) ph_digit else YPartial [] ph_overflow)
  | it => Some (if fits then match year_of neg ds with Some v => YDone v it | None => YBad pc_invalid [] end
                else YBad pc_invalid [])
  end.
Lemma year_digits_canon cw sse neg a b : In cw char_widths -> Forall dec_char a -> units cw b ->
  zlen (sgn neg ++ a) < 20 -> a ++ take_dec cw b <> [] ->
  ynorm (year_digits cw sse ph_digit (sgn neg ++ a) b) = ydigits_canon cw neg (a ++ b).
Proof.
  intros Hw Ha Hb La Hne. unfold year_digits, ydigits_canon. rewrite skip_digits_drop.
  assert (Ha' : Forall (fun c => is_dec cw c = true) a) by (eapply Forall_impl; [|exact Ha]; intros c; apply dec_is; exact Hw).
  rewrite take_app, drop_app, zlen_take by exact Ha'.
  change ts_cap with 20. rewrite firstn_ztake, <- app_assoc.
  set (ds := a ++ take_dec cw b) in *.
  assert (Ed : zlen ds = zlen a + zlen (take_dec cw b)) by (unfold ds; now rewrite zlen_app).
  assert (Hd : Forall dec_char ds).
  { unfold ds. apply Forall_app. split; [exact Ha|]. apply (decs cw Hw); [|apply take_all].
    rewrite <- (take_drop cw b) in Hb. apply Forall_app in Hb. tauto. }
  rewrite zlen_app in La. rewrite (zlen_app (sgn neg) a), (zlen_app (sgn neg) ds).
  destruct (Z.ltb_spec (zlen (take_dec cw b)) (20 - (zlen (sgn neg) + zlen a))) as [L|L];
    destruct (Z.ltb_spec (zlen (sgn neg) + zlen ds) 20) as [L'|L']; try lia.
  - destruct (drop_dec cw b) as [|c r] eqn:ED; [reflexivity|].
    destruct (sgn neg ++ ds) as [|x l] eqn:El; [destruct neg; [discriminate|]; cbn in El; contradiction|]. rewrite <- El.
    destruct (scan_year_digits cw sse neg ds Hw Hd Hne) as (res & -> & HR).
    { pose proof (zlen_nonneg (sgn neg)). lia. }
    destruct (year_of neg ds) as [v|].
    + destruct HR as (-> & -> & ->). cbn [ynorm]. f_equal. f_equal. rewrite zlen_app, Ed.
      rewrite <- ED. pose proof (take_drop cw b) as TD. rewrite <- TD at 2.
      replace (Z.to_nat _) with (length (take_dec cw b)) by (unfold zlen; lia).
      rewrite skipn_app, skipn_all, Nat.sub_diag. reflexivity.
    + destruct HR as (H1 & H2). destruct (p_code res); try reflexivity; contradiction.
  - destruct (drop_dec cw b) as [|c r] eqn:ED; reflexivity.
Qed.

Definition yzero_canon (cw : Z) (neg : bool) (w : list Z) : option ystep :=
  if zlen w <? 5 then
    Some (if forallb (is_dec cw) w then YPartial (sgn neg ++ w) ph_zero else YBad pc_invalid [])
  else if forallb (is_dec cw) (firstn 4 w) then
    match skipn 4 w with
    | [] => None
    | c :: _ =>
        if is_dec cw c then ydigits_canon cw neg w
        else option_map (fun v => YDone (signed neg v) (skipn 4 w)) (four w)
    end
  else Some (YBad pc_invalid []).

Lemma collect_spec cw n : forall buf s, (n <= length s)%nat ->
  if forallb (is_dec cw) (firstn n s) then collect cw n buf s = inl (buf ++ firstn n s, skipn n s)
  else exists r, collect cw n buf s = inr r.
Proof.
  induction n as [|n IH]; intros buf s Hl; cbn [firstn forallb collect skipn].
  - rewrite app_nil_r. reflexivity.
  - destruct s as [|c s]; [cbn in Hl; lia|]. cbn [forallb]. cbn [length] in Hl. destruct (is_dec cw c); cbn [andb].
    + specialize (IH (buf ++ [c]) s ltac:(lia)). destruct (forallb (is_dec cw) (firstn n s)).
      * rewrite IH, <- app_assoc. reflexivity.
      * exact IH.
    + eauto.
Qed.
Lemma forallb_dec cw p : In cw char_widths -> Forall dec_char p -> forallb (is_dec cw) p = true.
Proof. intros Hw H. apply forallb_forall. intros c Hc. apply dec_is; [exact Hw|]. rewrite Forall_forall in H. auto. Qed.
Lemma forallb_decs cw p : In cw char_widths -> units cw p -> forallb (is_dec cw) p = true -> Forall dec_char p.
Proof.
  intros Hw U H. apply (decs cw Hw); [exact U|]. apply Forall_forall. rewrite forallb_forall in H. exact H.
Qed.
Lemma units_firstn cw n s : units cw s -> units cw (firstn n s).
Proof. unfold units. intros U. rewrite <- (firstn_skipn n s) in U. apply Forall_app in U. tauto. Qed.
Lemma units_skipn cw n s : units cw s -> units cw (skipn n s).
Proof. unfold units. intros U. rewrite <- (firstn_skipn n s) in U. apply Forall_app in U. tauto. Qed.

Lemma neg_front neg p : Forall dec_char p -> match sgn neg ++ p with c :: _ => c =? 45 | [] => false end = neg.
Proof.
  intros H. destruct neg; [reflexivity|]. destruct p as [|c p]; [reflexivity|].
  pose proof (Forall_inv H) as Hc. unfold dec_char in Hc. cbn. apply Z.eqb_neq. lia.
Qed.
Lemma fresh_spec neg p : Forall dec_char p ->
  (match sgn neg ++ p with [] => true | [_] => neg | _ => false end) = match p with [] => true | _ => false end.
Proof. intros H. destruct neg, p as [|c [|c' p]]; reflexivity. Qed.

Lemma year_zero_canon cw sse neg p s : In cw char_widths -> s <> [] -> Forall dec_char p -> zlen p < 5 -> units cw s ->
  ynorm (year_zero cw sse (sgn neg ++ p) s) = yzero_canon cw neg (p ++ s).
Proof.
  intros Hw Hs Hp Lp U. unfold year_zero. destruct s as [|c0 s0] eqn:Es; [contradiction|]. rewrite <- Es in *. clear Es c0 s0.
  rewrite neg_front, fresh_spec by exact Hp. cbv zeta.
  assert (Ls : 0 < zlen s) by (destruct s; [contradiction|unfold zlen; cbn [length]; lia]).
  destruct (match p with [] => true | _ => false end && (4 <? zlen s)) eqn:F.
  - apply andb_true_iff in F as [F1 F2]. apply Z.ltb_lt in F2. destruct p as [|]; [|discriminate]. cbn [app]. rewrite app_nil_r.
    unfold yzero_canon. destruct (Z.ltb_spec (zlen s) 5); [lia|].
    pose proof (collect_spec cw 4 [] s ltac:(unfold zlen in *; lia)) as C.
    destruct (forallb (is_dec cw) (firstn 4 s)) eqn:E4.
    + rewrite C. cbn [app]. destruct (skipn 4 s) as [|c r] eqn:E5; [reflexivity|].
      destruct (is_dec cw c) eqn:Ec.
      * rewrite <- (app_nil_r (sgn neg)). rewrite (year_digits_canon cw sse neg [] s); auto.
        -- cbn [app]. destruct neg; cbn; lia.
        -- cbn [app]. destruct s as [|x s]; [contradiction|]. cbn [firstn forallb] in E4.
           apply andb_true_iff in E4 as [E4 _]. cbn [take_dec]. rewrite E4. discriminate.
      * destruct s as [|x0 [|x1 [|x2 [|x3 s]]]]; reflexivity.
    + destruct C as [r ->]. reflexivity.
  - set (k := zlen p) in *.
    assert (R : (if neg then 1 else 0) + 5 - zlen (sgn neg ++ p) = 5 - k).
    { rewrite zlen_app. unfold k, sgn. destruct neg; unfold zlen; cbn [length]; lia. }
    rewrite R. clear R. unfold yzero_canon. rewrite zlen_app. fold k.
    assert (K0 : 0 <= k) by apply zlen_nonneg.
    destruct (Z.ltb_spec (zlen s) (5 - k)) as [L|L], (Z.ltb_spec (k + zlen s) 5) as [L'|L']; try lia.
    + pose proof (collect_spec cw (length s) (sgn neg ++ p) s ltac:(lia)) as C.
      rewrite firstn_all, skipn_all in C. rewrite forallb_app, (forallb_dec cw p Hw Hp). cbn [andb].
      destruct (forallb (is_dec cw) s); [rewrite C, <- app_assoc; reflexivity|]. destruct C as [r ->]. reflexivity.
    + set (n := Z.to_nat (5 - k - 1)).
      assert (Hn : (n <= length s)%nat) by (unfold n, zlen in *; lia).
      assert (Hn4 : (length p + n = 4)%nat) by (unfold n, k, zlen in *; lia).
      pose proof (collect_spec cw n (sgn neg ++ p) s Hn) as C.
      assert (F4 : firstn 4 (p ++ s) = p ++ firstn n s).
      { rewrite firstn_app_le by lia. f_equal. f_equal. lia. }
      assert (S4 : skipn 4 (p ++ s) = skipn n s).
      { rewrite skipn_app, (skipn_all2 p) by lia. cbn [app]. f_equal. lia. }
      rewrite F4, S4, forallb_app, (forallb_dec cw p Hw Hp). cbn [andb].
      destruct (forallb (is_dec cw) (firstn n s)) eqn:E4.
      * rewrite C. destruct (skipn n s) as [|c r] eqn:E5; [reflexivity|].
        pose proof (forallb_decs cw _ Hw (units_firstn cw n s U) E4) as D4.
        rewrite <- app_assoc.
        destruct (is_dec cw c) eqn:Ec.
        -- rewrite (year_digits_canon cw sse neg (p ++ firstn n s) (c :: r)); auto.
           ++ f_equal. rewrite <- app_assoc. f_equal. rewrite <- E5. apply firstn_skipn.
           ++ apply Forall_app; auto.
           ++ rewrite <- E5. now apply units_skipn.
           ++ rewrite !zlen_app. fold k. unfold zlen. rewrite firstn_length. unfold k, zlen. destruct neg; cbn [sgn length]; lia.
           ++ cbn [take_dec]. rewrite Ec. intros N. apply app_eq_nil in N as [_ N]. discriminate.
        -- assert (Q : four (if neg then skipn 1 (sgn neg ++ p ++ firstn n s) else sgn neg ++ p ++ firstn n s) = four (p ++ s)).
           { destruct neg; cbn [sgn app skipn]; rewrite <- F4;
               destruct (p ++ s) as [|x0 [|x1 [|x2 [|x3 t]]]]; reflexivity. }
           rewrite Q. destruct (four (p ++ s)); reflexivity.
      * destruct C as [r ->]. reflexivity.
Qed.

(** Where the year scanner can be between chunks. *)
Definition year_wf (ip : sphase) (buf : list Z) : Prop :=
  match ip with
  | ph_space | ph_sign => buf = []
  | ph_zero => exists neg p, buf = sgn neg ++ p /\ Forall dec_char p /\ zlen p < 5
  | ph_digit => exists neg p, buf = sgn neg ++ p /\ Forall dec_char p /\ p <> [] /\ zlen buf < 20
  | ph_overflow => True
  | _ => False
  end.
Definition ythen (cw : Z) (sse : bool) (y : option ystep) (s : list Z) : option ystep :=
  match y with
  | Some (YPartial b ip) => year_phase cw sse ip b s
  | Some (YDone v r) => Some (YDone v (r ++ s))
  | _ => y
  end.

Lemma ythen_norm cw sse y s : ynorm (ythen cw sse (ynorm y) s) = ynorm (ythen cw sse y s).
Proof.
  destruct y as [[b ip|v r|c r]|]; cbn [ynorm ythen]; try reflexivity; [|destruct c; reflexivity].
  destruct ip; try reflexivity. cbn [ythen year_phase]. unfold year_overflow. destruct (skip_digits 10 cw s) as [[|x l]|]; reflexivity.
Qed.

Lemma ydigits_step cw sse neg p c s : In cw char_widths -> Forall dec_char p -> units cw (c :: s) ->
  zlen (sgn neg ++ p) < 20 -> p ++ take_dec cw [c] <> [] ->
  ynorm (ythen cw sse (ydigits_canon cw neg (p ++ [c])) s) = ydigits_canon cw neg (p ++ c :: s).
Proof.
  intros Hw Hp U L Hne. pose proof (Forall_inv U) as Uc. pose proof (Forall_inv_tail U) as Us. cbv beta in Uc.
  assert (Hp' : Forall (fun c => is_dec cw c = true) p) by (eapply Forall_impl; [|exact Hp]; intros x; apply dec_is; exact Hw).
  unfold ydigits_canon at 1. rewrite take_app, drop_app by exact Hp'. cbn [take_dec drop_dec] in *.
  destruct (is_dec cw c) eqn:Ec.
  - assert (Hpc : Forall dec_char (p ++ [c])).
    { apply Forall_app. split; [exact Hp|]. constructor; [|constructor]. now apply (is_dec_iff cw). }
    destruct (Z.ltb_spec (zlen (sgn neg ++ p ++ [c])) 20) as [F|F]; cbn [ythen year_phase].
    + change (p ++ c :: s) with (p ++ [c] ++ s). rewrite (app_assoc p [c] s). apply year_digits_canon; auto.
      intros N. apply app_eq_nil in N as [N _]. apply app_eq_nil in N as [_ N]. discriminate.
    + unfold ydigits_canon, year_overflow. rewrite skip_digits_drop, take_app, drop_app by exact Hp'.
      cbn [take_dec drop_dec]. rewrite Ec.
      assert (G : zlen (sgn neg ++ p ++ c :: take_dec cw s) <? 20 = false).
      { apply Z.ltb_ge. rewrite !zlen_app in *. unfold zlen in *. cbn [length] in *. lia. }
      rewrite G. destruct (drop_dec cw s); reflexivity.
  - unfold ydigits_canon. rewrite take_app, drop_app by exact Hp'. cbn [take_dec drop_dec]. rewrite Ec, !app_nil_r.
    destruct (zlen (sgn neg ++ p) <? 20); [|reflexivity]. destruct (year_of neg p); reflexivity.
Qed.

Lemma zlen_cons {A} (x : A) l : zlen (x :: l) = 1 + zlen l. Proof. unfold zlen. cbn [length]. lia. Qed.
Lemma yzero_step cw sse neg p c s : In cw char_widths -> Forall dec_char p -> units cw (c :: s) -> zlen p < 5 ->
  ynorm (ythen cw sse (yzero_canon cw neg (p ++ [c])) s) = yzero_canon cw neg (p ++ c :: s).
Proof.
  intros Hw Hp U L. pose proof (Forall_inv U) as Uc. pose proof (Forall_inv_tail U) as Us. cbv beta in Uc.
  pose proof (zlen_nonneg p). pose proof (zlen_nonneg s).
  unfold yzero_canon at 1. rewrite zlen_app. change (zlen [c]) with 1. destruct (Z.ltb_spec (zlen p + 1) 5) as [L4|L4].
  - rewrite forallb_app, (forallb_dec cw p Hw Hp). cbn [andb forallb]. rewrite andb_true_r.
    destruct (is_dec cw c) eqn:Ec; cbn [ythen].
    + assert (Hpc : Forall dec_char (p ++ [c])).
      { apply Forall_app. split; [exact Hp|]. constructor; [|constructor]. now apply (is_dec_iff cw). }
      change (p ++ c :: s) with (p ++ [c] ++ s). rewrite (app_assoc p [c] s). cbn [year_phase]. destruct s as [|d s].
      * rewrite app_nil_r. cbn [year_zero ynorm]. unfold yzero_canon. rewrite zlen_app. change (zlen [c]) with 1.
        destruct (Z.ltb_spec (zlen p + 1) 5); [|lia]. rewrite (forallb_dec cw _ Hw Hpc). reflexivity.
      * apply year_zero_canon; auto; [discriminate|]. rewrite zlen_app. change (zlen [c]) with 1. lia.
    + cbn [ynorm]. unfold yzero_canon. destruct (zlen (p ++ c :: s) <? 5).
      * rewrite forallb_app. cbn [forallb]. rewrite Ec. cbn [andb]. rewrite andb_false_r. reflexivity.
      * assert (F : forallb (is_dec cw) (firstn 4 (p ++ c :: s)) = false).
        { rewrite firstn_app_le by (unfold zlen in *; lia). rewrite forallb_app.
          destruct (4 - length p)%nat as [|n] eqn:En; [unfold zlen in *; lia|]. cbn [firstn forallb]. rewrite Ec.
          cbn [andb]. apply andb_false_r. }
        rewrite F. reflexivity.
  - assert (Lp : length p = 4%nat) by (unfold zlen in *; lia).
    assert (F : forall t, firstn 4 (p ++ t) = p /\ skipn 4 (p ++ t) = t).
    { intros t. rewrite <- Lp. rewrite firstn_app, firstn_all, Nat.sub_diag, skipn_app, skipn_all, Nat.sub_diag.
      cbn. rewrite app_nil_r. auto. }
    destruct (F [c]) as [F1 F2]. destruct (F (c :: s)) as [F3 F4]. rewrite F1, F2.
    unfold yzero_canon. rewrite F3, F4, (forallb_dec cw p Hw Hp), zlen_app, zlen_cons.
    destruct (Z.ltb_spec (zlen p + (1 + zlen s)) 5); [lia|].
    destruct (is_dec cw c) eqn:Ec.
    + apply ydigits_step; auto.
      * rewrite zlen_app. unfold zlen in *. destruct neg; cbn [sgn length]; lia.
      * destruct p; [cbn in Lp; lia|discriminate].
    + destruct p as [|x0 [|x1 [|x2 [|x3 [|]]]]]; cbn in Lp; try lia. reflexivity.
Qed.

Lemma year_one cw sse ip buf c s : In cw char_widths -> year_wf ip buf -> units cw (c :: s) ->
  ynorm (year_phase cw sse ip buf (c :: s)) = ynorm (ythen cw sse (year_phase cw sse ip buf [c]) s).
Proof.
  intros Hw WF U. pose proof (Forall_inv_tail U) as Us. assert (Uc : units cw [c]) by (constructor; [exact (Forall_inv U)|constructor]).
  assert (SG : ynorm (year_sign cw sse [] (c :: s)) = ynorm (ythen cw sse (year_sign cw sse [] [c]) s)).
  { unfold year_sign. destruct (c =? 45); [reflexivity|].
    rewrite <- (ythen_norm _ _ (year_zero cw sse [] [c])).
    assert (Z0 : forall t, t <> [] -> units cw t -> ynorm (year_zero cw sse [] t) = yzero_canon cw false t).
    { intros t Ht Ut. apply (year_zero_canon cw sse false [] t); auto. cbn; lia. }
    rewrite (Z0 (c :: s)), (Z0 [c]) by (auto; discriminate).
    symmetry. apply (yzero_step cw sse false []); auto. cbn; lia. }
  destruct ip; cbn [year_wf] in WF; cbn [year_phase]; try contradiction.
  - subst buf. cbn [skip_space]. destruct (is_c_space cw c); [reflexivity|exact SG].
  - subst buf. exact SG.
  - destruct WF as (neg & p & -> & Hp & L). rewrite <- (ythen_norm _ _ (year_zero _ _ _ _)).
    rewrite !year_zero_canon by (auto; discriminate). symmetry. now apply yzero_step.
  - destruct WF as (neg & p & -> & Hp & Hne & L). rewrite <- (ythen_norm _ _ (year_digits _ _ _ _ _)).
    rewrite !year_digits_canon; auto; try (destruct p; [contradiction|discriminate]).
    symmetry. apply ydigits_step; auto. destruct p; [contradiction|discriminate].
  - unfold year_overflow. rewrite !skip_digits_drop. cbn [drop_dec]. destruct (is_dec cw c); cbn [ythen year_phase]; [|reflexivity].
    unfold year_overflow. rewrite skip_digits_drop. reflexivity.
Qed.

(** Between chunks the state stays well formed. *)
Lemma norm_partial y b ip : y = Some (YPartial b ip) -> ip = ph_overflow \/ ynorm y = Some (YPartial b ip).
Proof. intros ->. destruct ip; auto. Qed.
Lemma yzero_canon_wf cw neg w b ip : In cw char_widths -> units cw w -> yzero_canon cw neg w = Some (YPartial b ip) -> year_wf ip b.
Proof.
  intros Hw U. unfold yzero_canon. destruct (Z.ltb_spec (zlen w) 5).
  - destruct (forallb (is_dec cw) w) eqn:E; [|discriminate]. intros Q. injection Q as <- <-. cbn [year_wf].
    exists neg, w. split; [reflexivity|]. split; [now apply (forallb_decs cw)|lia].
  - destruct (forallb _ _) eqn:E4; [|discriminate]. destruct (skipn 4 w) as [|c r] eqn:E5; [discriminate|].
    destruct (is_dec cw c).
    + unfold ydigits_canon. destruct (drop_dec cw w) eqn:ED.
      * destruct (Z.ltb_spec (zlen (sgn neg ++ take_dec cw w)) 20); intros Q; injection Q as <- <-; [|exact I]. cbn [year_wf].
        exists neg, (take_dec cw w). split; [reflexivity|]. pose proof (take_drop cw w) as TD. rewrite ED, app_nil_r in TD.
        rewrite TD in *. split; [apply (decs cw Hw); [exact U|rewrite <- TD; apply take_all]|]. split; [|lia].
        intros ->. cbn in H. lia.
      * destruct (_ <? _); [|discriminate]. destruct (year_of _ _); discriminate.
    + destruct (four w); discriminate.
Qed.
Lemma year_wf_next cw sse ip buf s b ip' : In cw char_widths -> year_wf ip buf -> units cw s ->
  year_phase cw sse ip buf s = Some (YPartial b ip') -> year_wf ip' b.
Proof.
  intros Hw WF U E.
  assert (ZE : forall neg p t, Forall dec_char p -> zlen p < 5 -> units cw t ->
     year_zero cw sse (sgn neg ++ p) t = Some (YPartial b ip') -> year_wf ip' b).
  { intros neg p t Hp L Ut Q. destruct t as [|c t].
    - cbn [year_zero] in Q. injection Q as <- <-. cbn [year_wf]. eauto.
    - destruct (norm_partial _ _ _ Q) as [-> | N]; [exact I|].
      rewrite year_zero_canon in N by (auto; discriminate). eapply yzero_canon_wf; [exact Hw| |exact N].
      apply units_app; [|exact Ut]. apply units_small; [exact Hw|]. eapply Forall_impl; [|exact Hp]. unfold dec_char. intros; lia. }
  assert (SG : forall t, units cw t -> year_sign cw sse [] t = Some (YPartial b ip') -> year_wf ip' b).
  { intros t Ut Q. unfold year_sign in Q. destruct t as [|c t]; [injection Q as <- <-; reflexivity|].
    destruct (c =? 45).
    - apply (ZE true [] t); auto; [cbn; lia|]. exact (Forall_inv_tail Ut).
    - apply (ZE false [] (c :: t)); auto. cbn; lia. }
  destruct ip; cbn [year_wf year_phase] in *; try contradiction.
  - subst buf. destruct (skip_space_suffix cw s) as [q Eq]. destruct (skip_space cw s) as [|c t] eqn:Es.
    + injection E as <- <-. reflexivity.
    + apply (SG (c :: t)); [|exact E]. rewrite Eq in U. apply Forall_app in U. tauto.
  - subst buf. now apply (SG s).
  - destruct WF as (neg & p & -> & Hp & L). now apply (ZE neg p s).
  - destruct WF as (neg & p & -> & Hp & Hne & L). destruct (norm_partial _ _ _ E) as [-> | N]; [exact I|].
    rewrite year_digits_canon in N; auto; [|destruct p; [contradiction|discriminate]].
    unfold ydigits_canon in N. destruct (drop_dec cw (p ++ s)) eqn:ED.
    + destruct (Z.ltb_spec (zlen (sgn neg ++ take_dec cw (p ++ s))) 20); injection N as <- <-; [|exact I]. cbn [year_wf].
      exists neg, (take_dec cw (p ++ s)). split; [reflexivity|].
      assert (Hp' : Forall (fun c => is_dec cw c = true) p) by (eapply Forall_impl; [|exact Hp]; intros x; apply dec_is; exact Hw).
      split; [|split; [|lia]].
      * rewrite take_app by exact Hp'. apply Forall_app. split; [exact Hp|]. apply (decs cw Hw); [|apply take_all].
        rewrite <- (take_drop cw s) in U. apply Forall_app in U. tauto.
      * rewrite take_app by exact Hp'. destruct p; [contradiction|discriminate].
    + destruct (_ <? _); [|discriminate]. destruct (year_of _ _); discriminate.
  - unfold year_overflow in E. rewrite skip_digits_drop in E. destruct (drop_dec cw s); [|discriminate]. injection E as <- <-. exact I.
Qed.

(** A year ends before the character that ends it. *)
Lemma ydigits_done cw neg p c v r : In cw char_widths -> Forall dec_char p -> ydigits_canon cw neg (p ++ [c]) = Some (YDone v r) -> r = [c].
Proof.
  intros Hw Hp. unfold ydigits_canon.
  assert (Hp' : Forall (fun c => is_dec cw c = true) p) by (eapply Forall_impl; [|exact Hp]; intros x; apply dec_is; exact Hw).
  rewrite drop_app by exact Hp'. cbn [drop_dec]. destruct (is_dec cw c); [destruct (_ <? _); discriminate|].
  destruct (_ <? _); [|discriminate]. destruct (year_of _ _); [|discriminate]. intros E. injection E as _ <-. reflexivity.
Qed.
Lemma yzero_done cw neg p c v r : In cw char_widths -> Forall dec_char p -> zlen p < 5 -> yzero_canon cw neg (p ++ [c]) = Some (YDone v r) -> r = [c].
Proof.
  intros Hw Hp L. unfold yzero_canon. rewrite zlen_app. change (zlen [c]) with 1. destruct (Z.ltb_spec (zlen p + 1) 5).
  - destruct (forallb _ _); discriminate.
  - destruct (forallb _ _); [|discriminate]. assert (Lp : length p = 4%nat) by (unfold zlen in *; lia).
    replace (skipn 4 (p ++ [c])) with [c] by (rewrite <- Lp, skipn_app, skipn_all, Nat.sub_diag; reflexivity).
    destruct (is_dec cw c); [now apply ydigits_done|]. destruct (four _); [|discriminate]. intros E. injection E as _ <-. reflexivity.
Qed.
Lemma norm_done y v r : y = Some (YDone v r) -> ynorm y = Some (YDone v r). Proof. intros ->. reflexivity. Qed.
Lemma year_done cw sse ip buf c v r : In cw char_widths -> year_wf ip buf -> units cw [c] ->
  year_phase cw sse ip buf [c] = Some (YDone v r) -> r = [c].
Proof.
  intros Hw WF U E.
  assert (SG : year_sign cw sse [] [c] = Some (YDone v r) -> r = [c]).
  { unfold year_sign. destruct (c =? 45); [discriminate|]. intros Q. apply norm_done in Q.
    pose proof (year_zero_canon cw sse false [] [c] Hw ltac:(discriminate) (Forall_nil _) ltac:(cbn; lia) U) as C.
    cbn [sgn app] in C. rewrite C in Q. apply (yzero_done cw false [] c v r Hw (Forall_nil _)) in Q; [exact Q|cbn; lia]. }
  destruct ip; cbn [year_wf year_phase] in *; try contradiction.
  - subst buf. cbn [skip_space] in E. destruct (is_c_space cw c); [discriminate|auto].
  - subst buf. auto.
  - destruct WF as (neg & p & -> & Hp & L). apply norm_done in E. rewrite year_zero_canon in E by (auto; discriminate).
    now apply yzero_done in E.
  - destruct WF as (neg & p & -> & Hp & Hne & L). apply norm_done in E. rewrite year_digits_canon in E; auto;
      [|destruct p; [contradiction|discriminate]]. now apply ydigits_done in E.
  - unfold year_overflow in E. rewrite skip_digits_drop in E. destruct (drop_dec cw [c]); discriminate.
Qed.
(** A failure is reported as one. *)
Definition failing (c : parse_code) : Prop := c <> pc_ok /\ c <> pc_partial.
Definition honest (y : option ystep) : Prop := match y with Some (YBad c _) => failing c | _ => True end.
Lemma norm_honest y : honest (ynorm y) -> honest y.
Proof. destruct y as [[b ip|v r|c r]|]; cbn; auto. destruct c; cbn; auto; intros _; split; discriminate. Qed.
Lemma ydigits_honest cw neg w : honest (ydigits_canon cw neg w).
Proof.
  unfold ydigits_canon. destruct (drop_dec cw w); destruct (_ <? _); try exact I; [destruct (year_of _ _); [exact I|]|]; split; discriminate.
Qed.
Lemma yzero_honest cw neg w : honest (yzero_canon cw neg w).
Proof.
  unfold yzero_canon. destruct (_ <? _); [destruct (forallb _ _); [exact I|split; discriminate]|].
  destruct (forallb _ _); [|split; discriminate]. destruct (skipn 4 w); [exact I|]. destruct (is_dec cw z); [apply ydigits_honest|].
  destruct (four w); exact I.
Qed.
Lemma year_honest cw sse ip buf s : In cw char_widths -> year_wf ip buf -> units cw s -> honest (year_phase cw sse ip buf s).
Proof.
  intros Hw WF U.
  assert (ZE : forall neg p t, Forall dec_char p -> zlen p < 5 -> units cw t -> honest (year_zero cw sse (sgn neg ++ p) t)).
  { intros neg p t Hp L Ut. destruct t as [|c t]; [exact I|]. apply norm_honest. rewrite year_zero_canon by (auto; discriminate). apply yzero_honest. }
  assert (SG : forall t, units cw t -> honest (year_sign cw sse [] t)).
  { intros t Ut. unfold year_sign. destruct t as [|c t]; [exact I|]. destruct (c =? 45).
    - apply (ZE true [] t); auto; [cbn; lia|exact (Forall_inv_tail Ut)].
    - apply (ZE false [] (c :: t)); auto. cbn; lia. }
  destruct ip; cbn [year_wf year_phase] in *; try contradiction.
  - subst buf. destruct (skip_space_suffix cw s) as [q Eq]. destruct (skip_space cw s) as [|c t] eqn:Es; [exact I|].
    apply (SG (c :: t)). rewrite Eq in U. apply Forall_app in U. tauto.
  - subst buf. auto.
  - destruct WF as (neg & p & -> & Hp & L). auto.
  - destruct WF as (neg & p & -> & Hp & Hne & L). apply norm_honest. rewrite year_digits_canon; auto; [apply ydigits_honest|].
    destruct p; [contradiction|discriminate].
  - unfold year_overflow. rewrite skip_digits_drop. destruct (drop_dec cw s); [exact I|]. split; discriminate.
Qed.
