(** Floating point numbers printed with a locale: what the texts mean. *)
From Coq Require Import QArith.
From Verif Require Import Base LcModel LcSpec LcProofs RangeSpec Outcome NumSpec NumFacts IntPrintModel IntPrintProofs JeaiiiProofs IntPrintCorrect IntSizeProofs
  FloatTables FloatModel FloatSpec FloatTextSpec FloatTextModel FloatRoundProofs FloatCodeProofs FloatTextProofs FloatTextCases FloatTextForms
  FloatTextMeaning LcFloatSpec LcFloatModel LcFloatProofs.
Local Open Scope Z_scope.

Lemma grouped_none sep d : grouped [] sep d = d.
Proof. unfold grouped. destruct (length d); cbn [cut_groups map rev app join]; apply rev_involutive. Qed.
Lemma grouped_no_sep d : forall g, Forall (fun e => 0 <= e) g -> grouped g [] d = d.
Proof.
  remember (length d) as n eqn:L. revert d L. induction n as [n IH] using (well_founded_induction Wf_nat.lt_wf). intros d L g HF.
  destruct g as [|e g]; [apply grouped_none|]. pose proof (Forall_inv HF) as He. cbv beta in He.
  destruct (Z.eq_dec e 0) as [E|E]; [apply grouped_whole; auto|].
  destruct (Z_le_gt_dec (Z.of_nat (length d)) e) as [E2|E2]; [apply grouped_whole; auto|].
  rewrite <- (firstn_skipn (length d - Z.to_nat e) d) at 1.
  assert (L2 : length (skipn (length d - Z.to_nat e) d) = Z.to_nat e) by (rewrite skipn_length; lia).
  assert (L1 : length (firstn (length d - Z.to_nat e) d) = (length d - Z.to_nat e)%nat) by (rewrite firstn_length; lia).
  rewrite grouped_step; [|lia|exact (Forall_inv_tail HF)|lia|intros X; rewrite X in L1; cbn in L1; lia].
  rewrite (IH (length d - Z.to_nat e)%nat) by (try (apply later_nonneg; exact HF); lia). cbn [app]. apply firstn_skipn.
Qed.
Lemma grouped_one g sep c : Forall (fun e => 0 <= e) g -> grouped g sep [c] = [c].
Proof.
  intros HF. destruct g as [|e g]; [apply grouped_none|]. apply grouped_whole. pose proof (Forall_inv HF) as He. cbv beta in He. cbn [length]. lia.
Qed.

Section Meaning.
Variables (f : fmt) (fl : fflags) (lc : lc_numeric) (m e len : Z).
Hypothesis Kf : known f.
Hypothesis R : reach f m e len.
Hypothesis HF : Forall (fun e => 0 <= e) (lc_grouping lc).
Let point := point_of (ff_comma fl).
Let mark := if ff_upper_e fl then 69 else 101.
Let D := digs 10 (Z.to_nat len) m.
Let LT := lc_text_of 10 false (lc_grouping lc) (lc_sep lc) (lc_point lc) mark 2.

Lemma locale_digits_is l : locale_digits lc l = grouped (lc_grouping lc) (lc_sep lc) l.
Proof.
  unfold locale_digits, no_grouping. destruct (lc_grouping lc) as [|x g] eqn:G; [change (zlen [] =? 0) with true; cbn [orb]; rewrite grouped_none; reflexivity|].
  destruct (lc_sep lc) as [|c s] eqn:ES; [rewrite orb_true_r; rewrite grouped_no_sep; [reflexivity|exact HF]|].
  unfold zlen. cbn [length]. destruct (Z.eqb_spec (Z.of_nat (S (length g))) 0); [lia|]. destruct (Z.eqb_spec (Z.of_nat (S (length s))) 0); [lia|]. reflexivity.
Qed.
Lemma lc_fixed_means : exists t, text_of 10 false point mark 2 t (fixed_text fl m e len) /\ LT t (lc_fixed_text lc m e len) /\
  (decimal_value t == dec m e)%Q /\ fixed_form t /\ (m mod 10 <> 0 -> no_trailing_zero t).
Proof.
  pose proof (D_value f fl m e len R) as V. pose proof (D_ok fl m len) as OK. pose proof (D_len f fl m e len R) as DL. destruct (D_lead f fl m e len R) as (d0 & ds & ED & D0). fold D in V, OK, DL, ED.
  pose proof (reach_len f m e len R) as LR.
  unfold fixed_text, lc_fixed_text. cbv zeta. rewrite !locale_digits_is. rewrite !(D_text m len). fold D.
  destruct (Z.leb_spec len (e + len - 1)) as [L|L].
  - exists (mk_number (D ++ repeat 0 (Z.to_nat (e + len - 1 + 1 - len))) [] None). split; [|split; [|split; [|split]]].
    + split; [cbn [n_int]; rewrite ED; discriminate|]. split; [apply digits_ok_app; [assumption|apply zeros_ok]|].
      split; [constructor|]. exists []. split; [reflexivity|]. cbn [n_int n_frac]. rewrite map_app, zeros_text, !app_nil_r. reflexivity.
    + exists []. split; [reflexivity|]. cbn [n_int n_frac n_exp]. rewrite map_app, zeros_text, !app_nil_r. reflexivity.
    + unfold decimal_value, exponent_of. cbn [n_int n_frac n_exp]. rewrite app_nil_r, value_zeros, V. change (zlen []) with 0.
      rewrite (dec_shift m 0 e) by lia. rewrite Z2Nat.id by lia. replace (e + len - 1 + 1 - len) with (e - 0) by lia. reflexivity.
    + split; [reflexivity|]. cbn [n_int]. rewrite ED. cbn [app no_leading_zero]. destruct (ds ++ _); [exact Logic.I|assumption].
    + intros _. left. reflexivity.
  - destruct (Z.leb_spec 0 (e + len - 1)) as [L0|L0].
    + unfold case1_text. rewrite !(D_text m len). fold D. set (ep := e + len - 1 + 1). destruct (Z.eqb_spec len ep) as [E|E].
      * exists (mk_number D [] None). split; [|split; [|split; [|split]]].
        -- split; [cbn [n_int]; rewrite ED; discriminate|]. split; [assumption|]. split; [constructor|].
           exists []. split; [reflexivity|]. cbn [n_int n_frac]. rewrite !app_nil_r. reflexivity.
        -- exists []. split; [reflexivity|]. cbn [n_int n_frac n_exp]. rewrite !app_nil_r. reflexivity.
        -- unfold decimal_value, exponent_of. cbn [n_int n_frac n_exp]. rewrite app_nil_r, V. change (zlen []) with 0.
           replace (0 - 0) with e by (unfold ep in E; lia). reflexivity.
        -- split; [reflexivity|]. cbn [n_int]. rewrite ED. destruct ds; [exact Logic.I|assumption].
        -- intros _. left. reflexivity.
      * assert (Lf : zlen (skipn (Z.to_nat ep) D) = - e).
        { unfold zlen in *. rewrite skipn_length. unfold ep in *. lia. }
        exists (mk_number (firstn (Z.to_nat ep) D) (skipn (Z.to_nat ep) D) None).
        assert (NE : skipn (Z.to_nat ep) D <> []).
        { intros N. rewrite N in Lf. change (zlen []) with 0 in Lf. unfold ep in E. lia. }
        split; [|split; [|split; [|split]]].
        -- cbn [n_int n_frac]. split.
           { unfold ep. replace (Z.to_nat (e + len - 1 + 1)) with (S (Z.to_nat (e + len - 1))) by lia. cbn [n_int]. rewrite ED. discriminate. }
           destruct (digits_ok_parts (Z.to_nat ep) D OK) as [O1 O2]. split; [assumption|]. split; [assumption|].
           exists []. split; [reflexivity|]. cbn [n_int n_frac]. rewrite app_nil_r. rewrite firstn_map, skipn_map.
           destruct (skipn (Z.to_nat ep) D) eqn:ES; [contradiction|]. reflexivity.
        -- exists []. split; [reflexivity|]. cbn [n_int n_frac n_exp]. rewrite app_nil_r. rewrite firstn_map, skipn_map.
           destruct (skipn (Z.to_nat ep) D) eqn:ES; [contradiction|]. reflexivity.
        -- unfold decimal_value, exponent_of. cbn [n_int n_frac n_exp]. rewrite firstn_skipn, V, Lf.
           replace (0 - - e) with e by lia. reflexivity.
        -- split; [reflexivity|]. cbn [n_int]. unfold ep. replace (Z.to_nat (e + len - 1 + 1)) with (S (Z.to_nat (e + len - 1))) by lia.
           rewrite ED. cbn [firstn no_leading_zero]. destruct (firstn _ ds); [exact Logic.I|assumption].
        -- intros NZ. right. cbn [n_frac]. rewrite last_skipn by (unfold zlen in *; unfold ep in *; lia).
           unfold D. rewrite digits_last by lia. assumption.
    + set (z := Z.to_nat (- (e + len - 1) - 1)).
      exists (mk_number [0] (repeat 0 z ++ D) None).
      assert (NE : repeat 0 z ++ D <> []). { rewrite ED. destruct (repeat 0 z); discriminate. }
      split; [|split; [|split; [|split]]].
      * split; [discriminate|]. split; [repeat constructor; lia|]. split; [apply digits_ok_app; [apply zeros_ok|assumption]|].
        exists []. split; [reflexivity|]. cbn [n_int n_frac]. rewrite app_nil_r.
        destruct (repeat 0 z ++ D) eqn:ES; [contradiction|]. rewrite <- ES. rewrite map_app, zeros_text. reflexivity.
      * exists []. split; [reflexivity|]. cbn [n_int n_frac n_exp]. rewrite app_nil_r. change (map (digit_char false) [0]) with [48]. rewrite grouped_one by exact HF.
        destruct (repeat 0 z ++ D) eqn:ES; [contradiction|]. rewrite <- ES. rewrite map_app, zeros_text. reflexivity.
      * unfold decimal_value, exponent_of. cbn [n_int n_frac n_exp].
        change ([0] ++ repeat 0 z ++ D) with (repeat 0 (S z) ++ D). rewrite zeros_value, V.
        replace (0 - zlen (repeat 0 z ++ D)) with e; [reflexivity|].
        rewrite zlen_app, DL. unfold zlen, z. rewrite repeat_length. lia.
      * split; [reflexivity|exact Logic.I].
      * intros NZ. right. cbn [n_frac]. rewrite last_app_r by (rewrite ED; discriminate). unfold D. rewrite digits_last by lia. assumption.
Qed.

Lemma lc_scientific_means : exists t, text_of 10 false point mark 2 t (scientific_text f fl m e len) /\ LT t (lc_scientific_text f fl lc m e len) /\
  (decimal_value t == dec m e)%Q /\ scientific_form t /\ (m mod 10 <> 0 -> no_trailing_zero t).
Proof.
  pose proof (D_value f fl m e len R) as V. pose proof (D_ok fl m len) as OK. pose proof (D_len f fl m e len R) as DL. destruct (D_lead f fl m e len R) as (d0 & ds & ED & D0). fold D in V, OK, DL, ED.
  pose proof (reach_len f m e len R) as LR.
  set (e' := e + len - 1). exists (mk_number [d0] ds (Some e')).
  assert (LD : zlen ds = len - 1). { rewrite ED in DL. unfold zlen in *. cbn [length] in DL. lia. }
  rewrite ED in OK. inversion OK as [|x l O1 O2]; subst x l.
  split; [|split; [|split; [|split]]].
  - split; [discriminate|]. split; [constructor; [assumption|constructor]|]. split; [assumption|].
    cbn [n_exp n_int n_frac]. exists (exp_text f (ff_upper_e fl) e'). split.
    + exists (dtext (Z.abs e') (exp_len f e')). split; [reflexivity|]. apply (exp_means f fl). apply (exp_fits f m e len Kf R).
    + unfold scientific_text. fold e'. rewrite app_assoc. f_equal. unfold sci_text. rewrite (D_text m len); fold D; rewrite ED. destruct (Z.eqb_spec len 1) as [E|E].
      * destruct ds; [reflexivity|unfold zlen in LD; cbn [length] in LD; lia].
      * destruct ds; [unfold zlen in LD; cbn [length] in LD; lia|]. reflexivity.
  - exists (exp_text f (ff_upper_e fl) e'). cbn [n_exp n_int n_frac]. split.
    + exists (dtext (Z.abs e') (exp_len f e')). split; [reflexivity|]. apply (exp_means f fl). apply (exp_fits f m e len Kf R).
    + unfold lc_scientific_text. fold e'. rewrite app_assoc. f_equal. rewrite (D_text m len); fold D; rewrite ED. destruct (Z.eqb_spec len 1) as [E|E].
      * destruct ds; [reflexivity|unfold zlen in LD; cbn [length] in LD; lia].
      * destruct ds; [unfold zlen in LD; cbn [length] in LD; lia|]. reflexivity.
  - unfold decimal_value, exponent_of. cbn [n_int n_frac n_exp]. change ([d0] ++ ds) with (d0 :: ds). rewrite <- ED, V, LD.
    unfold e'. replace (e + len - 1 - (len - 1)) with e by lia. reflexivity.
  - split; [exists e'; reflexivity|]. exists d0. split; [reflexivity|assumption].
  - intros NZ. destruct ds as [|d1 ds]; [left; reflexivity|]. right. cbn [n_frac].
    replace (last (d1 :: ds) 0) with (last D 0) by (rewrite ED; reflexivity). unfold D. rewrite digits_last by lia. assumption.
Qed.

Lemma lc_chosen_means mt : exists t, text_of 10 false point mark 2 t (chosen f fl m e len mt) /\ LT t (lc_chosen f fl lc m e len mt) /\
  (decimal_value t == dec m e)%Q /\ form_of e mt t /\ (m mod 10 <> 0 -> no_trailing_zero t).
Proof.
  destruct lc_fixed_means as (tf & F1 & F2 & F3 & F4 & F5). destruct lc_scientific_means as (ts & S1 & S2 & S3 & S4 & S5).
  unfold chosen, lc_chosen, form_of. destruct mt.
  - destruct ((-5 <? e) && (e <? 7)); [exists tf|exists ts]; tauto.
  - exists ts. tauto.
  - destruct (take_scientific e len); [exists ts|exists tf]; tauto.
  - exists tf. tauto.
Qed.
End Meaning.
