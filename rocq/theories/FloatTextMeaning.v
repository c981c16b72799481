(** Text of a floating point number: what the texts mean. *)
From Coq Require Import QArith.
From Verif Require Import Base Outcome NumSpec NumFacts IntPrintModel IntPrintProofs JeaiiiProofs IntPrintCorrect IntSizeProofs
  FloatTables FloatModel FloatSpec FloatTextSpec FloatTextModel FloatRoundProofs FloatCodeProofs FloatTextProofs FloatTextCases FloatTextForms.
Local Open Scope Z_scope.

Lemma zeros_value n ds : value_of 10 (repeat 0 n ++ ds) = value_of 10 ds.
Proof.
  induction n as [|n IH]; [reflexivity|]. cbn [repeat app]. rewrite value_of_cons, IH. lia.
Qed.
Lemma zeros_ok n : digits_ok 10 (repeat 0 n).
Proof. induction n; constructor; [lia|assumption]. Qed.
Lemma zeros_text n : repeat 48 n = map (digit_char false) (repeat 0 n).
Proof. induction n as [|n IH]; [reflexivity|]. cbn [repeat map]. f_equal. exact IH. Qed.
Lemma value_zeros n ds : value_of 10 (ds ++ repeat 0 n) = value_of 10 ds * 10 ^ Z.of_nat n.
Proof.
  rewrite value_of_app, repeat_length. rewrite <- (app_nil_r (repeat 0 n)) at 1. rewrite zeros_value.
  change (value_of 10 []) with 0. lia.
Qed.
Lemma digits_ok_app a b : digits_ok 10 a -> digits_ok 10 b -> digits_ok 10 (a ++ b).
Proof. intros H1 H2. apply Forall_app. split; assumption. Qed.
Lemma digits_ok_parts n a : digits_ok 10 a -> digits_ok 10 (firstn n a) /\ digits_ok 10 (skipn n a).
Proof. intros H. rewrite <- (firstn_skipn n a) in H. apply Forall_app in H. exact H. Qed.
Lemma digits_last n u : (0 < n)%nat -> last (digs 10 n u) 0 = u mod 10.
Proof. intros H. destruct n; [lia|]. cbn [digs]. apply last_last. Qed.
Lemma last_skipn (l : list Z) n : (n < length l)%nat -> last (skipn n l) 0 = last l 0.
Proof.
  revert n. induction l as [|x l IH]; intros n H; [cbn [length] in H; lia|]. destruct n; [reflexivity|].
  cbn [skipn length] in *. rewrite IH by lia. destruct l; [cbn [length] in H; lia|reflexivity].
Qed.
Lemma last_app_r (a b : list Z) : b <> [] -> last (a ++ b) 0 = last b 0.
Proof.
  intros H. induction a as [|x a IH]; [reflexivity|]. cbn [app]. destruct (a ++ b) eqn:E; [|rewrite <- E in *; cbn [last]; rewrite E; rewrite <- E; exact IH].
  destruct a; [contradiction|discriminate].
Qed.

Section Meaning.
Variables (f : fmt) (fl : fflags) (m e len : Z).
Hypothesis Kf : known f.
Hypothesis R : reach f m e len.
Let point := point_of (ff_comma fl).
Let mark := if ff_upper_e fl then 69 else 101.
Let D := digs 10 (Z.to_nat len) m.

Lemma D_value : value_of 10 D = m.
Proof.
  destruct R as ((A & B) & (L1 & L2 & _) & _). unfold D. rewrite digs_value by lia. apply Z.mod_small. rewrite Z2Nat.id by lia. lia.
Qed.
Lemma D_ok : digits_ok 10 D.
Proof. apply digs_ok. lia. Qed.
Lemma D_len : zlen D = len.
Proof. pose proof (reach_len f m e len R). unfold D, zlen. rewrite digs_length. lia. Qed.
Lemma D_lead : exists d ds, D = d :: ds /\ d <> 0.
Proof.
  destruct R as ((A & B) & (L1 & L2 & L3) & _). unfold D. replace (Z.to_nat len) with (S (Z.to_nat (len - 1))) by lia.
  assert (P : 10 ^ Z.of_nat (Z.to_nat (len - 1)) <= m).
  { rewrite Z2Nat.id by lia. destruct L3 as [E|E]; [rewrite E; change (10 ^ (1 - 1)) with 1; lia|assumption]. }
  destruct (digs_head 10 (Z.to_nat (len - 1)) m ltac:(lia)) as (ds & E).
  { split; [assumption|]. rewrite Nat2Z.inj_succ, Z2Nat.id by lia. replace (Z.succ (len - 1)) with len by lia. assumption. }
  exists (m / 10 ^ Z.of_nat (Z.to_nat (len - 1))), ds. split; [exact E|].
  assert (0 < 10 ^ Z.of_nat (Z.to_nat (len - 1))) by (apply Z.pow_pos_nonneg; lia).
  assert (1 <= m / 10 ^ Z.of_nat (Z.to_nat (len - 1))) by (apply Z.div_le_lower_bound; lia). lia.
Qed.
Lemma D_text : dtext m len = map (digit_char false) D.
Proof. reflexivity. Qed.

Lemma fixed_means : exists t, text_of 10 false point mark 2 t (fixed_text fl m e len) /\
  (decimal_value t == dec m e)%Q /\ fixed_form t /\ (m mod 10 <> 0 -> no_trailing_zero t).
Proof.
  pose proof D_value as V. pose proof D_ok as OK. pose proof D_len as DL. destruct D_lead as (d0 & ds & ED & D0).
  pose proof (reach_len f m e len R) as LR.
  unfold fixed_text. cbv zeta. rewrite !D_text.
  destruct (Z.leb_spec len (e + len - 1)) as [L|L].
  - exists (mk_number (D ++ repeat 0 (Z.to_nat (e + len - 1 + 1 - len))) [] None). split; [|split; [|split]].
    + split; [cbn [n_int]; rewrite ED; discriminate|]. split; [apply digits_ok_app; [assumption|apply zeros_ok]|].
      split; [constructor|]. exists []. split; [reflexivity|]. cbn [n_int n_frac]. rewrite map_app, zeros_text, !app_nil_r. reflexivity.
    + unfold decimal_value, exponent_of. cbn [n_int n_frac n_exp]. rewrite app_nil_r, value_zeros, V. change (zlen []) with 0.
      rewrite (dec_shift m 0 e) by lia. rewrite Z2Nat.id by lia. replace (e + len - 1 + 1 - len) with (e - 0) by lia. reflexivity.
    + split; [reflexivity|]. cbn [n_int]. rewrite ED. cbn [app no_leading_zero]. destruct (ds ++ _); [exact I|assumption].
    + intros _. left. reflexivity.
  - destruct (Z.leb_spec 0 (e + len - 1)) as [L0|L0].
    + unfold case1_text. rewrite !D_text. set (ep := e + len - 1 + 1). destruct (Z.eqb_spec len ep) as [E|E].
      * exists (mk_number D [] None). split; [|split; [|split]].
        -- split; [cbn [n_int]; rewrite ED; discriminate|]. split; [assumption|]. split; [constructor|].
           exists []. split; [reflexivity|]. cbn [n_int n_frac]. rewrite !app_nil_r. reflexivity.
        -- unfold decimal_value, exponent_of. cbn [n_int n_frac n_exp]. rewrite app_nil_r, V. change (zlen []) with 0.
           replace (0 - 0) with e by (unfold ep in E; lia). reflexivity.
        -- split; [reflexivity|]. cbn [n_int]. rewrite ED. destruct ds; [exact I|assumption].
        -- intros _. left. reflexivity.
      * assert (Lf : zlen (skipn (Z.to_nat ep) D) = - e).
        { unfold zlen in *. rewrite skipn_length. unfold ep in *. lia. }
        exists (mk_number (firstn (Z.to_nat ep) D) (skipn (Z.to_nat ep) D) None).
        assert (NE : skipn (Z.to_nat ep) D <> []).
        { intros N. rewrite N in Lf. change (zlen []) with 0 in Lf. unfold ep in E. lia. }
        split; [|split; [|split]].
        -- cbn [n_int n_frac]. split.
           { unfold ep. replace (Z.to_nat (e + len - 1 + 1)) with (S (Z.to_nat (e + len - 1))) by lia. cbn [n_int]. rewrite ED. discriminate. }
           destruct (digits_ok_parts (Z.to_nat ep) D OK) as [O1 O2]. split; [assumption|]. split; [assumption|].
           exists []. split; [reflexivity|]. cbn [n_int n_frac]. rewrite app_nil_r. rewrite firstn_map, skipn_map.
           destruct (skipn (Z.to_nat ep) D) eqn:ES; [contradiction|]. reflexivity.
        -- unfold decimal_value, exponent_of. cbn [n_int n_frac n_exp]. rewrite firstn_skipn, V, Lf.
           replace (0 - - e) with e by lia. reflexivity.
        -- split; [reflexivity|]. cbn [n_int]. unfold ep. replace (Z.to_nat (e + len - 1 + 1)) with (S (Z.to_nat (e + len - 1))) by lia.
           rewrite ED. cbn [firstn no_leading_zero]. destruct (firstn _ ds); [exact I|assumption].
        -- intros NZ. right. cbn [n_frac]. rewrite last_skipn by (unfold zlen in *; unfold ep in *; lia).
           unfold D. rewrite digits_last by lia. assumption.
    + set (z := Z.to_nat (- (e + len - 1) - 1)).
      exists (mk_number [0] (repeat 0 z ++ D) None).
      assert (NE : repeat 0 z ++ D <> []). { rewrite ED. destruct (repeat 0 z); discriminate. }
      split; [|split; [|split]].
      * split; [discriminate|]. split; [repeat constructor; lia|]. split; [apply digits_ok_app; [apply zeros_ok|assumption]|].
        exists []. split; [reflexivity|]. cbn [n_int n_frac]. rewrite app_nil_r.
        destruct (repeat 0 z ++ D) eqn:ES; [contradiction|]. rewrite <- ES. rewrite map_app, zeros_text. reflexivity.
      * unfold decimal_value, exponent_of. cbn [n_int n_frac n_exp].
        change ([0] ++ repeat 0 z ++ D) with (repeat 0 (S z) ++ D). rewrite zeros_value, V.
        replace (0 - zlen (repeat 0 z ++ D)) with e; [reflexivity|].
        rewrite zlen_app, DL. unfold zlen, z. rewrite repeat_length. lia.
      * split; [reflexivity|exact I].
      * intros NZ. right. cbn [n_frac]. rewrite last_app_r by (rewrite ED; discriminate). unfold D. rewrite digits_last by lia. assumption.
Qed.

Lemma exp_digits_ok u k : 0 <= u -> 2 <= k -> u < 10 ^ k -> (k = 2 \/ 10 ^ (k - 1) <= u) -> exponent_digits 2 u (dtext u k).
Proof.
  intros H0 Hk H L. exists (digs 10 (Z.to_nat k) u). split; [apply digs_ok; lia|]. split.
  { rewrite digs_value by lia. apply Z.mod_small. rewrite Z2Nat.id by lia. lia. }
  split; [reflexivity|]. unfold zlen. rewrite digs_length. split; [lia|]. destruct L as [-> | L]; [left; reflexivity|right].
  replace (Z.to_nat k) with (S (Z.to_nat (k - 1))) by lia. apply digs_no_leading_zero; [lia| |].
  - right. rewrite Z2Nat.id by lia. exact L.
  - rewrite Nat2Z.inj_succ, Z2Nat.id by lia. replace (Z.succ (k - 1)) with k by lia. exact H.
Qed.
Lemma exp_means e' : e10digits f = 2 /\ -100 < e' < 100 \/ e10digits f = 3 /\ -1000 < e' < 1000 ->
  exponent_digits 2 (Z.abs e') (dtext (Z.abs e') (exp_len f e')).
Proof.
  intros H. unfold exp_len. destruct H as [[-> H]|[-> H]].
  - change (2 =? 3) with false. cbn [andb]. apply exp_digits_ok; [lia|lia|change (10 ^ 2) with 100; lia|left; reflexivity].
  - change (3 =? 3) with true. cbn [andb]. destruct (Z.leb_spec 100 (Z.abs e')).
    + apply exp_digits_ok; [lia|lia|change (10 ^ 3) with 1000; lia|right; change (10 ^ (3 - 1)) with 100; lia].
    + apply exp_digits_ok; [lia|lia|change (10 ^ 2) with 100; lia|left; reflexivity].
Qed.
Lemma scientific_means : exists t, text_of 10 false point mark 2 t (scientific_text f fl m e len) /\
  (decimal_value t == dec m e)%Q /\ scientific_form t /\ (m mod 10 <> 0 -> no_trailing_zero t).
Proof.
  pose proof D_value as V. pose proof D_ok as OK. pose proof D_len as DL. destruct D_lead as (d0 & ds & ED & D0).
  pose proof (reach_len f m e len R) as LR.
  set (e' := e + len - 1). exists (mk_number [d0] ds (Some e')).
  assert (LD : zlen ds = len - 1). { rewrite ED in DL. unfold zlen in *. cbn [length] in DL. lia. }
  rewrite ED in OK. inversion OK as [|x l O1 O2]; subst x l.
  split; [|split; [|split]].
  - split; [discriminate|]. split; [constructor; [assumption|constructor]|]. split; [assumption|].
    cbn [n_exp n_int n_frac]. exists (exp_text f (ff_upper_e fl) e'). split.
    + exists (dtext (Z.abs e') (exp_len f e')). split; [reflexivity|]. apply exp_means. apply (exp_fits f m e len Kf R).
    + unfold scientific_text. fold e'. rewrite app_assoc. f_equal. unfold sci_text. rewrite D_text, ED. destruct (Z.eqb_spec len 1) as [E|E].
      * destruct ds; [reflexivity|unfold zlen in LD; cbn [length] in LD; lia].
      * destruct ds; [unfold zlen in LD; cbn [length] in LD; lia|]. reflexivity.
  - unfold decimal_value, exponent_of. cbn [n_int n_frac n_exp]. change ([d0] ++ ds) with (d0 :: ds). rewrite <- ED, V, LD.
    unfold e'. replace (e + len - 1 - (len - 1)) with e by lia. reflexivity.
  - split; [exists e'; reflexivity|]. exists d0. split; [reflexivity|assumption].
  - intros NZ. destruct ds as [|d1 ds]; [left; reflexivity|]. right. cbn [n_frac].
    replace (last (d1 :: ds) 0) with (last D 0) by (rewrite ED; reflexivity). unfold D. rewrite digits_last by lia. assumption.
Qed.

(** One text for every format. *)
Definition chosen (mt : format) : list Z :=
  match mt with
  | general => if (-5 <? e) && (e <? 7) then fixed_text fl m e len else scientific_text f fl m e len
  | scientific => scientific_text f fl m e len
  | decimal => if take_scientific e len then scientific_text f fl m e len else fixed_text fl m e len
  | fixed => fixed_text fl m e len
  end.
Lemma decision_is mt st : 0 <= snd st -> print_rsv_fp_decision f fl mt m e st = emit (chosen mt) st.
Proof.
  intros H. unfold print_rsv_fp_decision, chosen. destruct mt.
  - destruct ((-5 <? e) && (e <? 7)); [apply (fixed_is f fl m e len Kf R); assumption|apply (scientific_is f fl m e len Kf R); assumption].
  - apply (scientific_is f fl m e len Kf R); assumption.
  - apply (decimal_is f fl m e len Kf R); assumption.
  - apply (fixed_is f fl m e len Kf R); assumption.
Qed.
(** Its form. *)
Definition form_of (mt : format) (t : number) : Prop :=
  match mt with
  | general => if (-5 <? e) && (e <? 7) then fixed_form t else scientific_form t
  | scientific => scientific_form t
  | decimal => scientific_form t \/ fixed_form t
  | fixed => fixed_form t
  end.
Lemma chosen_means mt : exists t, text_of 10 false point mark 2 t (chosen mt) /\
  (decimal_value t == dec m e)%Q /\ form_of mt t /\ (m mod 10 <> 0 -> no_trailing_zero t).
Proof.
  destruct fixed_means as (tf & F1 & F2 & F3 & F4). destruct scientific_means as (ts & S1 & S2 & S3 & S4).
  unfold chosen, form_of. destruct mt.
  - destruct ((-5 <? e) && (e <? 7)); [exists tf|exists ts]; tauto.
  - exists ts. tauto.
  - destruct (take_scientific e len); [exists ts|exists tf]; tauto.
  - exists tf. tauto.
Qed.
(** Sizes. *)
Lemma decimal_shorter : zlen (chosen decimal) <= zlen (fixed_text fl m e len) /\ zlen (chosen decimal) <= zlen (scientific_text f fl m e len).
Proof.
  pose proof (reach_len f m e len R) as LR. pose proof (reach_exp f m e len R) as ER. unfold chosen.
  pose proof (zlen_fixed f fl m e len R) as ZF. pose proof (zlen_scientific f fl m e len R) as ZS.
  unfold take_scientific. unfold fixed_len in ZF. cbv zeta in *.
  unfold exp_len in ZS.
  assert (X : zlen (scientific_text f fl m e len) <= (if len =? 1 then 1 else len + 1) + 2 + (if 100 <=? Z.abs (e + len - 1) then 3 else 2) /\
     (if len =? 1 then 1 else len + 1) + 4 <= zlen (scientific_text f fl m e len)).
  { rewrite ZS. destruct (e10digits f =? 3); cbn [andb]; destruct (100 <=? _); split; lia. }
  clear ZS. destruct X as [X1 X2].
  destruct (Z.eqb_spec len 1); destruct (Z.leb_spec len (e + len - 1)); destruct (Z.leb_spec 0 (e + len - 1));
    destruct (Z.eqb_spec len (e + len - 1 + 1)); destruct (Z.leb_spec 100 (Z.abs (e + len - 1)));
    match goal with |- context [?a <? ?b] => destruct (Z.ltb_spec a b) end; lia.
Qed.
Lemma scientific_fits : zlen (scientific_text f fl m e len) + 1 <= 1 + m10digits f + 1 + 2 + e10digits f.
Proof.
  pose proof (reach_len f m e len R) as LR. pose proof (len_bound (mantw f) m len (proj1 R) (proj1 (proj2 R))) as LB.
  rewrite (zlen_scientific f fl m e len R). revert LB. unfold exp_len.
  destruct Kf as [-> | ->]; cbn [mantw binary32 binary64 m10digits e10digits]; unfold digits_bound.
  - change (32 =? 64) with false. change (2 =? 3) with false. cbn [andb]. destruct (Z.eqb_spec len 1); lia.
  - change (64 =? 64) with true. change (3 =? 3) with true. cbn [andb]. destruct (Z.eqb_spec len 1); destruct (100 <=? _); lia.
Qed.
Lemma chosen_fits mt : f = binary64 \/ mt <> general -> zlen (chosen mt) + 1 <= print_rsvflt_size f mt.
Proof.
  intros H. pose proof (reach_len f m e len R) as LR. pose proof (len_bound (mantw f) m len (proj1 R) (proj1 (proj2 R))) as LB.
  destruct decimal_shorter as [_ DS]. pose proof scientific_fits as SF.
  pose proof (zlen_fixed f fl m e len R) as ZF. unfold fixed_len in ZF. cbv zeta in ZF.
  destruct R as (_ & _ & E1 & E2). revert E1 E2. unfold dec_min, dec_max.
  destruct mt; unfold print_rsvflt_size; [|exact (fun _ _ => SF)|lia|].
  - destruct H as [H | H]; [rewrite H in *|congruence]. cbn [mantw binary64 m10digits e10digits] in *. unfold chosen.
    change (digits_bound 64) with 17 in LB. intros _ _.
    destruct (Z.ltb_spec (-5) e); cbn [andb]; [destruct (Z.ltb_spec e 7)|]; [|rewrite H; exact SF|rewrite H; exact SF].
    rewrite ZF. destruct (Z.leb_spec len (e + len - 1)); [lia|]. destruct (Z.leb_spec 0 (e + len - 1)); [destruct (_ =? _); lia|lia].
  - unfold chosen. rewrite ZF. clear ZF SF DS H. revert LB.
    destruct Kf as [-> | ->]; cbn [mantw binary32 binary64 m10digits e10max]; unfold digits_bound;
      [change (32 =? 64) with false|change (64 =? 64) with true]; cbv iota; intros;
      (destruct (Z.leb_spec len (e + len - 1)); [lia|]); (destruct (Z.leb_spec 0 (e + len - 1)); [destruct (_ =? _); lia|lia]).
Qed.
(** The general format of float can take one cell more than scientific. *)
Lemma chosen_fits_general : f = binary32 -> zlen (chosen general) <= 15.
Proof.
  intros H. pose proof (reach_len f m e len R) as LR. pose proof (len_bound (mantw f) m len (proj1 R) (proj1 (proj2 R))) as LB.
  pose proof scientific_fits as SF.
  pose proof (zlen_fixed f fl m e len R) as ZF. unfold fixed_len in ZF. cbv zeta in ZF.
  rewrite H in LB, SF. cbn [mantw binary32 m10digits e10digits] in *. change (digits_bound 32) with 9 in LB.
  unfold chosen. destruct (Z.ltb_spec (-5) e); cbn [andb]; [destruct (Z.ltb_spec e 7)|]; [| |]; [|rewrite H; lia|rewrite H; lia].
  rewrite ZF. destruct (Z.leb_spec len (e + len - 1)); [lia|]. destruct (Z.leb_spec 0 (e + len - 1)); [destruct (_ =? _); lia|lia].
Qed.
End Meaning.
