(** Text of a floating point number: what the texts mean. *)
From Coq Require Import QArith.
From Verif Require Import Base Outcome NumSpec NumFacts IntPrintModel IntPrintProofs JeaiiiProofs IntPrintCorrect IntSizeProofs
  FloatTables FloatModel FloatSpec FloatTextSpec FloatTextModel FloatCodeProofs FloatBestProofs FloatTextProofs FloatTextCases.
Local Open Scope Z_scope.

(** The formats of the library: float and double. *)
Definition known (f : fmt) : Prop := f = binary32 \/ f = binary64.
(** Decimals within the reach of the format. *)
Definition dec_min (f : fmt) : Z := if mantw f =? 64 then -324 else -45.
Definition dec_max (f : fmt) : Z := if mantw f =? 64 then 312 else 45.
Definition reach (f : fmt) (m e len : Z) : Prop :=
  0 < m < 10 ^ digits_bound (mantw f) /\ digit_count 10 m len /\ dec_min f <= e /\ e + len <= dec_max f.
Lemma known_w f : known f -> mantw f = 32 \/ mantw f = 64.
Proof. intros [-> | ->]; [left|right]; reflexivity. Qed.

Section Decision.
Variables (f : fmt) (fl : fflags) (m e len : Z).
Hypothesis Kf : known f.
Hypothesis R : reach f m e len.
Let w := mantw f.
Let comma := ff_comma fl.

Definition fixed_text : list Z :=
  let re := e + len - 1 in
  if len <=? re then dtext m len ++ repeat 48 (Z.to_nat (re + 1 - len))
  else if 0 <=? re then case1_text m len comma re
  else [48; point_of comma] ++ repeat 48 (Z.to_nat (- re - 1)) ++ dtext m len.
Definition scientific_text : list Z := sci_text m len comma ++ exp_text f (ff_upper_e fl) (e + len - 1).

Let Hw : w = 32 \/ w = 64.
Proof. apply known_w. exact Kf. Qed.
Let Hm : 0 < m < 10 ^ digits_bound w.
Proof. apply R. Qed.
Let Hl : digit_count 10 m len.
Proof. apply R. Qed.
Lemma reach_len : 1 <= len <= 17.
Proof. exact (len_range w m len Hm Hl). Qed.
Lemma reach_exp : -324 <= e /\ e + len <= 312.
Proof. destruct R as (_ & _ & A & B). revert A B. unfold dec_min, dec_max. destruct (mantw f =? 64); lia. Qed.
Lemma re_range : -1000 < e + len - 1 < 1000.
Proof. pose proof reach_len. pose proof reach_exp. lia. Qed.

Lemma re_signed : signed_result 32 (e + len - 1) = Done (e + len - 1).
Proof.
  pose proof re_range. unfold signed_result. change (2 ^ (32 - 1)) with 2147483648.
  destruct (Z.leb_spec (- (2147483648)) (e + len - 1)); [|lia].
  destruct (Z.ltb_spec (e + len - 1) 2147483648); [reflexivity|lia].
Qed.
Lemma fixed_is st : 0 <= snd st -> print_rsv_fp_fixed_decision f comma m e st = emit fixed_text st.
Proof.
  intros Hs. pose proof re_range. unfold print_rsv_fp_fixed_decision. fold w. rewrite (len_eq w m len Hw Hm Hl). cbv zeta.
  rewrite re_signed. cbn [obind]. unfold fixed_text. cbv zeta.
  destruct (Z.leb_spec len (e + len - 1)) as [L|L]; [apply (case0_text w m len Hw Hm Hl); lia|].
  destruct (Z.leb_spec 0 (e + len - 1)) as [L0|L0]; cbn [andb].
  - destruct (Z.ltb_spec (e + len - 1) len); [|lia]. apply (case1_text_ok w m len Hw Hm Hl); [lia|assumption].
  - apply (case2_text w m len Hw Hm Hl). lia.
Qed.
Lemma exp_fits : e10digits f = 2 /\ -100 < e + len - 1 < 100 \/ e10digits f = 3 /\ -1000 < e + len - 1 < 1000.
Proof.
  pose proof reach_len. destruct R as (_ & _ & A & B). revert A B.
  destruct Kf as [-> | ->]; unfold dec_min, dec_max; cbn [mantw binary32 binary64 e10digits];
    [change (32 =? 64) with false|change (64 =? 64) with true]; cbv iota; intros; [left|right]; (split; [reflexivity|]); lia.
Qed.
Lemma scientific_is st : 0 <= snd st -> print_rsv_fp_scientific f fl m e st = emit scientific_text st.
Proof.
  intros Hs. pose proof re_range. pose proof reach_len as Ln. unfold print_rsv_fp_scientific, scientific_text. fold w. fold comma.
  destruct (Z.ltb_spec m 10) as [L|L].
  - assert (E : len = 1).
    { destruct Hl as (A & B & [C|C]); [assumption|]. destruct (Z.eq_dec len 1); [assumption|].
      assert (10 ^ 1 <= 10 ^ (len - 1)) by (apply Z.pow_le_mono_r; lia). lia. }
    rewrite one_digit_text by lia. cbn [lift obind]. unfold sci_text. rewrite E. change (1 =? 1) with true. cbv iota.
    rewrite <- emit_app. destruct (emit _ st) as [s1| |]; cbn [obind]; try reflexivity.
    replace (e + 1 - 1) with e by lia. apply e_text. pose proof exp_fits as X. rewrite E in X. replace (e + 1 - 1) with e in X by lia. exact X.
  - assert (E : 1 < len).
    { destruct Hl as (A & B & C). destruct (Z.eq_dec len 1) as [E|]; [|lia]. rewrite E in B. change (10 ^ 1) with 10 in B. lia. }
    destruct st as [buf iter]. cbn [snd] in Hs.
    destruct (jeaiii_main_spec w m) as (l & D & J).
    { destruct Hw as [-> | ->]; unfold int_widths; cbn [In]; tauto. }
    { split; [lia|]. apply Z.lt_trans with (10 ^ digits_bound w); [lia|]. destruct Hw as [-> | ->]; unfold digits_bound; reflexivity. }
    assert (l = len).
    { assert (l <= len) by (apply (digit_count_lt 10 m len l); try lia; [apply Hl|exact D]).
      assert (len <= l) by (apply (digit_count_lt 10 m l len); try lia; [apply D|apply D|exact Hl]). lia. }
    subst l. rewrite J. fold (dtext m len). cbn [lift obind]. cbv zeta.
    rewrite dtext_len by lia. replace (iter + 1 + len - (iter + 1)) with len by lia.
    rewrite wrap_id by lia.
    assert (T : to_signed 32 (len - 1) = len - 1).
    { unfold to_signed. rewrite wrap_id by lia. destruct (Z.ltb_spec (len - 1) (2 ^ (32 - 1))) as [|G]; [reflexivity|].
      change (2 ^ (32 - 1)) with 2147483648 in G. lia. }
    rewrite T. replace (e + (len - 1)) with (e + len - 1) by lia. rewrite re_signed. cbn [obind].
    etransitivity; [apply (shift_one w m len comma buf iter (iter + 1 + len) (print_rsv_fp_e f (ff_upper_e fl) (e + len - 1))); lia|].
    rewrite <- emit_app. destruct (emit _ _) as [s1| |]; cbn [obind]; try reflexivity. apply e_text. exact exp_fits.
Qed.
Definition fixed_len : Z :=
  let re := e + len - 1 in
  if len <=? re then re + 1 else if 0 <=? re then (if len =? re + 1 then len else len + 1) else 1 - re + len.
Lemma zlen_case1 re : 0 <= re < len -> zlen (case1_text m len comma re) = if len =? re + 1 then len else len + 1.
Proof.
  intros H. pose proof reach_len. unfold case1_text. destruct (Z.eqb_spec len (re + 1)); [apply dtext_len; lia|].
  rewrite !zlen_app. change (zlen [point_of comma]) with 1. unfold zlen. rewrite firstn_length, skipn_length.
  pose proof (dtext_len m len ltac:(lia)) as L. unfold zlen in L. lia.
Qed.
Lemma zlen_fixed : zlen fixed_text = fixed_len.
Proof.
  pose proof reach_len. unfold fixed_text, fixed_len. cbv zeta.
  destruct (Z.leb_spec len (e + len - 1)) as [L|L].
  - rewrite zlen_app, dtext_len by lia. unfold zlen. rewrite repeat_length. lia.
  - destruct (Z.leb_spec 0 (e + len - 1)) as [L0|L0]; [apply zlen_case1; lia|].
    rewrite !zlen_app, dtext_len by lia. unfold zlen. rewrite repeat_length. cbn [length]. lia.
Qed.
Lemma zlen_scientific : zlen scientific_text = (if len =? 1 then 1 else len + 1) + 2 + exp_len f (e + len - 1).
Proof.
  pose proof reach_len. unfold scientific_text, exp_text. rewrite !zlen_app.
  rewrite dtext_len by (unfold exp_len; destruct (_ && _); lia). change (zlen [_; _]) with 2.
  cut (zlen (sci_text m len comma) = if len =? 1 then 1 else len + 1). { intros ->. lia. }
  unfold sci_text. destruct (Z.eqb_spec len 1) as [E|E]; [rewrite E; apply dtext_len; lia|].
  rewrite !zlen_app. change (zlen [point_of comma]) with 1. unfold zlen. rewrite firstn_length, skipn_length.
  pose proof (dtext_len m len ltac:(lia)) as L. unfold zlen in L. lia.
Qed.
(** The decimal format takes the shorter text; of two equally long ones the fixed one, unless there is one digit. *)
Definition take_scientific : bool := (if len =? 1 then len + 3 else len + 5) <? (let re := e + len - 1 in
  if len <=? re then re + 1 else if 0 <=? re then (if len =? re + 1 then len + 1 else len + 2) else 1 - re + len).
Lemma decimal_is st : 0 <= snd st -> print_rsv_fp_decimal f fl m e st =
  emit (if take_scientific then scientific_text else fixed_text) st.
Proof.
  intros Hs. pose proof re_range. pose proof reach_len. unfold print_rsv_fp_decimal. fold w. fold comma.
  rewrite (len_eq w m len Hw Hm Hl). cbv zeta. rewrite re_signed. cbn [obind].
  assert (S : wrap 32 (if len =? 1 then len + 3 else len + 5) = (if len =? 1 then len + 3 else len + 5)).
  { apply wrap_id. destruct (len =? 1); lia. }
  rewrite S. unfold take_scientific, fixed_text. cbv zeta.
  assert (SC : forall st, 0 <= snd st ->
    (let! s := print_rsv_fp_decimal_common comma w m (wrap 32 len) st in print_rsv_fp_e f (ff_upper_e fl) (e + len - 1) s) =
    emit scientific_text st).
  { intros s0 Hs0. rewrite wrap_id by lia. rewrite (decimal_common_text w m len Hw Hm Hl) by assumption.
    unfold scientific_text. rewrite <- emit_app. destruct (emit _ s0); cbn [obind]; try reflexivity. apply e_text. exact exp_fits. }
  destruct (Z.leb_spec len (e + len - 1)) as [L|L]; cbv beta iota.
  - rewrite wrap_id by lia. destruct (_ <? _); [apply SC; assumption|].
    change (1 =? 1) with true. cbv iota. apply (case0_text w m len Hw Hm Hl). lia.
  - destruct (Z.leb_spec 0 (e + len - 1)) as [L0|L0]; cbn [andb].
    + destruct (Z.ltb_spec (e + len - 1) len); [|lia]. cbv beta iota.
      assert (W : (if len =? e + len - 1 + 1 then wrap 32 (wrap 32 (len + 2) - 1) else wrap 32 (len + 2)) =
                  (if len =? e + len - 1 + 1 then len + 1 else len + 2)).
      { destruct (len =? e + len - 1 + 1); [rewrite (wrap_id 32 (len + 2)) by lia; rewrite wrap_id by lia; lia|apply wrap_id; lia]. }
      rewrite W. destruct (_ <? _); [apply SC; assumption|].
      change (2 =? 1) with false. change (2 =? 2) with true. cbv iota. apply (case1_text_ok w m len Hw Hm Hl); [lia|assumption].
    + assert (W : wrap 32 (wrap 32 (- (e + len - 1)) + wrap 32 len + 1) = 1 - (e + len - 1) + len).
      { rewrite (wrap_id 32 (- (e + len - 1))), (wrap_id 32 len) by lia. rewrite wrap_id by lia. lia. }
      rewrite W. destruct (_ <? _); [apply SC; assumption|].
      change (0 =? 1) with false. change (0 =? 2) with false. cbv iota. apply (case2_text w m len Hw Hm Hl). lia.
Qed.
End Decision.
