(** Text of a floating point number: the text of each branch. *)
From Verif Require Import Base Outcome NumSpec NumFacts IntPrintModel IntPrintProofs JeaiiiProofs IntPrintCorrect IntSizeProofs
  FloatTables FloatModel FloatTextModel FloatCodeProofs FloatTextProofs.

Section Digits.
Variables (w m len : Z).
Hypothesis Hw : w = 32 \/ w = 64.
Hypothesis Hm : 0 < m < 10 ^ digits_bound w.
Hypothesis Hl : digit_count 10 m len.

Lemma len_range : 1 <= len <= 17.
Proof.
  destruct Hl as (A & _). split; [assumption|]. apply (digit_count_lt 10 m 17 len); try lia; try exact Hl.
  assert (10 ^ digits_bound w <= 10 ^ 17) by (apply Z.pow_le_mono_r; [lia|unfold digits_bound; destruct (w =? 64); lia]). lia.
Qed.
Lemma len_bound : len <= digits_bound w.
Proof.
  apply (digit_count_lt 10 m (digits_bound w) len); try lia; try exact Hl.
  unfold digits_bound; destruct (w =? 64); lia.
Qed.
Lemma len_eq : chars_len_ryu w m = len.
Proof.
  pose proof (chars_len_ryu_spec w m Hw ltac:(lia)) as D. set (l := chars_len_ryu w m) in *.
  assert (A : l <= len). { apply (digit_count_lt 10 m len l); try lia; [apply Hl|apply Hl|exact D]. }
  assert (B : len <= l). { apply (digit_count_lt 10 m l len); try lia; [apply D|apply D|exact Hl]. }
  lia.
Qed.

Lemma case0_text re st : len <= re < 1000 -> fixed_case0_full_integer w m len re st =
  emit (dtext m len ++ repeat 48 (Z.to_nat (re + 1 - len))) st.
Proof.
  intros H. pose proof len_range. unfold fixed_case0_full_integer. destruct st as [buf iter].
  rewrite !wrap_id by lia. rewrite main_len_ryu_spec by (try assumption; lia).
  rewrite <- emit_then_zeros. rewrite <- (emit_put (dtext m len) buf iter (iter + len)) by (rewrite dtext_len; lia).
  rewrite obind_assoc. reflexivity.
Qed.
Definition case1_text (comma : bool) (re : Z) : list Z :=
  if len =? re + 1 then dtext m len
  else firstn (Z.to_nat (re + 1)) (dtext m len) ++ [point_of comma] ++ skipn (Z.to_nat (re + 1)) (dtext m len).
Lemma case1_text_ok comma re st : 0 <= re < len -> 0 <= snd st ->
  fixed_case1_integer_and_point comma w m len re st = emit (case1_text comma re) st.
Proof.
  intros H Hs. pose proof len_range. unfold fixed_case1_integer_and_point, case1_text. destruct st as [buf iter]. cbn [snd] in Hs.
  rewrite !wrap_id by lia. rewrite !main_len_ryu_spec by (try assumption; lia).
  destruct (Z.eqb_spec len (re + 1)) as [E|E].
  - apply emit_put. rewrite dtext_len; lia.
  - pose proof (put_shift buf iter (dtext m len) (point_of comma) (re + 1) ltac:(rewrite dtext_len; lia)) as S.
    destruct (Z.leb_spec 0 iter); [|lia].
    rewrite <- (emit_put _ buf iter (iter + (len + 1))).
    2: { rewrite !zlen_app. change (zlen [point_of comma]) with 1. unfold zlen. rewrite firstn_length, skipn_length.
         pose proof (dtext_len m len ltac:(lia)) as L. unfold zlen in L. lia. }
    rewrite <- S. rewrite !obind_assoc.
    destruct (put buf (iter + 1) (dtext m len)) as [b| |]; cbn [obind]; try reflexivity.
    rewrite !obind_assoc. destruct (get b (iter + 1) (re + 1)) as [g| |]; cbn [obind]; try reflexivity.
    rewrite !obind_assoc. reflexivity.
Qed.
Lemma case2_text comma re st : -1000 < re < 0 -> fixed_case2_all_point comma w m len re st =
  emit ([48; point_of comma] ++ repeat 48 (Z.to_nat (- re - 1)) ++ dtext m len) st.
Proof.
  intros H. pose proof len_range. unfold fixed_case2_all_point, fill_zero_point.
  rewrite !wrap_id by lia. rewrite app_assoc, <- emit_app, <- emit_then_zeros. rewrite !obind_assoc.
  destruct (emit [48; point_of comma] st) as [s1| |]; cbn [obind]; try reflexivity.
  destruct (fill_zeros _ s1) as [[buf iter]| |]; cbn [obind]; try reflexivity.
  rewrite main_len_ryu_spec by (try assumption; lia). apply emit_put. rewrite dtext_len; lia.
Qed.
Definition sci_text (comma : bool) : list Z :=
  if len =? 1 then dtext m len else firstn 1 (dtext m len) ++ [point_of comma] ++ skipn 1 (dtext m len).
Lemma one_digit_text u : 0 <= u < 10 -> one_digit u = Some (dtext u 1).
Proof. intros H. unfold one_digit, dtext. apply char_literal_add0_spec. exact H. Qed.
Lemma shift_one comma buf iter q {A} (k : cursor -> outcome A) : 0 <= iter -> 1 < len -> q = iter + 1 + len ->
  (let! buf := put buf (iter + 1) (dtext m len) in let! c := get buf (iter + 1) 1 in let! buf := put buf iter c in
   let! buf := put buf (iter + 1) [point_of comma] in k (buf, q)) = obind (emit (sci_text comma) (buf, iter)) k.
Proof.
  intros Hi H1 ->. unfold sci_text. destruct (Z.eqb_spec len 1); [lia|].
  pose proof (put_shift buf iter (dtext m len) (point_of comma) 1 ltac:(rewrite dtext_len; lia)) as S.
  destruct (Z.leb_spec 0 iter); [|lia]. change (Z.to_nat 1) with 1%nat in S.
  rewrite <- (emit_put _ buf iter (iter + 1 + len)).
  2: { rewrite !zlen_app. change (zlen [point_of comma]) with 1. unfold zlen. rewrite firstn_length, skipn_length.
       pose proof (dtext_len m len ltac:(lia)) as L. unfold zlen in L. lia. }
  rewrite <- S. rewrite !obind_assoc.
  destruct (put buf (iter + 1) (dtext m len)) as [b| |]; cbn [obind]; try reflexivity.
  rewrite !obind_assoc. destruct (get b (iter + 1) 1) as [g| |]; cbn [obind]; try reflexivity.
  rewrite !obind_assoc. destruct (put b iter g) as [b2| |]; cbn [obind]; try reflexivity.
Qed.
Lemma decimal_common_text comma st : 0 <= snd st -> print_rsv_fp_decimal_common comma w m len st = emit (sci_text comma) st.
Proof.
  intros Hs. unfold print_rsv_fp_decimal_common. destruct (Z.eqb_spec len 1) as [E|E].
  - destruct Hl as (_ & A & _). rewrite E in A. change (10 ^ 1) with 10 in A. rewrite one_digit_text by lia.
    unfold sci_text. rewrite E. reflexivity.
  - pose proof len_range. unfold print_rsv_fp_decimal_scientific_common. destruct st as [buf iter]. cbn [snd] in Hs.
    rewrite main_len_ryu_spec by (try assumption; lia).
    cbv zeta. etransitivity; [apply (shift_one comma buf iter (iter + 1 + len) Done); lia|]. destruct (emit _ _); reflexivity.
Qed.
End Digits.

(** The exponent. *)
Definition exp_len (f : fmt) (e : Z) : Z := if (e10digits f =? 3) && (100 <=? Z.abs e) then 3 else 2.
Definition exp_text (f : fmt) (up : bool) (e : Z) : list Z :=
  [if up then 69 else 101; if e <? 0 then 45 else 43] ++ dtext (Z.abs e) (exp_len f e).
Lemma hundred_text u : 0 <= u < 100 -> prt_rsv_hundred u = Some (dtext u 2).
Proof. intros H. exact (jeaiii_w_spec u H). Qed.
Lemma three_text u : 0 <= u < 1000 -> opt_app (one_digit (u / 100)) (prt_rsv_hundred (u mod 100)) = Some (dtext u 3).
Proof.
  intros H. pose proof (Z.mod_pos_bound u 100 ltac:(lia)).
  assert (0 <= u / 100 < 10) by (split; [apply Z.div_pos; lia|apply Z.div_lt_upper_bound; lia]).
  rewrite one_digit_text, hundred_text by lia. cbn [opt_app]. unfold dtext. rewrite <- map_app. do 2 f_equal.
  change (Z.to_nat 1) with 1%nat. change (Z.to_nat 2) with 2%nat. change (Z.to_nat 3) with (1 + 2)%nat. rewrite digs_app by lia.
  change (10 ^ Z.of_nat 2) with 100. f_equal. change 100 with (10 ^ Z.of_nat 2). apply digs_mod. lia.
Qed.
Lemma unsigned_abs e : -1000 < e < 1000 -> (if e <? 0 then wrap 32 (0 - wrap 32 e) else wrap 32 e) = Z.abs e.
Proof.
  intros H. destruct (Z.ltb_spec e 0) as [L|L].
  - unfold wrap. rewrite Zminus_mod_idemp_r. rewrite Z.mod_small by lia. lia.
  - rewrite wrap_id by lia. lia.
Qed.
Lemma e_text f up e st : e10digits f = 2 /\ -100 < e < 100 \/ e10digits f = 3 /\ -1000 < e < 1000 ->
  print_rsv_fp_e f up e st = emit (exp_text f up e) st.
Proof.
  intros H. unfold print_rsv_fp_e, exp_text. rewrite unsigned_abs by lia.
  change ([if up then 69 else 101; if e <? 0 then 45 else 43] ++ dtext (Z.abs e) (exp_len f e)) with
    ([if up then 69 else 101] ++ [if e <? 0 then 45 else 43] ++ dtext (Z.abs e) (exp_len f e)).
  rewrite <- emit_app. destruct (emit _ st) as [s1| |]; cbn [obind]; try reflexivity.
  rewrite <- emit_app. destruct (emit _ s1) as [s2| |]; cbn [obind]; try reflexivity.
  unfold prt_rsv_exponent_indent, exp_len. destruct H as [[-> H]|[-> H]].
  - change (2 =? 2) with true. change (2 =? 3) with false. cbn [andb]. rewrite hundred_text by lia. reflexivity.
  - change (3 =? 2) with false. change (3 =? 3) with true. cbn [andb].
    destruct (Z.leb_spec 100 (Z.abs e)); [rewrite three_text by lia|rewrite hundred_text by lia]; reflexivity.
Qed.
