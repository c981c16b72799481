(** Printing complex numbers (include/fast_io_unit/complex.h). *)
From Coq Require Import QArith Qabs.
From Verif Require Import Base Outcome NumSpec FloatModel FloatSpec FloatTextSpec FloatTextModel FloatRoundProofs FloatBestProofs FloatImplProofs
  FloatImpl32Proofs FloatTextProofs FloatTextForms FloatTextMeaning FloatReachProofs FloatPrintProofs FloatHexProofs PropsFloat PropsFloatText ComplexModel.
Local Open Scope Z_scope.

(** [v] is the bit pattern of a number of the format [f], whatever number: zero, subnormal, infinite or NaN too. *)
Definition pattern (f : fmt) (v : Z) : Prop :=
  exists sign mf ef, 0 <= mf < 2 ^ mbits f /\ 0 <= ef < 2 ^ ebits f /\ v = bits_of f sign mf ef.

(** [txt] is the text of the number when it is printed alone. *)
Definition printed_alone (sizet : Z) (f : fmt) (fl : fflags) (mt : format) (v : Z) (txt : list Z) : Prop :=
  forall buf pos, 0 <= pos -> pos + zlen txt <= zlen buf ->
    print_rsvflt_define sizet f fl mt v (buf, pos) = Done (stored buf pos txt).

(** * Supporting lemmas *)
Definition emitted (sizet : Z) (f : fmt) (fl : fflags) (mt : format) (v : Z) (txt : list Z) : Prop :=
  forall buf pos, 0 <= pos -> print_rsvflt_define sizet f fl mt v (buf, pos) = emit txt (buf, pos).
Lemma reach_len f d e len len' : reach f d e len -> reach f d e len' -> len = len'.
Proof.
  intros (_ & (A & B & C) & _) (_ & (A' & B' & C') & _).
  destruct (Z_lt_le_dec len len') as [L|L].
  - exfalso. assert (10 ^ len <= 10 ^ (len' - 1)) by (apply Z.pow_le_mono_r; lia). destruct C' as [C'|C']; lia.
  - destruct (Z_lt_le_dec len' len) as [L'|L']; [|lia].
    exfalso. assert (10 ^ len' <= 10 ^ (len - 1)) by (apply Z.pow_le_mono_r; lia). destruct C as [C|C]; lia.
Qed.
Definition mark_ok (fl : fflags) (c : Z) : Prop := c <> (if ff_comma fl then 46 else 44) /\ c <> 40 /\ c <> 41.
Lemma digits_mark_ok fl ds : digits_ok 10 ds -> Forall (mark_ok fl) (map (digit_char false) ds).
Proof.
  intros H. induction H as [|d ds H _ IH]; constructor; [|exact IH].
  assert (C : d = 0 \/ d = 1 \/ d = 2 \/ d = 3 \/ d = 4 \/ d = 5 \/ d = 6 \/ d = 7 \/ d = 8 \/ d = 9) by lia.
  unfold mark_ok. destruct (ff_comma fl);
    repeat (destruct C as [-> | C]; [vm_compute; repeat split; discriminate|]); rewrite C; vm_compute; repeat split; discriminate.
Qed.
Lemma text_mark_ok fl t txt :
  text_of 10 false (if ff_comma fl then 44 else 46) (if ff_upper_e fl then 69 else 101) 2 t txt -> Forall (mark_ok fl) txt.
Proof.
  intros (_ & D1 & D2 & et & E & ->). apply Forall_app. split; [apply digits_mark_ok; exact D1|].
  apply Forall_app. split.
  - destruct (n_frac t) as [|d r]; [constructor|]. constructor; [|apply digits_mark_ok; exact D2].
    unfold mark_ok. destruct (ff_comma fl); repeat split; discriminate.
  - destruct (n_exp t) as [e|]; [|rewrite E; constructor].
    destruct E as (dt & -> & ds & D & _ & -> & _). cbn [app]. constructor; [|constructor; [|apply digits_mark_ok; exact D]].
    + unfold mark_ok. destruct (ff_comma fl), (ff_upper_e fl); repeat split; discriminate.
    + unfold mark_ok. destruct (ff_comma fl), (e <? 0); repeat split; discriminate.
Qed.
Lemma sign_mark_ok fl s : Forall (mark_ok fl) (sign_is (ff_showpos fl) s).
Proof. unfold sign_is. destruct s, (ff_showpos fl); repeat constructor; unfold mark_ok; destruct (ff_comma fl); repeat split; discriminate. Qed.
Lemma part_text sizet f fl mt v : sizet = 32 \/ sizet = 64 -> known f -> pattern f v ->
  exists txt, emitted sizet f fl mt v txt /\ Forall (mark_ok fl) txt /\ zlen txt <= room f mt.
Proof.
  intros Hs Kf (sign & mf & ef & Hm & He & ->).
  pose proof (sign_len (ff_showpos fl) sign) as SL.
  assert (Sp : (ef = 2 ^ ebits f - 1 \/ (mf = 0 /\ ef = 0)) \/ (ef < 2 ^ ebits f - 1 /\ (0 < mf \/ 0 < ef))) by lia.
  destruct Sp as [Sp|[L Hz]].
  - eexists. split; [intros buf pos Hp; apply (print_special sizet f fl mt sign mf ef buf pos Kf Hm He Sp)|].
    split.
    + apply Forall_app. split; [apply sign_mark_ok|]. unfold mark_ok.
      destruct (ef =? 0), mt, (ff_upper fl), (mf =? 0), (ff_comma fl); repeat constructor; discriminate.
    + rewrite zlen_app.
      assert (X : zlen (if ef =? 0 then match mt with scientific => dece0 (ff_upper fl) | _ => [48] end
         else nan_chars (ff_upper fl) (negb (mf =? 0))) <= 4) by (destruct (ef =? 0), mt, (ff_upper fl), (mf =? 0); vm_compute; discriminate).
      assert (Y : 15 <= room f mt) by (destruct Kf as [-> | ->], mt; vm_compute; discriminate). lia.
  - destruct (print_finite sizet f fl mt sign mf ef [] 0 Hs Kf (conj Hm (conj (proj1 He) L)) Hz ltac:(lia)) as (d & e & len & I & R & N & _).
    exists (sign_is (ff_showpos fl) sign ++ chosen f fl d e len mt). split; [|split].
    + intros buf pos Hp.
      destruct (print_finite sizet f fl mt sign mf ef buf pos Hs Kf (conj Hm (conj (proj1 He) L)) Hz Hp) as (d' & e' & len' & I' & R' & N' & E').
      rewrite I in I'. injection I' as <- <-. rewrite (reach_len f d e len' len R' R) in E'. exact E'.
    + apply Forall_app. split; [apply sign_mark_ok|].
      destruct (chosen_means f fl d e len Kf R mt) as (t & T1 & _). exact (text_mark_ok fl t _ T1).
    + rewrite zlen_app. pose proof (chosen_room f fl d e len mt Kf R). lia.
Qed.
Lemma emitted_alone sizet f fl mt v txt : emitted sizet f fl mt v txt -> printed_alone sizet f fl mt v txt.
Proof. intros H buf pos Hp Hb. rewrite H by assumption. apply emit_stored; assumption. Qed.
Lemma emitted_cursor sizet f fl mt v txt st : emitted sizet f fl mt v txt -> 0 <= snd st -> print_rsvflt_define sizet f fl mt v st = emit txt st.
Proof. intros H Hp. destruct st as [b p]. exact (H b p Hp). Qed.
Definition whole (fl : fflags) (tr ti : list Z) : list Z := [40] ++ tr ++ [if ff_comma fl then 46 else 44] ++ ti ++ [41].
Lemma whole_emitted sizet f fl mt re im tr ti buf pos : emitted sizet f fl mt re tr -> emitted sizet f fl mt im ti -> 0 <= pos ->
  print_complex sizet f fl mt re im (buf, pos) = emit (whole fl tr ti) (buf, pos).
Proof.
  intros R I Hp. unfold print_complex, whole.
  rewrite <- emit_app. destruct (emit [40] (buf, pos)) as [s1| |] eqn:E1; cbn [obind]; try reflexivity.
  rewrite (emitted_cursor _ _ _ _ _ _ s1 R (emit_range _ _ _ E1)).
  rewrite <- emit_app. destruct (emit tr s1) as [s2| |] eqn:E2; cbn [obind]; try reflexivity.
  rewrite <- emit_app. destruct (emit _ s2) as [s3| |] eqn:E3; cbn [obind]; try reflexivity.
  rewrite (emitted_cursor _ _ _ _ _ _ s3 I (emit_range _ _ _ E3)).
  apply emit_app.
Qed.
Lemma split_at (P : Z -> Prop) sep a b c d : ~ P sep -> Forall P a -> Forall P c -> a ++ sep :: b = c ++ sep :: d -> a = c /\ b = d.
Proof.
  intros N. revert c. induction a as [|x a IH]; intros c Ha Hc E; destruct c as [|y c]; cbn [app] in E.
  - injection E as E. auto.
  - injection E as E1 E2. inversion Hc; subst. contradiction.
  - injection E as E1 E2. inversion Ha; subst. contradiction.
  - injection E as E1 E2. inversion Ha; inversion Hc; subst. destruct (IH c) as [-> ->]; auto.
Qed.

Lemma emit_position l buf pos st : emit l (buf, pos) = Done st -> snd st = pos + zlen l.
Proof. unfold emit. cbn [fst snd]. destruct (put buf pos l); cbn [obind]; [|discriminate|discriminate]. intros [= <-]. reflexivity. Qed.
Lemma emit_inj a b buf pos st : emit a (buf, pos) = Done st -> emit b (buf, pos) = Done st -> a = b.
Proof.
  intros A B. pose proof (emit_position _ _ _ _ A) as PA. pose proof (emit_position _ _ _ _ B) as PB.
  assert (R : 0 <= pos /\ pos + zlen a <= zlen buf).
  { unfold emit in A. cbn [fst snd] in A. destruct (Z_lt_ge_dec pos 0); [rewrite put_none in A by lia; discriminate|].
    destruct (Z_le_gt_dec (pos + zlen a) (zlen buf)); [lia|]. rewrite put_none in A by lia. discriminate. }
  rewrite emit_stored in A, B by lia. rewrite <- B in A. unfold stored in A.
  assert (L : length a = length b) by (unfold zlen in *; lia).
  injection A as A _. apply app_inv_head in A. rewrite L in A. apply app_inv_tail in A. exact A.
Qed.
Lemma alone_unique sizet f fl mt v t t' : emitted sizet f fl mt v t -> printed_alone sizet f fl mt v t' -> t' = t.
Proof.
  intros E A. pose proof (emitted_alone _ _ _ _ _ _ E) as E'.
  assert (L : zlen (repeat 0 (length t + length t')) = zlen t + zlen t') by (unfold zlen; rewrite repeat_length; lia).
  specialize (A (repeat 0 (length t + length t')) 0 ltac:(lia) ltac:(pose proof (zlen_nonneg t); lia)).
  specialize (E' (repeat 0 (length t + length t')) 0 ltac:(lia) ltac:(pose proof (zlen_nonneg t'); lia)).
  rewrite A in E'. injection E' as E1 E2.
  assert (L' : length t' = length t) by (unfold zlen in *; lia).
  cbn [app Z.to_nat firstn] in E1. rewrite L' in E1. apply app_inv_tail in E1. exact E1.
Qed.

(** * C153: the text of a complex number *)

(** It is "(", the text of the real part, a separator, the text of the imaginary part, ")": the parts as they are
    printed alone, and the separator is the comma, or the full stop when the comma is the decimal point. *)
Theorem C153_complex_text : forall sizet f fl mt re im, sizet = 32 \/ sizet = 64 -> f = binary32 \/ f = binary64 ->
  pattern f re -> pattern f im ->
  exists tr ti, printed_alone sizet f fl mt re tr /\ printed_alone sizet f fl mt im ti /\
    let txt := [40] ++ tr ++ [if ff_comma fl then 46 else 44] ++ ti ++ [41] in
    forall buf pos, 0 <= pos -> pos + zlen txt <= zlen buf ->
      print_complex sizet f fl mt re im (buf, pos) = Done (stored buf pos txt).
Proof.
  intros sizet f fl mt re im Hs Kf Hr Hi.
  destruct (part_text sizet f fl mt re Hs Kf Hr) as (tr & R1 & _ & R3).
  destruct (part_text sizet f fl mt im Hs Kf Hi) as (ti & I1 & _ & I3).
  exists tr, ti. split; [apply emitted_alone; exact R1|]. split; [apply emitted_alone; exact I1|].
  intros txt buf pos Hp Hb. rewrite (whole_emitted _ _ _ _ _ _ tr ti buf pos R1 I1 Hp). apply emit_stored; assumption.
Qed.
Print Assumptions C153_complex_text.

(** * C154: the text of a complex number determines the texts of its parts *)

(** The separator, the opening and the closing parenthesis are in neither part's text: so two complex numbers with the
    same text have parts with the same texts. *)
Theorem C154_parts_are_separable : forall sizet f fl mt re im re' im' tr ti tr' ti', sizet = 32 \/ sizet = 64 -> f = binary32 \/ f = binary64 ->
  pattern f re -> pattern f im -> pattern f re' -> pattern f im' ->
  printed_alone sizet f fl mt re tr -> printed_alone sizet f fl mt im ti ->
  printed_alone sizet f fl mt re' tr' -> printed_alone sizet f fl mt im' ti' ->
  (forall c, In c (tr ++ ti) -> c <> (if ff_comma fl then 46 else 44) /\ c <> 40 /\ c <> 41) /\
  (forall buf pos st,
     print_complex sizet f fl mt re im (buf, pos) = Done st -> print_complex sizet f fl mt re' im' (buf, pos) = Done st ->
     tr = tr' /\ ti = ti').
Proof.
  intros sizet f fl mt re im re' im' tr ti tr' ti' Hs Kf P1 P2 P3 P4 A1 A2 A3 A4.
  destruct (part_text sizet f fl mt re Hs Kf P1) as (t1 & E1 & M1 & _). rewrite (alone_unique _ _ _ _ _ _ _ E1 A1).
  destruct (part_text sizet f fl mt im Hs Kf P2) as (t2 & E2 & M2 & _). rewrite (alone_unique _ _ _ _ _ _ _ E2 A2).
  destruct (part_text sizet f fl mt re' Hs Kf P3) as (t3 & E3 & M3 & _). rewrite (alone_unique _ _ _ _ _ _ _ E3 A3).
  destruct (part_text sizet f fl mt im' Hs Kf P4) as (t4 & E4 & M4 & _). rewrite (alone_unique _ _ _ _ _ _ _ E4 A4).
  split.
  - intros c Hc. assert (F : Forall (mark_ok fl) (t1 ++ t2)) by (apply Forall_app; auto).
    rewrite Forall_forall in F. exact (F c Hc).
  - intros buf pos st C1 C2.
    assert (Hp : 0 <= pos).
    { destruct (Z_lt_ge_dec pos 0) as [N|N]; [|lia]. unfold print_complex, emit in C1. cbn [fst snd] in C1.
      rewrite put_none in C1 by lia. discriminate. }
    rewrite (whole_emitted _ _ _ _ _ _ t1 t2 buf pos E1 E2 Hp) in C1.
    rewrite (whole_emitted _ _ _ _ _ _ t3 t4 buf pos E3 E4 Hp) in C2.
    pose proof (emit_inj _ _ _ _ _ C1 C2) as W. unfold whole in W. apply app_inv_head in W.
    cbn [app] in W.
    destruct (split_at (mark_ok fl) (if ff_comma fl then 46 else 44) t1 (t2 ++ [41]) t3 (t4 ++ [41])) as [-> W2]; [|assumption|assumption|exact W|].
    + unfold mark_ok. intros [N _]. apply N. reflexivity.
    + apply app_inv_tail in W2. auto.
Qed.
Print Assumptions C154_parts_are_separable.

(** (1.5,-inf) and, with the comma as decimal point, (1,5.-inf) *)
Example C154_example :
  let re := bits_of binary64 false (2 ^ 51) 1023 in let im := bits_of binary64 true 0 2047 in
  pattern binary64 re /\ pattern binary64 im /\
  print_complex 64 binary64 (mk_fflags false false false false) general re im (repeat 0 10, 0) =
    Done (stored (repeat 0 10) 0 [40; 49; 46; 53; 44; 45; 105; 110; 102; 41]) /\
  print_complex 64 binary64 (mk_fflags false false false true) general re im (repeat 0 10, 0) =
    Done (stored (repeat 0 10) 0 [40; 49; 44; 53; 46; 45; 105; 110; 102; 41]).
Proof.
  intros re im. split; [exists false, (2 ^ 51), 1023; vm_compute; intuition discriminate|].
  split; [exists true, 0, 2047; vm_compute; intuition discriminate|].
  split; vm_compute; reflexivity.
Qed.

(** * C155: the space the library reserves for a complex number is enough *)
Theorem C155_reserved_space_partial : forall sizet f fl mt re im buf pos, sizet = 32 \/ sizet = 64 -> f = binary32 \/ f = binary64 ->
  f = binary64 \/ mt <> general -> pattern f re -> pattern f im ->
  0 <= pos -> pos + print_complex_size f mt <= zlen buf ->
  exists txt, print_complex sizet f fl mt re im (buf, pos) = Done (stored buf pos txt) /\ zlen txt <= print_complex_size f mt.
Proof.
  intros sizet f fl mt re im buf pos Hs Kf Hg Hr Hi Hp Hb.
  destruct (part_text sizet f fl mt re Hs Kf Hr) as (tr & R1 & _ & R3).
  destruct (part_text sizet f fl mt im Hs Kf Hi) as (ti & I1 & _ & I3).
  assert (Rm : room f mt = print_rsvflt_size f mt).
  { destruct Hg as [-> | Hg]; destruct mt; try reflexivity. congruence. }
  assert (W : zlen (whole fl tr ti) <= print_complex_size f mt).
  { unfold whole. rewrite !zlen_app. unfold print_complex_size. cbv zeta. rewrite Rm in R3, I3.
    change (zlen [40]) with 1. change (zlen [41]) with 1. change (zlen [if ff_comma fl then 46 else 44]) with 1. lia. }
  exists (whole fl tr ti). split; [|exact W].
  rewrite (whole_emitted _ _ _ _ _ _ tr ti buf pos R1 I1 Hp). apply emit_stored; [assumption|lia].
Qed.
Print Assumptions C155_reserved_space_partial.

(** In general format a complex number of two floats may need two cells more than are reserved. *)
Theorem C155_reserved_space_refuted :
  print_complex_size binary32 general = 33 /\
  (forall fl buf pos, 0 <= pos -> pos + 33 = zlen buf ->
     let v := bits_of binary32 true 3532368 173 in print_complex 64 binary32 fl general v v (buf, pos) = Undefined) /\
  let v := bits_of binary32 true 3532368 173 in
  print_complex 64 binary32 (mk_fflags false false false false) general v v (repeat 0 35, 0) =
    Done ([40; 45; 49; 48; 48; 48; 48; 48; 51; 57; 53; 48; 48; 48; 48; 48; 48; 44; 45; 49; 48; 48; 48; 48; 48; 51; 57; 53; 48; 48; 48; 48; 48; 48; 41], 35).
Proof.
  split; [reflexivity|]. split; [|vm_compute; reflexivity].
  intros fl buf pos Hp Hb v.
  assert (Pv : pattern binary32 v) by (exists true, 3532368, 173; vm_compute; intuition discriminate).
  destruct (part_text 64 binary32 fl general v (or_intror eq_refl) (or_introl eq_refl) Pv) as (t & E & _ & _).
  rewrite (whole_emitted _ _ _ _ _ _ t t buf pos E E Hp).
  assert (Ln : zlen t = 16).
  { pose proof (E (repeat 0 16) 0 ltac:(lia)) as A.
    assert (X : exists b, print_rsvflt_define 64 binary32 fl general v (repeat 0 16, 0) = Done (b, 16)).
    { destruct fl as [[] [] [] []]; eexists; vm_compute; reflexivity. }
    destruct X as [b X]. rewrite X in A. symmetry in A. apply emit_position in A. cbn [snd] in A. lia. }
  unfold emit. cbn [fst snd]. rewrite put_none; [reflexivity|].
  right. unfold whole. rewrite !zlen_app, Ln. change (zlen [40]) with 1. change (zlen [41]) with 1. change (zlen [if ff_comma fl then 46 else 44]) with 1. lia.
Qed.
Print Assumptions C155_reserved_space_refuted.

