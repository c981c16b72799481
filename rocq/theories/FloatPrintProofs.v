(** print_rsvflt_define as a whole. *)
From Coq Require Import QArith Qabs.
From Verif Require Import Base Outcome NumSpec NumFacts IntPrintModel FloatTables FloatModel FloatSpec FloatTextSpec FloatTextModel FloatRoundProofs FloatCodeProofs FloatImplProofs
  FloatTextProofs FloatTextCases FloatTextForms FloatTextMeaning FloatReachProofs.
Local Open Scope Z_scope.

(** The bit pattern with these three fields. *)
Definition bits_of (f : fmt) (sign : bool) (mf ef : Z) : Z := Z.b2z sign * 2 ^ (mbits f + ebits f) + ef * 2 ^ mbits f + mf.
Lemma land_mask x n : 0 <= n -> Z.land x (2 ^ n - 1) = x mod 2 ^ n.
Proof. intros H. replace (2 ^ n - 1) with (Z.ones n) by (rewrite Z.ones_equiv; lia). apply Z.land_ones. assumption. Qed.
Lemma punned f sign mf ef : known f -> 0 <= mf < 2 ^ mbits f -> 0 <= ef < 2 ^ ebits f ->
  get_punned_result f (bits_of f sign mf ef) = (mf, ef, sign).
Proof.
  intros Kf Hm He. unfold get_punned_result, bits_of.
  assert (B : 0 <= mbits f /\ 0 <= ebits f /\ mbits f < mantw f /\ ebits f < mantw f /\ ebits f <= 32).
  { destruct Kf as [-> | ->]; cbn [mbits ebits mantw binary32 binary64]; lia. }
  assert (P1 : 0 < 2 ^ mbits f) by (apply Z.pow_pos_nonneg; lia).
  assert (P2 : 0 < 2 ^ ebits f) by (apply Z.pow_pos_nonneg; lia).
  assert (Pw1 : 2 ^ mbits f < 2 ^ mantw f) by (apply Z.pow_lt_mono_r; lia).
  assert (Pw2 : 2 ^ ebits f < 2 ^ mantw f) by (apply Z.pow_lt_mono_r; lia).
  assert (Pw3 : 2 ^ ebits f <= 2 ^ 32) by (apply Z.pow_le_mono_r; lia).
  rewrite (wrap_id _ (2 ^ mbits f - 1)), (wrap_id _ (2 ^ ebits f - 1)) by lia.
  rewrite !land_mask, !Z.shiftr_div_pow2 by lia. rewrite Z.pow_add_r by lia.
  assert (S : 0 <= Z.b2z sign <= 1) by (destruct sign; cbn; lia).
  set (s := Z.b2z sign) in *. set (a := 2 ^ mbits f) in *. set (b := 2 ^ ebits f) in *.
  f_equal; [f_equal|].
  - replace (s * (a * b) + ef * a + mf) with (mf + (s * b + ef) * a) by ring. rewrite Z_mod_plus_full. apply Z.mod_small. lia.
  - replace (s * (a * b) + ef * a + mf) with (mf + (s * b + ef) * a) by ring. rewrite Z.div_add, Z.div_small by lia.
    rewrite Z.add_0_l. rewrite Z.add_comm, Z_mod_plus_full, Z.mod_small by lia. apply wrap_id. lia.
  - replace (s * (a * b) + ef * a + mf) with (mf + ef * a + s * (a * b)) by ring.
    rewrite Z.div_add by nia. rewrite (Z.div_small (mf + ef * a)) by nia. rewrite Z.add_0_l.
    unfold s. destruct sign; reflexivity.
Qed.
(** A text stored from [pos] on. *)
Definition stored (buf : list Z) (pos : Z) (txt : list Z) : cursor :=
  (firstn (Z.to_nat pos) buf ++ txt ++ skipn (Z.to_nat pos + length txt) buf, pos + zlen txt).
Lemma emit_stored txt buf pos : 0 <= pos -> pos + zlen txt <= zlen buf -> emit txt (buf, pos) = Done (stored buf pos txt).
Proof.
  intros H1 H2. unfold emit, put. cbn [fst snd]. destruct (Z.leb_spec 0 pos); [|lia].
  destruct (Z.leb_spec (pos + zlen txt) (zlen buf)); [|lia]. reflexivity.
Qed.
Definition sign_is (showpos sign : bool) : list Z := if sign then [45] else if showpos then [43] else [].
Lemma sign_chars_is showpos sign : sign_chars showpos sign = sign_is showpos sign.
Proof. destruct showpos, sign; reflexivity. Qed.
Lemma sign_len showpos sign : zlen (sign_is showpos sign) <= 1.
Proof. destruct showpos, sign; cbn; lia. Qed.

Lemma emit_range l st st' : emit l st = Done st' -> 0 <= snd st'.
Proof. intros H. apply emit_in in H. lia. Qed.
Lemma mask_is f : known f -> wrap 32 (wrap (mantw f) (2 ^ ebits f - 1)) = 2 ^ ebits f - 1.
Proof. intros [-> | ->]; reflexivity. Qed.

Definition room (f : fmt) (mt : format) : Z :=
  match mt with general => if mantw f =? 64 then 24 else 16 | _ => print_rsvflt_size f mt end.
Lemma print_finite sizet f fl mt sign mf ef buf pos : sizet = 32 \/ sizet = 64 -> known f -> finite f mf ef -> (0 < mf \/ 0 < ef) ->
  0 <= pos ->
  exists d e len, dragonbox_impl sizet f mf ef = Done (d, e) /\ reach f d e len /\ (sizet = 64 \/ f = binary32 -> d mod 10 <> 0) /\
    print_rsvflt_define sizet f fl mt (bits_of f sign mf ef) (buf, pos) = emit (sign_is (ff_showpos fl) sign ++ chosen f fl d e len mt) (buf, pos).
Proof.
  intros Hs Kf [Hm He] Hz Hp.
  destruct (decimal_reach sizet f mf ef Hs Kf (conj Hm He) Hz) as (d & e & len & I & Rch & N).
  exists d, e, len. split; [assumption|]. split; [assumption|]. split; [assumption|].
  unfold print_rsvflt_define. rewrite punned by (try assumption; lia). rewrite mask_is by assumption.
  rewrite sign_chars_is, <- emit_app.
  destruct (emit (sign_is (ff_showpos fl) sign) (buf, pos)) as [st| |] eqn:E; cbn [obind]; try reflexivity.
  destruct (Z.eqb_spec ef (2 ^ ebits f - 1)); [lia|].
  destruct ((mf =? 0) && (ef =? 0)) eqn:Z0.
  { apply andb_true_iff in Z0. rewrite !Z.eqb_eq in Z0. lia. }
  rewrite I. cbn [obind]. apply decision_is; [assumption|assumption|]. exact (emit_range _ _ _ E).
Qed.
Lemma chosen_room f fl d e len mt : known f -> reach f d e len -> zlen (chosen f fl d e len mt) + 1 <= room f mt.
Proof.
  intros Kf Rch.
  assert (G : f = binary64 \/ mt <> general -> zlen (chosen f fl d e len mt) + 1 <= room f mt).
  { intros H. pose proof (chosen_fits f fl d e len Kf Rch mt H) as F. unfold room. destruct mt; try exact F.
    destruct H as [-> | H]; [exact F|congruence]. }
  destruct Kf as [-> | ->]; [|apply G; left; reflexivity].
  destruct mt; try (apply G; right; discriminate).
  pose proof (chosen_fits_general binary32 fl d e len (or_introl eq_refl) Rch eq_refl). unfold room. cbn [mantw binary32]. change (32 =? 64) with false. cbv iota. lia.
Qed.
Lemma print_special sizet f fl mt sign mf ef buf pos : known f -> 0 <= mf < 2 ^ mbits f -> 0 <= ef < 2 ^ ebits f ->
  (ef = 2 ^ ebits f - 1 \/ (mf = 0 /\ ef = 0)) ->
  print_rsvflt_define sizet f fl mt (bits_of f sign mf ef) (buf, pos) =
  emit (sign_is (ff_showpos fl) sign ++
    (if ef =? 0 then match mt with scientific => dece0 (ff_upper fl) | _ => [48] end
     else nan_chars (ff_upper fl) (negb (mf =? 0)))) (buf, pos).
Proof.
  intros Kf Hm He H. unfold print_rsvflt_define. rewrite punned by assumption. rewrite mask_is by assumption.
  rewrite sign_chars_is, <- emit_app.
  destruct (emit (sign_is (ff_showpos fl) sign) (buf, pos)) as [st| |] eqn:E; cbn [obind]; try reflexivity.
  assert (M : 0 < 2 ^ ebits f - 1) by (destruct Kf as [-> | ->]; reflexivity).
  destruct (Z.eqb_spec ef (2 ^ ebits f - 1)) as [X|X].
  - destruct (Z.eqb_spec ef 0); [lia|]. reflexivity.
  - destruct H as [H|[-> ->]]; [contradiction|]. change ((0 =? 0) && (0 =? 0)) with true. change (0 =? 0) with true. cbv iota.
    destruct mt; reflexivity.
Qed.
Lemma rounds_to_proper p emin x y m e : (x == y)%Q -> rounds_to p emin x m e -> rounds_to p emin y m e.
Proof.
  intros E [C R]. split; [assumption|]. intros m' e' F N. destruct (R m' e' F N) as [L|[L Ev]]; [left|right; split; [|assumption]];
    rewrite <- E; assumption.
Qed.
