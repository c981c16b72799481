(** Floating point numbers printed with a locale: the decimals a float yields, and the whole function. *)
From Coq Require Import QArith.
From Verif Require Import Base LcModel LcSpec LcProofs Outcome NumSpec NumFacts IntPrintModel IntPrintProofs IntSizeProofs FloatTables FloatModel FloatSpec FloatTextSpec FloatTextModel FloatCertProofs FloatDragonProofs
  FloatCodeProofs FloatMainProofs FloatMain32Proofs FloatImplProofs FloatTextProofs FloatTextCases FloatTextForms FloatTextMeaning FloatReachProofs FloatPrintProofs
  LcFloatSpec LcFloatModel LcFloatProofs LcFloatMeaning.
Local Open Scope Z_scope.

(** A float whose shortest decimal is c * 10^5 before zeros are removed is less than 10^13. *)
Lemma float_fifth mf ef : 0 <= mf < 2 ^ 23 -> 0 <= ef < 255 -> (0 < mf \/ 0 < ef) ->
  exists c e10, dragonbox_main binary32 mf ef = Done (c, e10) /\ 0 < c < 10 ^ 9 /\ (e10 = 5 -> c < 10 ^ 8).
Proof.
  intros Hm He Hz. destruct (float_main_bounds mf ef Hm He Hz) as (c0 & e0 & M0 & B0 & _). exists c0, e0. split; [exact M0|]. split; [exact B0|]. intros E5.
  pose proof (main_with_cases 23 8 32 dragonbox_main32_body (fun _ => schubfach_asymmetric32) mf ef
    ltac:(lia) ltac:(lia) Hm ltac:(lia) ltac:(change (2 ^ 8) with 256; lia) Hz) as C.
  change (2 ^ (8 - 1) - 1) with 127 in C. cbv zeta in C.
  set (m := significand 23 mf ef) in *. set (e := exponent 23 127 ef) in *.
  assert (Mr : 0 < m < 2 ^ 24). { unfold m, significand. destruct (Z.eqb_spec ef 0); lia. }
  assert (Er : -149 <= e <= 104) by (unfold e, exponent; lia).
  change (dragonbox_main_with 23 8 32 dragonbox_main32_body (fun _ => schubfach_asymmetric32) mf ef) with (dragonbox_main binary32 mf ef) in C.
  destruct C as [(v & E & V1 & V2 & V3)|[E NE]]; [rewrite E in M0; assert (e0 = 0) by congruence; lia|].
  assert (e0' : e <> 0) by (destruct NE as [-> | NE]; [unfold e, exponent; lia|assumption]).
  destruct (get_facts32 e Er) as (pw & F). cbv zeta in F.
  destruct (body32_right m e ltac:(lia) Er pw F e0') as ([c e10] & B1 & B2 & B3). cbn [fst] in B3.
  assert (X : c0 = c /\ e0 = e10) by (split; congruence). destruct X as [-> ->]. subst e10.
  pose proof (fden_pos e (kof 1 e)) as D0. pose proof (fnum_pos e (kof 1 e)) as P0.
  assert (KE : kof 1 e = -3 /\ e = 14 \/ kof 1 e = -3 /\ e = 15 \/ kof 1 e = -3 /\ e = 16 \/
               kof 1 e = -4 /\ e = 17 \/ kof 1 e = -4 /\ e = 18 \/ kof 1 e = -4 /\ e = 19).
  { assert (K2 : kof 1 e = -3 \/ kof 1 e = -4) by (destruct B2 as [[[I _]|(I & _)]|(I & _)]; cbn [snd] in I; lia).
    assert (RG : 14 <= e <= 19).
    { unfold kof in K2. rewrite Z.shiftr_div_pow2 in K2 by lia. change (2 ^ 22) with 4194304 in K2.
      assert (4 <= e * 1262611 / 4194304 <= 5) by lia. pose proof (Z.div_mod (e * 1262611) 4194304 ltac:(lia)) as DM.
      pose proof (Z.mod_pos_bound (e * 1262611) 4194304 ltac:(lia)). nia. }
    assert (e = 14 \/ e = 15 \/ e = 16 \/ e = 17 \/ e = 18 \/ e = 19) as [X|[X|[X|[X|[X|X]]]]] by lia; rewrite X in *;
      vm_compute in K2; vm_compute kof; intuition lia. }
  set (P := fnum e (kof 1 e)) in *. set (D := fden e (kof 1 e)) in *.
  assert (U : c * 100 * D <= 2 * m * P + P \/ kof 1 e = -4 /\ c * 10 * D <= 2 * m * P + P + 6 * D).
  { destruct B2 as [[[_ I]|(K & _ & I & _)]|(K & _ & _ & I)]; cbn [fst snd] in *; unfold inI in I.
    - left. assert (c * (10 * 10) * D <= 2 * m * P + P) by lia. nia.
    - right. split; lia.
    - right. split; lia. }
  destruct U as [U|[K4 U]].
  - assert (PD : P * 10 <= D * 330).
    { unfold P, D. destruct KE as [[K X]|[[K X]|[[K X]|[[K X]|[[K X]|[K X]]]]]]; rewrite K, X; vm_compute; discriminate. }
    assert (U2 : c * 100 * D <= (2 * m + 1) * (D * 33)) by nia.
    assert (U3 : c * 100 <= (2 * m + 1) * 33) by nia. lia.
  - assert (PD : P * 10 <= D * 263).
    { unfold P, D. destruct KE as [[K X]|[[K X]|[[K X]|[[K X]|[[K X]|[K X]]]]]]; try (exfalso; lia); rewrite K, X; vm_compute; discriminate. }
    assert (U2 : c * 100 * D <= (2 * m + 1) * (D * 263) + 60 * D) by nia.
    assert (U3 : c * 100 <= (2 * m + 1) * 263 + 60) by nia. lia.
Qed.
Lemma lc_reach sizet f mf ef : sizet = 32 \/ sizet = 64 -> known f -> finite f mf ef -> (0 < mf \/ 0 < ef) ->
  exists d e len, dragonbox_impl sizet f mf ef = Done (d, e) /\ reach f d e len /\ (sizet = 64 \/ f = binary32 -> d mod 10 <> 0) /\
    (f = binary64 \/ ~ (len = 9 /\ e = 5)).
Proof.
  intros Hs Kf Hf Hz. destruct (decimal_reach sizet f mf ef Hs Kf Hf Hz) as (d & e & len & A & B & C).
  exists d, e, len. split; [exact A|]. split; [exact B|]. split; [exact C|]. destruct Kf as [-> | ->]; [|left; reflexivity]. right. intros [L9 E5].
  destruct Hf as [Hm He]. cbn [mbits ebits binary32] in Hm, He.
  destruct (float_fifth mf ef Hm ltac:(change (2 ^ 8 - 1) with 255 in He; lia) Hz) as (c & e10 & M & Bc & B5).
  assert (C64 : 0 < c < 2 ^ 64) by (split; [lia|]; apply Z.lt_trans with (10 ^ 9); [lia|reflexivity]).
  destruct (impl_strip binary32 mf ef c e10 (known_w binary32 (or_introl eq_refl)) M C64) as (d' & e' & I & (S1 & S2 & S3) & _).
  assert (I' : dragonbox_impl sizet binary32 mf ef = Done (d', e')) by (destruct Hs as [-> | ->]; exact I).
  assert (X : d' = d /\ e' = e) by (split; congruence). destruct X as [-> ->].
  destruct B as (_ & (_ & _ & L) & _). rewrite L9 in L. destruct L as [L|L]; [lia|]. change (10 ^ (9 - 1)) with (10 ^ 8) in L.
  assert (e10 = 5).
  { destruct (Z.eq_dec e10 e) as [|N]; [lia|]. assert (10 ^ 1 <= 10 ^ (e - e10)) by (apply Z.pow_le_mono_r; lia). change (10 ^ 1) with 10 in H.
    assert (10 ^ 9 = 10 ^ 8 * 10) by reflexivity. nia. }
  replace (e - e10) with 0 in S2 by lia. change (10 ^ 0) with 1 in S2. specialize (B5 H). lia.
Qed.
Lemma lc_print_finite sizet f fl lc mt sign mf ef buf pos : sizet = 32 \/ sizet = 64 -> known f -> finite f mf ef -> (0 < mf \/ 0 < ef) ->
  0 <= pos -> Forall (fun e => 0 <= e) (lc_grouping lc) ->
  exists d e len, dragonbox_impl sizet f mf ef = Done (d, e) /\ reach f d e len /\ (sizet = 64 \/ f = binary32 -> d mod 10 <> 0) /\
    lc_print_rsvflt_define sizet f fl lc mt (bits_of f sign mf ef) (buf, pos) = emit (sign_is (ff_showpos fl) sign ++ lc_chosen f fl lc d e len mt) (buf, pos).
Proof.
  intros Hs Kf [Hm He] Hz Hp HF.
  destruct (lc_reach sizet f mf ef Hs Kf (conj Hm He) Hz) as (d & e & len & I & Rch & N & N9).
  exists d, e, len. split; [assumption|]. split; [assumption|]. split; [assumption|].
  unfold lc_print_rsvflt_define. rewrite punned by (try assumption; lia). rewrite mask_is by assumption.
  rewrite sign_chars_is, <- emit_app.
  destruct (emit (sign_is (ff_showpos fl) sign) (buf, pos)) as [st| |] eqn:E; cbn [obind]; try reflexivity.
  destruct (Z.eqb_spec ef (2 ^ ebits f - 1)); [lia|].
  destruct ((mf =? 0) && (ef =? 0)) eqn:Z0.
  { apply andb_true_iff in Z0. rewrite !Z.eqb_eq in Z0. lia. }
  rewrite I. cbn [obind]. apply lc_decision_is; try assumption; [exact (emit_range _ _ _ E)|right; exact N9].
Qed.
Lemma lc_print_special sizet f fl lc mt sign mf ef buf pos : known f -> 0 <= mf < 2 ^ mbits f -> 0 <= ef < 2 ^ ebits f ->
  (ef = 2 ^ ebits f - 1 \/ (mf = 0 /\ ef = 0)) ->
  lc_print_rsvflt_define sizet f fl lc mt (bits_of f sign mf ef) (buf, pos) = print_rsvflt_define sizet f fl mt (bits_of f sign mf ef) (buf, pos).
Proof.
  intros Kf Hm He H. unfold lc_print_rsvflt_define, print_rsvflt_define. rewrite punned by assumption. rewrite mask_is by assumption.
  destruct (emit (sign_chars (ff_showpos fl) sign) (buf, pos)) as [st| |]; cbn [obind]; try reflexivity.
  destruct (Z.eqb_spec ef (2 ^ ebits f - 1)); [reflexivity|]. destruct H as [H|[-> ->]]; [contradiction|]. reflexivity.
Qed.

(** ** How long the texts are *)
Lemma grouped_zlen g sep d : Forall (fun e => 0 <= e) g -> d <> [] -> zlen (grouped g sep d) <= zlen d + (zlen d - 1) * zlen sep.
Proof.
  intros HF H. pose proof (grouped_length g sep d HF) as G. unfold zlen. destruct d as [|c d]; [congruence|]. cbn [length] in *. nia.
Qed.
Lemma grouped_zlen2 g sep d : Forall (fun e => e = 0 \/ 2 <= e) g -> d <> [] -> 2 * zlen (grouped g sep d) <= 2 * zlen d + (zlen d - 1) * zlen sep.
Proof.
  unfold zlen. remember (length d) as n eqn:L. revert g d L. induction n as [n IH] using (well_founded_induction Wf_nat.lt_wf). intros g d L HF H.
  assert (HF0 : Forall (fun e => 0 <= e) g) by (eapply Forall_impl; [|exact HF]; cbv beta; intros; lia).
  assert (L0 : (0 < length d)%nat) by (destruct d; [congruence|cbn; lia]).
  destruct g as [|e g]; [rewrite grouped_none, <- L; nia|]. pose proof (Forall_inv HF) as He. cbv beta in He.
  destruct (Z.eq_dec e 0) as [E|E]; [rewrite grouped_whole by auto; rewrite <- L; nia|].
  destruct (Z_le_gt_dec (Z.of_nat (length d)) e) as [E2|E2]; [rewrite grouped_whole by auto; rewrite <- L; nia|].
  rewrite <- (firstn_skipn (length d - Z.to_nat e) d) at 1.
  assert (L2 : length (skipn (length d - Z.to_nat e) d) = Z.to_nat e) by (rewrite skipn_length; lia).
  assert (L1 : length (firstn (length d - Z.to_nat e) d) = (length d - Z.to_nat e)%nat) by (rewrite firstn_length; lia).
  assert (N1 : firstn (length d - Z.to_nat e) d <> []) by (intros X; rewrite X in L1; cbn in L1; lia).
  rewrite grouped_step; [|lia|exact (Forall_inv_tail HF0)|lia|exact N1].
  assert (HL : Forall (fun e => e = 0 \/ 2 <= e) (later (e :: g))).
  { destruct g; [exact HF|exact (Forall_inv_tail HF)]. }
  pose proof (IH (length d - Z.to_nat e)%nat ltac:(lia) (later (e :: g)) _ (eq_sym L1) HL N1) as I.
  rewrite !app_length. set (G := length (grouped (later (e :: g)) sep (firstn (length d - Z.to_nat e) d))) in *. clearbody G.
  rewrite L2. set (s := Z.of_nat (length sep)) in *. assert (0 <= s) by (unfold s; lia).
  replace (Z.of_nat (length d - Z.to_nat e)) with (Z.of_nat (length d) - e) in I by lia. rewrite !Nat2Z.inj_add, Z2Nat.id by lia. fold s. rewrite L. 
  clear - I He E H0. nia.
Qed.
