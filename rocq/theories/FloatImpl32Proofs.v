(** dragonbox_impl on float. *)
From Coq Require Import QArith Qabs Qpower Lqa.
From Verif Require Import Base Outcome IntrinModel FloatTables FloatModel FloatSpec FloatRoundProofs FloatCertProofs
  FloatDragonProofs FloatCodeProofs FloatMainProofs FloatMain32Proofs FloatBestProofs FloatImplProofs.

Local Open Scope Z_scope.

Lemma check_one_32 : forallb (check_one binary32 1 (-149)) [1; 2; 3; 4; 5; 6; 7; 8; 9] = true.
Proof. vm_compute. reflexivity. Qed.

Lemma dec_mono d e e' : 0 < d -> e <= e' -> (dec d e <= dec d e')%Q.
Proof.
  intros Hd H. unfold dec. pose proof (ten_mono e e' H).
  assert (inject_Z 0 < inject_Z d)%Q by (rewrite <- Zlt_Qlt; assumption). change (inject_Z 0) with 0%Q in H1. nra.
Qed.

(** The decimal unit of a binary exponent: the greatest power of ten that does not exceed 2^f. *)
Lemma unit_exponent e k t : (10 * fden e k < 2 * fnum e k < 100 * fden e k) ->
  (dec 1 t <= bin 1 e)%Q -> (bin 1 e < dec 1 (t + 1))%Q -> t = 1 - k.
Proof.
  intros W L U.
  assert (B1 : (dec 10 (- k) < bin 1 e)%Q /\ (bin 1 e < dec 100 (- k))%Q).
  { pose proof (scale_m 1 e k) as S1. pose proof (scale_dec e k 10) as S2. pose proof (scale_dec e k 100) as S3.
    pose proof (scale_pos e k) as S0. 
    assert (X1 : (inject_Z (10 * fden e k) < inject_Z (2 * 1 * fnum e k))%Q) by (rewrite <- Zlt_Qlt; lia).
    assert (X2 : (inject_Z (2 * 1 * fnum e k) < inject_Z (100 * fden e k))%Q) by (rewrite <- Zlt_Qlt; lia).
    rewrite <- S1, <- S2 in X1. rewrite <- S1, <- S3 in X2.
    split; [apply Qmult_lt_r in X1|apply Qmult_lt_r in X2]; assumption. }
  destruct B1 as [B1 B2].
  assert (E1 : (dec 1 (1 - k) == dec 10 (- k))%Q). { rewrite (dec_shift 1 (- k) (1 - k)) by lia. replace (1 - k - - k) with 1 by lia. reflexivity. }
  assert (E2 : (dec 1 (2 - k) == dec 100 (- k))%Q). { rewrite (dec_shift 1 (- k) (2 - k)) by lia. replace (2 - k - - k) with 2 by lia. reflexivity. }
  destruct (Z.lt_trichotomy t (1 - k)) as [G|[G|G]]; [|assumption|]; exfalso.
  - pose proof (dec_mono 1 (t + 1) (1 - k) ltac:(lia) ltac:(lia)). lra.
  - pose proof (dec_mono 1 (2 - k) t ltac:(lia) ltac:(lia)). lra.
Qed.

Lemma float_result mf ef : 0 <= mf < 2 ^ 23 -> 0 <= ef < 255 -> (0 < mf \/ ef = 1) ->
  let m := significand 23 mf ef in let f := exponent 23 127 ef in
  exists d0 e0, dragonbox_impl 64 binary32 mf ef = Done (d0, e0) /\ d0 mod 10 <> 0 /\ 0 < d0 /\
    (best_decimal 24 (-149) d0 e0 m f \/
     forall t, (dec 1 t <= bin 1 f)%Q -> (bin 1 f < dec 1 (t + 1))%Q ->
       (exists n, (Qabs (bin m f - dec (10 * n + 5) (t - 1)) <= dec 1 (t - 1))%Q) /\
       (Qabs (dec d0 e0 - bin m f) < dec 6 (t - 1))%Q /\
       ((dec 12 (t - 1) <= bin 1 f)%Q -> rounds_to 24 (-149) (dec d0 e0) m f)).
Proof.
  intros Hm He Hz m e. 
  pose proof (main_with_cases 23 8 32 dragonbox_main32_body (fun _ => schubfach_asymmetric32) mf ef
    ltac:(lia) ltac:(lia) Hm ltac:(lia) ltac:(change (2 ^ 8) with 256; lia) ltac:(lia)) as C.
  change (2 ^ (8 - 1) - 1) with 127 in C. cbv zeta in C. fold m in C. fold e in C.
  assert (Mr : 0 < m < 2 ^ 24). { unfold m, significand. destruct (Z.eqb_spec ef 0); lia. }
  assert (Er : -149 <= e <= 104) by (unfold e, exponent; lia).
  assert (Nor : e = -149 \/ 2 ^ (24 - 1) < m).
  { unfold m, significand, e, exponent. change (24 - 1) with 23. destruct (Z.eqb_spec ef 0); lia. }
  assert (Can : canonical 24 (-149) m e). { split; [split; lia|]. destruct Nor; [left|right]; lia. }
  change (dragonbox_main_with 23 8 32 dragonbox_main32_body (fun _ => schubfach_asymmetric32) mf ef) with (dragonbox_main binary32 mf ef) in C.
  destruct C as [(v & E & V1 & V2 & V3)|[E NE]].
  - destruct (impl_strip binary32 mf ef v 0) as (d0 & e0 & I1 & I2 & I3); [left; reflexivity|assumption|lia|].
    exists d0, e0. split; [exact I1|]. split; [assumption|]. split; [apply I2|left].
    apply (integer_best 24 (-149) m e v d0 e0); try assumption; lia.
  - assert (e0' : e <> 0) by (destruct NE as [-> | NE]; [unfold e, exponent; lia|assumption]).
    destruct (get_facts32 e Er) as (pw & F). cbv zeta in F.
    destruct (body32_right m e ltac:(lia) Er pw F e0') as ([c e10] & B1 & B2 & B3). cbn [fst] in B3.
    rewrite B1 in E.
    destruct (impl_strip binary32 mf ef c e10) as (d0 & e0 & I1 & (I2 & I3 & I4) & I5); [left; reflexivity|assumption|lia|].
    exists d0, e0. split; [exact I1|]. split; [assumption|]. split; [assumption|].
    destruct F as [_ _ _ _ _ _ _ _ W1 W2 _ _ _]. specialize (W1 e0').
    set (k := kof 1 e) in *. set (P := fnum e k) in *. set (D := fden e k) in *.
    destruct B2 as [B2|(N1 & N2 & (n & N3) & N4)].
    + left. apply (finish 24 (-149) m e k 1 10) with (c := c) (e10 := e10); try assumption; try lia.
      intros M9 D9. assert (E0 : ef = 0) by (unfold m, significand in M9; destruct (Z.eqb_spec ef 0); [assumption|lia]).
      assert (Em : e = -149) by (unfold e, exponent; lia).
      assert (Emf : m = mf) by (unfold m, significand; rewrite E0; reflexivity).
      unfold k. rewrite Em, Emf. rewrite E0 in I1.
      apply (check_one_ok binary32 1 (-149) mf d0 e0 check_one_32); [lia|assumption].
    + right. intros t T1 T2. cbn [fst snd] in N1, N4.
      assert (Et : t = 1 - k) by (apply (unit_exponent e k t); try assumption; fold P; fold D; lia).
      assert (Et1 : t - 1 = - k) by lia. rewrite Et1. clear T1 T2.
      assert (Ed : (dec d0 e0 == dec (c * 10) (- k))%Q).
      { rewrite (dec_shift d0 e10 e0), <- I3 by lia. rewrite N1.
        rewrite (dec_shift c (- k) (1 - k)) by lia. replace (1 - k - - k) with 1 by lia. reflexivity. }
      pose proof (scale_pos e k) as S0. pose proof (scale_dist m e k) as SD. pose proof (scale_dec e k) as SX.
      fold P in SD. fold D in SD. fold D in SX. fold P in N2, N3, N4.
      split; [|split].
      * exists n. rewrite Qabs_Qminus. apply (Qmult_le_r _ _ (scale e k)); [assumption|].
        rewrite SD, SX. rewrite <- Zle_Qle. lia.
      * rewrite Ed. apply (Qmult_lt_r _ _ (scale e k)); [assumption|].
        rewrite SD, SX. rewrite <- Zlt_Qlt. lia.
      * intros L12. apply interval_rounds; try assumption; try lia.
        apply (interval_eq m e (dec (c * 10) (- k))); [symmetry; assumption|].
        apply (inI_interval m e k). fold P. fold D. left.
        apply (Qmult_le_r _ _ (scale e k)) in L12; [|assumption].
        pose proof (scale_m 1 e k) as S1. fold P in S1. rewrite S1, SX, <- Zle_Qle in L12. lia.
Qed.
