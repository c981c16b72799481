(** The decimals the conversion yields: how many digits, how large an exponent. *)
From Verif Require Import Base Outcome IntPrintModel IntPrintProofs IntSizeProofs FloatTables FloatModel FloatSpec FloatTextModel FloatCertProofs FloatDragonProofs
  FloatCodeProofs FloatMainProofs FloatMain32Proofs FloatImplProofs FloatTextProofs FloatTextCases FloatTextForms.

Lemma double_main_bounds mf ef : 0 <= mf < 2 ^ 52 -> 0 <= ef < 2047 -> (0 < mf \/ 0 < ef) ->
  exists c e10, dragonbox_main binary64 mf ef = Done (c, e10) /\ 0 < c < 10 ^ 17 /\ -324 <= e10 <= 295.
Proof.
  intros Hm He Hz.
  pose proof (main_with_cases 52 11 64 dragonbox_main64_body (fun _ => schubfach_asymmetric64) mf ef
    ltac:(lia) ltac:(lia) Hm ltac:(lia) ltac:(change (2 ^ 11) with 2048; lia) Hz) as C.
  change (2 ^ (11 - 1) - 1) with 1023 in C. cbv zeta in C.
  set (m := significand 52 mf ef) in *. set (e := exponent 52 1023 ef) in *.
  assert (Mr : 0 < m < 2 ^ 53). { unfold m, significand. destruct (Z.eqb_spec ef 0); lia. }
  assert (Er : -1074 <= e <= 971) by (unfold e, exponent; lia).
  change (dragonbox_main_with 52 11 64 dragonbox_main64_body (fun _ => schubfach_asymmetric64) mf ef) with (dragonbox_main binary64 mf ef) in C.
  destruct C as [(v & E & V1 & V2 & V3)|[E NE]].
  - exists v, 0. split; [assumption|lia].
  - assert (e0' : e <> 0) by (destruct NE as [-> | NE]; [unfold e, exponent; lia|assumption]).
    destruct (get_facts64 e Er) as (hi & lo & F). cbv zeta in F.
    destruct (body64_right m e ltac:(lia) Er hi lo F e0') as ([c e10] & B1 & B2 & B3). cbn [fst] in B3.
    exists c, e10. split; [congruence|]. split.
    + split; [lia|]. pose proof (f_whi _ _ _ _ _ _ _ F) as W. pose proof (fden_pos e (kof 2 e)) as D0. pose proof (fnum_pos e (kof 2 e)) as P0.
      set (P := fnum e (kof 2 e)) in *. set (D := fden e (kof 2 e)) in *.
      assert (U : c * 100 * D <= 2 * m * P + P).
      { destruct B2 as [[_ I]|(_ & _ & I & _)]; cbn [fst] in I; unfold inI in I.
        - assert (c * (10 * 100) * D <= 2 * m * P + P) by lia. nia.
        - lia. }
      assert (U2 : c * 100 * D <= (2 * m + 1) * (500 * D)) by nia.
      assert (U3 : c * 100 <= (2 * m + 1) * 500) by nia. lia.
    + pose proof (f_k _ _ _ _ _ _ _ F) as K. destruct B2 as [[I _]|(I & _)]; cbn [snd] in I; lia.
Qed.
Lemma float_main_bounds mf ef : 0 <= mf < 2 ^ 23 -> 0 <= ef < 255 -> (0 < mf \/ 0 < ef) ->
  exists c e10, dragonbox_main binary32 mf ef = Done (c, e10) /\ 0 < c < 10 ^ 9 /\ -45 <= e10 <= 33.
Proof.
  intros Hm He Hz.
  pose proof (main_with_cases 23 8 32 dragonbox_main32_body (fun _ => schubfach_asymmetric32) mf ef
    ltac:(lia) ltac:(lia) Hm ltac:(lia) ltac:(change (2 ^ 8) with 256; lia) Hz) as C.
  change (2 ^ (8 - 1) - 1) with 127 in C. cbv zeta in C.
  set (m := significand 23 mf ef) in *. set (e := exponent 23 127 ef) in *.
  assert (Mr : 0 < m < 2 ^ 24). { unfold m, significand. destruct (Z.eqb_spec ef 0); lia. }
  assert (Er : -149 <= e <= 104) by (unfold e, exponent; lia).
  change (dragonbox_main_with 23 8 32 dragonbox_main32_body (fun _ => schubfach_asymmetric32) mf ef) with (dragonbox_main binary32 mf ef) in C.
  destruct C as [(v & E & V1 & V2 & V3)|[E NE]].
  - exists v, 0. split; [assumption|lia].
  - assert (e0' : e <> 0) by (destruct NE as [-> | NE]; [unfold e, exponent; lia|assumption]).
    destruct (get_facts32 e Er) as (pw & F). cbv zeta in F.
    destruct (body32_right m e ltac:(lia) Er pw F e0') as ([c e10] & B1 & B2 & B3). cbn [fst] in B3.
    exists c, e10. split; [congruence|]. split.
    + split; [lia|]. pose proof (g_whi _ _ _ _ _ _ F) as W. pose proof (fden_pos e (kof 1 e)) as D0. pose proof (fnum_pos e (kof 1 e)) as P0.
      set (P := fnum e (kof 1 e)) in *. set (D := fden e (kof 1 e)) in *.
      assert (U : c * 10 * D <= 2 * m * P + P + 6 * D).
      { destruct B2 as [[[_ I]|(_ & _ & I & _)]|(_ & _ & _ & I)]; cbn [fst] in I; unfold inI in I.
        - assert (c * (10 * 10) * D <= 2 * m * P + P) by lia. nia.
        - lia.
        - lia. }
      assert (U2 : c * 10 * D <= (2 * m + 1) * (50 * D) + 6 * D) by nia.
      assert (U3 : c * 10 <= (2 * m + 1) * 50 + 6) by nia. lia.
    + pose proof (g_k _ _ _ _ _ _ F) as K. destruct B2 as [[[I _]|(I & _)]|(I & _)]; cbn [snd] in I; lia.
Qed.
Lemma stripped_reach f c e10 d e : known f -> 0 < c < 10 ^ digits_bound (mantw f) ->
  dec_min f <= e10 -> e10 + digits_bound (mantw f) <= dec_max f -> stripped c e10 d e ->
  exists len, reach f d e len.
Proof.
  intros Kf Hc H1 H2 (S1 & S2 & S3). exists (chars_len_ryu (mantw f) d).
  assert (0 < 10 ^ (e - e10)) by (apply Z.pow_pos_nonneg; lia).
  assert (Hd : 0 < d < 10 ^ digits_bound (mantw f)) by (split; [assumption|nia]).
  pose proof (chars_len_ryu_spec (mantw f) d (known_w f Kf) ltac:(lia)) as Dc. set (len := chars_len_ryu (mantw f) d) in *.
  split; [assumption|]. split; [assumption|]. split; [lia|].
  destruct Dc as (L1 & L2 & L3).
  assert (P : 10 ^ (len - 1) <= d) by (destruct L3 as [-> | ?]; [change (10 ^ (1 - 1)) with 1; lia|assumption]).
  assert (Q : 10 ^ (len - 1 + (e - e10)) < 10 ^ digits_bound (mantw f)).
  { rewrite Z.pow_add_r by lia. assert (0 < 10 ^ (len - 1)) by (apply Z.pow_pos_nonneg; lia). nia. }
  apply Z.pow_lt_mono_r_iff in Q; try lia. unfold digits_bound. destruct (mantw f =? 64); lia.
Qed.

Definition finite (f : fmt) (mf ef : Z) : Prop := 0 <= mf < 2 ^ mbits f /\ 0 <= ef < 2 ^ ebits f - 1.
Lemma decimal_reach sizet f mf ef : sizet = 32 \/ sizet = 64 -> known f -> finite f mf ef -> (0 < mf \/ 0 < ef) ->
  exists d e len, dragonbox_impl sizet f mf ef = Done (d, e) /\ reach f d e len /\ (sizet = 64 \/ f = binary32 -> d mod 10 <> 0).
Proof.
  intros Hs Kf [Hm He] Hz.
  assert (exists c e10, dragonbox_main f mf ef = Done (c, e10) /\ 0 < c < 10 ^ digits_bound (mantw f) /\
     dec_min f <= e10 /\ e10 + digits_bound (mantw f) <= dec_max f) as (c & e10 & M & Hc & E1 & E2).
  { destruct Kf as [-> | ->]; cbn [mbits ebits mantw binary32 binary64] in *.
    - destruct (float_main_bounds mf ef Hm ltac:(change (2 ^ 8 - 1) with 255 in He; lia) Hz) as (c & e10 & A & B & C).
      exists c, e10. unfold dec_min, dec_max, digits_bound. cbn [mantw binary32]. change (32 =? 64) with false. cbv iota. repeat split; lia || assumption.
    - destruct (double_main_bounds mf ef Hm ltac:(change (2 ^ 11 - 1) with 2047 in He; lia) Hz) as (c & e10 & A & B & C).
      exists c, e10. unfold dec_min, dec_max, digits_bound. cbn [mantw binary64]. change (64 =? 64) with true. cbv iota. repeat split; lia || assumption. }
  assert (C64 : 0 < c < 2 ^ 64).
  { split; [lia|]. apply Z.lt_trans with (10 ^ digits_bound (mantw f)); [lia|]. unfold digits_bound. destruct (mantw f =? 64); reflexivity. }
  assert (G : dragonbox_impl sizet f mf ef = dragonbox_impl 64 f mf ef \/ (sizet = 32 /\ f = binary64)).
  { destruct Hs as [-> | ->]; [|left; reflexivity]. destruct Kf as [-> | ->]; [left; reflexivity|right; split; reflexivity]. }
  destruct G as [G|[-> ->]].
  - destruct (impl_strip f mf ef c e10 (known_w f Kf) M C64) as (d & e & I & S & N).
    destruct (stripped_reach f c e10 d e Kf Hc E1 E2 S) as (len & Rch). exists d, e, len.
    split; [congruence|]. split; [assumption|]. intros _. assumption.
  - destruct (impl32_strip binary64 mf ef c e10 eq_refl M C64) as (d & e & I & S & N).
    destruct (stripped_reach binary64 c e10 d e Kf Hc E1 E2 S) as (len & Rch). exists d, e, len.
    split; [assumption|]. split; [assumption|]. intros [X|X]; discriminate.
Qed.
