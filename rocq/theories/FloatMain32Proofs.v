(** dragonbox_main on float: what the returned decimal satisfies. *)
From Verif Require Import Base Outcome IntrinModel FloatTables FloatModel FloatCertProofs FloatDragonProofs FloatCodeProofs
  FloatMainProofs.

Record facts32 (e2 k b P D pw : Z) : Prop := mk_facts32
  { g_b : 3 <= b <= 6;
    g_l2 : mul_ln2_div_ln10_floor e2 = Done (1 - k);
    g_l10 : mul_ln10_div_ln2_floor k = Done (b - e2);
    g_pw : compute_pow10_float32 k = Done pw;
    g_hi : 0 <= pw < 2 ^ 64;
    g_delta : Z.shiftr pw (63 - b) = 2 * P / D;
    g_same : forall n, 0 < n < 2 ^ 25 -> n * P / D = n * pw / 2 ^ (64 - b);
    g_wlo : 10 * D <= 2 * P;
    g_wlo' : e2 <> 0 -> 10 * D < 2 * P;
    g_whi : 2 * P < 100 * D;
    g_end : (e2 < -1 -> 0 <= k /\ e2 - 1 + k < 0) /\
            (-1 <= e2 <= 6 -> 0 <= k /\ 0 <= e2 - 1 + k) /\
            (6 < e2 <= 39 -> -10 <= k <= 0 /\ 0 <= e2 - 1 + k) /\
            (39 < e2 -> k <= -11 /\ 0 <= e2 - 1 + k);
    g_mid : -2 <= e2 -> -1 <= e2 - 1 + k;
    g_k : -31 <= k <= 46 }.

Lemma get_facts32 e2 : -149 <= e2 <= 104 ->
  exists pw, let k := kof 1 e2 in let b := betaof k e2 in
    facts32 e2 k b (fnum e2 k) (fden e2 k) pw.
Proof.
  intros H. pose proof check32_all as C. rewrite forallb_forall in C.
  specialize (C e2 (e2_range_in _ _ _ H)). unfold check32 in C. cbv zeta in C.
  cbv zeta. pose proof (fden_pos e2 (kof 1 e2)) as D0.
  set (k := kof 1 e2) in *. set (b := betaof k e2) in *.
  set (P := fnum e2 k) in *. set (D := fden e2 k) in *.
  rewrite !andb_true_iff in C. destruct C as [[[[[[[[[C1 C2] C3] C4] C5] C6] C7] C8] C9] C10].
  destruct (nth_error pow10_float32_tb (Z.to_nat (k + 31))) as [pw|] eqn:T; [|discriminate].
  rewrite !andb_true_iff in C8. destruct C8 as [[[T1 T2] T5] T6].
  rewrite Z.leb_le in *. rewrite Z.ltb_lt in *. rewrite Z.eqb_eq in T5.
  exists pw. constructor.
  - lia.
  - unfold mul_ln2_div_ln10_floor. rewrite (fits32_signed _ C1). cbn [obind]. f_equal. unfold k, kof. lia.
  - unfold mul_ln10_div_ln2_floor. rewrite (fits32_signed _ C2). cbn [obind]. f_equal. unfold b, betaof. lia.
  - unfold compute_pow10_float32, tb_at. destruct (Z.ltb_spec (k + 31) 0); [lia|]. rewrite T. reflexivity.
  - lia.
  - assumption.
  - intros n Hn. apply (same_floor_sound (2 ^ 25)); try assumption.
    apply Z.pow_pos_nonneg; lia.
  - destruct (e2 =? 0); lia.
  - intros N. destruct (Z.eqb_spec e2 0); lia.
  - assumption.
  - clear C10.
    destruct (Z.ltb_spec e2 (-1)) as [L1|L1].
    { rewrite andb_true_iff, Z.leb_le, Z.ltb_lt in C9. repeat split; intros; lia. }
    destruct (Z.leb_spec e2 6) as [L2|L2].
    { rewrite andb_true_iff, !Z.leb_le in C9. repeat split; intros; lia. }
    destruct (Z.leb_spec e2 39) as [L3|L3].
    { rewrite !andb_true_iff, !Z.leb_le in C9. repeat split; intros; lia. }
    rewrite !andb_true_iff, !Z.leb_le in C9. repeat split; intros; lia.
  - intros L. destruct (Z.leb_spec (-2) e2); [|lia]. cbn [implb] in C10. apply Z.leb_le in C10. assumption.
  - assert (Ln : (Z.to_nat (k + 31) < length pow10_float32_tb)%nat) by (apply nth_error_Some; congruence).
    change (length pow10_float32_tb) with 78%nat in Ln. lia.
Qed.

Lemma ushl_one32 i : 0 <= i < 32 -> ushl 32 1 i = Done (2 ^ i).
Proof.
  intros H. unfold ushl. destruct (Z.leb_spec 0 i); [|lia]. destruct (Z.ltb_spec i 32); [|lia]. cbn [andb].
  rewrite Z.shiftl_1_l, wrap_id; [reflexivity|]. assert (0 < 2 ^ i) by (apply Z.pow_pos_nonneg; lia).
  assert (2 ^ i < 2 ^ 32) by (apply Z.pow_lt_mono_r; lia). lia.
Qed.

Section Body32.
Variables (m2 e2 : Z).
Hypothesis Hm : 1 <= m2 < 2 ^ 24.
Hypothesis He : -149 <= e2 <= 104.
Variables (pw : Z).
Let k := kof 1 e2.
Let b := betaof k e2.
Let P := fnum e2 k.
Let D := fden e2 k.
Hypothesis F : facts32 e2 k b P D pw.

Lemma end_point32 n : 0 < n < 2 ^ 25 -> Z.odd n = true ->
  is_integral_end_point_float32 n e2 (- k) = Done (n * P mod D =? 0).
Proof.
  intros Hn O. pose proof (fden_pos e2 k) as D0. destruct F as [_ _ _ _ _ _ _ _ _ _ (E1 & E2 & E3 & E4) _ Kr].
  unfold is_integral_end_point_float32.
  destruct (Z.ltb_spec e2 (-1)) as [L1|L1].
  { apply Done_eqb with (Q := (D | n * P)); [apply divide_mod; assumption|].
    split; [discriminate|]. intros X. elim (integral_never2 e2 k n); try (apply E1; lia); assumption. }
  destruct (Z.leb_spec e2 6) as [L2|L2].
  { apply Done_eqb with (Q := (D | n * P)); [apply divide_mod; assumption|].
    split; [intros _|reflexivity]. apply integral_always; apply E2; lia. }
  destruct (Z.leb_spec e2 39) as [L3|L3].
  { destruct E3 as [K S]; [lia|]. rewrite wrap_id by lia. rewrite multiple5_32 by lia.
    apply Done_eqb with (Q := (D | n * P)); [apply divide_mod; assumption|].
    rewrite Z.eqb_eq. unfold D, P. rewrite integral_five by lia. symmetry. apply divide_mod.
    apply Z.pow_pos_nonneg; lia. }
  apply Done_eqb with (Q := (D | n * P)); [apply divide_mod; assumption|].
  split; [discriminate|]. intros X. destruct E4 as [K S]; [lia|].
  unfold D, P in X. rewrite integral_five in X by lia. apply Z.divide_pos_le in X; [|lia].
  assert (5 ^ 11 <= 5 ^ (- k)) by (apply Z.pow_le_mono_r; lia).
  assert (2 ^ 25 < 5 ^ 11) by reflexivity. lia.
Qed.

Lemma mid_point32 : is_integral_mid_point_float32 (2 * m2) e2 (- k) = Done (2 * m2 * P mod D =? 0).
Proof.
  pose proof (fden_pos e2 k) as D0. destruct F as [_ _ _ _ _ _ _ _ _ _ (E1 & E2 & E3 & E4) M Kr].
  unfold is_integral_mid_point_float32.
  destruct (Z.ltb_spec e2 (-2)) as [L1|L1].
  { destruct E1 as [K S]; [lia|]. set (j := - k - e2 + 1).
    assert (T : Done (2 * m2 mod 2 ^ j =? 0) = Done (2 * m2 * P mod D =? 0)).
    { apply Done_eqb with (Q := (D | 2 * m2 * P)); [apply divide_mod; assumption|].
      rewrite Z.eqb_eq. unfold D, P. rewrite integral_two by lia.
      replace (- (e2 - 1 + k)) with j by (unfold j; lia). symmetry. apply divide_mod. apply Z.pow_pos_nonneg; lia. }
    rewrite <- T. unfold multiple_of_pow2. destruct (Z.ltb_spec j 32) as [L|L].
    - rewrite wrap_id by lia. unfold multiple_of_pow2_unchecked.
      rewrite ushl_one32 by lia. cbn [obind]. f_equal.
      rewrite wrap_id. 2: { assert (0 < 2 ^ j) by (apply Z.pow_pos_nonneg; lia).
        assert (2 ^ j < 2 ^ 32) by (apply Z.pow_lt_mono_r; lia). lia. }
      replace (2 ^ j - 1) with (Z.ones j) by (rewrite Z.ones_equiv; lia).
      rewrite Z.land_ones by lia. reflexivity.
    - f_equal. symmetry. apply Z.eqb_neq. rewrite Z.mod_small; [lia|].
      assert (2 ^ 32 <= 2 ^ j) by (apply Z.pow_le_mono_r; lia). lia. }
  destruct (Z.leb_spec e2 6) as [L2|L2].
  { apply Done_eqb with (Q := (D | 2 * m2 * P)); [apply divide_mod; assumption|].
    split; [intros _|reflexivity]. apply integral_even; [|apply M; lia].
    destruct (Z_lt_le_dec e2 (-1)); [apply E1|apply E2]; lia. }
  destruct (Z.leb_spec e2 39) as [L3|L3].
  { destruct E3 as [K S]; [lia|]. rewrite wrap_id by lia. rewrite multiple5_32 by lia.
    apply Done_eqb with (Q := (D | 2 * m2 * P)); [apply divide_mod; assumption|].
    rewrite Z.eqb_eq. unfold D, P. rewrite integral_five by lia. symmetry. apply divide_mod.
    apply Z.pow_pos_nonneg; lia. }
  apply Done_eqb with (Q := (D | 2 * m2 * P)); [apply divide_mod; assumption|].
  split; [discriminate|]. intros X. destruct E4 as [K S]; [lia|].
  unfold D, P in X. rewrite integral_five in X by lia. apply Z.divide_pos_le in X; [|lia].
  assert (5 ^ 11 <= 5 ^ (- k)) by (apply Z.pow_le_mono_r; lia).
  assert (2 ^ 25 < 5 ^ 11) by reflexivity. lia.
Qed.
(** The case the code gets wrong: the scaled number is between 4 and 6 above a multiple of 10, no multiple of
    100 reads back; the neighbour that is farther away is taken (less than 6 away). *)
Definition near_tie (k A P D : Z) (even : bool) (res : Z * Z) : Prop :=
  snd res = 1 - k /\ noneB A P D even 100 /\
  (exists n, (10 * n + 4) * D <= A < (10 * n + 6) * D) /\ Z.abs (fst res * 10 * D - A) < 6 * D.

Lemma body32_right : e2 <> 0 -> exists res,
  dragonbox_main32_body m2 e2 = Done res /\
  (main_spec k 1 (2 * m2 * P) P D 10 (Z.even m2) res \/ near_tie k (2 * m2 * P) P D (Z.even m2) res) /\ 0 < fst res < 2 ^ 31.
Proof.
  intros NZ. pose proof (fden_pos e2 k) as D0. pose proof (fnum_pos e2 k) as P0.
  fold P in P0. fold D in D0.
  pose proof (end_point32 (2 * m2 + 1)) as EU. pose proof (end_point32 (2 * m2 - 1)) as EL.
  pose proof mid_point32 as MP.
  destruct F as [Hb L2 L10 PW Hhi DE SA W1 W1' W2 _ _ _].
  specialize (W1' NZ).
  unfold dragonbox_main32_body. rewrite L2. cbn [obind]. cbv zeta.
  replace (- (1 - k - 1)) with k by lia. replace (1 - k - 1) with (- k) by lia.
  rewrite L10. cbn [obind]. rewrite PW. cbn [obind]. cbv beta iota zeta.
  replace (e2 + (b - e2)) with b by lia.
  unfold ushr at 1. destruct (Z.leb_spec 0 (63 - b)); [|lia]. destruct (Z.ltb_spec (63 - b) 64); [|lia].
  cbn [andb obind]. rewrite DE.
  set (A := 2 * m2 * P).
  set (delta := 2 * P / D).
  assert (Delta : delta * D <= 2 * P < (delta + 1) * D) by (apply div_char; [assumption|reflexivity]).
  assert (dr : 10 <= delta < 100) by (split; nia).
  rewrite (wrap_id 32 delta) by lia.
  rewrite (Z.shiftl_mul_pow2 m2 1) by lia. change (2 ^ 1) with 2.
  rewrite (wrap_id 32 (m2 * 2)) by lia. replace (m2 * 2) with (2 * m2) by ring.
  rewrite (wrap_id 32 (2 * m2 - 1)), (wrap_id 32 (2 * m2 + 1)) by lia.
  assert (pb : 2 ^ b <= 2 ^ 6) by (apply Z.pow_le_mono_r; lia).
  assert (pb0 : 0 < 2 ^ b) by (apply Z.pow_pos_nonneg; lia).
  unfold ushl at 1. destruct (Z.leb_spec 0 b); [|lia]. destruct (Z.ltb_spec b 32); [|lia].
  cbn [andb obind]. rewrite Z.shiftl_mul_pow2 by lia.
  rewrite (wrap_id 32 ((2 * m2 + 1) * 2 ^ b)) by nia.
  unfold mulshift_float32. rewrite umul64_high_spec by nia.
  assert (ZE : (2 * m2 + 1) * 2 ^ b * pw / 2 ^ 64 = (2 * m2 + 1) * P / D).
  { rewrite SA by lia.
    replace (2 ^ 64) with (2 ^ (64 - b) * 2 ^ b) by (rewrite <- Z.pow_add_r by lia; f_equal; lia).
    replace ((2 * m2 + 1) * 2 ^ b * pw) with ((2 * m2 + 1) * pw * 2 ^ b) by ring.
    apply Z.div_mul_cancel_r; [apply Z.pow_nonzero; lia|lia]. }
  rewrite ZE. set (zi := (2 * m2 + 1) * P / D).
  assert (Zi : zi * D <= A + P < (zi + 1) * D).
  { replace (A + P) with ((2 * m2 + 1) * P) by (unfold A; ring). apply div_char; [assumption|reflexivity]. }
  assert (zlo : 10 <= zi). { assert (3 * P <= A + P) by (unfold A; nia). nia. }
  assert (zhi : zi < 2 ^ 25 * 50) by (unfold A in Zi; nia).
  rewrite (wrap_id 32 zi) by lia.
  set (q := zi / 100). set (r := zi mod 100).
  assert (Rr : 0 <= r < 100) by (apply Z.mod_pos_bound; lia).
  assert (Zq : zi = 100 * q + r) by (apply Z.div_mod; lia).
  assert (q0 : 0 <= q) by lia.
  (* the floors of the lower end and of the middle *)
  set (xfl := (2 * m2 - 1) * P / D).
  assert (Xfl : xfl * D <= A - P < (xfl + 1) * D).
  { replace (A - P) with ((2 * m2 - 1) * P) by (unfold A; ring). apply div_char; [assumption|reflexivity]. }
  set (yfl := 2 * m2 * P / D).
  assert (Yfl : yfl * D <= A < (yfl + 1) * D) by (unfold A; apply div_char; [assumption|reflexivity]).
  assert (Pfl : (delta / 2) * D <= P < (delta / 2 + 1) * D).
  { assert (E : delta / 2 = P / D).
    { unfold delta. rewrite Z.div_div by lia. rewrite (Z.mul_comm D 2). apply Z.div_mul_cancel_l; lia. }
    rewrite E. apply div_char; [assumption|reflexivity]. }
  set (pfl := delta / 2) in *.
  assert (pr : 5 <= pfl < 50) by (split; nia).
  rewrite (parity32_spec (2 * m2 - 1)) by lia.
  rewrite <- !SA by lia. fold xfl.
  rewrite EU by (try (rewrite Z.odd_add, Z.odd_mul; reflexivity); lia).
  rewrite EL by (try (rewrite Z.odd_sub, Z.odd_mul; reflexivity); lia).
  clear EU EL.
  assert (EV : (Z.land m2 1 =? 0) = Z.even m2).
  { rewrite <- (negb_involutive (Z.land m2 1 =? 0)), land1_odd. apply Z.negb_odd. }
  rewrite EV.
  assert (UP : (((2 * m2 + 1) * P) mod D =? 0) = (zi * D =? A + P)).
  { assert (X : (2 * m2 + 1) * P mod D = A + P - zi * D) by (unfold zi, A; rewrite Z.mod_eq by lia; ring).
    rewrite X. destruct (Z.eqb_spec (A + P - zi * D) 0), (Z.eqb_spec (zi * D) (A + P)); lia. }
  assert (LO : (((2 * m2 - 1) * P) mod D =? 0) = (xfl * D =? A - P)).
  { assert (X : (2 * m2 - 1) * P mod D = A - P - xfl * D) by (unfold xfl, A; rewrite Z.mod_eq by lia; ring).
    rewrite X. destruct (Z.eqb_spec (A - P - xfl * D) 0), (Z.eqb_spec (xfl * D) (A - P)); lia. }
  assert (MI : ((2 * m2 * P) mod D =? 0) = (yfl * D =? A)).
  { assert (X : 2 * m2 * P mod D = A - yfl * D) by (unfold yfl, A; rewrite Z.mod_eq by lia; ring).
    rewrite X. destruct (Z.eqb_spec (A - yfl * D) 0), (Z.eqb_spec (yfl * D) A); lia. }
  rewrite UP, LO.
  (* the small branch, for the quotient and remainder it is entered with *)
  set (goal := fun res => (main_spec k 1 A P D 10 (Z.even m2) res \/ near_tie k A P D (Z.even m2) res) /\ 0 < fst res < 2 ^ 31).
  assert (SM : forall q1 r1, zi = 100 * q1 + r1 -> delta <= r1 <= 100 -> 0 <= q1 ->
    noneB A P D (Z.even m2) 100 -> exists res,
    dragonbox_small32 (2 * m2) delta pw b e2 (- k) q1 r1 = Done res /\ goal res).
  { intros q1 r1 Z1 R1 Q1 NB. unfold dragonbox_small32. cbv zeta.
    change (10 / 2) with 5. fold pfl.
    rewrite (wrap_id 32 (q1 * 10)) by nia.
    assert (dl : 2 * pfl <= delta < 2 * pfl + 2) by (unfold pfl; apply half_bounds).
    rewrite (wrap_id 32 (r1 - pfl + 5)) by lia.
    set (dist := r1 - pfl + 5). set (dq := dist / 10).
    assert (Dq : 10 * dq <= dist < 10 * dq + 10).
    { pose proof (Z.div_mod dist 10 ltac:(lia)) as J. pose proof (Z.mod_pos_bound dist 10 ltac:(lia)). fold dq in J. lia. }
    assert (dr2 : 10 <= dist <= 100) by (unfold dist; lia).
    assert (dqr : 1 <= dq <= 10) by lia.
    rewrite (wrap_id 32 (dq * 10)) by lia.
    rewrite (wrap_id 32 (q1 * 10 + dq)) by nia.
    set (Q := q1 * 10 + dq).
    assert (HQ : Q * 10 <= zi - pfl + 5 < (Q + 1) * 10) by (unfold Q, dist in *; lia).
    assert (EQ : (dist =? dq * 10) = (Q * 10 =? zi - pfl + 5)).
    { unfold Q, dist in *. destruct (Z.eqb_spec (r1 - pfl + 5) (dq * 10)), (Z.eqb_spec ((q1 * 10 + dq) * 10) (zi - pfl + 5)); lia. }
    rewrite EQ. clear EQ.
    assert (AP : 2 * P <= A) by (clear - P0 Hm; unfold A; nia).
    assert (zlt : zi - pfl + 5 < 2 ^ 31) by lia.
    assert (MI' := MI).
    assert (Q1' : 1 <= Q) by lia.
    destruct (Z.eqb_spec (Q * 10) (zi - pfl + 5)) as [E|E].
    - assert (J3 : 1 < Q).
      { destruct (Z.eq_dec Q 1) as [E1|]; [|lia]. exfalso. assert (Zs : zi = pfl + 5) by lia. rewrite Zs in Zi. clear - AP Zi Pfl W1' D0. lia. }
      rewrite (parity32_spec (2 * m2)) by lia. rewrite <- SA by lia. fold yfl. cbn [obind].
      assert (Yc : yfl = zi - pfl \/ yfl = zi - pfl - 1) by (apply (yfl_cases A P D); assumption).
      assert (Par : Z.odd dist = false).
      { replace dist with (2 * (5 * dq)) by (unfold Q, dist in *; lia). rewrite Z.odd_mul. reflexivity. }
      rewrite !land1_odd, Par. rewrite MP, MI.
      assert (Oz : Z.odd (zi - pfl) = true).
      { replace (zi - pfl) with (2 * (5 * Q - 3) + 1) by lia. rewrite Z.odd_add, Z.odd_mul. reflexivity. }
      destruct Yc as [Yc|Yc].
      + rewrite Yc, Oz. cbn [Bool.eqb negb obool_or obind].
        exists (wrap 32 (Q - 1), - k + 1). split; [reflexivity|]. rewrite wrap_id by lia. split.
        * right. unfold near_tie. cbn [fst snd]. split; [lia|]. split; [exact NB|]. rewrite Yc in Yfl.
          replace (zi - pfl) with (Q * 10 - 5) in Yfl by lia. split.
          -- exists (Q - 1). lia.
          -- lia.
        * cbn [fst]. lia.
      + assert (NM : (yfl * D =? A) = false).
        { apply Z.eqb_neq. intros T. assert (yfl = zi - pfl); [|lia].
          rewrite Yc in T |- *. clear - T Zi Pfl D0. nia. }
        rewrite NM. apply Z.eqb_neq in NM.
        assert (Oy : Z.odd yfl = false) by (rewrite Yc, Z.odd_sub, Oz; reflexivity).
        rewrite Oy. cbn [Bool.eqb negb obool_or].
        assert (OA : obool_and (Z.odd Q) (Done false) = Done false) by (destruct (Z.odd Q); reflexivity).
        rewrite OA. cbn [obind].
        exists (Q, - k + 1). split; [reflexivity|]. split.
        * right. unfold near_tie. cbn [fst snd]. split; [lia|]. split; [exact NB|]. rewrite Yc in Yfl, NM.
          replace (zi - pfl) with (Q * 10 - 5) in Yfl, NM by lia. split.
          -- exists (Q - 1). lia.
          -- lia.
        * cbn [fst]. lia.
    - exists (Q, - k + 1). split; [reflexivity|]. split; [|cbn [fst]; lia].
      left. right. cbn [fst snd]. split; [lia|]. split; [exact NB|].
      apply (rounding_right A P D (Z.even m2) 5 10) with (zi := zi) (yfl := yfl) (pfl := pfl) (down := false) (q := Q); try assumption; try lia.
      all: intros; try reflexivity; contradiction. }
  assert (BIG : inI A P D (Z.even m2) (q * 100) -> exists res, Done (q, - k + 1 + 1) = Done res /\ goal res).
  { intros I. exists (q, - k + 1 + 1). split; [reflexivity|]. split.
    - left. left. cbn [fst snd]. split; [lia|]. exact I.
    - cbn [fst]. split; [|lia]. unfold inI in I. assert (P <= A - P) by (clear - P0 Hm; unfold A; nia).
      assert (J : 0 < q * (100 * D)) by lia. clear - J D0. nia. }
  destruct (Z.ltb_spec r delta) as [L|L].
  - assert (UPP : obool_and (negb (negb (r =? 0) || Z.even m2)) (Done (zi * D =? A + P)) =
      Done ((r =? 0) && negb (Z.even m2) && (zi * D =? A + P))%bool).
    { destruct (r =? 0), (Z.even m2); reflexivity. }
    rewrite UPP. cbn [obind].
    destruct ((r =? 0) && negb (Z.even m2) && (zi * D =? A + P))%bool eqn:U; cbn [negb].
    + rewrite !andb_true_iff, negb_true_iff, !Z.eqb_eq in U. destruct U as [[U1 U2] U3].
      assert (q1 : 1 <= q) by lia.
      rewrite (wrap_id 32 (q - 1)) by lia.
      apply SM; try lia.
      rewrite U2. apply (refuse_lower A P D false 5 10 100) with (zi := zi) (q := q) (r := r); try assumption; try lia.
    + apply BIG.
      apply (take_lower A P D (Z.even m2) 5 10 100) with (zi := zi) (delta := delta) (r := r); try assumption; try lia.
      destruct (Z.eqb_spec r 0); [|left; assumption]. destruct (Z.even m2); [right; left; reflexivity|].
      destruct (Z.eqb_spec (zi * D) (A + P)); [discriminate|right; right; assumption].
  - destruct (Z.eqb_spec r delta) as [E|E].
    + assert (LOW : obool_and (Z.even m2) (Done (xfl * D =? A - P)) = Done (Z.even m2 && (xfl * D =? A - P))%bool)
        by (destruct (Z.even m2); reflexivity).
      rewrite LOW. cbn [obind].
      assert (INS : obool_or (Z.even m2 && (xfl * D =? A - P))%bool (Done (Z.odd xfl)) =
        Done (Z.even m2 && (xfl * D =? A - P) || Z.odd xfl)%bool) by (destruct (Z.even m2 && (xfl * D =? A - P))%bool; reflexivity).
      rewrite INS. cbn [obind].
      destruct (Z.even m2 && (xfl * D =? A - P) || Z.odd xfl)%bool eqn:U.
      * apply BIG. apply (take_equal A P D (Z.even m2) 5 10 100) with (zi := zi) (delta := delta) (r := r) (xfl := xfl); try assumption; try lia.
        rewrite orb_true_iff, andb_true_iff, Z.eqb_eq in U. tauto.
      * apply SM; try lia.
        rewrite orb_false_iff, andb_false_iff, Z.eqb_neq in U. destruct U as [U1 U2].
        apply (refuse_equal A P D (Z.even m2) 5 10 100) with (zi := zi) (delta := delta) (q := q) (r := r) (xfl := xfl); try assumption; try lia.
    + apply SM; try lia.
      apply (refuse_above A P D (Z.even m2) 5 10 100) with (zi := zi) (delta := delta) (q := q) (r := r) (xfl := xfl); try assumption; try lia.
Qed.
End Body32.
