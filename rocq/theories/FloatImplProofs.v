(** dragonbox_impl: trailing zeros, integers, and the result for double. *)
From Coq Require Import QArith Qabs Qpower Lqa.
From Verif Require Import Base Outcome IntrinModel FloatTables FloatModel FloatSpec FloatRoundProofs FloatCertProofs
  FloatDragonProofs FloatCodeProofs FloatMainProofs FloatBestProofs.
From Verif Require Leb128Proofs.

Local Open Scope Z_scope.

(** ** Trailing zeros *)
Definition stripped (c e10 d0 e0 : Z) : Prop := e10 <= e0 /\ c = d0 * 10 ^ (e0 - e10) /\ 0 < d0.
Lemma stripped_refl c e : 0 < c -> stripped c e c e.
Proof. intros H. repeat split; [lia| |assumption]. rewrite Z.sub_diag. change (10 ^ 0) with 1. lia. Qed.
Lemma stripped_step c e d e' n : 0 <= n -> c mod 10 ^ n = 0 -> 0 < c -> stripped (c / 10 ^ n) (e + n) d e' -> stripped c e d e'.
Proof.
  intros Hn Hm Hc (A & B & C). assert (0 < 10 ^ n) by (apply Z.pow_pos_nonneg; lia).
  repeat split; [lia| |assumption].
  rewrite (Z.div_mod c (10 ^ n)) by lia. rewrite Hm, B.
  replace (e' - e) with (e' - (e + n) + n) by lia. rewrite Z.pow_add_r by lia. ring.
Qed.
Lemma div_pos_mod c n : 0 < n -> 0 < c -> c mod n = 0 -> 0 < c / n <= c.
Proof. intros. pose proof (Z.div_mod c n ltac:(lia)). split; nia. Qed.

Lemma strip100_ok : forall fuel c e, 0 < c < 100 ^ Z.of_nat fuel ->
  exists d e', strip100 fuel c e = Done (d, e') /\ stripped c e d e' /\ d mod 100 <> 0 /\ d <= c.
Proof.
  induction fuel as [|fuel IH]; intros c e H; [change (100 ^ Z.of_nat 0) with 1 in H; lia|].
  cbn [strip100]. destruct (Z.eqb_spec (c mod 100) 0) as [E|E].
  - pose proof (div_pos_mod c 100 ltac:(lia) ltac:(lia) E).
    destruct (IH (c / 100) (e + 2)) as (d & e' & H1 & H2 & H3 & H4).
    { split; [lia|]. apply Z.div_lt_upper_bound; [lia|]. rewrite Nat2Z.inj_succ, Z.pow_succ_r in H by lia. lia. }
    exists d, e'. split; [exact H1|]. split; [|split; [assumption|lia]].
    apply (stripped_step c e d e' 2); try assumption; lia.
  - exists c, e. split; [reflexivity|]. split; [apply stripped_refl; lia|]. split; [assumption|lia].
Qed.

Lemma impl_strip f m2 e2 c e10 : mantw f = 32 \/ mantw f = 64 -> dragonbox_main f m2 e2 = Done (c, e10) ->
  0 < c < 2 ^ 64 -> exists d0 e0, dragonbox_impl 64 f m2 e2 = Done (d0, e0) /\ stripped c e10 d0 e0 /\ d0 mod 10 <> 0.
Proof.
  intros Hf E H. unfold dragonbox_impl. rewrite E. cbn [obind]. cbv beta iota zeta.
  change (64 <=? 64) with true. cbn [orb].
  assert (T : forall c' e', 0 < c' <= c -> exists d0 e0,
     (let! d := strip100 40 c' e' in let '(m10, e10) := d in
      if m10 mod 10 =? 0 then Done (m10 / 10, e10 + 1) else Done (m10, e10)) = Done (d0, e0) /\
     stripped c' e' d0 e0 /\ d0 mod 10 <> 0).
  { intros c' e' Hc. destruct (strip100_ok 40 c' e') as (d & e'' & H1 & H2 & H3 & H4).
    { split; [lia|]. assert (2 ^ 64 < 100 ^ Z.of_nat 40) by reflexivity. lia. }
    rewrite H1. cbn [obind]. destruct H2 as (A & B & C).
    destruct (Z.eqb_spec (d mod 10) 0) as [Z0|Z0].
    - pose proof (div_pos_mod d 10 ltac:(lia) ltac:(lia) Z0).
      exists (d / 10), (e'' + 1). split; [reflexivity|]. split.
      + repeat split; [lia| |lia]. rewrite B. replace (e'' + 1 - e') with (Z.succ (e'' - e')) by lia. rewrite Z.pow_succ_r by lia.
        rewrite (Z.div_mod d 10) at 1 by lia. rewrite Z0. ring.
      + intros Z1. apply H3. rewrite (Z.div_mod d 10), Z0, (Z.div_mod (d / 10) 10), Z1 by lia.
        replace (10 * (10 * (d / 10 / 10) + 0) + 0) with (d / 10 / 10 * 100) by ring. apply Z.mod_mul. lia.
    - exists d, e''. split; [reflexivity|]. split; [|assumption]. repeat split; assumption. }
  destruct Hf as [-> | ->].
  - change (64 <=? 32) with false. cbv beta iota. apply T. lia.
  - change (64 <=? 64) with true. cbv beta iota. unfold strip8.
    destruct (Z.eqb_spec (c mod 100000000) 0) as [Z0|Z0]; [|apply T; lia].
    pose proof (div_pos_mod c 100000000 ltac:(lia) ltac:(lia) Z0).
    destruct (T (c / 100000000) (e10 + 8)) as (d0 & e0 & H1 & H2 & H3); [lia|].
    exists d0, e0. split; [exact H1|]. split; [|assumption].
    apply (stripped_step c e10 d0 e0 8); try assumption; lia.
Qed.

(** ** Integers are printed exactly *)
Section Integer.
Variables (p emin m e v d0 e0 : Z).
Hypothesis Hp : 1 < p.
Hypothesis Can : canonical p emin m e.
Hypothesis Nor : e = emin \/ 2 ^ (p - 1) < m.
Hypothesis M : 0 < m.
Hypothesis He : e <= 0.
Hypothesis V : m = v * 2 ^ (- e).
Hypothesis St : stripped v 0 d0 e0.
Hypothesis NZ : d0 mod 10 <> 0.

Lemma exact : (dec d0 e0 == bin m e)%Q.
Proof.
  destruct St as (A & B & C). rewrite Z.sub_0_r in B.
  rewrite (dec_shift d0 0 e0), Z.sub_0_r, <- B by lia.
  assert (E : (bin m e == bin v 0)%Q). { rewrite (bin_shift v e 0) by lia. rewrite V. replace (0 - e) with (- e) by lia. reflexivity. }
  rewrite E. reflexivity.
Qed.

Lemma integer_best : best_decimal p emin d0 e0 m e.
Proof.
  destruct St as (A & B & C). rewrite Z.sub_0_r in B.
  assert (Z0 : (Qabs (dec d0 e0 - bin m e) == 0)%Q).
  { rewrite exact. assert (T : (bin m e - bin m e == 0)%Q) by ring. rewrite T. reflexivity. }
  assert (hp := half_pos e).
  assert (Near : forall d f, 0 < d -> in_interval m e (dec d f) -> 0 <= f -> d * 10 ^ f = v).
  { intros d f Hd I Hf.
    assert (h1 : (bin 1 (e - 1) <= 1 # 2)%Q).
    { assert (T : (bin 1 (-1) == 1 # 2)%Q) by reflexivity. rewrite <- T.
      rewrite (bin_shift 1 (e - 1) (-1)) by lia. apply bin_le.
      assert (0 < 2 ^ (-1 - (e - 1))) by (apply Z.pow_pos_nonneg; lia). lia. }
    assert (X : (dec d f == inject_Z (d * 10 ^ f))%Q).
    { unfold dec. rewrite pow10_Z, inject_Z_mult by lia. reflexivity. }
    assert (Y : (bin m e == inject_Z v)%Q).
    { rewrite <- exact. unfold dec. rewrite pow10_Z, <- inject_Z_mult, <- B by lia. reflexivity. }
    unfold in_interval in I. rewrite X, Y in I.
    assert (L : (inject_Z (d * 10 ^ f) < inject_Z (v + 1))%Q /\ (inject_Z (v - 1) < inject_Z (d * 10 ^ f))%Q).
    { unfold Z.sub. rewrite !inject_Z_plus. change (inject_Z 1) with 1%Q. change (inject_Z (-(1))) with (- (1))%Q.
      destruct (abs_spec (inject_Z (d * 10 ^ f) - inject_Z v)) as [[? ?]|[? ?]]; destruct I as [I|[I _]]; split; lra. }
    rewrite <- !Zlt_Qlt in L. lia. }
  apply best; try assumption.
  - unfold in_interval. left. rewrite Z0. assumption.
  - intros d f Hd I. destruct (Z_le_gt_dec f e0) as [|G]; [assumption|exfalso].
    pose proof (Near d f Hd I ltac:(lia)) as E. rewrite B in E.
    replace f with (Z.succ (f - 1 - e0) + e0) in E by lia. rewrite Z.pow_add_r, Z.mul_assoc in E by lia.
    apply Z.mul_reg_r in E; [|assert (0 < 10 ^ e0) by (apply Z.pow_pos_nonneg; lia); lia].
    apply NZ. rewrite <- E, Z.pow_succ_r by lia.
    replace (d * (10 * 10 ^ (f - 1 - e0))) with (d * 10 ^ (f - 1 - e0) * 10) by ring. apply Z.mod_mul. lia.
  - intros d Hd I. rewrite Z0. apply Qabs_nonneg.
  - intros _ d f Hd Hf I. rewrite Z0. apply Qabs_nonneg.
Qed.
End Integer.

(** ** Double *)
Definition inIb (A P D : Z) (even : bool) (X : Z) : bool :=
  ((A - P <? X * D) && (X * D <? A + P)) || (((A - P =? X * D) || (X * D =? A + P)) && even).
Lemma inIb_ok A P D even X : inI A P D even X -> inIb A P D even X = true.
Proof.
  unfold inI, inIb. intros [[H1 H2]|[H ->]].
  - apply Z.ltb_lt in H1, H2. rewrite H1, H2. reflexivity.
  - rewrite andb_true_r. apply orb_true_iff. right. destruct H as [H|H]; apply Z.eqb_eq in H; rewrite H; [reflexivity|apply orb_true_r].
Qed.
(** the least subnormals, one by one *)
Definition check_one (f : fmt) (kappa emin m : Z) : bool :=
  let k := kof kappa emin in let P := fnum emin k in let D := fden emin k in let A := 2 * m * P in
  match dragonbox_impl 64 f m 0 with
  | Done (d0, e0) => forallb (fun d => implb (inIb A P D (Z.even m) (d * 10 ^ (e0 - 1 + k)))
      (Z.abs (d0 * 10 ^ (e0 + k) * D - A) <=? Z.abs (d * 10 ^ (e0 - 1 + k) * D - A))) [1; 2; 3; 4; 5; 6; 7; 8; 9]
  | _ => false
  end.
Lemma check_one_64 : forallb (check_one binary64 2 (-1074)) [1; 2; 3; 4; 5; 6; 7; 8; 9] = true.
Proof. vm_compute. reflexivity. Qed.

Lemma check_one_ok f kappa emin m d0 e0 : forallb (check_one f kappa emin) [1; 2; 3; 4; 5; 6; 7; 8; 9] = true -> 1 <= m <= 9 ->
  dragonbox_impl 64 f m 0 = Done (d0, e0) ->
  let k := kof kappa emin in let P := fnum emin k in let D := fden emin k in let A := 2 * m * P in
  forall d, 0 < d < 10 -> inI A P D (Z.even m) (d * 10 ^ (e0 - 1 + k)) ->
  Z.abs (d0 * 10 ^ (e0 + k) * D - A) <= Z.abs (d * 10 ^ (e0 - 1 + k) * D - A).
Proof.
  intros C Hm E k P D A d Hd I. rewrite forallb_forall in C.
  assert (X : check_one f kappa emin m = true) by (apply C; cbn [In]; lia). clear C.
  unfold check_one in X. rewrite E in X. cbv zeta in X. fold k in X. fold P in X. fold D in X. fold A in X.
  rewrite forallb_forall in X. specialize (X d ltac:(cbn [In]; lia)).
  rewrite (inIb_ok _ _ _ _ _ I) in X. cbn [implb] in X. apply Z.leb_le. assumption.
Qed.

Lemma lor_hidden m n : 0 <= n -> 0 <= m < 2 ^ n -> Z.lor m (2 ^ n) = m + 2 ^ n.
Proof. intros H0 H. pose proof (Leb128Proofs.lor_add m 1 n H0 H) as E. rewrite Z.mul_1_l in E. exact E. Qed.

(** What the two branches of dragonbox_main leave, for a format. *)
Lemma main_with_cases mb eb w body asym mf ef : 0 < mb < w -> w <= 64 -> 0 <= mf < 2 ^ mb -> 2 <= eb <= 11 ->
  0 <= ef < 2 ^ eb - 1 -> (0 < mf \/ 0 < ef) ->
  let bias := 2 ^ (eb - 1) - 1 in
  let m := significand mb mf ef in
  let e := exponent mb bias ef in
  (exists v, dragonbox_main_with mb eb w body asym mf ef = Done (v, 0) /\ e <= 0 /\ m = v * 2 ^ (- e) /\ 0 < v <= m) \/
  (dragonbox_main_with mb eb w body asym mf ef = body m e /\ (ef = 0 \/ e <> 0)).
Proof.
  intros Hmb Hw Hmf Heb Hef Hz bias m e. unfold dragonbox_main_with.
  assert (B : Z.shiftr (2 ^ eb) 1 - 1 = bias).
  { unfold bias. rewrite Z.shiftr_div_pow2 by lia. change (2 ^ 1) with 2. replace eb with (Z.succ (eb - 1)) at 1 by lia.
    rewrite Z.pow_succ_r, Z.mul_comm, Z.div_mul by lia. reflexivity. }
  rewrite B. clear B. unfold significand in m. unfold exponent in e.
  assert (pe : 2 ^ eb <= 2 ^ 11) by (apply Z.pow_le_mono_r; lia). change (2 ^ 11) with 2048 in pe.
  assert (pb : 1 <= bias). { unfold bias. assert (2 ^ 1 <= 2 ^ (eb - 1)) by (apply Z.pow_le_mono_r; lia). change (2 ^ 1) with 2 in *. lia. }
  assert (pb' : 2 ^ eb = 2 * (bias + 1)). { unfold bias. replace eb with (Z.succ (eb - 1)) at 1 by lia. rewrite Z.pow_succ_r by lia. lia. }
  destruct (Z.eqb_spec ef 0) as [E0|E0].
  { right. split; [|left; assumption]. assert (Ee : e = 1 - (bias + mb)) by (unfold e; lia). rewrite Ee. reflexivity. }
  assert (Ee : e = ef - (bias + mb)) by (unfold e; lia).
  cbv zeta. rewrite <- Ee. rewrite lor_hidden by lia. fold m.
  assert (mpos : 0 < 2 ^ mb) by (apply Z.pow_pos_nonneg; lia).
  assert (pw : 2 * 2 ^ mb <= 2 ^ w).
  { replace (2 * 2 ^ mb) with (2 ^ Z.succ mb) by (rewrite Z.pow_succ_r by lia; reflexivity). apply Z.pow_le_mono_r; lia. }
  assert (m0 : (m =? 0) = false) by (apply Z.eqb_neq; unfold m; lia).
  destruct (Z_lt_le_dec 0 e) as [G|G].
  { right. split; [|right; lia].
    assert (W : mb <= wrap 32 (- e)).
    { unfold wrap. rewrite <- (Z.mod_add (- e) 1 (2 ^ 32)) by lia. rewrite Z.mod_small by lia. lia. }
    destruct (Z.ltb_spec (wrap 32 (- e)) mb); [lia|]. cbn [obool_and obind]. rewrite m0. reflexivity. }
  rewrite wrap_id by lia.
  destruct (Z.ltb_spec (- e) mb) as [L|L]; cbn [obool_and].
  2: { right. split; [|right; lia]. cbn [obind]. rewrite m0. reflexivity. }
  unfold multiple_of_pow2_unchecked, ushl.
  destruct (Z.leb_spec 0 (- e)); [|lia]. destruct (Z.ltb_spec (- e) w); [|lia]. cbn [andb obind].
  rewrite Z.shiftl_1_l.
  assert (p2 : 0 < 2 ^ (- e)) by (apply Z.pow_pos_nonneg; lia).
  assert (p2' : 2 ^ (- e) < 2 ^ w) by (apply Z.pow_lt_mono_r; lia).
  rewrite (wrap_id w (2 ^ (- e))), (wrap_id w (2 ^ (- e) - 1)) by lia.
  replace (2 ^ (- e) - 1) with (Z.ones (- e)) by (rewrite Z.ones_equiv; lia).
  rewrite Z.land_ones by lia.
  destruct (Z.eqb_spec (m mod 2 ^ (- e)) 0) as [Z0|Z0].
  - left. unfold ushr. destruct (Z.leb_spec 0 (- e)); [|lia]. destruct (Z.ltb_spec (- e) w); [|lia]. cbn [andb obind].
    exists (m / 2 ^ (- e)). rewrite Z.shiftr_div_pow2 by lia. split; [reflexivity|]. split; [assumption|].
    pose proof (Z.div_mod m (2 ^ (- e)) ltac:(lia)). split; [lia|]. apply div_pos_mod; [lia|unfold m; lia|assumption].
  - right. rewrite m0. split; [reflexivity|].
    right. intros E. apply Z0. rewrite E. apply Z.mod_1_r.
Qed.

Lemma double_best mf ef : 0 <= mf < 2 ^ 52 -> 0 <= ef < 2047 -> (0 < mf \/ ef = 1) ->
  exists d0 e0, dragonbox_impl 64 binary64 mf ef = Done (d0, e0) /\
    best_decimal 53 (-1074) d0 e0 (significand 52 mf ef) (exponent 52 1023 ef) /\ d0 mod 10 <> 0.
Proof.
  intros Hm He Hz.
  pose proof (main_with_cases 52 11 64 dragonbox_main64_body (fun _ => schubfach_asymmetric64) mf ef
    ltac:(lia) ltac:(lia) Hm ltac:(lia) ltac:(change (2 ^ 11) with 2048; lia) ltac:(lia)) as C.
  change (2 ^ (11 - 1) - 1) with 1023 in C. cbv zeta in C.
  set (m := significand 52 mf ef) in *. set (e := exponent 52 1023 ef) in *.
  assert (Mr : 0 < m < 2 ^ 53). { unfold m, significand. destruct (Z.eqb_spec ef 0); lia. }
  assert (Er : -1074 <= e <= 971) by (unfold e, exponent; lia).
  assert (Nor : e = -1074 \/ 2 ^ (53 - 1) < m).
  { unfold m, significand, e, exponent. change (53 - 1) with 52. destruct (Z.eqb_spec ef 0); lia. }
  assert (Can : canonical 53 (-1074) m e). { split; [split; lia|]. destruct Nor; [left|right]; lia. }
  change (dragonbox_main_with 52 11 64 dragonbox_main64_body (fun _ => schubfach_asymmetric64) mf ef) with (dragonbox_main binary64 mf ef) in C.
  destruct C as [(v & E & V1 & V2 & V3)|[E NE]].
  - destruct (impl_strip binary64 mf ef v 0) as (d0 & e0 & I1 & I2 & I3); [right; reflexivity|assumption|lia|].
    exists d0, e0. split; [exact I1|]. split; [|assumption].
    apply (integer_best 53 (-1074) m e v d0 e0); try assumption; lia.
  - assert (e0' : e <> 0) by (destruct NE as [-> | NE]; [unfold e, exponent; lia|assumption]).
    destruct (get_facts64 e Er) as (hi & lo & F). cbv zeta in F.
    destruct (body64_right m e ltac:(lia) Er hi lo F e0') as ([c e10] & B1 & B2 & B3). cbn [fst] in B3.
    rewrite B1 in E.
    destruct (impl_strip binary64 mf ef c e10) as (d0 & e0 & I1 & (I2 & I3 & I4) & I5); [right; reflexivity|assumption|lia|].
    exists d0, e0. split; [exact I1|]. split; [|assumption].
    destruct F as [_ _ _ _ _ _ _ _ _ W1 W2 _ _ _]. specialize (W1 e0').
    apply (finish 53 (-1074) m e (kof 2 e) 2 100) with (c := c) (e10 := e10); try assumption; try lia.
    intros M9 D9. assert (E0 : ef = 0) by (unfold m, significand in M9; destruct (Z.eqb_spec ef 0); [assumption|lia]).
    assert (Em : e = -1074) by (unfold e, exponent; lia).
    assert (Emf : m = mf) by (unfold m, significand; rewrite E0; reflexivity).
    rewrite Em, Emf. rewrite E0 in I1.
    apply (check_one_ok binary64 2 (-1074) mf d0 e0 check_one_64); [lia|assumption].
Qed.

(** ** The 32-bit build *)
Lemma strip_big_ok : forall fuel c e, 0 < c < 100 ^ Z.of_nat fuel ->
  exists ret d e', strip_big fuel c e = Done (ret, (d, e')) /\ stripped c e d e' /\
    (if ret then d mod 100 <> 0 /\ (d mod 10 <> 0 \/ False) else d < 1000000000).
Proof.
  induction fuel as [|fuel IH]; intros c e H; [change (100 ^ Z.of_nat 0) with 1 in H; lia|].
  cbn [strip_big]. destruct (Z.leb_spec 1000000000 c) as [L|L].
  2: { exists false, c, e. split; [reflexivity|]. split; [apply stripped_refl; lia|assumption]. }
  destruct (Z.eqb_spec (c mod 100) 0) as [E|E].
  - pose proof (div_pos_mod c 100 ltac:(lia) ltac:(lia) E).
    destruct (IH (c / 100) (e + 2)) as (ret & d & e' & H1 & H2 & H3).
    { split; [lia|]. apply Z.div_lt_upper_bound; [lia|]. rewrite Nat2Z.inj_succ, Z.pow_succ_r in H by lia. lia. }
    exists ret, d, e'. split; [exact H1|]. split; [|assumption].
    apply (stripped_step c e d e' 2); try assumption; lia.
  - destruct (Z.eqb_spec (c mod 10) 0) as [E1|E1].
    + pose proof (div_pos_mod c 10 ltac:(lia) ltac:(lia) E1).
      assert (N : (c / 10) mod 10 <> 0).
      { intros Z1. apply E. rewrite (Z.div_mod c 10), E1, (Z.div_mod (c / 10) 10), Z1 by lia.
        replace (10 * (10 * (c / 10 / 10) + 0) + 0) with (c / 10 / 10 * 100) by ring. apply Z.mod_mul. lia. }
      exists true, (c / 10), (e + 1). split; [reflexivity|]. split.
      * apply (stripped_step c e (c / 10) (e + 1) 1); try assumption; try lia.
        change (10 ^ 1) with 10. apply stripped_refl. lia.
      * split; [|left; assumption]. intros Z1. apply N.
        apply Z.mod_divide in Z1; [|lia]. apply Z.mod_divide; [lia|]. destruct Z1 as [w ->]. exists (w * 10). ring.
    + exists true, c, e. split; [reflexivity|]. split; [apply stripped_refl; lia|]. split; [assumption|left; assumption].
Qed.

Lemma impl32_strip f m2 e2 c e10 : mantw f = 64 -> dragonbox_main f m2 e2 = Done (c, e10) ->
  0 < c < 2 ^ 64 -> exists d0 e0, dragonbox_impl 32 f m2 e2 = Done (d0, e0) /\ stripped c e10 d0 e0 /\ d0 mod 100 <> 0.
Proof.
  intros Hf E H. unfold dragonbox_impl. rewrite E. cbn [obind]. cbv beta iota zeta. rewrite Hf.
  change (64 <=? 32) with false. change (64 <? 64) with false. cbn [orb].
  assert (T : forall c' e', 0 < c' <= c -> exists d0 e0,
     (let! b := strip_big 40 c' e' in let '(ret, (m10, e10)) := b in
      if ret then Done (m10, e10) else strip100 40 (wrap 32 m10) e10) = Done (d0, e0) /\
     stripped c' e' d0 e0 /\ d0 mod 100 <> 0).
  { intros c' e' Hc. destruct (strip_big_ok 40 c' e') as (ret & d & e'' & H1 & H2 & H3).
    { split; [lia|]. assert (2 ^ 64 < 100 ^ Z.of_nat 40) by reflexivity. lia. }
    rewrite H1. cbn [obind]. destruct H2 as (A & B & C). destruct ret.
    - exists d, e''. split; [reflexivity|]. split; [repeat split; assumption|apply H3].
    - rewrite wrap_id by lia. destruct (strip100_ok 40 d e'') as (d1 & e1 & K1 & (K2 & K3 & K4) & K5 & _).
      { split; [lia|]. assert (1000000000 < 100 ^ Z.of_nat 40) by reflexivity. lia. }
      exists d1, e1. split; [assumption|]. split; [|assumption]. repeat split; [lia| |assumption].
      rewrite B, K3, <- Z.mul_assoc, <- Z.pow_add_r by lia. do 2 f_equal. lia. }
  unfold strip8.
  destruct (Z.eqb_spec (c mod 100000000) 0) as [Z0|Z0]; [|apply T; lia].
  pose proof (div_pos_mod c 100000000 ltac:(lia) ltac:(lia) Z0).
  destruct (T (c / 100000000) (e10 + 8)) as (d0 & e0 & H1 & H2 & H3); [lia|].
  exists d0, e0. split; [exact H1|]. split; [|assumption].
  apply (stripped_step c e10 d0 e0 8); try assumption; lia.
Qed.

Lemma strip_same c e10 d0 e0 d1 e1 : stripped c e10 d0 e0 -> stripped c e10 d1 e1 -> d0 mod 10 <> 0 -> d1 mod 100 <> 0 ->
  (d1 = d0 /\ e1 = e0) \/ (d1 = 10 * d0 /\ e1 = e0 - 1).
Proof.
  intros (A0 & B0 & C0) (A1 & B1 & C1) N0 N1. rewrite B0 in B1.
  assert (X : forall a b x y, 0 < a -> 0 < b -> 0 <= x <= y -> a * 10 ^ x = b * 10 ^ y -> a = b * 10 ^ (y - x)).
  { intros a b x y Ha Hb Hx Hy. replace y with (y - x + x) in Hy by lia. rewrite Z.pow_add_r, Z.mul_assoc in Hy by lia.
    apply Z.mul_reg_r in Hy; [assumption|]. assert (0 < 10 ^ x) by (apply Z.pow_pos_nonneg; lia). lia. }
  destruct (Z_le_gt_dec e0 e1) as [L|L].
  - pose proof (X d0 d1 (e0 - e10) (e1 - e10) C0 C1 ltac:(lia) B1) as Y.
    replace (e1 - e10 - (e0 - e10)) with (e1 - e0) in Y by lia.
    destruct (Z.eq_dec e1 e0) as [->|NE]. { rewrite Z.sub_diag in Y. change (10 ^ 0) with 1 in Y. left. lia. }
    exfalso. apply N0. rewrite Y. replace (e1 - e0) with (Z.succ (e1 - e0 - 1)) by lia. rewrite Z.pow_succ_r by lia.
    replace (d1 * (10 * 10 ^ (e1 - e0 - 1))) with (d1 * 10 ^ (e1 - e0 - 1) * 10) by ring. apply Z.mod_mul. lia.
  - pose proof (X d1 d0 (e1 - e10) (e0 - e10) C1 C0 ltac:(lia) ltac:(symmetry; assumption)) as Y.
    replace (e0 - e10 - (e1 - e10)) with (e0 - e1) in Y by lia.
    destruct (Z.eq_dec e1 (e0 - 1)) as [->|NE].
    { right. split; [|reflexivity]. rewrite Y. replace (e0 - (e0 - 1)) with 1 by lia. change (10 ^ 1) with 10. lia. }
    exfalso. apply N1. rewrite Y. replace (e0 - e1) with ((e0 - e1 - 2) + 2) by lia. rewrite Z.pow_add_r by lia.
    change (10 ^ 2) with 100. rewrite Z.mul_assoc. apply Z.mod_mul. lia.
Qed.

(** the value printed by the 32-bit build: the same number, perhaps with one zero at the end *)
Lemma impl32_same f m2 e2 c e10 d0 e0 : mantw f = 64 -> dragonbox_main f m2 e2 = Done (c, e10) -> 0 < c < 2 ^ 64 ->
  dragonbox_impl 64 f m2 e2 = Done (d0, e0) ->
  dragonbox_impl 32 f m2 e2 = Done (d0, e0) \/ dragonbox_impl 32 f m2 e2 = Done (10 * d0, e0 - 1).
Proof.
  intros Hf E H I. destruct (impl_strip f m2 e2 c e10 ltac:(right; assumption) E H) as (d & e & I1 & I2 & I3).
  rewrite I in I1. injection I1 as <- <-.
  destruct (impl32_strip f m2 e2 c e10 Hf E H) as (d1 & e1 & J1 & J2 & J3).
  rewrite J1. destruct (strip_same c e10 d0 e0 d1 e1 I2 J2 I3 J3) as [[-> ->]|[-> ->]]; [left|right]; reflexivity.
Qed.

Lemma double_main mf ef : 0 <= mf < 2 ^ 52 -> 0 <= ef < 2047 -> (0 < mf \/ 0 < ef) ->
  exists c e10, dragonbox_main binary64 mf ef = Done (c, e10) /\ 0 < c < 2 ^ 64.
Proof.
  intros Hm He Hz.
  pose proof (main_with_cases 52 11 64 dragonbox_main64_body (fun _ => schubfach_asymmetric64) mf ef
    ltac:(lia) ltac:(lia) Hm ltac:(lia) ltac:(change (2 ^ 11) with 2048; lia) Hz) as C.
  change (2 ^ (11 - 1) - 1) with 1023 in C. cbv zeta in C.
  set (m := significand 52 mf ef) in *. set (e := exponent 52 1023 ef) in *.
  assert (Mr : 0 < m < 2 ^ 53). { unfold m, significand. destruct (Z.eqb_spec ef 0); lia. }
  assert (Er : -1074 <= e <= 971) by (unfold e, exponent; lia).
  change (dragonbox_main_with 52 11 64 dragonbox_main64_body (fun _ => schubfach_asymmetric64) mf ef) with (dragonbox_main binary64 mf ef) in C.
  destruct C as [(v & E & V1 & V2 & V3)|[E NE]].
  - exists v, 0. split; [assumption|lia].
  - assert (e0' : e <> 0) by (destruct NE as [-> | NE]; [unfold e, exponent; lia|assumption]).
    destruct (get_facts64 e Er) as (hi & lo & F). cbv zeta in F.
    destruct (body64_right m e ltac:(lia) Er hi lo F e0') as ([c e10] & B1 & B2 & B3). cbn [fst] in B3.
    exists c, e10. split; [congruence|lia].
Qed.
