(** Proofs about LEB128. *)
From Verif Require Import Base NumSpec IntPrintModel IntPrintProofs IntScanModel IntScanProofs Leb128Model Leb128Spec.

(** ** Bit facts *)

Lemma land127 x : Z.land x 127 = x mod 128.
Proof. change 127 with (Z.ones 7). rewrite Z.land_ones by lia. reflexivity. Qed.
Lemma shiftr7 x : Z.shiftr x 7 = x / 128.
Proof. rewrite Z.shiftr_div_pow2 by lia. reflexivity. Qed.

Lemma land_bit x k : 0 <= k -> Z.land x (2 ^ k) = if Z.testbit x k then 2 ^ k else 0.
Proof.
  intros Hk. apply Z.bits_inj'. intros n Hn. rewrite Z.land_spec. destruct (Z.testbit x k) eqn:E.
  - rewrite Z.pow2_bits_eqb by lia. destruct (Z.eqb_spec k n); [subst; rewrite E; reflexivity|apply andb_false_r].
  - rewrite Z.bits_0. rewrite Z.pow2_bits_eqb by lia. destruct (Z.eqb_spec k n); [subst; rewrite E; reflexivity|apply andb_false_r].
Qed.

Lemma land_bit_zero x k : 0 <= k -> (Z.land x (2 ^ k) =? 0) = negb (Z.testbit x k).
Proof.
  intros Hk. rewrite land_bit by lia. destruct (Z.testbit x k); [|reflexivity].
  apply Z.eqb_neq. assert (0 < 2 ^ k) by (apply Z.pow_pos_nonneg; lia). lia.
Qed.

Lemma testbit_range x k : 0 <= k -> 0 <= x < 2 ^ (k + 1) -> Z.testbit x k = (2 ^ k <=? x).
Proof.
  intros Hk Hx. rewrite Z.testbit_eqb by lia.
  assert (E : 2 ^ (k + 1) = 2 * 2 ^ k) by (rewrite Z.pow_add_r by lia; lia).
  assert (0 < 2 ^ k) by (apply Z.pow_pos_nonneg; lia).
  destruct (Z.leb_spec (2 ^ k) x).
  - assert (x / 2 ^ k = 1) as -> by (symmetry; apply Z.div_unique with (x - 2 ^ k); lia). reflexivity.
  - rewrite Z.div_small by lia. reflexivity.
Qed.

Lemma lor_add a b n : 0 <= n -> 0 <= a < 2 ^ n -> Z.lor a (b * 2 ^ n) = a + b * 2 ^ n.
Proof.
  intros Hn Ha. symmetry. rewrite <- Z.lxor_lor, <- Z.add_nocarry_lxor; auto.
  all: apply Z.bits_inj'; intros k Hk; rewrite Z.land_spec, Z.bits_0;
    rewrite <- Z.shiftl_mul_pow2 by lia; rewrite Z.shiftl_spec by lia; destruct (Z.ltb_spec k n).
  all: try (rewrite (Z.testbit_neg_r b) by lia; apply andb_false_r).
  all: replace (Z.testbit a k) with false; [reflexivity|]; symmetry.
  all: destruct (Z.eq_dec a 0) as [->|]; [apply Z.bits_0|]; apply Z.bits_above_log2; [lia|]; apply Z.log2_lt_pow2; [lia|];
    eapply Z.lt_le_trans; [apply Ha|]; apply Z.pow_le_mono_r; lia.
Qed.

Lemma bit7 b : 0 <= b < 256 -> (Z.land b 128 =? 0) = (b <? 128).
Proof.
  intros Hb. change 128 with (2 ^ 7). rewrite land_bit_zero by lia. rewrite testbit_range by (simpl; lia).
  destruct (Z.leb_spec (2 ^ 7) b), (Z.ltb_spec b (2 ^ 7)); try reflexivity; lia.
Qed.
Lemma bit6 b : 0 <= b < 128 -> (Z.land b 64 =? 0) = (b <? 64).
Proof.
  intros Hb. change 64 with (2 ^ 6). rewrite land_bit_zero by lia. rewrite testbit_range by (simpl; lia).
  destruct (Z.leb_spec (2 ^ 6) b), (Z.ltb_spec b (2 ^ 6)); try reflexivity; lia.
Qed.

(** ** Encoding *)

Definition stops (sgn : bool) (v : Z) : bool := if sgn then (-64 <=? v) && (v <? 64) else (v <? 128).

Lemma leb_put_step sgn f v : (sgn = false -> 0 <= v) ->
  leb_put sgn (S f) v = if stops sgn v then Some [v mod 128]
                        else option_map (cons (v mod 128 + 128)) (leb_put sgn f (v / 128)).
Proof.
  intros Hv. cbn [leb_put]. rewrite land127, shiftr7.
  pose proof (Z.mod_pos_bound v 128 ltac:(lia)) as Hm.
  assert (E128 : Z.lor (v mod 128) 128 = v mod 128 + 128).
  { pose proof (lor_add (v mod 128) 1 7 ltac:(lia) ltac:(exact Hm)) as E. rewrite Z.mul_1_l in E. exact E. }
  rewrite E128.
  assert (Estop : (if sgn then ((v / 128 =? 0) || (v / 128 =? -1)) && negb (Bool.eqb (v / 128 =? 0) (negb (Z.land (v mod 128) 64 =? 0))) else v / 128 =? 0)
           = stops sgn v).
  { unfold stops. pose proof (Z.div_mod v 128 ltac:(lia)) as Hd.
    destruct sgn.
    - rewrite bit6 by lia.
      destruct (Z.eqb_spec (v / 128) 0), (Z.eqb_spec (v / 128) (-1)), (Z.ltb_spec (v mod 128) 64), (Z.leb_spec (-64) v), (Z.ltb_spec v 64); cbn; try reflexivity; lia.
    - specialize (Hv eq_refl). destruct (Z.eqb_spec (v / 128) 0), (Z.ltb_spec v 128); try reflexivity; lia. }
  cbv zeta. rewrite Estop. reflexivity.
Qed.

Lemma leb_put_total sgn n : forall v, (sgn = false -> 0 <= v) ->
  (if sgn then - 64 * 128 ^ Z.of_nat n <= v < 64 * 128 ^ Z.of_nat n else v < 128 * 128 ^ Z.of_nat n) ->
  forall f, (n < f)%nat -> exists bs, leb_put sgn f v = Some bs /\ leb_wf bs /\ leb_denotes sgn bs = v /\ (length bs <= S n)%nat.
Proof.
  induction n as [|n IH]; intros v Hv Hr f Hf; (destruct f as [|f]; [lia|]); rewrite leb_put_step by exact Hv.
  - change (128 ^ Z.of_nat 0) with 1 in Hr.
    assert (Es : stops sgn v = true).
    { unfold stops. destruct sgn; [apply andb_true_iff; split; [apply Z.leb_le|apply Z.ltb_lt]; lia|apply Z.ltb_lt; lia]. }
    rewrite Es. eexists. split; [reflexivity|]. pose proof (Z.mod_pos_bound v 128 ltac:(lia)) as Hm.
    split; [cbn; lia|]. split; [|cbn [length]; lia]. unfold leb_denotes, sleb. cbn [uleb last zlen length].
    rewrite Z.mod_mod by lia. change (128 ^ zlen [v mod 128]) with 128.
    unfold stops in Es. pose proof (Z.div_mod v 128 ltac:(lia)) as Hd. destruct sgn.
    + destruct (Z.leb_spec 64 (v mod 128)); lia.
    + lia.
  - destruct (stops sgn v) eqn:Es.
    + eexists. split; [reflexivity|]. pose proof (Z.mod_pos_bound v 128 ltac:(lia)) as Hm.
      split; [cbn; lia|]. split; [|cbn [length]; lia]. unfold leb_denotes, sleb. cbn [uleb last].
      rewrite Z.mod_mod by lia. change (128 ^ zlen [v mod 128]) with 128.
      unfold stops in Es. pose proof (Z.div_mod v 128 ltac:(lia)) as Hd. destruct sgn.
      * destruct (Z.leb_spec 64 (v mod 128)); lia.
      * lia.
    + rewrite Nat2Z.inj_succ, Z.pow_succ_r in Hr by lia.
      assert (0 < 128 ^ Z.of_nat n) by (apply Z.pow_pos_nonneg; lia). set (P := 128 ^ Z.of_nat n) in *.
      pose proof (Z.div_mod v 128 ltac:(lia)) as Hd. pose proof (Z.mod_pos_bound v 128 ltac:(lia)) as Hm.
      destruct (IH (v / 128)) with (f := f) as (bs & E & Hwf & Hden & Hl).
      * intros Eu. specialize (Hv Eu). apply Z.div_pos; lia.
      * fold P. destruct sgn; [split|]; [apply Z.div_le_lower_bound; lia|apply Z.div_lt_upper_bound; lia|apply Z.div_lt_upper_bound; lia].
      * lia.
      * rewrite E. cbn [option_map]. eexists. split; [reflexivity|].
        assert (Hne : bs <> []) by (intros ->; exact Hwf).
        split; [destruct bs; [contradiction|]; split; [lia|exact Hwf]|].
        split; [|cbn [length]; lia].
        assert (Eu : uleb ((v mod 128 + 128) :: bs) = v mod 128 + 128 * uleb bs).
        { cbn [uleb]. f_equal. rewrite <- (Z.mod_unique (v mod 128 + 128) 128 1 (v mod 128)); lia. }
        unfold leb_denotes, sleb in *. destruct sgn; [|rewrite Eu; lia].
        assert (El : last ((v mod 128 + 128) :: bs) 0 = last bs 0) by (destruct bs; [contradiction|reflexivity]).
        rewrite El, Eu. rewrite zlen_cons, Z.pow_add_r by (unfold zlen; lia). change (128 ^ 1) with 128.
        destruct (64 <=? last bs 0 mod 128); lia.
Qed.

(** Bounds of what [n] groups can denote. *)
Lemma uleb_bound bs : 0 <= uleb bs < 128 ^ zlen bs.
Proof.
  induction bs as [|b bs IH]; [cbn; lia|]. cbn [uleb]. rewrite zlen_cons, Z.pow_add_r by (unfold zlen; lia). change (128 ^ 1) with 128.
  pose proof (Z.mod_pos_bound b 128 ltac:(lia)). lia.
Qed.

Lemma uleb_snoc bs b : uleb (bs ++ [b]) = uleb bs + 128 ^ zlen bs * (b mod 128).
Proof.
  induction bs as [|x bs IH]; cbn [app uleb]; [change (128 ^ zlen []) with 1; lia|].
  rewrite IH, zlen_cons, Z.pow_add_r by (unfold zlen; lia). change (128 ^ 1) with 128. lia.
Qed.

Lemma leb_wf_last bs : leb_wf bs -> exists ini b, bs = ini ++ [b] /\ Forall (fun x => 128 <= x < 256) ini /\ 0 <= b < 128.
Proof.
  induction bs as [|b bs IH]; [contradiction|]. destruct bs as [|b' bs].
  - intros H. exists [], b. repeat split; auto; try apply H; constructor.
  - intros [H1 H2]. destruct (IH H2) as (ini & c & E & A & B). exists (b :: ini), c. rewrite E. repeat split; auto; apply B.
Qed.

Lemma sleb_bound bs : bs <> [] -> - 64 * 128 ^ (zlen bs - 1) <= sleb bs < 64 * 128 ^ (zlen bs - 1).
Proof.
  intros Hne. destruct (exists_last Hne) as (ini & b & ->). unfold sleb. rewrite last_last, uleb_snoc, zlen_app.
  change (zlen [b]) with 1. replace (zlen ini + 1 - 1) with (zlen ini) by lia.
  rewrite Z.pow_add_r by (unfold zlen; lia). change (128 ^ 1) with 128. pose proof (uleb_bound ini) as H.
  set (P := 128 ^ zlen ini) in *. pose proof (Z.mod_pos_bound b 128 ltac:(lia)).
  destruct (Z.leb_spec 64 (b mod 128)); nia.
Qed.

(** ** Decoding *)

Lemma leb_width_facts w : In w int_widths -> exists g, 1 <= g /\ w = 7 * g + w mod 7 /\ 0 < w mod 7 < 7 /\ g = w / 7.
Proof. intros Hw. apply width_cases in Hw as [-> |[-> |[-> |[-> | ->]]]]; eexists; (split; [|split; [|split; [|reflexivity]]]); vm_compute; repeat split; discriminate. Qed.

(** The loop depends on [tmp] only by or-ing into it, and on [used] only additively. *)
Lemma leb_loop_tmp ty cw s : forall cnt tmp used,
  leb_loop ty cw s cnt tmp used =
  let r := leb_loop ty cw s cnt 0 0 in mk_lres (l_code r) (used + l_used r) (Z.lor tmp (l_tmp r)) (l_cnt r).
Proof.
  induction s as [|c s IH]; intros cnt tmp used; cbn [leb_loop].
  - cbn. rewrite Z.lor_0_r. f_equal. lia.
  - destruct ((8 <? cw) && (256 <=? c)). { cbn. rewrite Z.lor_0_r. f_equal. lia. }
    match goal with |- context [if ?b then mk_lres pc_overflow _ _ _ else _] => destruct b end.
    { cbn. rewrite Z.lor_0_r. f_equal. }
    destruct (negb (negb (Z.land c 128 =? 0))).
    + match goal with |- context [if ?b then Z.lor _ _ else _] => destruct b end; cbn [l_code l_used l_tmp l_cnt]; rewrite ?Z.lor_0_l, ?Z.lor_assoc; f_equal.
    + rewrite IH. rewrite (IH (cnt + 7) (Z.lor 0 _)). cbv zeta. cbn [l_code l_used l_tmp l_cnt]. rewrite Z.lor_0_l, Z.lor_assoc. rewrite <- Z.add_assoc. reflexivity.
Qed.

Lemma leb_loop_app ty cw a b : forall cnt tmp used,
  leb_loop ty cw (a ++ b) cnt tmp used =
  let r := leb_loop ty cw a cnt tmp used in
  match l_code r with pc_partial => leb_loop ty cw b (l_cnt r) (l_tmp r) (l_used r) | _ => r end.
Proof.
  induction a as [|c a IH]; intros cnt tmp used; [reflexivity|]. cbn [app leb_loop].
  destruct ((8 <? cw) && (256 <=? c)); [reflexivity|].
  match goal with |- context [if ?b then mk_lres pc_overflow _ _ _ else _] => destruct b end; [reflexivity|].
  destruct (negb (negb (Z.land c 128 =? 0))); [reflexivity|]. apply IH.
Qed.

(** Chunked decoding = decoding the concatenation from the same state. *)
Lemma leb_loop_cnt_mono ty cw s : forall cnt tmp used, cnt <= l_cnt (leb_loop ty cw s cnt tmp used).
Proof.
  induction s as [|c s IH]; intros; cbn [leb_loop]; [cbn; lia|].
  destruct ((8 <? cw) && (256 <=? c)); [cbn; lia|].
  match goal with |- context [if ?b then mk_lres pc_overflow _ _ _ else _] => destruct b end; [cbn; lia|].
  destruct (negb (negb (Z.land c 128 =? 0))); [cbn; lia|]. specialize (IH (cnt + 7) (Z.lor tmp (wrap (iw ty) (Z.shiftl (Z.land c 127) cnt))) (used + 1)). lia.
Qed.

Lemma leb_partial_cnt ty cw s cnt tmp used : 0 <= cnt -> l_code (leb_loop ty cw s cnt tmp used) = pc_partial ->
  l_cnt (leb_loop ty cw s cnt tmp used) = cnt + 7 * zlen s.
Proof.
  revert cnt tmp used. induction s as [|c s IH]; intros cnt tmp used Hc; cbn [leb_loop]; [cbn; lia|].
  destruct ((8 <? cw) && (256 <=? c)); [discriminate|].
  match goal with |- context [if ?b then mk_lres pc_overflow _ _ _ else _] => destruct b end; [discriminate|].
  destruct (negb (negb (Z.land c 128 =? 0))); [discriminate|]. intros E. assert (Hc7 : 0 <= cnt + 7) by lia. rewrite (IH _ _ _ Hc7 E). rewrite zlen_cons. lia.
Qed.

Definition leb_finish (ty : int_type) (r : lres) : parse_code * Z * option Z :=
  match l_code r with
  | pc_ok => (pc_ok, l_used r, Some (leb_value ty (l_tmp r)))
  | pc_partial => (pc_end_of_file, l_used r, None)
  | c => (c, l_used r, None)
  end.

Lemma leb_ctx_run_concat ty cw : forall chunks gc t used, 0 <= gc ->
  leb_ctx_run ty cw gc t used chunks = leb_finish ty (leb_loop ty cw (concat chunks) gc (if gc =? 0 then 0 else t) used).
Proof.
  induction chunks as [|s chunks IH]; intros gc t used Hgc; [reflexivity|]. cbn [leb_ctx_run concat].
  rewrite leb_loop_app. unfold leb_ctx_feed.
  set (t' := if gc =? 0 then 0 else t).
  rewrite (leb_loop_tmp ty cw s gc t' used). cbv zeta. cbn [l_code l_cnt l_tmp l_used].
  pose proof (leb_partial_cnt ty cw s gc 0 0 Hgc) as HP.
  set (r := leb_loop ty cw s gc 0 0) in *.
  destruct (l_code r) eqn:E; try (unfold leb_finish; cbn [l_code l_used l_tmp]; rewrite ?E; reflexivity).
  specialize (HP eq_refl). rewrite IH by (pose proof (zlen_nonneg s); lia). f_equal.
  destruct (Z.eqb_spec (l_cnt r) 0) as [E0|]; [|reflexivity].
  (* count still zero: the chunk was empty *)
  assert (gc = 0) by (pose proof (zlen_nonneg s); lia). assert (s = []) as -> by (destruct s; [reflexivity|rewrite zlen_cons in HP; pose proof (zlen_nonneg s); lia]).
  unfold r, t'. cbn [leb_loop l_tmp l_cnt l_used]. subst gc. reflexivity.
Qed.

(** Reading a well-formed encoding. *)
Section DEC.
  Variable ty : int_type.
  Hypothesis Hw : In (iw ty) int_widths.
  Variable cw : Z.
  Let w := iw ty.
  Let g := w / 7.

  Definition over (cnt byte : Z) : bool :=
    if isigned ty then
      let lower := if w mod 7 =? 0 then 0 else Z.shiftl 1 (w mod 7 - 1) in
      let upper := if w mod 7 =? 0 then 127 else Z.land (Z.shiftl 255 (w mod 7 - 1)) 127 in
      (w - 7 <? cnt) && ((w <? cnt) || ((lower <=? byte) && (byte <? upper)))
    else (w - 7 <? cnt) && ((w <? cnt) || (Z.shiftl 1 (w mod 7) <=? byte)).

  (** Group [i] of value [byte] is accepted iff it stays inside the type. *)
  Lemma over_spec i byte : 0 <= i -> 0 <= byte < 128 ->
    over (7 * i) byte = if i <? g then false else if i =? g then
      negb (if isigned ty then (byte <? 2 ^ (w mod 7 - 1)) || (128 - 2 ^ (w mod 7 - 1) <=? byte) else byte <? 2 ^ (w mod 7)) else true.
  Proof.
    intros Hi Hb. destruct (leb_width_facts w Hw) as (g' & G1 & G2 & G3 & G4). fold g in G4. subst g'.
    assert (Hlim : (w - 7 <? 7 * i) = negb (i <? g)).
    { destruct (Z.ltb_spec (w - 7) (7 * i)), (Z.ltb_spec i g); cbn; try reflexivity; lia. }
    assert (Hlim2 : (w <? 7 * i) = (g <? i)).
    { destruct (Z.ltb_spec w (7 * i)), (Z.ltb_spec g i); try reflexivity; lia. }
    unfold over. rewrite Hlim, Hlim2.
    assert (Hsh : isigned ty = true -> Z.shiftl 1 (w mod 7 - 1) = 2 ^ (w mod 7 - 1) /\ Z.land (Z.shiftl 255 (w mod 7 - 1)) 127 = 128 - 2 ^ (w mod 7 - 1)).
    { intros _. unfold w in *. apply width_cases in Hw as [E|[E|[E|[E|E]]]]; rewrite E; vm_compute; auto. }
    assert (Hsh2 : Z.shiftl 1 (w mod 7) = 2 ^ (w mod 7)) by (rewrite Z.shiftl_1_l; reflexivity).
    destruct (Z.ltb_spec i g); [destruct (isigned ty); reflexivity|]. cbn [negb andb].
    destruct (Z.eqb_spec i g) as [->|].
    - rewrite Z.ltb_irrefl. cbn [orb]. destruct (isigned ty).
      + destruct (Hsh eq_refl) as [-> ->]. destruct (Z.eqb_spec (w mod 7) 0); [lia|]. cbv zeta.
        assert (1 <= 2 ^ (w mod 7 - 1) <= 64).
        { split; [apply (Z.pow_le_mono_r 2 0); lia|]. change 64 with (2 ^ 6). apply Z.pow_le_mono_r; lia. }
        destruct (Z.leb_spec (2 ^ (w mod 7 - 1)) byte), (Z.ltb_spec byte (128 - 2 ^ (w mod 7 - 1))), (Z.ltb_spec byte (2 ^ (w mod 7 - 1))), (Z.leb_spec (128 - 2 ^ (w mod 7 - 1)) byte); cbn; try reflexivity; lia.
      + rewrite Hsh2. destruct (Z.leb_spec (2 ^ (w mod 7)) byte), (Z.ltb_spec byte (2 ^ (w mod 7))); cbn; try reflexivity; lia.
    - destruct (Z.ltb_spec g i); [|lia]. destruct (isigned ty); reflexivity.
  Qed.

  Lemma loop_step c s cnt tmp used : 0 <= c < 256 ->
    leb_loop ty cw (c :: s) cnt tmp used =
      if over cnt (c mod 128) then mk_lres pc_overflow (used + 1) tmp cnt
      else let tmp := Z.lor tmp (wrap w (Z.shiftl (c mod 128) cnt)) in
        if c <? 128 then
          mk_lres pc_ok (used + 1)
            (if isigned ty && (64 <=? c mod 128) && (cnt <? w - 7) then Z.lor tmp (wrap w (Z.shiftl (2 ^ w - 1) (cnt + 7))) else tmp) cnt
        else leb_loop ty cw s (cnt + 7) tmp (used + 1).
  Proof.
    intros Hc. cbn [leb_loop]. rewrite (proj2 (Z.leb_gt 256 c)) by lia. rewrite andb_false_r.
    rewrite land127. pose proof (Z.mod_pos_bound c 128 ltac:(lia)) as Hm. rewrite bit6 by lia. rewrite bit7 by lia.
    rewrite negb_involutive. fold w.
    replace (negb (c mod 128 <? 64)) with (64 <=? c mod 128) by (destruct (Z.leb_spec 64 (c mod 128)), (Z.ltb_spec (c mod 128) 64); cbn; try reflexivity; lia).
    unfold over. reflexivity.
  Qed.

  Lemma w_facts : 1 <= g /\ w = 7 * g + w mod 7 /\ 0 < w mod 7 < 7.
  Proof. destruct (leb_width_facts w Hw) as (g' & G1 & G2 & G3 & G4). fold g in G4. subst g'. auto. Qed.

  Lemma p128 i : 0 <= i -> 128 ^ i = 2 ^ (7 * i).
  Proof. intros. rewrite Z.pow_mul_r by lia. reflexivity. Qed.

  (** Continuation groups below the last one just accumulate. *)
  Lemma loop_prefix ini : forall s i T, Forall (fun x => 128 <= x < 256) ini -> 0 <= i -> i + zlen ini <= g ->
    0 <= T < 128 ^ i ->
    leb_loop ty cw (ini ++ s) (7 * i) T i = leb_loop ty cw s (7 * (i + zlen ini)) (T + 128 ^ i * uleb ini) (i + zlen ini).
  Proof.
    destruct w_facts as (G1 & G2 & G3).
    induction ini as [|c ini IH]; intros s i T HF Hi Hg HT.
    - cbn [app uleb]. change (zlen (@nil Z)) with 0. f_equal; lia.
    - inversion HF as [|? ? Hc HF']; subst. rewrite zlen_cons in *. pose proof (zlen_nonneg ini).
      cbn [app]. rewrite loop_step by lia. pose proof (Z.mod_pos_bound c 128 ltac:(lia)) as Hm.
      rewrite over_spec by lia. rewrite (proj2 (Z.ltb_lt i g)) by lia. cbv zeta. rewrite (proj2 (Z.ltb_ge c 128)) by lia.
      assert (Ep : 128 ^ (i + 1) = 128 ^ i * 128) by (rewrite Z.pow_add_r by lia; reflexivity).
      assert (Hp : 0 < 128 ^ i) by (apply Z.pow_pos_nonneg; lia).
      assert (Hlim : 128 ^ (i + 1) <= 2 ^ w) by (rewrite p128 by lia; apply Z.pow_le_mono_r; lia).
      assert (Et : Z.lor T (wrap w (Z.shiftl (c mod 128) (7 * i))) = T + 128 ^ i * (c mod 128)).
      { rewrite Z.shiftl_mul_pow2 by lia. rewrite <- p128 by lia. unfold wrap. rewrite Z.mod_small by nia.
        rewrite p128 in * by lia. rewrite lor_add by lia. lia. }
      rewrite Et. replace (7 * i + 7) with (7 * (i + 1)) by lia. rewrite (IH s (i + 1)) by (auto; nia).
      cbn [uleb]. rewrite Ep. f_equal; lia.
  Qed.

  Lemma loop_prefix0 ini s : Forall (fun x => 128 <= x < 256) ini -> zlen ini <= g ->
    leb_loop ty cw (ini ++ s) 0 0 0 = leb_loop ty cw s (7 * zlen ini) (uleb ini) (zlen ini).
  Proof.
    intros HF Hl. pose proof (loop_prefix ini s 0 0 HF ltac:(lia) ltac:(lia) ltac:(cbn; lia)) as E.
    rewrite Z.mul_0_r, !Z.add_0_l, Z.pow_0_r, Z.mul_1_l in E. exact E.
  Qed.

  Lemma in_rangeb_dec v : {in_range ty v} + {~ in_range ty v}.
  Proof. unfold in_range. destruct (Z_le_dec (int_min ty) v), (Z_le_dec v (int_max ty)); [left; lia|right; lia|right; lia|right; lia]. Defined.

  Lemma pow_w1 : 2 ^ w = 2 * 2 ^ (w - 1).
  Proof. destruct w_facts as (G1 & G2 & G3). replace w with (w - 1 + 1) at 1 by lia. rewrite Z.pow_add_r by lia. lia. Qed.

  Lemma leb_value_mod v : in_range ty v -> leb_value ty (v mod 2 ^ w) = v.
  Proof.
    pose proof pow_w1 as E. destruct w_facts as (G1 & G2 & G3). assert (0 < 2 ^ (w - 1)) by (apply Z.pow_pos_nonneg; lia).
    unfold in_range, int_min, int_max, leb_value, to_signed, wrap. fold w. destruct (isigned ty); intros H1.
    - rewrite Z.mod_mod by lia. destruct (Z_lt_dec v 0).
      + rewrite <- (Z.mod_unique v (2 ^ w) (-1) (v + 2 ^ w)) by lia. destruct (Z.ltb_spec (v + 2 ^ w) (2 ^ (w - 1))); lia.
      + rewrite Z.mod_small by lia. destruct (Z.ltb_spec v (2 ^ (w - 1))); lia.
    - apply Z.mod_small. lia.
  Qed.

  (** The last group. *)
  Lemma loop_last i b s T : 0 <= i <= g -> 0 <= b < 128 -> 0 <= T < 128 ^ i ->
    let V := if isigned ty && (64 <=? b) then T + 128 ^ i * b - 128 ^ (i + 1) else T + 128 ^ i * b in
    leb_loop ty cw (b :: s) (7 * i) T i =
      if in_rangeb_dec V then mk_lres pc_ok (i + 1) (V mod 2 ^ w) (7 * i) else mk_lres pc_overflow (i + 1) T (7 * i).
  Proof.
    intros Hi Hb HT V. destruct w_facts as (G1 & G2 & G3).
    rewrite loop_step by lia. rewrite (Z.mod_small b) by lia. rewrite over_spec by lia. cbv zeta.
    rewrite (proj2 (Z.ltb_lt b 128)) by lia.
    assert (Ep : 128 ^ (i + 1) = 128 ^ i * 128) by (rewrite Z.pow_add_r by lia; reflexivity).
    assert (Hp : 0 < 128 ^ i) by (apply Z.pow_pos_nonneg; lia).
    pose proof pow_w1 as Ew. assert (Hp1 : 0 < 2 ^ (w - 1)) by (apply Z.pow_pos_nonneg; lia).
    destruct (Z.ltb_spec i g) as [Hlt|Hge].
    - (* below the last group everything fits *)
      assert (Hlim : 128 ^ (i + 1) <= 2 ^ (w - 1)) by (rewrite p128 by lia; apply Z.pow_le_mono_r; lia).
      assert (Et : Z.lor T (wrap w (Z.shiftl b (7 * i))) = T + 128 ^ i * b).
      { rewrite Z.shiftl_mul_pow2 by lia. rewrite <- p128 by lia. unfold wrap. rewrite Z.mod_small by nia.
        rewrite p128 in * by lia. rewrite lor_add by lia. lia. }
      rewrite Et. rewrite (proj2 (Z.ltb_lt (7 * i) (w - 7))) by lia. rewrite andb_true_r.
      destruct (in_rangeb_dec V) as [HV|HV].
      + f_equal. unfold V. destruct (isigned ty && (64 <=? b)) eqn:Es.
        * assert (E2 : wrap w (Z.shiftl (2 ^ w - 1) (7 * i + 7)) = (2 ^ w / 128 ^ (i + 1) - 1) * 2 ^ (7 * (i + 1))).
          { rewrite Z.shiftl_mul_pow2 by lia. replace (7 * i + 7) with (7 * (i + 1)) by lia. rewrite (p128 (i + 1)) by lia. unfold wrap.
            assert (E3 : 2 ^ w = 2 ^ (w - 7 * (i + 1)) * 2 ^ (7 * (i + 1))) by (rewrite <- Z.pow_add_r by lia; f_equal; lia).
            assert (0 < 2 ^ (7 * (i + 1))) by (apply Z.pow_pos_nonneg; lia).
            assert (1 <= 2 ^ (w - 7 * (i + 1))) by (apply (Z.pow_le_mono_r 2 0); lia).
            rewrite E3 at 3. rewrite Z.div_mul by lia. symmetry. apply Z.mod_unique with (2 ^ (7 * (i + 1)) - 1); nia. }
          rewrite E2. rewrite p128 in HT, Hp by lia. rewrite lor_add by (rewrite <- ?p128 in * by lia; nia).
          rewrite <- p128 by lia.
          assert (Hex : 2 ^ w = 2 ^ w / 128 ^ (i + 1) * 128 ^ (i + 1)).
          { assert (E3 : 2 ^ w = 2 ^ (w - 7 * (i + 1)) * 128 ^ (i + 1)) by (rewrite p128 by lia; rewrite <- Z.pow_add_r by lia; f_equal; lia).
            rewrite E3 at 2. rewrite Z.div_mul by (apply Z.pow_nonzero; lia). exact E3. }
          rewrite <- p128 in HT, Hp by lia. apply Z.mod_unique with (-1); [|nia].
          left. apply andb_true_iff in Es as [_ Es]. apply Z.leb_le in Es. nia.
        * symmetry. apply Z.mod_small. nia.
      + exfalso. apply HV. unfold V, in_range, int_min, int_max. fold w. destruct (isigned ty); cbn [andb].
        * destruct (Z.leb_spec 64 b); nia.
        * nia.
    - assert (i = g) as -> by lia. rewrite Z.eqb_refl. rewrite (proj2 (Z.ltb_ge (7 * g) (w - 7))) by lia. rewrite andb_false_r.
      set (r := w mod 7) in *.
      assert (E1 : 2 ^ w = 128 ^ g * 2 ^ r) by (rewrite p128 by lia; rewrite <- Z.pow_add_r by lia; f_equal; lia).
      assert (E2 : 2 ^ (w - 1) = 128 ^ g * 2 ^ (r - 1)) by (rewrite p128 by lia; rewrite <- Z.pow_add_r by lia; f_equal; lia).
      assert (E3 : 2 ^ r = 2 * 2 ^ (r - 1)) by (replace r with (r - 1 + 1) at 1 by lia; rewrite Z.pow_add_r by lia; lia).
      assert (H4 : 1 <= 2 ^ (r - 1) <= 64).
      { split; [apply (Z.pow_le_mono_r 2 0); lia|]. change 64 with (2 ^ 6). apply Z.pow_le_mono_r; lia. }
      assert (Hdiv : exists k, 128 = k * (2 * 2 ^ (r - 1))).
      { exists (2 ^ (7 - r)). rewrite <- E3. rewrite <- Z.pow_add_r by lia. replace (7 - r + r) with 7 by lia. reflexivity. }
      set (Q := 2 ^ (r - 1)) in *. set (P := 128 ^ g) in *.
      assert (Et : wrap w (Z.shiftl b (7 * g)) = (b mod 2 ^ r) * P).
      { rewrite Z.shiftl_mul_pow2 by lia. rewrite <- p128 by lia. fold P. unfold wrap. rewrite E1.
        rewrite (Z.mul_comm P (2 ^ r)). apply Z.mul_mod_distr_r; lia. }
      rewrite Et.
      assert (El : forall x, Z.lor T (x * P) = T + x * P).
      { intros x. unfold P in *. rewrite p128 in * by lia. apply lor_add; lia. }
      rewrite El. rewrite E3 in *. unfold V. destruct (isigned ty) eqn:Es; cbn [andb].
      + destruct (Z.ltb_spec b Q), (Z.leb_spec (128 - Q) b), (Z.leb_spec 64 b); cbn [orb negb]; try lia.
        * destruct (in_rangeb_dec (T + P * b)) as [HV|HV].
          -- f_equal. rewrite (Z.mod_small b) by lia. rewrite Z.mod_small by (rewrite E1; nia). lia.
          -- exfalso. apply HV. unfold in_range, int_min, int_max. rewrite Es. fold w. rewrite E2. nia.
        * destruct (in_rangeb_dec (T + P * b - 128 ^ (g + 1))) as [HV|HV].
          -- f_equal. rewrite (Z.mod_eq b (2 * Q)) by lia.
             fold P in Ep. rewrite Ep, E1.
             destruct Hdiv as (k & Hk).
             assert (Hbd : b / (2 * Q) = k - 1) by (symmetry; apply Z.div_unique with (b - (k - 1) * (2 * Q)); nia).
             rewrite Hbd. apply Z.mod_unique with (-1); nia.
          -- exfalso. apply HV. unfold in_range, int_min, int_max. rewrite Es. fold w. rewrite E2. fold P in Ep. nia.
        * destruct (in_rangeb_dec (T + P * b - 128 ^ (g + 1))) as [HV|HV]; [|reflexivity]. exfalso.
          unfold in_range, int_min, int_max in HV. rewrite Es in HV. fold w in HV. rewrite E2 in HV. fold P in Ep. nia.
        * destruct (in_rangeb_dec (T + P * b)) as [HV|HV]; [|reflexivity]. exfalso.
          unfold in_range, int_min, int_max in HV. rewrite Es in HV. fold w in HV. rewrite E2 in HV. nia.
      + destruct (Z.ltb_spec b (2 * Q)); cbn [negb].
        * destruct (in_rangeb_dec (T + P * b)) as [HV|HV].
          -- f_equal. rewrite (Z.mod_small b) by lia. rewrite Z.mod_small by (rewrite E1; nia). lia.
          -- exfalso. apply HV. unfold in_range, int_min, int_max. rewrite Es. fold w. nia.
        * destruct (in_rangeb_dec (T + P * b)) as [HV|HV]; [|reflexivity]. exfalso.
          unfold in_range, int_min, int_max in HV. rewrite Es in HV. fold w in HV. nia.
  Qed.

  (** More groups than the type can hold: overflow whatever follows. *)
  Lemma loop_too_long ini c s : Forall (fun x => 128 <= x < 256) ini -> zlen ini = g + 1 -> 0 <= c < 256 ->
    l_code (leb_loop ty cw (ini ++ c :: s) 0 0 0) = pc_overflow /\ g + 1 <= l_used (leb_loop ty cw (ini ++ c :: s) 0 0 0) <= g + 2.
  Proof.
    intros HF Hl Hc. destruct w_facts as (G1 & G2 & G3).
    destruct (@exists_last _ ini) as (i0 & x & E); [intros ->; change (zlen (@nil Z)) with 0 in Hl; lia|]. subst ini.
    apply Forall_app in HF as [HF Hx]. inversion Hx as [|? ? Hx' _]; subst. rewrite zlen_app in Hl. change (zlen [x]) with 1 in Hl.
    rewrite <- app_assoc. cbn [app]. rewrite loop_prefix0 by (auto; lia).
    rewrite loop_step by lia. destruct (over _ _); [cbn [l_code l_used]; split; [reflexivity|lia]|]. cbv zeta. rewrite (proj2 (Z.ltb_ge x 128)) by lia.
    replace (7 * zlen i0 + 7) with (7 * (g + 1)) by lia.
    rewrite loop_step by lia. pose proof (Z.mod_pos_bound c 128 ltac:(lia)).
    rewrite over_spec by lia. rewrite (proj2 (Z.ltb_ge (g + 1) g)) by lia. rewrite (proj2 (Z.eqb_neq (g + 1) g)) by lia. cbn [l_code l_used]. split; [reflexivity|lia].
  Qed.

  Lemma denotes_snoc ini b : 0 <= b < 128 ->
    leb_denotes (isigned ty) (ini ++ [b]) =
    (if isigned ty && (64 <=? b) then uleb ini + 128 ^ zlen ini * b - 128 ^ (zlen ini + 1) else uleb ini + 128 ^ zlen ini * b).
  Proof.
    intros Hb. unfold leb_denotes, sleb. rewrite last_last, uleb_snoc, zlen_app, Z.mod_small by lia. change (zlen [b]) with 1.
    destruct (isigned ty); cbn [andb]; [|reflexivity]. destruct (64 <=? b); reflexivity.
  Qed.

  (** Reading any well-formed encoding followed by anything. *)
  Lemma loop_wf bs rest : leb_wf bs ->
    let r := leb_loop ty cw (bs ++ rest) 0 0 0 in let V := leb_denotes (isigned ty) bs in
    (zlen bs <= g + 1 /\ in_range ty V /\ l_code r = pc_ok /\ l_used r = zlen bs /\ l_tmp r = V mod 2 ^ w) \/
    ((g + 1 < zlen bs \/ ~ in_range ty V) /\ l_code r = pc_overflow /\ l_used r <= zlen bs).
  Proof.
    intros Hwf r V. destruct (leb_wf_last _ Hwf) as (ini & b & E & HF & Hb). destruct w_facts as (G1 & G2 & G3).
    assert (El : zlen bs = zlen ini + 1) by (rewrite E, zlen_app; reflexivity). pose proof (zlen_nonneg ini) as Hn.
    destruct (Z_le_dec (zlen ini) g) as [Hle|Hgt].
    - assert (Er : r = leb_loop ty cw (b :: rest) (7 * zlen ini) (uleb ini) (zlen ini)).
      { unfold r. rewrite E, <- app_assoc. cbn [app]. apply loop_prefix0; auto; lia. }
      rewrite loop_last in Er by (auto; apply uleb_bound). cbv zeta in Er.
      rewrite <- denotes_snoc in Er by lia. rewrite <- E in Er. fold V in Er.
      destruct (in_rangeb_dec V); rewrite Er; cbn [l_code l_used l_tmp]; [left; split; [lia|]; split; [assumption|]; split; [reflexivity|]; split; [lia|reflexivity]|right; split; [right; assumption|]; split; [reflexivity|lia]].
    - right. split; [left; lia|]. unfold r.
      set (k := Z.to_nat (g + 1)).
      assert (Ek : zlen (firstn k ini) = g + 1) by (unfold zlen, k in *; rewrite firstn_length_le; lia).
      assert (HF1 : Forall (fun x => 128 <= x < 256) (firstn k ini) /\ Forall (fun x => 128 <= x < 256) (skipn k ini)).
      { rewrite <- (firstn_skipn k ini) in HF. apply Forall_app in HF. exact HF. }
      destruct HF1 as [HF1 HF2]. 
      assert (Er : bs ++ rest = firstn k ini ++ (skipn k ini ++ b :: rest)).
      { rewrite E, app_assoc, firstn_skipn, <- app_assoc. reflexivity. }
      rewrite Er.
      assert (HH : forall c s, 0 <= c < 256 -> l_code (leb_loop ty cw (firstn k ini ++ c :: s) 0 0 0) = pc_overflow /\
              l_used (leb_loop ty cw (firstn k ini ++ c :: s) 0 0 0) <= zlen bs).
      { intros c s Hc. destruct (loop_too_long (firstn k ini) c s HF1 Ek Hc). split; [auto|lia]. }
      destruct (skipn k ini) as [|c sk]; cbn [app]; apply HH; [lia|]. inversion HF2; lia.
  Qed.

  (** Every text starts with a well-formed encoding, or is an unfinished one, or meets a unit that is no byte. *)
  Lemma leb_classify s : Forall (fun c => 0 <= c < 2 ^ cw) s -> cw = 8 \/ 8 < cw ->
    (exists bs rest, s = bs ++ rest /\ leb_wf bs) \/ Forall (fun c => 128 <= c < 256) s \/
    (exists ini c rest, s = ini ++ c :: rest /\ Forall (fun x => 128 <= x < 256) ini /\ 256 <= c /\ 8 < cw).
  Proof.
    intros HF Hcw. induction HF as [|c s Hc HF IH]; [right; left; constructor|].
    destruct (Z_lt_dec c 128) as [Hs|Hs]; [left; exists [c], s; cbn; repeat split; lia|].
    destruct (Z_lt_dec c 256) as [Hs2|Hs2].
    - destruct IH as [(bs & rest & -> & H1)|[H1|(ini & d & rest & -> & H1 & H2 & H3)]].
      + left. exists (c :: bs), rest. split; [reflexivity|]. destruct bs; [contradiction|]. split; [lia|exact H1].
      + right. left. constructor; [lia|exact H1].
      + right. right. exists (c :: ini), d, rest. repeat split; auto. constructor; [lia|exact H1].
    - right. right. exists [], c, s. repeat split; [constructor|lia|]. destruct Hcw as [->|]; [cbn in Hc; lia|assumption].
  Qed.

  Lemma loop_unfinished s : Forall (fun x => 128 <= x < 256) s ->
    let r := leb_loop ty cw s 0 0 0 in (l_code r = pc_partial /\ l_used r = zlen s) \/ l_code r = pc_overflow.
  Proof.
    intros HF. generalize 0 at 1 as cnt. generalize 0 at 1 as tmp.
    assert (HH : forall cnt tmp u, let r := leb_loop ty cw s cnt tmp u in (l_code r = pc_partial /\ l_used r = u + zlen s) \/ l_code r = pc_overflow).
    { induction HF as [|c s Hc HF IH]; intros cnt tmp u; [left; cbn; split; [reflexivity|change (zlen (@nil Z)) with 0; lia]|].
      cbv zeta. rewrite loop_step by lia. destruct (over _ _); [right; reflexivity|]. cbv zeta. rewrite (proj2 (Z.ltb_ge c 128)) by lia.
      rewrite zlen_cons. destruct (IH (cnt + 7) (Z.lor tmp (wrap w (Z.shiftl (c mod 128) cnt))) (u + 1)) as [[A B]|A]; [left|right; exact A].
      split; [exact A|lia]. }
    intros tmp cnt. destruct (HH cnt tmp 0) as [[A B]|A]; [left; split; auto; lia|right; exact A].
  Qed.

  Lemma loop_badunit ini c rest : Forall (fun x => 128 <= x < 256) ini -> 256 <= c -> 8 < cw ->
    let r := leb_loop ty cw (ini ++ c :: rest) 0 0 0 in l_code r = pc_invalid \/ l_code r = pc_overflow.
  Proof.
    intros HF Hc Hcw. rewrite leb_loop_app. cbv zeta. destruct (loop_unfinished ini HF) as [[A _]|A]; cbv zeta in A; rewrite A.
    - left. cbn [leb_loop]. rewrite (proj2 (Z.ltb_lt 8 cw)), (proj2 (Z.leb_le 256 c)) by lia. reflexivity.
    - right. exact A.
  Qed.
End DEC.
