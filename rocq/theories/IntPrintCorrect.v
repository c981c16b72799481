(** Integer printing: from the loops to whole-function correctness. *)
From Coq Require Import String Ascii NArith.
From Verif Require Import Base NumSpec NumFacts IntPrintModel IntPrintProofs JeaiiiProofs.
Ltac Zify.zify_post_hook ::= idtac.

Definition dec_text (n : Z) (s : option (list Z)) : Prop :=
  exists len, digit_count 10 n len /\ s = Some (map (digit_char false) (digs 10 (Z.to_nat len) n)).

Lemma digit_count_shift base n m len : 1 < base -> 0 <= m -> 1 <= n / base ^ m ->
  digit_count base (n / base ^ m) len -> digit_count base n (len + m).
Proof.
  intros Hb Hm Hq (A & B & C).
  assert (Hp : 0 < base ^ m) by (apply Z.pow_pos_nonneg; lia).
  pose proof (Z.div_mod n (base ^ m) ltac:(lia)) as E. pose proof (Z.mod_pos_bound n (base ^ m) ltac:(lia)) as R.
  set (q := n / base ^ m) in *. set (r := n mod base ^ m) in *. clearbody q r.
  repeat split; [lia| |].
  - rewrite Z.pow_add_r by lia. nia.
  - right. replace (len + m - 1) with ((len - 1) + m) by lia. rewrite Z.pow_add_r by lia.
    destruct C as [-> |C]; [simpl (1 - 1); rewrite Z.pow_0_r; nia|nia].
Qed.

Lemma dec_text_app n m s1 s2 : 1 <= n / 10 ^ Z.of_nat m -> dec_text (n / 10 ^ Z.of_nat m) s1 ->
  s2 = Some (map (digit_char false) (digs 10 m n)) -> dec_text n (opt_app s1 s2).
Proof.
  intros Hq (len & D & ->) ->. exists (len + Z.of_nat m). split.
  - apply digit_count_shift; try lia. exact D.
  - cbn [opt_app]. f_equal. rewrite <- map_app. f_equal. destruct D as (D1 & _).
    replace (Z.to_nat (len + Z.of_nat m)) with (Z.to_nat len + m)%nat by lia.
    rewrite digs_app by lia. reflexivity.
Qed.

Lemma jeaiii_c8_mod n : jeaiii_c 8 (n mod 1000000000) = Some (map (digit_char false) (digs 10 9 n)).
Proof.
  pose proof (Z.mod_pos_bound n 1000000000 ltac:(lia)).
  rewrite jeaiii_c_spec; [| lia | lia | lia | lia].
  change (Z.to_nat (8 + 1)) with 9%nat. do 2 f_equal.
  change 1000000000 with (10 ^ Z.of_nat 9). apply digs_mod. lia.
Qed.

Lemma jeaiii_main64_spec n : 0 <= n < 2 ^ 64 -> dec_text n (jeaiii_main64 n).
Proof.
  intros Hn. unfold jeaiii_main64.
  change (2 ^ 64) with 18446744073709551616 in Hn.
  assert (Hh : wrap 32 (n / 2 ^ 32) = n / 2 ^ 32).
  { apply wrap_mod_small. change (2 ^ 32) with 4294967296. split; [apply Z.div_pos; lia|].
    apply Z.div_lt_upper_bound; lia. }
  rewrite Hh. destruct (Z.eqb_spec (n / 2 ^ 32) 0) as [E|E].
  { change (2 ^ 32) with 4294967296 in *.
    assert (n < 4294967296) by (pose proof (Z.div_mod n 4294967296 ltac:(lia)); pose proof (Z.mod_pos_bound n 4294967296 ltac:(lia)); lia).
    rewrite wrap_mod_small by (change (2 ^ 32) with 4294967296; lia).
    apply jeaiii_tree_spec. change (2 ^ 32) with 4294967296; lia. }
  assert (Hbig : 4294967296 <= n).
  { destruct (Z.le_gt_cases 4294967296 n); [assumption|]. exfalso. apply E.
    apply Z.div_small. change (2 ^ 32) with 4294967296. lia. }
  assert (Ha : 4 <= n / 1000000000 < 18446744074).
  { split; [apply Z.div_le_lower_bound; lia|apply Z.div_lt_upper_bound; lia]. }
  apply (dec_text_app n 9); [change (10 ^ Z.of_nat 9) with 1000000000; lia | | apply jeaiii_c8_mod].
  change (10 ^ Z.of_nat 9) with 1000000000.
  set (a := n / 1000000000) in *. clearbody a.
  destruct (Z.eqb_spec a (wrap 32 a)) as [Ea|Ea]; cbn [negb].
  - rewrite <- Ea. apply jeaiii_tree_spec. rewrite Ea. unfold wrap. apply Z.mod_pos_bound. lia.
  - assert (Hbig2 : 4294967296 <= a).
    { destruct (Z.le_gt_cases 4294967296 a); [assumption|]. exfalso. apply Ea. symmetry. apply wrap_mod_small.
      change (2 ^ 32) with 4294967296. lia. }
    assert (Hv : 4 <= a / 1000000000 <= 18).
    { split; [apply Z.div_le_lower_bound; lia|]. apply Z.lt_succ_r. apply Z.div_lt_upper_bound; lia. }
    rewrite wrap_mod_small by (change (2 ^ 32) with 4294967296; lia).
    apply (dec_text_app a 9); [change (10 ^ Z.of_nat 9) with 1000000000; lia | | apply jeaiii_c8_mod].
    change (10 ^ Z.of_nat 9) with 1000000000. set (v := a / 1000000000) in *. clearbody v.
    destruct (Z.ltb_spec v 10).
    + exists 1. split; [repeat split; simpl; lia|]. apply jeaiii_c_spec; lia.
    + exists 2. split; [repeat split; simpl; lia|]. apply jeaiii_w_spec; lia.
Qed.

Lemma jeaiii_main64_rec_mod n :
  jeaiii_main64_rec (n mod 10000000000000000000) = Some (map (digit_char false) (digs 10 19 n)).
Proof.
  pose proof (Z.mod_pos_bound n 10000000000000000000 ltac:(lia)) as Hb.
  change (10000000000000000000) with (10 ^ Z.of_nat 19) at 1.
  rewrite <- (digs_mod 10 19) by lia. change (10 ^ Z.of_nat 19) with 10000000000000000000 in *.
  set (m := n mod 10000000000000000000) in *. clearbody m.
  unfold jeaiii_main64_rec. rewrite !jeaiii_c8_mod.
  assert (Hh : 0 <= m / 1000000000 / 1000000000 < 10).
  { rewrite Z.div_div by lia. split; [apply Z.div_pos; lia|apply Z.div_lt_upper_bound; lia]. }
  rewrite wrap_mod_small by (change (2 ^ 32) with 4294967296; lia).
  rewrite jeaiii_c_spec; [|lia|simpl; lia|change (2 ^ 32) with 4294967296; lia|lia].
  cbn [opt_app]. f_equal. rewrite <- !map_app. f_equal.
  change (Z.to_nat (0 + 1)) with 1%nat. change 19%nat with (1 + (9 + 9))%nat.
  rewrite (digs_app 10 1 (9 + 9) m), (digs_app 10 9 9 m) by lia.
  do 2 f_equal. change (10 ^ Z.of_nat (9 + 9)) with (1000000000 * 1000000000).
  rewrite Z.div_div by lia. reflexivity.
Qed.

Lemma jeaiii_main128_spec n : 0 <= n < 2 ^ 128 -> dec_text n (jeaiii_main128 n).
Proof.
  intros Hn. unfold jeaiii_main128.
  change (2 ^ 128) with 340282366920938463463374607431768211456 in Hn.
  assert (Hh : wrap 64 (n / 2 ^ 64) = n / 2 ^ 64).
  { apply wrap_mod_small. change (2 ^ 64) with 18446744073709551616. split; [apply Z.div_pos; lia|].
    apply Z.div_lt_upper_bound; lia. }
  rewrite Hh. destruct (Z.eqb_spec (n / 2 ^ 64) 0) as [E|E].
  { change (2 ^ 64) with 18446744073709551616 in *.
    assert (n < 18446744073709551616) by (pose proof (Z.div_mod n 18446744073709551616 ltac:(lia)); pose proof (Z.mod_pos_bound n 18446744073709551616 ltac:(lia)); lia).
    rewrite wrap_mod_small by (change (2 ^ 64) with 18446744073709551616; lia).
    apply jeaiii_main64_spec. change (2 ^ 64) with 18446744073709551616; lia. }
  assert (Hbig : 18446744073709551616 <= n).
  { destruct (Z.le_gt_cases 18446744073709551616 n); [assumption|]. exfalso. apply E.
    apply Z.div_small. change (2 ^ 64) with 18446744073709551616. lia. }
  set (dv := 10000000000000000000) in *.
  assert (Ha : 1 <= n / dv < 34028236692093846347).
  { unfold dv. split; [apply Z.div_le_lower_bound; lia|apply Z.div_lt_upper_bound; lia]. }
  apply (dec_text_app n 19); [change (10 ^ Z.of_nat 19) with dv; lia | | apply jeaiii_main64_rec_mod].
  change (10 ^ Z.of_nat 19) with dv.
  set (a := n / dv) in *. clearbody a.
  destruct (Z.eqb_spec a (wrap 64 a)) as [Ea|Ea]; cbn [negb].
  - rewrite <- Ea. apply jeaiii_main64_spec. rewrite Ea. unfold wrap. apply Z.mod_pos_bound. lia.
  - assert (Hbig2 : 18446744073709551616 <= a).
    { destruct (Z.le_gt_cases 18446744073709551616 a); [assumption|]. exfalso. apply Ea. symmetry. apply wrap_mod_small.
      change (2 ^ 64) with 18446744073709551616. lia. }
    assert (Hv : 1 <= a / dv <= 3).
    { unfold dv. split; [apply Z.div_le_lower_bound; lia|]. apply Z.lt_succ_r. apply Z.div_lt_upper_bound; lia. }
    rewrite wrap_mod_small by (change (2 ^ 32) with 4294967296; lia).
    apply (dec_text_app a 19); [change (10 ^ Z.of_nat 19) with dv; lia | | apply jeaiii_main64_rec_mod].
    change (10 ^ Z.of_nat 19) with dv. set (v := a / dv) in *. clearbody v.
    exists 1. split; [repeat split; simpl; lia|]. apply jeaiii_c_spec; lia.
Qed.

Lemma jeaiii_main_spec w n : In w int_widths -> 0 <= n < 2 ^ w -> dec_text n (jeaiii_main w n).
Proof.
  intros Hw Hn. unfold jeaiii_main.
  destruct (Z.eqb_spec w 128) as [->|]; [apply jeaiii_main128_spec; assumption|].
  destruct (Z.eqb_spec w 64) as [->|]; [apply jeaiii_main64_spec; assumption|].
  assert (n < 2 ^ 32).
  { eapply Z.lt_le_trans; [apply Hn|]. apply Z.pow_le_mono_r; [lia|]. apply width_cases in Hw; lia. }
  rewrite wrap_mod_small by lia. apply jeaiii_tree_spec. lia.
Qed.

(** ** 128-bit, other bases *)
Lemma digs_pow2_split base s h l k : 2 <= base -> 0 <= h -> 0 <= l < base ^ Z.of_nat s ->
  digs base (k + s) (h * base ^ Z.of_nat s + l) = digs base k h ++ digs base s l.
Proof.
  intros Hb Hh Hl. rewrite digs_app by lia.
  assert (0 < base ^ Z.of_nat s) by (apply Z.pow_pos_nonneg; lia).
  rewrite Z.div_add_l, (Z.div_small l) by lia. rewrite Z.add_0_r. f_equal.
  rewrite <- (digs_mod base s (_ + _)) by lia.
  rewrite Z.add_comm, Z.mod_add, Z.mod_small by lia. reflexivity.
Qed.

(** Bases whose 128-bit path is right: those whose power is 2^64. *)
Definition base128_ok (base : Z) : Prop := base = 2 \/ base = 4 \/ base = 16.

Lemma main_impl_128_pow2 base upper t len : base128_ok base -> 0 <= len ->
  0 <= t < 2 ^ 128 -> t < base ^ len -> (len <= cal_max_int_size (mk_int 64 false) base -> True) ->
  main_impl_128 base upper t len = Some (map (digit_char false) (digs base (Z.to_nat len) t)).
Proof.
  intros Hb Hl Ht Htl _. unfold main_impl_128.
  assert (exists s, cal_max_int_size (mk_int 64 false) base = Z.of_nat s /\ base ^ Z.of_nat s = 2 ^ 64
                    /\ 2 <= base <= 36
                    /\ (base =? 2) || (base =? 4) || (base =? 16) = true) as (s & Es & Ep & Hbb & Hbq).
  { destruct Hb as [-> |[-> | ->]]; [exists 64%nat|exists 32%nat|exists 16%nat]; vm_compute; repeat split; discriminate. }
  rewrite Hbq, Es.
  assert (Hd : t = t / 2 ^ 64 * 2 ^ 64 + t mod 2 ^ 64) by (pose proof (Z.div_mod t (2 ^ 64) ltac:(lia)); lia).
  pose proof (Z.mod_pos_bound t (2 ^ 64) ltac:(lia)) as Hr.
  destruct (Z.ltb_spec (Z.of_nat s) len).
  - rewrite !main_impl_word_spec; try lia; try (rewrite Ep; lia).
    + cbn [opt_app]. f_equal. rewrite <- map_app. f_equal.
      replace (Z.to_nat len) with (Z.to_nat (len - Z.of_nat s) + s)%nat by lia.
      rewrite Nat2Z.id.
      pose proof (digs_pow2_split base s (t / 2 ^ 64) (t mod 2 ^ 64) (Z.to_nat (len - Z.of_nat s)) ltac:(lia)
                    ltac:(apply Z.div_pos; lia) ltac:(rewrite Ep; lia)) as X.
      rewrite Ep, <- Hd in X. symmetry. exact X.
    + split; [apply Z.div_pos; lia|]. apply Z.div_lt_upper_bound; [lia|].
      rewrite <- Ep. rewrite <- Z.pow_add_r by lia. replace (Z.of_nat s + (len - Z.of_nat s)) with len by lia. lia.
  - assert (t < 2 ^ 64).
    { rewrite <- Ep. eapply Z.lt_le_trans; [exact Htl|]. apply Z.pow_le_mono_r; lia. }
    rewrite (Z.mod_small t) by lia. apply main_impl_word_spec; lia.
Qed.

Lemma main_impl_spec w base upper t len : In w int_widths -> 2 <= base <= 36 ->
  (w = 128 -> base128_ok base /\ upper = false) -> (base <= 10 -> upper = false) -> 0 <= len ->
  0 <= t < 2 ^ w -> t < base ^ len ->
  main_impl w base upper t len = Some (map (digit_char upper) (digs base (Z.to_nat len) t)).
Proof.
  intros Hw Hb H128 Hup Hl Ht Htl. unfold main_impl. destruct (Z.eqb_spec w 128) as [->|].
  - destruct (H128 eq_refl) as [Hb' ->]. apply main_impl_128_pow2; auto.
  - apply main_impl_word_spec; auto. lia.
Qed.

(** 128-bit base 10, [full] mode: the split by 10^19. *)
Lemma main_impl_128_dec upper t : 0 <= t < 2 ^ 128 ->
  main_impl_128 10 upper t 39 = Some (map (digit_char false) (digs 10 39 t)).
Proof.
  intros Ht. unfold main_impl_128. cbn [Z.eqb Pos.eqb orb].
  change (cal_max_int_size (mk_int 128 false) 10) with 39. change (cal_max_int_size (mk_int 64 false) 10) with 20.
  cbn -[Z.div Z.modulo Z.pow compile_pow10 main_impl_word digs digit_char char_literal_add0 Z.of_nat map opt_app].
  change (compile_pow10 128 38) with (10 ^ 38). change (compile_pow10 128 19) with (10 ^ 19).
  assert (Hv : 0 <= t / 10 ^ 38 < 10).
  { split; [apply Z.div_pos; lia|apply Z.div_lt_upper_bound; [lia|]]. eapply Z.lt_le_trans; [apply Ht|]. vm_compute; discriminate. }
  rewrite char_literal_add0_spec by lia.
  pose proof (Z.mod_pos_bound t (10 ^ 38) ltac:(lia)) as Hr.
  assert (E39 : digs 10 39 t = digs 10 1 (t / 10 ^ 38) ++ digs 10 38 (t mod 10 ^ 38)).
  { change 39%nat with (1 + 38)%nat. rewrite digs_app by lia. change (Z.of_nat 38) with 38. f_equal.
    symmetry. apply (digs_mod 10 38 t). lia. }
  rewrite E39. set (r := t mod 10 ^ 38) in *. clearbody r.
  assert (Hq : 0 <= r / 10 ^ 19 < 10 ^ 19).
  { split; [apply Z.div_pos; lia|apply Z.div_lt_upper_bound; lia]. }
  assert (Hm : 0 <= r mod 10 ^ 19 < 10 ^ 19) by (apply Z.mod_pos_bound; lia).
  rewrite (Z.mod_small (r / 10 ^ 19)) by (split; [lia|]; eapply Z.lt_trans; [apply Hq|]; vm_compute; reflexivity).
  rewrite (Z.mod_small (r mod 10 ^ 19) (2 ^ 64)) by (split; [lia|]; eapply Z.lt_trans; [apply Hm|]; vm_compute; reflexivity).
  rewrite !main_impl_word_spec by (try lia; auto). cbn [opt_app]. f_equal. rewrite <- !map_app. f_equal. f_equal.
  change (Z.to_nat 19) with 19%nat. change 38%nat with (19 + 19)%nat. rewrite digs_app by lia.
  change (Z.of_nat 19) with 19. f_equal. change (10 ^ 19) with (10 ^ Z.of_nat 19). apply digs_mod. lia.
Qed.

(** ** Whole function *)
Lemma show_base_spec base up : 2 <= base <= 36 -> base <> 10 -> show_base base up = base_prefix base up.
Proof.
  intros Hb Hn.
  assert (H : forallb (fun b => (b =? 10) || (b <? 2) || (if list_eq_dec Z.eq_dec (show_base b up) (base_prefix b up) then true else false)) (zseq 37) = true)
    by (destruct up; vm_compute; reflexivity).
  rewrite forallb_forall in H. specialize (H base).
  assert (I : In base (zseq 37)).
  { unfold zseq. apply in_map_iff. exists (Z.to_nat base). split; [lia|]. apply in_seq. lia. }
  specialize (H I). destruct (Z.eqb_spec base 10); [contradiction|]. destruct (Z.ltb_spec base 2); [lia|].
  cbn [orb] in H. destruct (list_eq_dec _ _ _); [assumption|discriminate].
Qed.

Lemma magnitude_spec ty t : In (iw ty) int_widths -> in_range ty t ->
  magnitude (iw ty) (isigned ty) t = Z.abs t /\ 0 <= Z.abs t < 2 ^ iw ty.
Proof.
  intros Hw Ht. unfold in_range, int_min, int_max, magnitude in *. set (w := iw ty) in *. clearbody w.
  assert (Hw' : 0 < 2 ^ (w - 1) /\ 2 ^ w = 2 * 2 ^ (w - 1)).
  { apply width_cases in Hw. split; [apply Z.pow_pos_nonneg; lia|].
    rewrite <- Z.pow_succ_r by lia. f_equal. lia. }
  destruct Hw' as [Hp Hw2]. unfold wrap. destruct (isigned ty); cbn [andb].
  - destruct (Z.ltb_spec t 0).
    + split; [|lia]. rewrite Zminus_mod_idemp_r. rewrite Z.mod_small; lia.
    + rewrite Z.mod_small by lia. lia.
  - rewrite Z.mod_small by lia. lia.
Qed.

Lemma sign_part_spec ty sp t : in_range ty t -> sign_part sp (isigned ty) t = sign_text sp t.
Proof.
  intros Ht. unfold sign_part, sign_text, in_range, int_min in *. destruct (isigned ty) eqn:S; cbn [negb andb].
  - destruct sp; destruct (t <? 0); reflexivity.
  - destruct (Z.ltb_spec t 0); [lia|]. destruct sp; reflexivity.
Qed.

(** What the prefix part of an output is supposed to be. *)
Lemma prefix_spec fl : 2 <= pf_base fl <= 36 ->
  (if pf_showbase fl && negb (pf_base fl =? 10) then show_base (pf_base fl) (pf_upshowbase fl) else [])
  = (if pf_showbase fl then base_prefix (pf_base fl) (pf_upshowbase fl) else []).
Proof.
  intros Hb. destruct (pf_showbase fl); cbn [andb]; [|reflexivity].
  destruct (Z.eqb_spec (pf_base fl) 10) as [->|]; [reflexivity|]. cbn [negb]. apply show_base_spec; assumption.
Qed.

(** The configurations for which the 128-bit algorithm is the intended one. *)
Definition config_ok (fl : pflags) (ty : int_type) : Prop :=
  iw ty = 128 -> pf_base fl = 10 \/ (base128_ok (pf_base fl) /\ (pf_base fl = 16 -> pf_upper fl = false)).

Lemma digits_upper_irrelevant upper base ds : base <= 10 -> digits_ok base ds ->
  map (digit_char upper) ds = map (digit_char false) ds.
Proof.
  intros Hb H. apply map_digit10. unfold digits_ok in *. eapply Forall_impl; [|exact H]. simpl; intros; lia.
Qed.

Lemma withfull_spec fl ty u : In (iw ty) int_widths -> 2 <= pf_base fl <= 36 -> config_ok fl ty ->
  0 <= u < 2 ^ iw ty ->
  exists len, (if pf_full fl then len = cal_max_int_size (mk_int (iw ty) false) (pf_base fl)
               else digit_count (pf_base fl) u len) /\ 0 <= len /\ u < pf_base fl ^ len /\
  withfull_main_impl (pf_full fl) (pf_base fl) (pf_upper fl) (iw ty) u
  = Some (map (digit_char (pf_upper fl)) (digs (pf_base fl) (Z.to_nat len) u)).
Proof.
  intros Hw Hb Hc Hu. unfold withfull_main_impl. set (base := pf_base fl) in *.
  assert (Hup : map (digit_char (if base <=? 10 then false else pf_upper fl)) =
    map (digit_char (if base <=? 10 then false else pf_upper fl))) by reflexivity. clear Hup.
  assert (Heq : forall n, map (digit_char (if base <=? 10 then false else pf_upper fl)) (digs base n u)
                = map (digit_char (pf_upper fl)) (digs base n u)).
  { intros n. destruct (Z.leb_spec base 10); [|reflexivity]. symmetry.
    apply (digits_upper_irrelevant _ base); [lia|]. apply digs_ok; lia. }
  assert (Hcond : iw ty = 128 -> base <> 10 -> base128_ok base /\ (if base <=? 10 then false else pf_upper fl) = false).
  { intros E N. destruct (Hc E) as [|[B U]]; [contradiction|]. split; [exact B|].
    destruct (Z.leb_spec base 10); [reflexivity|]. apply U. destruct B as [|[|]]; lia. }
  destruct (pf_full fl).
  - set (len := cal_max_int_size (mk_int (iw ty) false) base).
    pose proof (cal_max_int_size_spec (mk_int (iw ty) false) base Hw ltac:(lia)) as (L1 & L2 & L3).
    fold len in L1, L2, L3. unfold int_max in L2. cbn [isigned iw] in L2.
    exists len. repeat split; [lia|lia|].
    destruct (Z.eqb_spec base 10) as [E10|N10].
    + destruct (Z.eq_dec (iw ty) 128) as [E128|N128].
      * rewrite <- Heq. unfold main_impl. subst len. rewrite E128 in *. rewrite E10 in *. cbn [Z.eqb Pos.eqb Z.leb Z.compare Pos.compare Pos.compare_cont].
        change (cal_max_int_size (mk_int 128 false) 10) with 39. apply main_impl_128_dec. assumption.
      * rewrite <- Heq. apply main_impl_spec; auto; try lia. destruct (Z.leb_spec base 10); [reflexivity|lia].
    + rewrite <- Heq. apply main_impl_spec; auto; try lia. intros. destruct (Z.leb_spec base 10); [reflexivity|lia].
  - destruct (Z.eqb_spec base 10) as [E10|N10].
    + rewrite E10 in *. destruct (jeaiii_main_spec (iw ty) u Hw Hu) as (len & D & ->).
      exists len. split; [exact D|]. destruct D as (D1 & D2 & D3). repeat split; [lia|lia|].
      f_equal. rewrite <- Heq. reflexivity.
    + pose proof (chars_len_spec (iw ty) base u Hw Hb Hu) as D.
      exists (chars_len (iw ty) base u). split; [exact D|]. destruct D as (D1 & D2 & D3). repeat split; [lia|lia|].
      rewrite <- Heq. apply main_impl_spec; auto; try lia. intros. destruct (Z.leb_spec base 10); [reflexivity|lia].
Qed.

Lemma print_int_correct fl ty t : In (iw ty) int_widths -> 2 <= pf_base fl <= 36 -> config_ok fl ty ->
  in_range ty t ->
  exists num, print_int fl ty t =
    Some (sign_text (pf_showpos fl) t
          ++ (if pf_showbase fl then base_prefix (pf_base fl) (pf_upshowbase fl) else []) ++ num)
  /\ if pf_full fl then is_padded_numeral (pf_base fl) (pf_upper fl) (cal_max_int_size (mk_int (iw ty) false) (pf_base fl)) (Z.abs t) num
     else is_numeral (pf_base fl) (pf_upper fl) (Z.abs t) num.
Proof.
  intros Hw Hb Hc Ht. unfold print_int.
  destruct (magnitude_spec ty t Hw Ht) as [-> Hm].
  rewrite (sign_part_spec ty), prefix_spec by assumption.
  destruct (withfull_spec fl ty (Z.abs t) Hw Hb Hc Hm) as (len & L & L0 & L1 & ->).
  exists (map (digit_char (pf_upper fl)) (digs (pf_base fl) (Z.to_nat len) (Z.abs t))).
  cbn [opt_app]. rewrite app_assoc. split; [reflexivity|].
  destruct (pf_full fl).
  - subst len. exists (digs (pf_base fl) (Z.to_nat (cal_max_int_size (mk_int (iw ty) false) (pf_base fl))) (Z.abs t)). split; [apply digs_ok; lia|]. split; [rewrite digs_length; lia|]. split; [|reflexivity].
    rewrite digs_value by lia. apply Z.mod_small. rewrite Z2Nat.id by exact L0. split; [lia|exact L1].
  - apply digit_count_numeral; [lia|lia|exact L].
Qed.
