(** C97: integers and timestamps printed with a locale. *)
From Coq Require Import String.
From Coq Require Import List.
From Verif Require Import Base NumSpec NumFacts RangeSpec LcSpec TimeSpec IntPrintModel IntPrintProofs IntPrintCorrect IntSizeProofs IntInjProofs
  TimeModel TimeTextSpec TimeTextModel TimeTextProofs LcModel LcProofs.

(** The digits of a number, grouped. *)
Lemma grouped_main (full : bool) base upper w lc u : In w int_widths -> 2 <= base <= 36 -> lc_grouping lc <> [] -> lc_sep lc <> [] ->
  Forall (fun e => 0 <= e) (lc_grouping lc) -> 0 <= u < 2 ^ w ->
  exists len, (if full then len = cal_max_int_size (mk_int w false) base else digit_count base u len) /\ 1 <= len <= cal_max_int_size (mk_int w false) base /\ u < base ^ len /\
    lc_withfull_main full base upper w lc u = Some (grouped (lc_grouping lc) (lc_sep lc) (map (digit_char upper) (digs base (Z.to_nat len) u))).
Proof.
  intros Hw Hb Hg Hs HF Hu.
  pose proof (cal_max_int_size_spec (mk_int w false) base Hw ltac:(lia)) as (M1 & M2 & M3). unfold int_max in M2, M3. cbn [isigned iw] in M2, M3.
  set (len := if full then cal_max_int_size (mk_int w false) base else chars_len w base u).
  pose proof (chars_len_spec w base u Hw Hb Hu) as D.
  assert (HL : 1 <= len <= cal_max_int_size (mk_int w false) base).
  { unfold len. destruct full; [lia|]. split; [apply D|].
    apply (digit_count_lt base u); try lia. exact D. }
  assert (HU : u < base ^ len) by (unfold len; destruct full; [lia|apply D]).
  exists len. split; [unfold len; destruct full; [reflexivity|exact D]|]. split; [exact HL|]. split; [exact HU|].
  unfold lc_withfull_main.
  destruct (Z.eqb_spec (Z.of_nat (length (lc_grouping lc))) 0) as [E|_]; [destruct (lc_grouping lc); [congruence|cbn [length] in E; lia]|].
  destruct (Z.eqb_spec (Z.of_nat (length (lc_sep lc))) 0) as [E|_]; [destruct (lc_sep lc); [congruence|cbn [length] in E; lia]|]. cbn [orb].
  set (T := map (digit_char upper) (digs base (Z.to_nat len) u)).
  assert (LT : Z.of_nat (length T) = len) by (unfold T; rewrite map_length, digs_length; lia).
  assert (G : grouping_mul_sep full base upper w lc u = Some (grouped (lc_grouping lc) (lc_sep lc) T)).
  { unfold grouping_mul_sep. cbv zeta. set (mx := cal_max_int_size (mk_int w false) base) in *.
    assert (HLV : live full base mx (Z.to_nat len) 0 u).
    { split; [lia|]. split; [lia|]. unfold len in *. destruct full; [lia|]. rewrite Z2Nat.id by lia. exact D. }
    rewrite (groups_ok full base upper mx _ Hb (lc_grouping lc) (Z.to_nat len) (Z.to_nat mx) (Z.to_nat mx) 0 0 u [] HLV ltac:(lia) ltac:(lia) HF); [|intros E; congruence].
    rewrite app_nil_r. fold T. replace (match lc_grouping lc with [] => [0] | _ => lc_grouping lc end) with (lc_grouping lc) by (destruct (lc_grouping lc); [congruence|reflexivity]).
    match goal with |- context [grouped _ [?c] T] => pose proof (grouped_length (lc_grouping lc) [c] T HF) as GL; destruct (Z.ltb_spec (mx * 2 - 1) (Z.of_nat (length (grouped (lc_grouping lc) [c] T)))) as [X|_] end.
    { cbn [length] in GL. lia. }
    destruct (lc_sep lc) as [|c [|c2 s]]; [congruence|reflexivity|]. f_equal. apply put_seps_grouped; [exact HF|].
    unfold T. apply Forall_forall. intros x Hx. apply in_map_iff in Hx as (d & <- & Hd). pose proof (digs_ok base (Z.to_nat len) u ltac:(lia)) as O.
    unfold digits_ok in O. rewrite Forall_forall in O. specialize (O d Hd). pose proof (digit_char_range upper d ltac:(lia)). lia. }
  destruct (lc_grouping lc) as [|g0 [|g1 gr]] eqn:EG; [congruence| |].
  2:{ rewrite <- G. destruct g0 as [|[[p|p|]|p|]|p]; reflexivity. }
  assert (G3 : g0 = 3 \/ match [g0], lc_sep lc with [3], [ch] => three_path full base upper w ch u | _, _ => grouping_mul_sep full base upper w lc u end = grouping_mul_sep full base upper w lc u).
  { destruct g0 as [|[[p|p|]|p|]|p]; auto. }
  destruct G3 as [-> | ->]; [|exact G].
  destruct (lc_sep lc) as [|c [|c2 s]] eqn:ES; [congruence| |exact G].
  unfold three_path. cbv zeta. fold len. replace len with (Z.of_nat (Z.to_nat len)) at 1 by lia. 
  rewrite three_ok; [|exact Hb|lia| |rewrite Z2Nat.id by lia; lia].
  2:{ assert (len <= 200); [|lia]. eapply Z.le_trans; [apply HL|]. apply (digit_count_lt base (2 ^ w - 1)); [lia|lia| |split; [lia|split; assumption]].
      assert (2 ^ w <= 2 ^ 200) by (apply Z.pow_le_mono_r; [lia|apply width_cases in Hw; lia]).
      assert (2 ^ 200 <= base ^ 200) by (apply Z.pow_le_mono_l; lia). lia. }
  rewrite app_nil_r. fold T. rewrite grouped3_length by (try reflexivity; lia). rewrite LT, Z.eqb_refl. reflexivity.
Qed.

(** With a separator and a grouping: sign, prefix, and the numeral cut into groups as the locale says; every width and base. *)
Theorem C97_grouped fl ty lc t : In (iw ty) [8; 16; 32; 64; 128] -> 2 <= pf_base fl <= 36 -> (pf_base fl <= 10 -> pf_upper fl = false) ->
  lc_grouping lc <> [] -> lc_sep lc <> [] -> Forall (fun e => 0 <= e) (lc_grouping lc) -> in_range ty t ->
  exists num, lc_print_int fl ty lc t = Some (sign_text (pf_showpos fl) t
      ++ (if pf_showbase fl then base_prefix (pf_base fl) (pf_upshowbase fl) else []) ++ grouped (lc_grouping lc) (lc_sep lc) num)
  /\ if pf_full fl then exists n, pf_base fl ^ (n - 1) <= 2 ^ iw ty - 1 < pf_base fl ^ n /\ is_padded_numeral (pf_base fl) (pf_upper fl) n (Z.abs t) num
     else is_numeral (pf_base fl) (pf_upper fl) (Z.abs t) num.
Proof.
  intros Hw Hb Hup Hg Hs HF Ht. unfold lc_print_int.
  assert (E0 : (pf_base fl <=? 10) && pf_upper fl = false).
  { destruct (Z.leb_spec (pf_base fl) 10) as [H|H]; [rewrite (Hup H); reflexivity|reflexivity]. }
  rewrite E0. cbv zeta. destruct (magnitude_spec ty t Hw Ht) as [-> Hm]. rewrite (sign_part_spec ty), prefix_spec by assumption.
  destruct (grouped_main (pf_full fl) (pf_base fl) (pf_upper fl) (iw ty) lc (Z.abs t) Hw Hb Hg Hs HF Hm) as (len & L & L0 & L1 & ->).
  exists (map (digit_char (pf_upper fl)) (digs (pf_base fl) (Z.to_nat len) (Z.abs t))). cbn [opt_app]. rewrite app_assoc. split; [reflexivity|].
  destruct (pf_full fl).
  - exists len. pose proof (cal_max_int_size_spec (mk_int (iw ty) false) (pf_base fl) Hw ltac:(lia)) as (M1 & M2 & M3). rewrite <- L in M1, M2, M3.
    unfold int_max in M2, M3. cbn [isigned iw] in M2, M3. split.
    + split; [|exact M2]. destruct M3 as [M3|M3]; [|exact M3]. rewrite M3, Z.sub_diag, Z.pow_0_r. assert (2 ^ 1 <= 2 ^ iw ty) by (apply Z.pow_le_mono_r; [lia|apply width_cases in Hw; lia]). lia.
    + exists (digs (pf_base fl) (Z.to_nat len) (Z.abs t)). split; [apply digs_ok; lia|]. split; [rewrite digs_length; lia|]. split; [|reflexivity].
      rewrite digs_value by lia. apply Z.mod_small. rewrite Z2Nat.id by lia. split; [lia|exact L1].
  - apply digit_count_numeral; [lia|lia|exact L].
Qed.
Print Assumptions C97_grouped.

(** Without a separator or without a grouping: the text printed without a locale. *)
Theorem C97_ungrouped fl ty lc t : (pf_base fl <= 10 -> pf_upper fl = false) -> lc_grouping lc = [] \/ lc_sep lc = [] -> lc_print_int fl ty lc t = print_int fl ty t.
Proof.
  intros Hup H. unfold lc_print_int.
  assert (E0 : (pf_base fl <=? 10) && pf_upper fl = false).
  { destruct (Z.leb_spec (pf_base fl) 10) as [X|X]; [rewrite (Hup X); reflexivity|reflexivity]. }
  rewrite E0. unfold lc_withfull_main, print_int. destruct H as [-> | ->]; cbn [length Z.of_nat Z.eqb orb]; [reflexivity|]. rewrite orb_true_r. reflexivity.
Qed.
Print Assumptions C97_ungrouped.

(** Taking the separator's characters away gives the numeral back. *)
Lemma filter_all {A} (p : A -> bool) l : Forall (fun x => p x = true) l -> filter p l = l.
Proof. induction 1; [reflexivity|]. cbn. now rewrite H, IHForall. Qed.
Lemma filter_none {A} (p : A -> bool) l : Forall (fun x => p x = false) l -> filter p l = [].
Proof. induction 1; [reflexivity|]. cbn. now rewrite H. Qed.
Theorem C97_digits_kept g sep d : Forall (fun e => 0 <= e) g -> (forall c, In c d -> ~ In c sep) ->
  filter (fun c => negb (if in_dec Z.eq_dec c sep then true else false)) (grouped g sep d) = d.
Proof.
  set (p := fun c => negb (if in_dec Z.eq_dec c sep then true else false)). intros HF HD.
  assert (PS : filter p sep = []). { apply filter_none, Forall_forall. intros x Hx. unfold p. destruct (in_dec Z.eq_dec x sep); [reflexivity|contradiction]. }
  assert (PD : forall l, (forall c, In c l -> ~ In c sep) -> filter p l = l).
  { intros l Hl. apply filter_all, Forall_forall. intros x Hx. unfold p. destruct (in_dec Z.eq_dec x sep); [exfalso; eapply Hl; eauto|reflexivity]. }
  remember (length d) as n eqn:L. revert g d HF L HD. induction n as [n IH] using (well_founded_induction Wf_nat.lt_wf). intros g d HF L HD.
  destruct g as [|e g].
  { unfold grouped. destruct (length d) eqn:E; cbn [cut_groups map rev app join]; rewrite ?rev_involutive, ?app_nil_r; now apply PD. }
  pose proof (Forall_inv HF) as He. cbv beta in He.
  destruct (Z.eq_dec e 0) as [E|E]; [rewrite !grouped_whole by auto; now apply PD|].
  destruct (Z_le_gt_dec (Z.of_nat (length d)) e) as [E2|E2]; [rewrite !grouped_whole by auto; now apply PD|].
  rewrite <- (firstn_skipn (length d - Z.to_nat e) d).
  assert (L1 : length (firstn (length d - Z.to_nat e) d) = (length d - Z.to_nat e)%nat) by (rewrite firstn_length; lia).
  assert (L2 : length (skipn (length d - Z.to_nat e) d) = Z.to_nat e) by (rewrite skipn_length; lia).
  assert (N1 : firstn (length d - Z.to_nat e) d <> []) by (intros H; rewrite H in L1; cbn in L1; lia).
  rewrite !grouped_step by (try lia; auto; now apply Forall_inv_tail in HF).
  rewrite !filter_app, PS. cbn [app]. f_equal.
  - apply (IH (length d - Z.to_nat e)%nat ltac:(lia) _ _ (later_nonneg _ HF)); [auto|]. intros c Hc. apply HD. rewrite <- (firstn_skipn (length d - Z.to_nat e) d). apply in_or_app. auto.
  - apply PD. intros c Hc. apply HD. rewrite <- (firstn_skipn (length d - Z.to_nat e) d). apply in_or_app. auto.
Qed.
Print Assumptions C97_digits_kept.

(** The size announced is enough; as for C03, unless the type is signed and the flag full is set, or t is the least value and a power of the base. *)
Theorem C97_size_partial fl ty lc t out : In (iw ty) [8; 16; 32; 64; 128] -> 2 <= pf_base fl <= 36 -> (pf_base fl <= 10 -> pf_upper fl = false) ->
  Forall (fun e => 0 <= e) (lc_grouping lc) -> in_range ty t -> (isigned ty = true -> pf_full fl = false) ->
  (iw ty = 128 -> pf_base fl = 10 \/ (In (pf_base fl) [2; 4; 16] /\ pf_upper fl = false)) ->
  (Z.abs t <= int_max ty \/ forall k, 0 <= k -> Z.abs t <> pf_base fl ^ k) ->
  lc_print_int fl ty lc t = Some out -> Z.of_nat (length out) <= lc_reserve fl ty lc.
Proof.
  intros Hw Hb Hup HF Ht Hfull Hc Hmin Hout.
  assert (HC : config_ok fl ty).
  { intros E. destruct (Hc E) as [->|[I U]]; [left; reflexivity|right]. split; [|intros _; exact U]. unfold base128_ok. cbn in I. intuition lia. }
  destruct (print_int_correct fl ty t Hw Hb HC Ht) as (num0 & E0 & N0).
  pose proof (reserve_enough fl ty t _ Hw Hb HC Ht Hfull Hmin E0) as HR. unfold zlen in HR.
  assert (HN : 1 <= Z.of_nat (length num0)).
  { destruct (pf_full fl).
    - destruct N0 as (ds & _ & L & _ & ->). rewrite map_length, L. apply (cal_max_int_size_spec (mk_int (iw ty) false) (pf_base fl) Hw). lia.
    - destruct N0 as (ds & _ & NL & _ & ->). rewrite map_length. destruct ds; [destruct NL|cbn; lia]. }
  unfold lc_reserve. cbv zeta.
  assert (HCS : lc_grouping lc = [] \/ lc_sep lc = [] \/ (lc_grouping lc <> [] /\ lc_sep lc <> [])).
  { destruct (lc_grouping lc); [auto|]. destruct (lc_sep lc); [auto|]. right; right. split; discriminate. }
  assert (HP : 1 <= reserved_size fl ty) by (rewrite !app_length in HR; lia).
  destruct HCS as [H|[H|[Hg Hs]]].
  1,2: rewrite C97_ungrouped in Hout by auto; rewrite E0 in Hout; injection Hout as <-; nia.
  destruct (C97_grouped fl ty lc t Hw Hb Hup Hg Hs HF Ht) as (num & E & N). rewrite E in Hout. injection Hout as <-.
  assert (HLen : length num = length num0).
  { destruct (pf_full fl).
    - destruct N as (n & Hn & ds & O & L & V & ->). destruct N0 as (ds0 & O0 & L0 & V0 & ->). rewrite !map_length.
      pose proof (cal_max_int_size_spec (mk_int (iw ty) false) (pf_base fl) Hw ltac:(lia)) as M.
      assert (M' : digit_count (pf_base fl) (2 ^ iw ty - 1) n).
      { split; [|split; [lia|right; lia]]. assert (2 ^ 1 <= 2 ^ iw ty) by (apply Z.pow_le_mono_r; [lia|apply width_cases in Hw; lia]).
        destruct (Z_le_gt_dec 1 n); [assumption|]. destruct Hn as [_ Hn]. assert (n <= 0) by lia. destruct (Z.eq_dec n 0) as [->|]; [rewrite Z.pow_0_r in Hn; lia|].
        rewrite Z.pow_neg_r in Hn by lia. lia. }
      assert (n = cal_max_int_size (mk_int (iw ty) false) (pf_base fl)); [|lia].
      apply (digit_count_unique (pf_base fl) (2 ^ iw ty - 1)); [lia| |exact M'|exact M].
      assert (2 ^ 0 <= 2 ^ iw ty) by (apply Z.pow_le_mono_r; [lia|apply width_cases in Hw; lia]). lia.
    - destruct N as (ds & O & L & V & ->). destruct N0 as (ds0 & O0 & L0 & V0 & ->). rewrite !map_length.
      now rewrite (numeral_unique_digits (pf_base fl) ds ds0) by (auto; lia). }
  pose proof (grouped_length (lc_grouping lc) (lc_sep lc) num HF) as GL. rewrite !app_length in *. rewrite HLen in *. nia.
Qed.
Print Assumptions C97_size_partial.

(** The size of the least value in a base whose power it is: one character short, whatever the locale. *)
Theorem C97_size_refuted : exists fl ty lc t out, In (iw ty) [8; 16; 32; 64; 128] /\ in_range ty t /\ lc_print_int fl ty lc t = Some out /\
  lc_reserve fl ty lc < Z.of_nat (length out).
Proof.
  exists (mk_pflags 2 false false false false false), (mk_int 8 true), (mk_lc (text ".") (text ",") [1]), (-128), (text "-1,0,0,0,0,0,0,0").
  split; [cbn; auto|]. split; [unfold in_range; cbn; lia|]. split; vm_compute; reflexivity.
Qed.
Print Assumptions C97_size_refuted.

(** Timestamps: the seconds grouped, the locale's decimal point and the fraction without trailing zeros; within the size announced. *)
Theorem C97_stamp lc t : lc_grouping lc <> [] -> lc_sep lc <> [] -> Forall (fun e => 0 <= e) (lc_grouping lc) -> in_range int64_ty (ts_sec t) -> 0 <= ts_sub t < per_second ->
  exists num frac, is_numeral 10 false (Z.abs (ts_sec t)) num /\ fraction_text (ts_sub t) frac /\
    lc_print_stamp lc t = Some (sign_text false (ts_sec t) ++ grouped (lc_grouping lc) (lc_sep lc) num ++ (if ts_sub t =? 0 then [] else lc_point lc ++ tl frac)) /\
    Z.of_nat (length (sign_text false (ts_sec t) ++ grouped (lc_grouping lc) (lc_sep lc) num ++ (if ts_sub t =? 0 then [] else lc_point lc ++ tl frac))) <= lc_stamp_reserve lc.
Proof.
  intros Hg Hs HF Ht Hsub.
  destruct (C97_grouped default_pflags int64_ty lc (ts_sec t) ltac:(cbn; auto) ltac:(cbn; lia) (fun _ => eq_refl) Hg Hs HF Ht) as (num & E & N).
  cbn [pf_full default_pflags pf_base pf_upper pf_showpos pf_showbase app] in E, N.
  assert (HSZ : Z.of_nat (length (sign_text false (ts_sec t) ++ grouped (lc_grouping lc) (lc_sep lc) num)) <= lc_reserve default_pflags int64_ty lc).
  { apply (C97_size_partial default_pflags int64_ty lc (ts_sec t) _ ltac:(cbn; auto) ltac:(cbn; lia) (fun _ => eq_refl) HF Ht (fun _ => eq_refl) ltac:(cbn; lia)); [|exact E].
    destruct (Z.eq_dec (Z.abs (ts_sec t)) (2 ^ 63)) as [EQ|NE].
    - right. intros k Hk. rewrite EQ. change (pf_base default_pflags) with 10. apply pow2_not_pow10; lia.
    - left. unfold in_range, int_min, int_max in *. cbn [isigned int64_ty iw] in *. lia. }
  unfold lc_print_stamp. rewrite E.
  destruct (Z.eqb_spec (ts_sub t) 0) as [Z0|NZ].
  - exists num, []. split; [exact N|]. split; [unfold fraction_text; destruct (Z.eqb_spec (ts_sub t) 0); [reflexivity|contradiction]|].
    cbn [opt_app]. rewrite !app_nil_r. split; [reflexivity|]. unfold lc_stamp_reserve. unfold lc_reserve in HSZ. cbv zeta in *. lia.
  - destruct (print_subseconds_ok (ts_sub t) ltac:(lia)) as (frac & EF & F). exists num, frac. split; [exact N|]. split; [exact F|].
    unfold print_subseconds in EF. destruct (trim_zeros 20 (ts_sub t) 19) as [s sz]. destruct (main_impl_word 10 false s sz) as [d|]; [|discriminate].
    cbn [opt_app app] in EF. injection EF as <-. cbn [opt_app tl]. rewrite <- app_assoc. split; [reflexivity|].
    assert (LD : (length d <= 19)%nat).
    { unfold fraction_text in F. destruct (Z.eqb_spec (ts_sub t) 0); [contradiction|]. destruct F as (ds & x & _ & L & _ & _ & EQ).
      apply (f_equal (@length Z)) in EQ. unfold zlen in L. rewrite app_length, map_length in EQ. cbn in EQ. rewrite app_length in EQ, L. cbn in EQ, L. lia. }
    rewrite app_assoc, app_length, (app_length (lc_point lc)). unfold lc_stamp_reserve. unfold lc_reserve in HSZ. cbv zeta in *. lia.
Qed.
Print Assumptions C97_stamp.

(** Concrete cases: en_US, the Indian grouping 3;2, no more groups after the first (-1), a separator of three bytes (U+202F), hexadecimal. *)
Example C97_us : lc_print_int default_pflags (mk_int 64 true) (mk_lc (text ".") (text ",") [3]) (-1234567) = Some (text "-1,234,567").
Proof. vm_compute. reflexivity. Qed.
Example C97_india : lc_print_int default_pflags (mk_int 64 true) (mk_lc (text ".") (text ",") [3; 2]) 123456789 = Some (text "12,34,56,789").
Proof. vm_compute. reflexivity. Qed.
Example C97_once : lc_print_int default_pflags (mk_int 32 false) (mk_lc (text ".") (text ".") [3; 2 ^ 64 - 1]) 123456789 = Some (text "123456.789").
Proof. vm_compute. reflexivity. Qed.
Example C97_narrow : lc_print_int default_pflags (mk_int 32 false) (mk_lc (text ",") [226; 128; 175] [3]) 12345 = Some (text "12" ++ [226; 128; 175] ++ text "345").
Proof. vm_compute. reflexivity. Qed.
Example C97_hex128 : lc_print_int (mk_pflags 16 true false false true false) (mk_int 128 false) (mk_lc (text ",") (text "'") [4]) (2 ^ 68) = Some (text "0x10'0000'0000'0000'0000").
Proof. vm_compute. reflexivity. Qed.
Example C97_stamp_met : lc_print_stamp (mk_lc (text ",") (text ".") [3]) (mk_stamp 1234567 (per_second / 4)) = Some (text "1.234.567,25").
Proof. vm_compute. reflexivity. Qed.
