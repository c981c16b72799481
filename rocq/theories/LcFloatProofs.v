(** Floating point numbers printed with a locale: the texts. *)
From Coq Require Import QArith.
From Verif Require Import Base LcModel LcSpec LcProofs Outcome NumSpec NumFacts IntPrintModel IntPrintProofs IntPrintCorrect IntSizeProofs JeaiiiProofs
  FloatTables FloatModel FloatSpec FloatTextSpec FloatTextModel FloatCodeProofs FloatTextProofs FloatTextCases FloatTextForms FloatTextMeaning
  FloatReachProofs FloatPrintProofs LcFloatModel.
Local Open Scope Z_scope.

Lemma skip_skip k (l : list Z) : forall n, skipn k (skipn n l) = skipn (n + k) l.
Proof. induction l as [|x l IH]; intros n; [rewrite !skipn_nil; reflexivity|]. destruct n; [reflexivity|]. cbn [skipn Nat.add]. apply IH. Qed.

(** ** Moving digits to the front to make room for the point *)
Lemma shift_word buf pos p ds e q : 0 <= pos -> 0 < e <= zlen ds -> q = pos + zlen p + zlen ds ->
  (let! b := put buf (pos + zlen p) ds in let! m := get b (pos + zlen p) e in let! b := put b pos m in let! b := put b (pos + e) p in Done (b, q)) =
  emit (firstn (Z.to_nat e) ds ++ p ++ skipn (Z.to_nat e) ds) (buf, pos).
Proof.
  intros Hp He ->. pose proof (zlen_nonneg p) as P0. pose proof (zlen_nonneg ds) as D0. unfold emit. cbn [fst snd].
  assert (LT : zlen (firstn (Z.to_nat e) ds ++ p ++ skipn (Z.to_nat e) ds) = zlen p + zlen ds).
  { unfold zlen in *. rewrite !app_length, firstn_length, skipn_length. lia. }
  destruct (Z_le_gt_dec (pos + zlen p + zlen ds) (zlen buf)) as [H|H].
  2:{ rewrite (put_none buf (pos + zlen p)) by lia. rewrite put_none by lia. reflexivity. }
  destruct (split_buf buf pos (zlen p + zlen ds) Hp ltac:(lia) ltac:(lia)) as (pre & mid & post & -> & A & B).
  set (k := Z.to_nat (zlen p)). assert (Lk : length p = k) by (unfold k, zlen; lia).
  assert (Lmid : length mid = (k + length ds)%nat) by (unfold zlen in B; rewrite <- Lk; lia).
  set (m1 := firstn k mid). set (m2 := skipn k mid).
  assert (Em : mid = m1 ++ m2) by (symmetry; apply firstn_skipn).
  assert (L1 : zlen m1 = zlen p) by (unfold zlen, m1; rewrite firstn_length; lia).
  assert (L2 : zlen m2 = zlen ds) by (unfold zlen, m2; rewrite skipn_length; lia).
  rewrite Em at 1. replace (pre ++ (m1 ++ m2) ++ post) with ((pre ++ m1) ++ m2 ++ post) by (rewrite <- !app_assoc; reflexivity).
  rewrite (put_split' (pre ++ m1) m2 post ds) by (rewrite ?zlen_app; lia). cbn [obind].
  assert (Eds : ds = firstn (Z.to_nat e) ds ++ skipn (Z.to_nat e) ds) by (symmetry; apply firstn_skipn).
  assert (Lf : zlen (firstn (Z.to_nat e) ds) = e) by (unfold zlen in *; rewrite firstn_length; lia).
  set (X := m1 ++ ds). assert (LX : length X = (k + length ds)%nat) by (unfold X; rewrite app_length; unfold zlen in L1; lia).
  assert (EB : (pre ++ m1) ++ ds ++ post = pre ++ X ++ post) by (unfold X; rewrite <- !app_assoc; reflexivity).
  assert (G : get ((pre ++ m1) ++ ds ++ post) (pos + zlen p) e = Done (firstn (Z.to_nat e) ds)).
  { rewrite Eds at 1. rewrite <- (app_assoc (firstn _ _)). apply get_split; rewrite ?zlen_app; lia. }
  rewrite G. cbn [obind]. rewrite EB. clear G EB.
  set (n := Z.to_nat e) in *. assert (Hn : (n <= length ds)%nat) by (unfold n, zlen in *; lia).
  replace (pre ++ X ++ post) with (pre ++ firstn n X ++ (skipn n X ++ post)) by (rewrite (app_assoc (firstn n X)), firstn_skipn; reflexivity).
  rewrite (put_split' pre (firstn n X) (skipn n X ++ post)) by (rewrite ?Lf; unfold zlen in *; rewrite ?firstn_length; lia). cbn [obind].
  replace (pre ++ firstn n ds ++ skipn n X ++ post) with
    ((pre ++ firstn n ds) ++ firstn k (skipn n X) ++ (skipn k (skipn n X) ++ post))
    by (rewrite (app_assoc (firstn k _)), firstn_skipn, <- !app_assoc; reflexivity).
  rewrite (put_split' (pre ++ firstn n ds) (firstn k (skipn n X))); [|rewrite zlen_app; lia|unfold zlen; rewrite firstn_length, skipn_length; lia]. cbn [obind].
  assert (ES : skipn k (skipn n X) = skipn n ds).
  { transitivity (skipn n (skipn k X)).
    - rewrite !skip_skip. f_equal. lia.
    - f_equal. unfold X. rewrite skipn_app. unfold m1. rewrite firstn_length, Lmid. replace (k - Nat.min k (k + length ds))%nat with 0%nat by lia.
      rewrite skipn_all2 by (rewrite firstn_length; lia). reflexivity. }
  rewrite ES. rewrite (put_split' pre mid post) by lia. cbn [obind]. rewrite <- !app_assoc. rewrite LT. do 2 f_equal; lia.
Qed.

(** ** The loops that group *)
Lemma rest_copy_ok src : forall acc, src <> [] -> rest_copy src acc = Done (rev src ++ acc).
Proof.
  induction src as [|c rest IH]; intros acc H; [congruence|]. cbn [rest_copy rev]. destruct rest as [|c2 rest]; [reflexivity|].
  rewrite IH by discriminate. rewrite <- app_assoc. reflexivity.
Qed.
Lemma group_copy_done src : forall e j acc, src <> [] -> zlen src <= e - j -> group_copy src e j acc = Done (GDone (rev src ++ acc)).
Proof.
  induction src as [|c rest IH]; intros e j acc H He; [congruence|]. unfold zlen in *. cbn [length] in He. cbn [group_copy rev].
  destruct (Z.eqb_spec j e); [lia|]. destruct rest as [|c2 rest]; [reflexivity|].
  rewrite IH by (try discriminate; lia). rewrite <- app_assoc. reflexivity.
Qed.
Lemma group_copy_more k : forall src e j acc, e - j = Z.of_nat k -> (k < length src)%nat ->
  group_copy src e j acc = Done (GMore (skipn k src) (rev (firstn k src) ++ acc)).
Proof.
  induction k as [|k IH]; intros src e j acc He Hk.
  - destruct src; cbn [group_copy]; (destruct (Z.eqb_spec j e); [reflexivity|lia]).
  - destruct src as [|c rest]; [cbn in Hk; lia|]. cbn [length] in Hk. cbn [group_copy]. destruct (Z.eqb_spec j e); [lia|].
    destruct rest as [|c2 rest]; [cbn in Hk; lia|]. rewrite IH by lia. cbn [firstn skipn rev]. rewrite <- app_assoc. reflexivity.
Qed.
Lemma rev_parts (n : nat) (l : list Z) : rev l = rev (skipn n l) ++ rev (firstn n l).
Proof. rewrite <- rev_app_distr, firstn_skipn. reflexivity. Qed.
Lemma rev_nonempty (l : list Z) : (0 < length l)%nat -> rev l <> [].
Proof. intros H E. apply (f_equal (@length _)) in E. rewrite rev_length in E. cbn in E. lia. Qed.
Lemma last_copy_ok : forall n src k e ch acc, length src = n -> src <> [] -> (n < k)%nat -> 0 < e ->
  last_copy k e ch src acc = Done (grouped [e] [ch] (rev src) ++ acc).
Proof.
  induction n as [n IH] using (well_founded_induction Wf_nat.lt_wf). intros src k e ch acc L H Hk He. destruct k as [|k]; [lia|]. cbn [last_copy].
  destruct (Z_le_gt_dec (zlen src) e) as [E|E].
  - rewrite group_copy_done by (try lia; assumption). cbn [obind]. rewrite grouped_whole; [reflexivity|]. right. rewrite rev_length. exact E.
  - unfold zlen in E. rewrite (group_copy_more (Z.to_nat e)) by lia. cbn [obind].
    assert (L1 : length (skipn (Z.to_nat e) src) = (n - Z.to_nat e)%nat) by (rewrite skipn_length; lia).
    rewrite (IH (n - Z.to_nat e)%nat ltac:(lia) _ k e ch _ L1); [|intros X; rewrite X in L1; cbn in L1; lia|lia|exact He].
    rewrite (rev_parts (Z.to_nat e) src). rewrite grouped_step; [|exact He|constructor|rewrite rev_length, firstn_length; lia|apply rev_nonempty; lia].
    cbn [later]. rewrite <- !app_assoc. reflexivity.
Qed.
Lemma groups_copy_ok : forall g src prev ch acc, src <> [] -> Forall (fun e => 0 <= e) g -> (g = [] -> 0 < prev) ->
  groups_copy g prev ch src acc = Done (grouped (match g with [] => [prev] | _ => g end) [ch] (rev src) ++ acc).
Proof.
  induction g as [|e g IH]; intros src prev ch acc H HF Hp; cbn [groups_copy]; [apply (last_copy_ok (length src)); auto|].
  pose proof (Forall_inv HF) as He. cbv beta in He. apply Forall_inv_tail in HF.
  destruct (Z.eqb_spec e 0) as [->|Ne]; [rewrite rest_copy_ok by assumption; rewrite grouped_whole by auto; reflexivity|].
  destruct (Z_le_gt_dec (zlen src) e) as [E|E].
  - rewrite group_copy_done by (try lia; assumption). cbn [obind]. rewrite grouped_whole; [reflexivity|]. right. rewrite rev_length. exact E.
  - unfold zlen in E. rewrite (group_copy_more (Z.to_nat e)) by lia. cbn [obind].
    assert (L1 : length (skipn (Z.to_nat e) src) = (length src - Z.to_nat e)%nat) by (rewrite skipn_length; lia).
    rewrite IH; [|intros X; rewrite X in L1; cbn in L1; lia|exact HF|lia].
    rewrite (rev_parts (Z.to_nat e) src). rewrite grouped_step; [|lia|exact HF|rewrite rev_length, firstn_length; lia|apply rev_nonempty; lia].
    replace (later (e :: g)) with (match g with [] => [e] | _ => g end) by (destruct g; reflexivity). rewrite <- !app_assoc. reflexivity.
Qed.
Lemma handle_ok n lc src st : src <> [] -> lc_grouping lc <> [] -> Forall (fun e => 0 <= e) (lc_grouping lc) -> Forall (fun c => c <> 44) src ->
  zlen src <= n -> grouping_handle_buffer n lc src st = emit (grouped (lc_grouping lc) (lc_sep lc) src) st.
Proof.
  intros H Hg HF H44 Hn. unfold grouping_handle_buffer. cbv zeta. set (ch := match lc_sep lc with [c] => c | _ => 44 end).
  rewrite groups_copy_ok; [|intros X; apply H; rewrite <- (rev_involutive src), X; reflexivity|exact HF|intros X; congruence].
  rewrite rev_involutive, app_nil_r.
  replace (match lc_grouping lc with [] => [0] | _ :: _ => lc_grouping lc end) with (lc_grouping lc) by (destruct (lc_grouping lc); congruence).
  cbn [obind]. pose proof (grouped_length (lc_grouping lc) [ch] src HF) as GL. cbn [length] in GL.
  destruct (Z.ltb_spec (n * 2) (zlen (grouped (lc_grouping lc) [ch] src))) as [X|X]; [unfold zlen in *; lia|].
  f_equal. unfold ch. destruct (lc_sep lc) as [|c [|c2 s]] eqn:ES; [apply put_seps_grouped; assumption|reflexivity|apply put_seps_grouped; assumption].
Qed.

(** ** Digits *)
Lemma dtext_digits m len : 0 <= len -> Forall (fun c => 48 <= c <= 57) (dtext m len).
Proof.
  intros H. unfold dtext. apply Forall_map. pose proof (digs_ok 10 (Z.to_nat len) m ltac:(lia)) as D. unfold digits_ok in D.
  eapply Forall_impl; [|exact D]. cbv beta. intros d Hd. assert (X : In d [0;1;2;3;4;5;6;7;8;9]) by (cbn [In]; lia). cbn [In] in X.
  repeat destruct X as [<-|X]; try contradiction; vm_compute; intuition discriminate.
Qed.
Lemma zeros_digits n : Forall (fun c => 48 <= c <= 57) (repeat 48 n).
Proof. induction n; constructor; [lia|assumption]. Qed.
Lemma digits_no_comma l : Forall (fun c => 48 <= c <= 57) l -> Forall (fun c => c <> 44) l.
Proof. apply Forall_impl. intros. lia. Qed.
Lemma forall_part (P : Z -> Prop) n l : Forall P l -> Forall P (firstn n l) /\ Forall P (skipn n l).
Proof. intros H. rewrite <- (firstn_skipn n l) in H. apply Forall_app in H. exact H. Qed.
Lemma get_stored n txt : zlen txt <= n -> get (fst (stored (cells n) 0 txt)) 0 (zlen txt) = Done txt.
Proof.
  intros H. unfold stored. cbn [fst]. change (Z.to_nat 0) with 0%nat. cbn [firstn app Nat.add].
  apply (get_split [] txt); reflexivity.
Qed.
Lemma cells_len n : 0 <= n -> zlen (cells n) = n.
Proof. intros H. unfold zlen, cells. rewrite repeat_length. lia. Qed.

Section LcDecision.
Variables (f : fmt) (fl : fflags) (lc : lc_numeric) (m e len : Z).
Hypothesis Kf : known f.
Hypothesis R : reach f m e len.
Hypothesis HF : Forall (fun e => 0 <= e) (lc_grouping lc).
Let w := mantw f.
Let Hw : w = 32 \/ w = 64.
Proof. apply known_w. exact Kf. Qed.
Let Hm : 0 < m < 10 ^ digits_bound w.
Proof. apply R. Qed.
Let Hl : digit_count 10 m len.
Proof. apply R. Qed.
Let Ln : 1 <= len <= 17 := reach_len f m e len R.
Let Lb : len <= digits_bound w := len_bound w m len Hm Hl.

Lemma lc_put_ok l buf pos : l = len -> lc_put_digits w m l buf pos = put buf pos (dtext m len).
Proof.
  intros ->. unfold lc_put_digits. pose proof Hl as (_ & A & _).
  rewrite main_impl_spec; [reflexivity| |lia|intros E; destruct Hw; lia|reflexivity|lia| |exact A].
  - cbn. destruct Hw as [E|E]; rewrite E; tauto.
  - split; [lia|]. apply Z.lt_le_trans with (10 ^ digits_bound w); [lia|]. unfold digits_bound. destruct Hw as [-> | ->]; vm_compute; discriminate.
Qed.
Lemma dtl : zlen (dtext m len) = len.
Proof. apply dtext_len. lia. Qed.
Definition with_point (n : Z) (txt : list Z) : list Z := firstn (Z.to_nat n) txt ++ lc_point lc ++ skipn (Z.to_nat n) txt.
Lemma dgs_ok st : 0 <= snd st -> lc_fp_dgs_common (lc_point lc) w m len st = emit (with_point 1 (dtext m len)) st.
Proof.
  intros Hs. destruct st as [buf iter]. cbn [snd] in Hs. unfold lc_fp_dgs_common. cbv zeta. rewrite lc_put_ok by reflexivity.
  replace (iter + len + zlen (lc_point lc) - len) with (iter + zlen (lc_point lc)) by lia.
  apply shift_word; [exact Hs|rewrite dtl; lia|rewrite dtl; lia].
Qed.
Lemma decimal_common_ok st : 0 <= snd st ->
  lc_fp_decimal_common (lc_point lc) w m len st = emit (if len =? 1 then dtext m len else with_point 1 (dtext m len)) st.
Proof.
  intros Hs. unfold lc_fp_decimal_common. destruct (Z.eqb_spec len 1) as [E|E]; [|apply dgs_ok; exact Hs].
  pose proof Hl as (_ & A & _). rewrite E in A |- *. rewrite one_digit_text by lia. reflexivity.
Qed.
Lemma plain_case1_ok re st : 0 <= re < len -> 0 <= snd st ->
  lc_no_grouping_case1 (lc_point lc) w m len re st = emit (if len =? re + 1 then dtext m len else with_point (re + 1) (dtext m len)) st.
Proof.
  intros H Hs. destruct st as [buf iter]. cbn [snd] in Hs. unfold lc_no_grouping_case1. cbv zeta.
  rewrite !(wrap_id 32) by lia. rewrite !lc_put_ok by reflexivity. destruct (Z.eqb_spec len (re + 1)) as [E|E].
  - replace (iter + len - len) with iter by lia. apply emit_put. rewrite dtl. lia.
  - replace (iter + (len + zlen (lc_point lc)) - len) with (iter + zlen (lc_point lc)) by lia.
    apply shift_word; [exact Hs|rewrite dtl; lia|rewrite dtl; lia].
Qed.
Lemma case2_ok re st : -1000 < re < 0 -> lc_case2_all_point (lc_point lc) w m len re st =
  emit ([48] ++ lc_point lc ++ repeat 48 (Z.to_nat (- re - 1)) ++ dtext m len) st.
Proof.
  intros H. unfold lc_case2_all_point. rewrite !(wrap_id 32) by lia. rewrite <- emit_app.
  destruct (emit [48] st) as [s1| |]; cbn [obind]; try reflexivity. rewrite <- emit_app.
  destruct (emit (lc_point lc) s1) as [s2| |] eqn:E2; cbn [obind]; try reflexivity.
  rewrite fill_zeros_spec by exact (emit_in _ _ _ E2). rewrite <- emit_app.
  destruct (emit _ s2) as [[b q]| |]; cbn [obind]; try reflexivity. rewrite lc_put_ok by reflexivity. apply emit_put. rewrite dtl. reflexivity.
Qed.
Lemma no_grouping_false : no_grouping lc = false -> lc_grouping lc <> [] /\ lc_sep lc <> [].
Proof.
  unfold no_grouping. intros H. apply orb_false_iff in H as [A B]. apply Z.eqb_neq in A, B. split; intros X; rewrite X in *; cbn in *; lia.
Qed.
Lemma grouped_case0_ok n re st : no_grouping lc = false -> len <= re < 1000 -> re + 1 <= n ->
  lc_grouping_case0 n f lc m len re st =
  emit (grouped (lc_grouping lc) (lc_sep lc) (dtext m len ++ repeat 48 (Z.to_nat (re + 1 - len)))) st.
Proof.
  intros NG H Hn. destruct (no_grouping_false NG) as [Hg _]. unfold lc_grouping_case0. fold w. rewrite (case0_text w m len Hw Hm Hl) by exact H.
  set (txt := dtext m len ++ repeat 48 (Z.to_nat (re + 1 - len))).
  assert (LT : zlen txt = re + 1) by (unfold txt; rewrite zlen_app, dtl; unfold zlen; rewrite repeat_length; lia).
  rewrite emit_stored by (rewrite ?cells_len; lia). cbn [obind].
  change (snd (stored (cells n) 0 txt)) with (zlen txt). rewrite get_stored by lia. cbn [obind].
  apply handle_ok; [|exact Hg|exact HF| |lia].
  - intros X. rewrite X in LT. cbn in LT. lia.
  - apply digits_no_comma, Forall_app. split; [apply dtext_digits; lia|apply zeros_digits].
Qed.
Lemma put_cells n : len <= n -> put (cells n) 0 (dtext m len) = Done (fst (stored (cells n) 0 (dtext m len))).
Proof.
  intros H. pose proof (emit_stored (dtext m len) (cells n) 0 ltac:(lia) ltac:(rewrite dtl, cells_len; lia)) as E. unfold emit in E. cbn [fst snd] in E.
  destruct (put (cells n) 0 (dtext m len)) as [b| |]; try discriminate E. cbn [obind] in E. injection E as ->. reflexivity.
Qed.
Lemma get_part n a k : len <= n -> 0 <= a -> 0 <= k -> a + k = len \/ a = 0 /\ k <= len ->
  get (fst (stored (cells n) 0 (dtext m len))) a k = Done (firstn (Z.to_nat k) (skipn (Z.to_nat a) (dtext m len))).
Proof.
  intros Hn Ha Hk H. pose proof dtl as D. unfold stored. cbn [fst]. change (Z.to_nat 0) with 0%nat. cbn [firstn app Nat.add].
  set (post := skipn (length (dtext m len)) (cells n)). 
  rewrite <- (firstn_skipn (Z.to_nat a) (dtext m len)) at 1. rewrite <- app_assoc.
  rewrite <- (firstn_skipn (Z.to_nat k) (skipn (Z.to_nat a) (dtext m len))) at 1. rewrite <- app_assoc.
  apply get_split; unfold zlen in *; rewrite ?firstn_length, ?skipn_length; lia.
Qed.
Lemma grouped_case1_ok re st : no_grouping lc = false -> 0 <= re < len -> 0 <= snd st ->
  lc_grouping_case1 f lc m len re st =
  emit (if len =? re + 1 then grouped (lc_grouping lc) (lc_sep lc) (dtext m len)
        else grouped (lc_grouping lc) (lc_sep lc) (firstn (Z.to_nat (re + 1)) (dtext m len)) ++ lc_point lc ++ skipn (Z.to_nat (re + 1)) (dtext m len)) st.
Proof.
  intros NG H Hs. destruct (no_grouping_false NG) as [Hg _]. pose proof dtl as D.
  assert (N : len <= m10digits f + e10digits f + 2).
  { eapply Z.le_trans; [exact Lb|]. unfold w. destruct Kf as [-> | ->]; vm_compute; discriminate. }
  unfold lc_grouping_case1. fold w. cbv zeta. rewrite !(wrap_id 32) by lia. rewrite lc_put_ok by reflexivity. rewrite put_cells by exact N. cbn [obind].
  pose proof (dtext_digits m len ltac:(lia)) as DD.
  destruct (Z.eqb_spec len (re + 1)) as [E|E].
  - rewrite get_part by lia. cbn [obind]. change (Z.to_nat 0) with 0%nat. cbn [skipn]. rewrite firstn_all2 by (unfold zlen in D; lia).
    apply handle_ok; [|exact Hg|exact HF|apply digits_no_comma; exact DD|lia]. intros X. rewrite X in D. cbn in D. lia.
  - rewrite get_part by lia. cbn [obind]. change (Z.to_nat 0) with 0%nat. cbn [skipn].
    assert (LF : zlen (firstn (Z.to_nat (re + 1)) (dtext m len)) = re + 1) by (unfold zlen in *; rewrite firstn_length; lia).
    rewrite handle_ok; [|intros X; rewrite X in LF; cbn in LF; lia|exact Hg|exact HF|apply digits_no_comma, forall_part; exact DD|lia].
    rewrite <- emit_app. destruct (emit _ st) as [s1| |]; cbn [obind]; try reflexivity. rewrite <- emit_app.
    destruct (emit (lc_point lc) s1) as [s2| |]; cbn [obind]; try reflexivity.
    rewrite get_part by lia. cbn [obind]. rewrite firstn_all2 by (rewrite skipn_length; unfold zlen in D; lia). reflexivity.
Qed.

(** ** The texts *)
Definition locale_digits (l : list Z) : list Z := if no_grouping lc then l else grouped (lc_grouping lc) (lc_sep lc) l.
Definition lc_fixed_text : list Z :=
  let re := e + len - 1 in
  if len <=? re then locale_digits (dtext m len ++ repeat 48 (Z.to_nat (re + 1 - len)))
  else if 0 <=? re then
    if len =? re + 1 then locale_digits (dtext m len)
    else locale_digits (firstn (Z.to_nat (re + 1)) (dtext m len)) ++ lc_point lc ++ skipn (Z.to_nat (re + 1)) (dtext m len)
  else [48] ++ lc_point lc ++ repeat 48 (Z.to_nat (- re - 1)) ++ dtext m len.
Definition lc_scientific_text : list Z :=
  (if len =? 1 then dtext m len else with_point 1 (dtext m len)) ++ exp_text f (ff_upper_e fl) (e + len - 1).

Lemma lc_case0_is n re st : len <= re < 1000 -> re + 1 <= n ->
  (if no_grouping lc then fixed_case0_full_integer w m len re st else lc_grouping_case0 n f lc m len re st) =
  emit (locale_digits (dtext m len ++ repeat 48 (Z.to_nat (re + 1 - len)))) st.
Proof.
  intros H Hn. unfold locale_digits. destruct (no_grouping lc) eqn:NG; [apply (case0_text w m len Hw Hm Hl); exact H|apply grouped_case0_ok; assumption].
Qed.
Lemma lc_case1_is re st : 0 <= re < len -> 0 <= snd st ->
  (if no_grouping lc then lc_no_grouping_case1 (lc_point lc) w m len re st else lc_grouping_case1 f lc m len re st) =
  emit (if len =? re + 1 then locale_digits (dtext m len)
        else locale_digits (firstn (Z.to_nat (re + 1)) (dtext m len)) ++ lc_point lc ++ skipn (Z.to_nat (re + 1)) (dtext m len)) st.
Proof.
  intros H Hs. unfold locale_digits. destruct (no_grouping lc) eqn:NG; [apply plain_case1_ok; assumption|apply grouped_case1_ok; assumption].
Qed.
Lemma lc_fixed_is st : 0 <= snd st -> lc_fixed_decision f lc m e st = emit lc_fixed_text st.
Proof.
  intros Hs. pose proof (re_range f m e len R) as RR. unfold lc_fixed_decision. fold w. rewrite (len_eq w m len Hw Hm Hl). cbv zeta.
  rewrite (re_signed f m e len R). cbn [obind]. unfold lc_fixed_text. cbv zeta.
  destruct (Z.leb_spec len (e + len - 1)) as [L|L].
  - apply lc_case0_is; [lia|]. pose proof (proj2 (proj2 (proj2 R))) as M. revert M. unfold dec_max. destruct Kf as [-> | ->]; cbn; lia.
  - destruct (Z.leb_spec 0 (e + len - 1)) as [L0|L0]; cbn [andb].
    + destruct (Z.ltb_spec (e + len - 1) len); [|lia]. apply lc_case1_is; [lia|exact Hs].
    + apply case2_ok. lia.
Qed.
Lemma lc_scientific_is st : 0 <= snd st -> lc_scientific f fl lc m e st = emit lc_scientific_text st.
Proof.
  intros Hs. pose proof (re_range f m e len R) as RR. unfold lc_scientific, lc_scientific_text. fold w. rewrite (len_eq w m len Hw Hm Hl).
  pose proof Hl as (_ & A & B). destruct (Z.ltb_spec m 10) as [L|L].
  - assert (E : len = 1).
    { destruct B as [B|B]; [exact B|]. destruct (Z_le_gt_dec len 1) as [X|X]; [lia|]. assert (10 ^ 1 <= 10 ^ (len - 1)) by (apply Z.pow_le_mono_r; lia). lia. }
    rewrite one_digit_text by lia. rewrite E. change (1 =? 1) with true. cbn [lift obind]. rewrite <- emit_app.
    destruct (emit _ st); cbn [obind]; try reflexivity. replace (e + 1 - 1) with e by lia. apply e_text.
    pose proof (exp_fits f m e len Kf R) as X. rewrite E in X. replace (e + 1 - 1) with e in X by lia. exact X.
  - assert (E : len <> 1). { intros E. rewrite E in A. lia. }
    destruct (Z.eqb_spec len 1) as [|_]; [contradiction|]. cbv zeta. rewrite (wrap_id 32 len) by lia. rewrite (wrap_id 32 (len - 1)) by lia.
    assert (T : to_signed 32 (len - 1) = len - 1).
    { unfold to_signed. rewrite wrap_id by lia. destruct (Z.ltb_spec (len - 1) (2 ^ (32 - 1))) as [|G]; [reflexivity|].
      change (2 ^ (32 - 1)) with 2147483648 in G. lia. }
    rewrite T. replace (e + (len - 1)) with (e + len - 1) by lia. rewrite (re_signed f m e len R). cbn [obind].
    rewrite dgs_ok by exact Hs. rewrite <- emit_app. destruct (emit _ st); cbn [obind]; try reflexivity. apply e_text. exact (exp_fits f m e len Kf R).
Qed.
Lemma lc_decimal_is st : 0 <= snd st -> f = binary64 \/ ~ (len = 9 /\ e = 5) ->
  lc_decimal f fl lc m e st = emit (if take_scientific e len then lc_scientific_text else lc_fixed_text) st.
Proof.
  intros Hs N9. pose proof (re_range f m e len R). unfold lc_decimal. fold w. rewrite (len_eq w m len Hw Hm Hl). cbv zeta.
  rewrite (re_signed f m e len R). cbn [obind].
  assert (S : wrap 32 (if len =? 1 then len + 3 else len + 5) = (if len =? 1 then len + 3 else len + 5)).
  { apply wrap_id. destruct (len =? 1); lia. }
  rewrite S. unfold take_scientific, lc_fixed_text. cbv zeta.
  assert (SC : forall st, 0 <= snd st ->
    (let! s := lc_fp_decimal_common (lc_point lc) w m (wrap 32 len) st in print_rsv_fp_e f (ff_upper_e fl) (e + len - 1) s) = emit lc_scientific_text st).
  { intros s0 Hs0. rewrite wrap_id by lia. rewrite decimal_common_ok by assumption. unfold lc_scientific_text. rewrite <- emit_app.
    destruct (emit _ s0); cbn [obind]; try reflexivity. apply e_text. exact (exp_fits f m e len Kf R). }
  destruct (Z.leb_spec len (e + len - 1)) as [L|L]; cbv beta iota.
  - rewrite wrap_id by lia. destruct (Z.ltb_spec (if len =? 1 then len + 3 else len + 5) (e + len - 1 + 1)) as [X|X]; [apply SC; assumption|].
    change (1 =? 1) with true. cbv iota. apply lc_case0_is; [lia|].
    pose proof Lb as Lb'. revert X Lb' N9. unfold w, digits_bound. destruct Kf as [-> | ->]; cbn [mantw binary32 binary64 m10digits e10digits Z.eqb Pos.eqb]; intros X Lb' N9.
    + assert (~ (len = 9 /\ e = 5)) by (destruct N9 as [N9|N9]; [discriminate N9|exact N9]). destruct (Z.eqb_spec len 1); lia.
    + destruct (Z.eqb_spec len 1); lia.
  - destruct (Z.leb_spec 0 (e + len - 1)) as [L0|L0]; cbn [andb].
    + destruct (Z.ltb_spec (e + len - 1) len); [|lia]. cbv beta iota.
      assert (W : (if len =? e + len - 1 + 1 then wrap 32 (wrap 32 (len + 2) - 1) else wrap 32 (len + 2)) =
                  (if len =? e + len - 1 + 1 then len + 1 else len + 2)).
      { destruct (len =? e + len - 1 + 1); [rewrite (wrap_id 32 (len + 2)) by lia; rewrite wrap_id by lia; lia|apply wrap_id; lia]. }
      rewrite W. destruct (_ <? _); [apply SC; assumption|].
      change (2 =? 1) with false. change (2 =? 2) with true. cbv iota. apply lc_case1_is; [lia|assumption].
    + assert (W : wrap 32 (wrap 32 (- (e + len - 1)) + wrap 32 len + 1) = 1 - (e + len - 1) + len).
      { rewrite (wrap_id 32 (- (e + len - 1))), (wrap_id 32 len) by lia. rewrite wrap_id by lia. lia. }
      rewrite W. destruct (_ <? _); [apply SC; assumption|].
      change (0 =? 1) with false. change (0 =? 2) with false. cbv iota. apply case2_ok. lia.
Qed.
Definition lc_chosen (mt : format) : list Z :=
  match mt with
  | general => if (-5 <? e) && (e <? 7) then lc_fixed_text else lc_scientific_text
  | scientific => lc_scientific_text
  | decimal => if take_scientific e len then lc_scientific_text else lc_fixed_text
  | fixed => lc_fixed_text
  end.
Lemma lc_decision_is mt st : 0 <= snd st -> mt <> decimal \/ f = binary64 \/ ~ (len = 9 /\ e = 5) ->
  lc_decision f fl lc mt m e st = emit (lc_chosen mt) st.
Proof.
  intros H N. unfold lc_decision, lc_chosen. destruct mt.
  - destruct ((-5 <? e) && (e <? 7)); [apply lc_fixed_is|apply lc_scientific_is]; assumption.
  - apply lc_scientific_is; assumption.
  - apply lc_decimal_is; [assumption|]. destruct N as [N|N]; [congruence|exact N].
  - apply lc_fixed_is; assumption.
Qed.
End LcDecision.
