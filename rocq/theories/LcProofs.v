(** Proofs about LcModel. *)
From Verif Require Import Base NumSpec NumFacts RangeSpec LcSpec IntPrintModel IntPrintProofs IntInjProofs LcModel.

Lemma single_ok base upper d : 2 <= base <= 36 -> 0 <= d < base -> to_char_single_digit base upper d = Some (digit_char upper d).
Proof.
  intros Hb Hd. unfold to_char_single_digit, char_literal_add0.
  assert (S10 : d < 10 -> (if (0 <=? d) && (d <? 10) then Some (48 + d) else None) = Some (digit_char upper d)).
  { intros H. destruct (Z.leb_spec 0 d); [|lia]. destruct (Z.ltb_spec d 10); [|lia]. cbn [andb]. now rewrite digit_char_small by lia. }
  destruct (Z.leb_spec base 10); [apply S10; lia|]. destruct (Z.ltb_spec d 10); [now apply S10|].
  rewrite <- charliteral_digit_char by lia. unfold charliteralofnumber. destruct (Z.ltb_spec d 10); [lia|reflexivity].
Qed.

(** Cutting from the end. *)
Lemma join_snoc sep x L : L <> [] -> join sep (L ++ [x]) = join sep L ++ sep ++ x.
Proof.
  induction L as [|y L IH]; intros H; [congruence|]. destruct L as [|z L]; [reflexivity|].
  change ((y :: z :: L) ++ [x]) with (y :: (z :: L) ++ [x]).
  change (join sep (y :: z :: L)) with (y ++ sep ++ join sep (z :: L)).
  change (join sep (y :: (z :: L) ++ [x])) with (y ++ sep ++ join sep ((z :: L) ++ [x])).
  rewrite IH by discriminate. now rewrite <- !app_assoc.
Qed.
Lemma cut_nonempty n g r : cut_groups n g r <> [].
Proof. destruct n; [discriminate|]. destruct g as [|e g]; [discriminate|]. cbn [cut_groups]. destruct ((e =? 0) || _); discriminate. Qed.
(** More fuel changes nothing. *)
Lemma cut_fuel : forall n m g r, (length r <= n)%nat -> (length r <= m)%nat -> Forall (fun e => 0 <= e) g -> cut_groups n g r = cut_groups m g r.
Proof.
  assert (L : forall g, Forall (fun e => 0 <= e) g -> Forall (fun e => 0 <= e) (later g)).
  { intros g H. destruct g as [|a [|b g]]; [exact H|exact H|]. exact (Forall_inv_tail H). }
  induction n as [|n IH]; intros m g r Hn Hm HF.
  - destruct r; [|cbn in Hn; lia]. destruct m; [reflexivity|]. destruct g as [|e g]; [reflexivity|]. cbn [cut_groups length].
    destruct (Z.eqb_spec e 0); [reflexivity|]. destruct (Z.leb_spec (Z.of_nat 0) e); [reflexivity|]. apply Forall_inv in HF. lia.
  - destruct m as [|m].
    { destruct r; [|cbn in Hm; lia]. destruct g as [|e g]; try reflexivity. cbn [cut_groups length].
      destruct (Z.eqb_spec e 0); [reflexivity|]. destruct (Z.leb_spec (Z.of_nat 0) e); [reflexivity|]. apply Forall_inv in HF. lia. }
    destruct g as [|e g]; [reflexivity|]. cbn [cut_groups]. destruct ((e =? 0) || (Z.of_nat (length r) <=? e)) eqn:E; [reflexivity|].
    apply orb_false_iff in E as [E1 E2]. apply Z.eqb_neq in E1. apply Z.leb_gt in E2. pose proof (Forall_inv HF) as He; cbv beta in He.
    f_equal. apply IH; [rewrite skipn_length; lia|rewrite skipn_length; lia|auto].
Qed.
Lemma later_nonneg g : Forall (fun e => 0 <= e) g -> Forall (fun e => 0 <= e) (later g).
Proof. intros H. destruct g as [|a [|b g]]; [exact H|exact H|]. exact (Forall_inv_tail H). Qed.

(** The three rules of [grouped]. *)
Lemma grouped_whole e g sep d : e = 0 \/ Z.of_nat (length d) <= e -> grouped (e :: g) sep d = d.
Proof.
  intros H. unfold grouped. destruct (length d) eqn:L; [destruct d; [reflexivity|discriminate]|]. cbn [cut_groups]. rewrite rev_length, L.
  destruct (Z.eqb_spec e 0); cbn [orb]; [cbn [map rev app join]; apply rev_involutive|].
  destruct (Z.leb_spec (Z.of_nat (S n)) e); [cbn [map rev app join]; apply rev_involutive|]. lia.
Qed.
Lemma grouped_step e g sep d1 d2 : 0 < e -> Forall (fun e => 0 <= e) g -> Z.of_nat (length d2) = e -> d1 <> [] ->
  grouped (e :: g) sep (d1 ++ d2) = grouped (later (e :: g)) sep d1 ++ sep ++ d2.
Proof.
  intros He HF L2 H1. unfold grouped. rewrite rev_app_distr.
  assert (L1 : (0 < length d1)%nat) by (destruct d1; [congruence|cbn; lia]).
  destruct (length (d1 ++ d2)) as [|n] eqn:L; [rewrite app_length in L; lia|]. rewrite app_length in L. cbn [cut_groups]. rewrite app_length, !rev_length.
  destruct (Z.eqb_spec e 0); [lia|]. destruct (Z.leb_spec (Z.of_nat (length d2 + length d1)) e); [lia|]. cbn [orb map rev].
  replace (Z.to_nat e) with (length (rev d2)) by (rewrite rev_length; lia).
  rewrite firstn_app, firstn_all, Nat.sub_diag. cbn [firstn]. rewrite app_nil_r, rev_involutive.
  rewrite skipn_app, skipn_all, Nat.sub_diag. cbn [skipn app].
  rewrite join_snoc. 2:{ intros E. apply (f_equal (@rev _)) in E. rewrite rev_involutive in E. cbn in E. apply map_eq_nil in E. now apply cut_nonempty in E. }
  rewrite (cut_fuel n (length d1)); [reflexivity|rewrite rev_length; lia|rewrite rev_length; lia|]. apply later_nonneg. constructor; [lia|exact HF].
Qed.
Lemma grouped_length g sep d : Forall (fun e => 0 <= e) g ->
  (length (grouped g sep d) <= length d + (length d - 1) * length sep)%nat.
Proof.
  intros HF. remember (length d) as n eqn:L. revert g d HF L. induction n as [n IH] using (well_founded_induction Wf_nat.lt_wf). intros g d HF L.
  destruct g as [|e g]. { unfold grouped. destruct (length d) eqn:E; cbn [cut_groups map rev app join]; rewrite ?rev_involutive, ?rev_length; lia. }
  pose proof (Forall_inv HF) as He. cbv beta in He.
  destruct (Z.eq_dec e 0) as [E|E]; [rewrite grouped_whole by auto; lia|].
  destruct (Z_le_gt_dec (Z.of_nat (length d)) e) as [E2|E2]; [rewrite grouped_whole by auto; lia|].
  rewrite <- (firstn_skipn (length d - Z.to_nat e) d) at 1.
  assert (L1 : length (firstn (length d - Z.to_nat e) d) = (length d - Z.to_nat e)%nat) by (rewrite firstn_length; lia).
  assert (L2 : length (skipn (length d - Z.to_nat e) d) = Z.to_nat e) by (rewrite skipn_length; lia).
  rewrite grouped_step; [|lia|now apply Forall_inv_tail in HF|lia|].
  2:{ intros H. rewrite H in L1. cbn in L1. lia. }
  rewrite !app_length, L2. pose proof (IH (length d - Z.to_nat e)%nat ltac:(lia) (later (e :: g)) _ (later_nonneg _ HF) (eq_sym L1)). nia.
Qed.

(** ** The loops *)
Section Loops.
Variables (full : bool) (base : Z) (upper : bool) (full_len : Z) (ch : Z).
Hypothesis Hb : 2 <= base <= 36.
(** [n] digits are to come: of [u], or so many that the type is full. *)
Definition live (n : nat) (fi u : Z) : Prop :=
  (1 <= n)%nat /\ 0 <= u /\ if full then Z.of_nat n = full_len - fi else digit_count base u (Z.of_nat n).
Lemma live_step n fi u : live n fi u ->
  (if full then fi + 1 =? full_len else u / base =? 0) = (n =? 1)%nat /\ ((2 <= n)%nat -> live (n - 1) (fi + 1) (u / base)).
Proof.
  intros (Hn & Hu & HL). assert (Hq : 0 <= u / base) by (apply Z.div_pos; lia). unfold live. destruct full.
  - split; [destruct (Z.eqb_spec (fi + 1) full_len), (Nat.eqb_spec n 1); lia|]. intros. repeat split; lia.
  - destruct HL as (L1 & L2 & L3). split.
    + destruct (Nat.eqb_spec n 1) as [->|N].
      * apply Z.eqb_eq. change (base ^ Z.of_nat 1) with (base ^ 1) in L2. rewrite Z.pow_1_r in L2. apply Z.div_small; lia.
      * apply Z.eqb_neq. intros E. apply Z.div_small_iff in E; [|lia]. destruct L3 as [L3|L3]; [lia|].
        assert (base ^ 1 <= base ^ (Z.of_nat n - 1)) by (apply Z.pow_le_mono_r; lia). rewrite Z.pow_1_r in H. lia.
    + intros N. split; [lia|]. split; [exact Hq|]. replace (Z.of_nat (n - 1)) with (Z.of_nat n - 1) by lia.
      split; [lia|]. split.
      * apply Z.div_lt_upper_bound; [lia|]. rewrite <- Z.pow_succ_r by lia. replace (Z.succ (Z.of_nat n - 1)) with (Z.of_nat n) by lia. exact L2.
      * destruct L3 as [L3|L3]; [lia|]. right. apply Z.div_le_lower_bound; [lia|]. rewrite <- Z.pow_succ_r by lia.
        replace (Z.succ (Z.of_nat n - 1 - 1)) with (Z.of_nat n - 1) by lia. exact L3.
Qed.
Notation txt := (map (digit_char upper)).
Lemma dch u : to_char_single_digit base upper (u mod base) = Some (digit_char upper (u mod base)).
Proof. apply single_ok; [exact Hb|]. apply Z.mod_pos_bound; lia. Qed.
Lemma digs_S n u acc : txt (digs base (S n) u) ++ acc = txt (digs base n (u / base)) ++ digit_char upper (u mod base) :: acc.
Proof. cbn [digs]. rewrite map_app, <- app_assoc. reflexivity. Qed.

Lemma plain_ok : forall n fuel fi u acc, live n fi u -> (n <= fuel)%nat ->
  plain_run full base upper full_len fuel fi u acc = Some (txt (digs base n u) ++ acc).
Proof.
  induction n as [|n IH]; intros fuel fi u acc HL Hf; [destruct HL; lia|]. destruct fuel as [|fuel]; [lia|]. cbn [plain_run].
  rewrite dch. destruct (live_step _ _ _ HL) as [E S]. rewrite E, digs_S. destruct n as [|n]; [reflexivity|]. cbn [Nat.eqb].
  apply IH; [|lia]. specialize (S ltac:(lia)). replace (Datatypes.S (Datatypes.S n) - 1)%nat with (Datatypes.S n) in S by lia. exact S.
Qed.
Lemma group_done : forall n fuel e j fi u acc, live n fi u -> (n <= fuel)%nat -> Z.of_nat n <= e - j ->
  group_run full base upper full_len fuel e j fi u acc = Some (Done (txt (digs base n u) ++ acc)).
Proof.
  induction n as [|n IH]; intros fuel e j fi u acc HL Hf He; [destruct HL; lia|]. destruct fuel as [|fuel]; [lia|]. cbn [group_run].
  destruct (Z.eqb_spec j e); [lia|]. rewrite dch. destruct (live_step _ _ _ HL) as [E S]. rewrite E, digs_S. destruct n as [|n]; [reflexivity|]. cbn [Nat.eqb].
  apply IH; [|lia|lia]. specialize (S ltac:(lia)). replace (Datatypes.S (Datatypes.S n) - 1)%nat with (Datatypes.S n) in S by lia. exact S.
Qed.
Lemma group_more : forall k n fuel e j fi u acc, live n fi u -> (n <= fuel)%nat -> e - j = Z.of_nat k -> (k < n)%nat ->
  exists fi', group_run full base upper full_len fuel e j fi u acc = Some (More fi' (u / base ^ Z.of_nat k) (txt (digs base k u) ++ acc)) /\
    live (n - k) fi' (u / base ^ Z.of_nat k).
Proof.
  induction k as [|k IH]; intros n fuel e j fi u acc HL Hf He Hk.
  - exists fi. destruct fuel; cbn [group_run]; (destruct (Z.eqb_spec j e); [|lia]); rewrite Z.div_1_r, Nat.sub_0_r; auto.
  - destruct fuel as [|fuel]; [lia|]. cbn [group_run]. destruct (Z.eqb_spec j e); [lia|]. rewrite dch.
    destruct (live_step _ _ _ HL) as [E S]. rewrite E. destruct (Nat.eqb_spec n 1); [lia|].
    destruct (IH (n - 1)%nat fuel e (j + 1) (fi + 1) (u / base) (digit_char upper (u mod base) :: acc) (S ltac:(lia)) ltac:(lia) ltac:(lia) ltac:(lia))
      as (fi' & E1 & E2). exists fi'. rewrite E1, digs_S.
    rewrite Z.div_div in E1, E2 |- * by (try apply Z.pow_pos_nonneg; lia).
    rewrite Nat2Z.inj_succ, Z.pow_succ_r by lia. replace (n - Datatypes.S k)%nat with (n - 1 - k)%nat by lia. auto.
Qed.
(** The separator of one character. *)
Lemma last_ok : forall n k fuel e fi u acc, live n fi u -> (n <= fuel)%nat -> (n <= k)%nat -> 0 < e ->
  last_run full base upper full_len ch k fuel e fi u acc = Some (grouped [e] [ch] (txt (digs base n u)) ++ acc).
Proof.
  induction n as [n IH] using (well_founded_induction Wf_nat.lt_wf). intros k fuel e fi u acc HL Hf Hk He.
  assert (Hn : (1 <= n)%nat) by apply HL. destruct k as [|k]; [lia|]. cbn [last_run].
  destruct (Z_le_gt_dec (Z.of_nat n) e) as [H|H].
  - rewrite (group_done n) by (auto; lia). rewrite grouped_whole; [reflexivity|]. right. rewrite map_length, digs_length. exact H.
  - destruct (group_more (Z.to_nat e) n fuel e 0 fi u acc HL Hf ltac:(lia) ltac:(lia)) as (fi' & E & L). rewrite E.
    rewrite (IH (n - Z.to_nat e)%nat ltac:(lia) k fuel e fi' _ _ L ltac:(lia) ltac:(lia) He).
    replace n with (n - Z.to_nat e + Z.to_nat e)%nat at 2 by lia. rewrite digs_app by lia. rewrite map_app.
    rewrite grouped_step; [|exact He|constructor|rewrite map_length, digs_length; lia|].
    2:{ intros X. apply (f_equal (@length _)) in X. rewrite map_length, digs_length in X. cbn in X. lia. }
    cbn [later]. now rewrite <- !app_assoc.
Qed.
Lemma groups_ok : forall g n k fuel prev fi u acc, live n fi u -> (n <= fuel)%nat -> (n <= k)%nat -> Forall (fun e => 0 <= e) g ->
  (g = [] -> 0 < prev) ->
  groups_run full base upper full_len ch k fuel g prev fi u acc =
    Some (grouped (match g with [] => [prev] | _ => g end) [ch] (txt (digs base n u)) ++ acc).
Proof.
  induction g as [|e g IH]; intros n k fuel prev fi u acc HL Hf Hk HF Hp; cbn [groups_run].
  { apply last_ok; auto. }
  pose proof (Forall_inv HF) as He. cbv beta in He. apply Forall_inv_tail in HF. assert (Hn : (1 <= n)%nat) by apply HL.
  destruct (Z.eqb_spec e 0) as [->|Ne].
  { rewrite (plain_ok n) by auto. rewrite grouped_whole by auto. reflexivity. }
  destruct (Z_le_gt_dec (Z.of_nat n) e) as [H|H].
  - rewrite (group_done n) by (auto; lia). rewrite grouped_whole; [reflexivity|]. right. rewrite map_length, digs_length. exact H.
  - destruct (group_more (Z.to_nat e) n fuel e 0 fi u acc HL Hf ltac:(lia) ltac:(lia)) as (fi' & E & L). rewrite E.
    rewrite (IH (n - Z.to_nat e)%nat k fuel e fi' _ _ L ltac:(lia) ltac:(lia) HF ltac:(lia)).
    replace n with (n - Z.to_nat e + Z.to_nat e)%nat at 2 by lia. rewrite digs_app by lia. rewrite map_app.
    rewrite grouped_step; [|lia|exact HF|rewrite map_length, digs_length; lia|].
    2:{ intros X. apply (f_equal (@length _)) in X. rewrite map_length, digs_length in X. cbn in X. lia. }
    replace (later (e :: g)) with (match g with [] => [e] | _ => g end) by (destruct g; reflexivity). now rewrite <- !app_assoc.
Qed.
End Loops.

(** ** The separator of several characters *)
Lemma put_seps_app sep a b : put_seps sep (a ++ b) = put_seps sep a ++ put_seps sep b.
Proof. apply flat_map_app. Qed.
Lemma put_seps_id sep d : Forall (fun c => c <> 44) d -> put_seps sep d = d.
Proof. induction 1; [reflexivity|]. cbn [put_seps flat_map]. destruct (Z.eqb_spec x 44); [contradiction|]. cbn [app]. f_equal. exact IHForall. Qed.
Lemma put_seps_grouped g sep d : Forall (fun e => 0 <= e) g -> Forall (fun c => c <> 44) d -> put_seps sep (grouped g [44] d) = grouped g sep d.
Proof.
  intros HF. remember (length d) as n eqn:L. revert g d HF L. induction n as [n IH] using (well_founded_induction Wf_nat.lt_wf). intros g d HF L HD.
  destruct g as [|e g].
  { unfold grouped. destruct (length d) eqn:E; cbn [cut_groups map rev app join]; rewrite ?rev_involutive, ?app_nil_r; now apply put_seps_id. }
  pose proof (Forall_inv HF) as He. cbv beta in He.
  destruct (Z.eq_dec e 0) as [E|E]; [rewrite !grouped_whole by auto; now apply put_seps_id|].
  destruct (Z_le_gt_dec (Z.of_nat (length d)) e) as [E2|E2]; [rewrite !grouped_whole by auto; now apply put_seps_id|].
  rewrite <- (firstn_skipn (length d - Z.to_nat e) d).
  rewrite <- (firstn_skipn (length d - Z.to_nat e) d) in HD. apply Forall_app in HD as [D1 D2].
  assert (L1 : length (firstn (length d - Z.to_nat e) d) = (length d - Z.to_nat e)%nat) by (rewrite firstn_length; lia).
  assert (L2 : length (skipn (length d - Z.to_nat e) d) = Z.to_nat e) by (rewrite skipn_length; lia).
  assert (N1 : firstn (length d - Z.to_nat e) d <> []) by (intros H; rewrite H in L1; cbn in L1; lia).
  rewrite !grouped_step by (try lia; auto; now apply Forall_inv_tail in HF).
  rewrite !put_seps_app. rewrite (put_seps_id sep _ D2). cbn [put_seps flat_map app Z.eqb Pos.eqb]. rewrite app_nil_r.
  f_equal. apply (IH (length d - Z.to_nat e)%nat ltac:(lia) _ _ (later_nonneg _ HF)); auto.
Qed.

(** ** Groups of three *)
Lemma grouped3_length sep d : (1 <= length d)%nat -> length sep = 1%nat ->
  Z.of_nat (length (grouped [3] sep d)) = Z.of_nat (length d) + (Z.of_nat (length d) - 1) / 3.
Proof.
  intros H Hs. remember (length d) as n eqn:L. revert d L H. induction n as [n IH] using (well_founded_induction Wf_nat.lt_wf). intros d L H.
  destruct (Z_le_gt_dec (Z.of_nat (length d)) 3) as [E2|E2].
  { rewrite grouped_whole by auto. rewrite <- L. assert (Z.of_nat n = 1 \/ Z.of_nat n = 2 \/ Z.of_nat n = 3) as [-> | [-> | ->]] by lia; reflexivity. }
  rewrite <- (firstn_skipn (length d - 3) d).
  assert (L1 : length (firstn (length d - 3) d) = (length d - 3)%nat) by (rewrite firstn_length; lia).
  assert (L2 : length (skipn (length d - 3) d) = 3%nat) by (rewrite skipn_length; lia).
  assert (N1 : firstn (length d - 3) d <> []) by (intros X; rewrite X in L1; cbn in L1; lia).
  rewrite grouped_step by (try lia; auto). cbn [later]. rewrite !app_length, L2, Hs, !Nat2Z.inj_add.
  rewrite (IH (length d - 3)%nat ltac:(lia) _ (eq_sym L1) ltac:(lia)).
  replace (Z.of_nat n - 1) with (Z.of_nat (length d - 3) - 1 + 1 * 3) by lia. rewrite Z.div_add by lia. lia.
Qed.
Lemma mod_div u b c : 0 < b -> 0 < c -> u mod (b * c) / b = (u / b) mod c.
Proof. intros Hb Hc. rewrite (Z.rem_mul_r u b c) by lia. rewrite Z.mul_comm, Z.div_add by lia. rewrite (Z.div_small (u mod b)) by (apply Z.mod_pos_bound; lia). reflexivity. Qed.
Lemma three_digits base u : 2 <= base -> digs base 3 u = [u mod (base * base * base) / (base * base); u mod (base * base) / base; u mod base].
Proof. intros Hb. cbn [digs app]. rewrite !mod_div by nia. rewrite <- Z.div_div by lia. reflexivity. Qed.
Lemma three_ok base upper ch : 2 <= base <= 36 -> forall n fuel u acc, (1 <= n)%nat -> (n <= fuel)%nat -> 0 <= u < base ^ Z.of_nat n ->
  three_loop fuel base upper ch u (Z.of_nat n) acc = Some (grouped [3] [ch] (map (digit_char upper) (digs base n u)) ++ acc).
Proof.
  intros Hb. assert (B2 : 0 < base * base) by nia. assert (B3 : 0 < base * base * base) by nia.
  induction n as [n IH] using (well_founded_induction Wf_nat.lt_wf). intros fuel u acc Hn Hf Hu. destruct fuel as [|fuel]; [lia|]. cbn [three_loop].
  destruct (Z.ltb_spec 3 (Z.of_nat n)) as [H|H].
  - cbv zeta. set (low := u mod (base * base * base)). assert (Hl : 0 <= low < base * base * base) by (apply Z.mod_pos_bound; lia).
    assert (Hl2 : low mod (base * base) = u mod (base * base)).
    { unfold low. rewrite (Z.rem_mul_r u (base * base) base) by lia. rewrite (Z.mul_comm (base * base)), Z.mod_add, Z.mod_mod by lia. reflexivity. }
    assert (Hl3 : u mod (base * base) mod base = u mod base).
    { rewrite (Z.rem_mul_r u base base) by lia. rewrite (Z.mul_comm base ((u / base) mod base)), Z.mod_add, Z.mod_mod by lia. reflexivity. }
    rewrite tb_pair_spec by (auto; rewrite Hl2; apply Z.mod_pos_bound; lia). unfold high_digit. rewrite single_ok; [|exact Hb|].
    2:{ split; [apply Z.div_pos; lia|]. apply Z.div_lt_upper_bound; lia. }
    cbn [opt_app app]. replace (Z.of_nat n - 3) with (Z.of_nat (n - 3)) by lia.
    rewrite IH; [|lia|lia|lia|].
    2:{ split; [apply Z.div_pos; lia|]. apply Z.div_lt_upper_bound; [lia|]. replace (base * base * base) with (base ^ 3) by ring.
        rewrite <- Z.pow_add_r by lia. replace (3 + Z.of_nat (n - 3)) with (Z.of_nat n) by lia. apply Hu. }
    replace n with (n - 3 + 3)%nat at 2 by lia. rewrite digs_app by lia. rewrite map_app.
    rewrite grouped_step; [|lia|constructor|rewrite map_length, digs_length; lia|].
    2:{ intros X. apply (f_equal (@length _)) in X. rewrite map_length, digs_length in X. cbn in X. lia. }
    cbn [later]. rewrite <- !app_assoc. rewrite three_digits by lia. change (Z.of_nat 3) with 3. replace (base ^ 3) with (base * base * base) by ring.
    rewrite Hl2, Hl3. reflexivity.
  - assert (Hc : n = 1%nat \/ n = 2%nat \/ n = 3%nat) by lia. rewrite grouped_whole by (right; rewrite map_length, digs_length; lia).
    destruct Hc as [-> | [-> | ->]]; cbn [Z.of_nat Pos.of_succ_nat Pos.succ Z.eqb Pos.eqb].
    + change (base ^ Z.of_nat 1) with (base ^ 1) in Hu. rewrite Z.pow_1_r in Hu. unfold high_digit. rewrite single_ok by auto.
      cbn [digs app map]. rewrite Z.mod_small by lia. reflexivity.
    + change (base ^ Z.of_nat 2) with (base ^ 2) in Hu. rewrite Z.pow_2_r in Hu. rewrite tb_pair_spec by auto. cbn [opt_app digs app map].
      rewrite (Z.mod_small (u / base)). 2:{ split; [apply Z.div_pos; lia|]. apply Z.div_lt_upper_bound; lia. } reflexivity.
    + change (base ^ Z.of_nat 3) with (base ^ 3) in Hu. replace (base ^ 3) with (base * base * base) in Hu by ring.
      assert (Hl3 : u mod (base * base) mod base = u mod base).
      { rewrite (Z.rem_mul_r u base base) by lia. rewrite (Z.mul_comm base ((u / base) mod base)), Z.mod_add, Z.mod_mod by lia. reflexivity. }
      rewrite tb_pair_spec by (auto; apply Z.mod_pos_bound; lia). unfold high_digit. rewrite single_ok; [|exact Hb|].
      2:{ split; [apply Z.div_pos; lia|]. apply Z.div_lt_upper_bound; lia. }
      rewrite three_digits by lia. rewrite (Z.mod_small u (base * base * base)) by lia. rewrite Hl3. reflexivity.
Qed.
