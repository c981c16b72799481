(** Property C98: scanning an ISO 8601 timestamp from a stream. *)
From Coq Require Import String.
From Coq Require Import List.
From Verif Require Import Base NumSpec NumFacts IntPrintModel IntPrintProofs IntScanModel ScanSpec
  IntScanProofs TimeSpec TimeModel TimeTextSpec TimeTextModel TimeTextProofs TimeScanProofs TimeCtxModel TimeCtxProofs
  TimeCtxSpec TimeCtxOne TimeCtxGrammar TimeCtxWhole.
Import ListNotations.

(** ** The printed form is of the scanned form *)
Lemma year_text_reads y ys : - 2 ^ 63 <= y < 2 ^ 63 -> year_text y ys -> year_reads y ys.
Proof.
  intros HR (num & -> & H). destruct (Z.ltb_spec (Z.abs y) 10000) as [L|L].
  - destruct H as (ds & Hd & Hl & Hv & ->). exists (y <? 0), ds. split; [exact Hd|]. split; [left; exact Hl|]. split; [reflexivity|].
    split; [|exact HR]. destruct (Z.ltb_spec y 0); lia.
  - destruct H as (ds & Hd & Hn & Hv & ->). exists (y <? 0), ds. split; [exact Hd|]. split.
    + right. pose proof (value_of_bound 10 ds ltac:(lia) Hd) as B. rewrite Hv in B. fold (zlen ds) in B. split.
      * destruct (Z.ltb_spec 4 (zlen ds)) as [K|K]; [exact K|]. exfalso.
        assert (10 ^ zlen ds <= 10 ^ 4) by (apply Z.pow_le_mono_r; lia). lia.
      * destruct ds as [|d [|d2 t]]; [cbn in Hv; lia| |exact Hn]. unfold value_of in Hv. cbn in Hv. cbn [hd]. lia.
    + split; [reflexivity|]. split; [|exact HR]. destruct (Z.ltb_spec y 0); lia.
Qed.
Lemma year_text_length y ys : - 10 ^ 18 < y < 2 ^ 63 -> year_text y ys -> zlen ys <= 19.
Proof.
  intros HR (num & -> & H). rewrite zlen_app.
  assert (SL : zlen (if y <? 0 then text "-" else []) = if y <? 0 then 1 else 0) by (destruct (y <? 0); reflexivity). rewrite SL. clear SL.
  destruct (Z.ltb_spec (Z.abs y) 10000) as [L|L].
  - destruct H as (ds & Hd & Hl & Hv & ->). unfold zlen. rewrite map_length, Hl. destruct (y <? 0); lia.
  - destruct H as (ds & Hd & Hn & Hv & ->). replace (zlen (map (digit_char false) ds)) with (zlen ds) by (unfold zlen; now rewrite map_length).
    destruct (Z.ltb_spec (zlen ds) 2); [destruct (y <? 0); lia|].
    pose proof (value_lower_bound 10 ds ltac:(lia) Hd Hn ltac:(unfold zlen in *; lia)) as B. rewrite Hv in B.
    assert (K : forall n, 0 <= n -> Z.abs y < 10 ^ n -> zlen ds <= n).
    { intros n Hn0 Hy. destruct (Z.leb_spec (zlen ds) n) as [Q|Q]; [exact Q|]. exfalso.
      assert (10 ^ n <= 10 ^ (zlen ds - 1)) by (apply Z.pow_le_mono_r; lia). lia. }
    destruct (Z.ltb_spec y 0).
    + pose proof (K 18 ltac:(lia) ltac:(lia)). lia.
    + pose proof (K 19 ltac:(lia) ltac:(change (10 ^ 19) with 10000000000000000000; lia)). lia.
Qed.
Lemma fraction_text_reads sub fs : fraction_text sub fs -> fraction_reads sub fs.
Proof.
  unfold fraction_text. destruct (Z.eqb_spec sub 0); [intros ->; left; auto|]. intros (ds & d & Hd & Hl & _ & <- & ->).
  right. exists (ds ++ [d]). split; [exact Hd|]. split; [|auto]. rewrite zlen_app in *. change (zlen [d]) with 1 in *. pose proof (zlen_nonneg ds). lia.
Qed.
Lemma zone_text_reads tz zs : Z.abs tz < 86400 -> tz mod 60 = 0 -> zone_text tz zs -> zone_reads tz zs.
Proof.
  intros Ha Hm. unfold zone_text. destruct (Z.eqb_spec tz 0); [intros ->; left; auto|]. cbv zeta.
  assert (A0 : Z.abs tz mod 60 = 0).
  { destruct (Z.abs_spec tz) as [[_ ->]|[_ ->]]; [exact Hm|]. apply Z.mod_opp_l_z; [lia|exact Hm]. }
  assert (B0 : Z.abs tz = Z.abs tz / 3600 * 3600 + Z.abs tz / 60 mod 60 * 60).
  { pose proof (Z.div_mod (Z.abs tz) 60 ltac:(lia)) as E1. rewrite A0 in E1.
    pose proof (Z.div_mod (Z.abs tz / 60) 60 ltac:(lia)) as E2. rewrite Z.div_div in E2 by lia. change (60 * 60) with 3600 in E2. lia. }
  pose proof (Z.mod_pos_bound (Z.abs tz / 60) 60 ltac:(lia)) as B1.
  assert (B2 : 0 <= Z.abs tz / 3600 <= 23).
  { split; [apply Z.div_pos; lia|]. assert (Z.abs tz / 3600 < 24) by (apply Z.div_lt_upper_bound; lia). lia. }
  intros (hh & H & ->). destruct (Z.ltb_spec (Z.abs tz / 3600) 100); [|lia]. subst hh. rewrite A0. cbn [Z.eqb].
  right. exists (tz <? 0), (Z.abs tz / 3600), (Z.abs tz / 60 mod 60). split; [exact B2|]. split; [lia|]. rewrite app_nil_r. split; [reflexivity|].
  rewrite <- B0. destruct (Z.ltb_spec tz 0); lia.
Qed.
Lemma iso_text_reads c txt : scannable c -> - 10 ^ 18 < cv_year c -> iso_text c txt -> exists ys, iso_reads c ys txt /\ zlen ys <= 19.
Proof.
  intros (Hy & Hmo & Hd & Hh & Hmi & Hs & Hf & Ha & Hm) HY (ys & fs & zs & TY & TF & TZ & ->).
  exists ys. split; [|apply (year_text_length (cv_year c)); [lia|exact TY]]. exists fs, zs.
  split; [apply year_text_reads; [lia|exact TY]|]. split; [now apply fraction_text_reads|]. split; [now apply zone_text_reads|].
  repeat (split; [assumption|]). reflexivity.
Qed.

(** ** Runs of digits in the printed form *)
Definition no_digit (x : Z) : Prop := ~ 48 <= x <= 57.
Lemma nl_short d : zlen d <= 19 -> no_long_number d.
Proof. intros H p e q -> _. rewrite !zlen_app in H. pose proof (zlen_nonneg p). pose proof (zlen_nonneg q). lia. Qed.
Lemma split_at (l : list Z) x b : forall d q, l ++ x :: b = d ++ q -> (exists d', l = d ++ d') \/ exists t, d = l ++ x :: t.
Proof.
  induction l as [|y l IH]; intros d q E.
  - destruct d as [|z d]; [left; now exists []|]. injection E as <- E. right. now exists d.
  - destruct d as [|z d]; [left; now exists (y :: l)|]. injection E as <- E. destruct (IH d q E) as [(d' & ->)|(t & ->)].
    + left. now exists d'.
    + right. now exists t.
Qed.
Lemma nl_join a x b : no_digit x -> no_long_number a -> no_long_number b -> no_long_number (a ++ x :: b).
Proof.
  intros Hx A B p d q E Hd. revert p E A. induction a as [|y a IH]; intros p E A.
  - destruct p as [|z p].
    + destruct d as [|z d]; [cbn; lia|]. exfalso. injection E as <- _. exact (Hx (Forall_inv Hd)).
    + injection E as <- E. exact (B p d q E Hd).
  - destruct p as [|z p].
    + destruct (split_at (y :: a) x b d q E) as [(d' & P)|(t & ->)]; [exact (A [] d d' P Hd)|].
      exfalso. apply Forall_app in Hd as [_ Hd]. exact (Hx (Forall_inv Hd)).
    + injection E as <- E. apply (IH p E). intros p' d' q' -> Hd'. exact (A (y :: p') d' q' eq_refl Hd').
Qed.
Lemma nl_spaces ws b : Forall c_space ws -> no_long_number b -> no_long_number (ws ++ b).
Proof.
  induction 1 as [|x ws Hx _ IH]; intros B; [exact B|]. cbn [app]. apply (nl_join [] x); [|apply nl_short; cbn; lia|auto].
  unfold c_space in Hx. cbn in Hx. unfold no_digit. lia.
Qed.
Lemma nl_end a rest : no_long_number a -> no_long_number rest -> match rest with [] => True | x :: _ => no_digit x end -> no_long_number (a ++ rest).
Proof.
  intros A B H. destruct rest as [|x rest]; [now rewrite app_nil_r|]. apply nl_join; auto. intros p d q -> Hd. exact (B (x :: p) d q eq_refl Hd).
Qed.
Lemma reads_no_long c ys txt : iso_reads c ys txt -> zlen ys <= 19 -> no_long_number txt.
Proof.
  intros (fs & zs & R & FR & ZR & _ & _ & _ & _ & _ & ->) L.
  assert (D : forall x, In x [45; 84; 58; 46; 43; 90] -> no_digit x) by (intros x Hx; cbn in Hx; unfold no_digit; lia).
  assert (N2 : forall v, no_long_number (pad2 v)) by (intros; apply nl_short; cbn; lia).
  assert (NZ : forall a, no_long_number a -> no_long_number (a ++ zs)).
  { intros a Ha. destruct ZR as [(-> & _)|(neg & h & m & _ & _ & -> & _)].
    - apply nl_join; [apply D; cbn; auto 8|exact Ha|apply nl_short; cbn; lia].
    - assert (NB : no_long_number (pad2 h ++ text ":" ++ pad2 m)) by (apply nl_short; cbn; lia).
      destruct neg; (apply nl_join; [apply D; cbn; auto 8|exact Ha|exact NB]). }
  apply nl_join; [apply D; cbn; auto 8|now apply nl_short|]. cbn [app text].
  apply nl_join; [apply D; cbn; auto 8|apply N2|]. apply nl_join; [apply D; cbn; auto 8|apply N2|]. cbn [app text].
  apply nl_join; [apply D; cbn; auto 8|apply N2|]. cbn [app text]. apply nl_join; [apply D; cbn; auto 8|apply N2|]. cbn [app text].
  destruct FR as [(-> & _)|(ds & _ & L2 & -> & _)]; [apply NZ, N2|].
  apply nl_join; [apply D; cbn; auto 8|apply N2|]. apply NZ. apply nl_short. unfold zlen in *. rewrite map_length. lia.
Qed.

Lemma reads_small c ys txt : iso_reads c ys txt -> Forall (fun c => 0 <= c < 128) txt.
Proof.
  intros (fs & zs & R & FR & ZR & Hmo & Hd & Hh & Hmi & Hse & ->).
  assert (DG : forall ds, digits_ok 10 ds -> Forall (fun c => 0 <= c < 128) (map (digit_char false) ds)).
  { intros ds H. rewrite map_digits by exact H. apply Forall_map. eapply Forall_impl; [|exact H]. cbv beta; intros; lia. }
  assert (C1 : forall x l, 0 <= x < 128 -> Forall (fun c => 0 <= c < 128) l -> Forall (fun c => 0 <= c < 128) (x :: l)) by (intros; constructor; auto).
  assert (P2 : forall v l, 0 <= v < 100 -> Forall (fun c => 0 <= c < 128) l -> Forall (fun c => 0 <= c < 128) (pad2 v ++ l)).
  { intros v l Hv Hl. apply Forall_app. split; [now apply pad2_small|exact Hl]. }
  apply Forall_app. split.
  { destruct R as (neg & ds & Hds & _ & -> & _). apply Forall_app. split; [|now apply DG]. destruct neg; [apply C1; [cbn; lia|]|]; constructor. }
  apply C1; [cbn; lia|]. apply P2; [lia|]. apply C1; [cbn; lia|]. apply P2; [lia|]. apply C1; [cbn; lia|]. apply P2; [lia|].
  apply C1; [cbn; lia|]. apply P2; [lia|]. apply C1; [cbn; lia|]. apply P2; [lia|]. apply Forall_app. split.
  - destruct FR as [(-> & _)|(ds & Hds & _ & -> & _)]; [constructor|]. apply C1; [cbn; lia|]. now apply DG.
  - destruct ZR as [(-> & _)|(neg & h & m & Hh1 & Hm1 & -> & _)]; [apply C1; [cbn; lia|constructor]|].
    assert (G : Forall (fun c => 0 <= c < 128) (pad2 h ++ text ":" ++ pad2 m)) by (apply P2; [lia|]; apply C1; [cbn; lia|]; apply pad2_small; lia).
    destruct neg; (apply C1; [cbn; lia|exact G]).
Qed.

(** ** C98 *)

(** For every input without a number of more than nineteen digits, and every way it arrives in chunks, a scan gives [c] and leaves
    [rest] exactly when the input is white space, an ISO 8601 text of [c] whose year has at most 19
    characters, and [rest]. *)
Theorem C98_accepted : forall cw sse t chunks c rest, In cw char_widths -> units cw (concat chunks) -> no_long_number (concat chunks) ->
  (iso_scan_chunks cw sse t chunks = Some (Read c rest) <->
   exists ws ys txt, concat chunks = ws ++ txt ++ rest /\ Forall c_space ws /\ iso_reads c ys txt /\ zlen ys <= 19).
Proof. intros cw sse t chunks c rest Hw U S. apply chunks_iff; auto. now apply no_long_short. Qed.
Print Assumptions C98_accepted.

(** Nothing undefined happens, whatever the chunks. *)
Theorem C98_defined : forall cw sse t chunks, In cw char_widths -> units cw (concat chunks) -> no_long_number (concat chunks) ->
  exists answer, iso_scan_chunks cw sse t chunks = Some answer.
Proof. intros cw sse t chunks Hw U S. apply chunks_safe; auto. now apply no_long_short. Qed.
Print Assumptions C98_defined.

(** Where the input is cut does not matter, nor what the object held before. *)
Theorem C98_cuts : forall cw sse t t' a b c rest, In cw char_widths -> units cw (concat a) -> no_long_number (concat a) ->
  concat a = concat b -> iso_scan_chunks cw sse t a = Some (Read c rest) -> iso_scan_chunks cw sse t' b = Some (Read c rest).
Proof. intros cw sse t t' a b c rest Hw U S E. rewrite !C98_accepted; rewrite <- ?E; auto. Qed.
Print Assumptions C98_cuts.

(** What print writes is read back, cut in any way, for years after -10^18. *)
Theorem C98_round_trip_partial : forall cw sse t c txt ws rest chunks, In cw char_widths -> scannable c -> - 10 ^ 18 < cv_year c ->
  print_iso8601 c = Some txt -> Forall c_space ws -> units cw rest -> no_long_number rest ->
  match rest with [] => True | x :: _ => ~ 48 <= x <= 57 end -> concat chunks = ws ++ txt ++ rest ->
  iso_scan_chunks cw sse t chunks = Some (Read c rest).
Proof.
  intros cw sse t c txt ws rest chunks Hw Hc HY HP Hws Hr NL HD E.
  pose proof Hc as (Hy & Hmo & Hd & Hh & Hmi & Hs & Hf & Ha & Hm).
  destruct (print_iso8601_ok c) as (txt' & E' & T); [unfold printable; lia|]. rewrite HP in E'. injection E' as <-.
  destruct (iso_text_reads c txt Hc HY T) as (ys & R & L).
  assert (N : no_long_number (concat chunks)).
  { rewrite E. apply nl_spaces; [exact Hws|]. apply nl_end; auto. now apply (reads_no_long c ys). }
  assert (U : units cw (concat chunks)).
  { rewrite E. apply units_app; [|apply units_app; [|exact Hr]].
    - apply units_small; [exact Hw|]. eapply Forall_impl; [|exact Hws]. intros x Hx. unfold c_space in Hx. cbn in Hx. lia.
    - apply units_small; [exact Hw|]. exact (reads_small _ _ _ R). }
  apply C98_accepted; auto. exists ws, ys, txt. auto.
Qed.
Print Assumptions C98_round_trip_partial.
Example C98_case : scannable (mk_civil (-12345) 2 28 23 59 59 1 (-86340)) /\
  print_iso8601 (mk_civil (-12345) 2 28 23 59 59 1 (-86340)) = Some (text "-12345-02-28T23:59:59.0000000000000000001-23:59") /\
  iso_scan_chunks 8 true civil0 [text " -1"; []; text "2345-0"; text "2-28T23:59:59.0000"; text "00000000000001"; text "1-24:00 x"]
    = Some (NotRead pc_overflow) /\
  iso_scan_chunks 8 true civil0 [text " -1"; []; text "2345-0"; text "2-28T23:59:59.0000"; text "00000000000000"; text "1-23:59 x"]
    = Some (Read (mk_civil (-12345) 2 28 23 59 59 1 (-86340)) (text " x")).
Proof.
  split; [unfold scannable; cbn [cv_year cv_month cv_day cv_hours cv_minutes cv_seconds cv_sub cv_tz]; vm_compute; intuition congruence|].
  split; [vm_compute; reflexivity|]. split; vm_compute; reflexivity.
Qed.

(** The bound of nineteen digits cannot be dropped: a longer fraction is rounded when it arrives in one chunk, as it is in memory, and loses its later
    digits when it arrives in two. *)
Theorem C98_long_fraction_refuted : exists a b c c', concat a = concat b /\
  iso_scan_chunks 8 false civil0 a = Some (Read c []) /\ scan_iso8601 8 false (concat a) = SGo (c, []) /\
  iso_scan_chunks 8 false civil0 b = Some (Read c' []) /\ cv_sub c = 1234567890123456790 /\ cv_sub c' = 1234567890000000000.
Proof.
  exists [text "2021-01-03T10:29:56.12345678901234567895000Z"], [text "2021-01-03T10:29:56.1234567890"; text "1234567895000Z"].
  exists (mk_civil 2021 1 3 10 29 56 1234567890123456790 0), (mk_civil 2021 1 3 10 29 56 1234567890000000000 0).
  split; [vm_compute; reflexivity|]. split; [vm_compute; reflexivity|]. split; [vm_compute; reflexivity|]. split; [vm_compute; reflexivity|]. auto.
Qed.
Print Assumptions C98_long_fraction_refuted.
(** A continuation of 256 digits is taken for none. *)
Theorem C98_fragment_refuted : exists a b c c', concat a = concat b /\
  iso_scan_chunks 8 false civil0 a = Some (Read c []) /\ iso_scan_chunks 8 false civil0 b = Some (Read c' []) /\
  cv_sub c = 1222222222222222222 /\ cv_sub c' = 1000000000000000000.
Proof.
  exists [text "2021-01-03T10:29:56.1" ++ repeat 50 256 ++ text "Z"], [text "2021-01-03T10:29:56.1"; repeat 50 256 ++ text "Z"].
  exists (mk_civil 2021 1 3 10 29 56 1222222222222222222 0), (mk_civil 2021 1 3 10 29 56 1000000000000000000 0).
  split; [vm_compute; reflexivity|]. split; [vm_compute; reflexivity|]. split; [vm_compute; reflexivity|]. auto.
Qed.
Print Assumptions C98_fragment_refuted.
(** A printed timestamp of a year before -10^18 is read back from memory and refused from a stream, even in one chunk. *)
Theorem C98_negative_year_refuted : exists c txt, scannable c /\ print_iso8601 c = Some txt /\ no_long_number txt /\
  scan_iso8601 8 false txt = SGo (c, []) /\ iso_scan_chunks 8 false civil0 [txt] = Some (NotRead pc_overflow).
Proof.
  exists (mk_civil (-9223372036854775807) 1 3 10 29 56 0 0), (text "-9223372036854775807-01-03T10:29:56Z").
  split; [unfold scannable; cbn [cv_year cv_month cv_day cv_hours cv_minutes cv_seconds cv_sub cv_tz]; vm_compute; intuition congruence|].
  split; [vm_compute; reflexivity|]. split; [|split; vm_compute; reflexivity].
  apply (nl_join [] 45 (text "9223372036854775807-01-03T10:29:56Z")); [unfold no_digit; lia|apply nl_short; cbn; lia|].
  apply (nl_join (text "9223372036854775807") 45 (text "01-03T10:29:56Z")); [unfold no_digit; lia| |]; apply nl_short; cbn; lia.
Qed.
Print Assumptions C98_negative_year_refuted.
