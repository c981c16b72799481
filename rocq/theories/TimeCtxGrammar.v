(** The chunked scanner of ISO 8601 timestamps: what it accepts in one chunk. *)
From Coq Require Import String.
From Coq Require Import List.
From Verif Require Import Base NumSpec NumFacts IntPrintModel IntPrintProofs IntScanModel ScanSpec
  IntScanProofs IntSseProofs TimeSpec TimeModel TimeTextSpec TimeTextModel TimeTextProofs TimeScanProofs TimeCtxModel TimeCtxProofs
  TimeCtxSpec TimeCtxOne.
Import ListNotations.

Section GRAMMAR.
  Context (cw : Z) (sse : bool) (Hw : In cw char_widths).

  Lemma pad2_app v s : pad2 v ++ s = (48 + v / 10) :: (48 + v mod 10) :: s. Proof. reflexivity. Qed.
  Lemma units_tail c s : units cw (c :: s) -> units cw s. Proof. apply Forall_inv_tail. Qed.
  Lemma units_pad2 v s : units cw (pad2 v ++ s) -> units cw s. Proof. intros H. apply Forall_app in H. tauto. Qed.

  Lemma two_iff s v r : units cw s ->
    (two_phase cw [] s = Some (DDone v r) <-> 0 <= v <= 99 /\ s = pad2 v ++ r).
  Proof.
    intros U. unfold two_phase. destruct s as [|a [|b s]].
    - split; [discriminate|]. intros [_ E]. discriminate.
    - split; [discriminate|]. intros [_ E]. discriminate.
    - unfold scan_two. pose proof (Forall_inv U) as Ha. pose proof (Forall_inv (Forall_inv_tail U)) as Hb. cbv beta in Ha, Hb.
      rewrite !is_dec_spec by assumption. rewrite pad2_app.
      assert (BK : forall u, 0 <= u <= 99 -> 0 <= u / 10 <= 9 /\ 0 <= u mod 10 <= 9 /\ u = 10 * (u / 10) + u mod 10).
      { intros u Hu. pose proof (Z.mod_pos_bound u 10 ltac:(lia)). pose proof (Z.div_mod u 10 ltac:(lia)). lia. }
      split.
      + destruct (Z.leb_spec 48 a), (Z.leb_spec a 57); cbn [andb negb]; try discriminate.
        destruct (Z.leb_spec 48 b), (Z.leb_spec b 57); cbn [andb negb]; try discriminate.
        intros Q. assert (Qv : v = 10 * (a - 48) + (b - 48)) by congruence. assert (Qr : r = s) by congruence. subst v r. clear Q. split; [lia|].
        specialize (BK (10 * (a - 48) + (b - 48)) ltac:(lia)). f_equal; [lia|]. f_equal. lia.
      + intros [Hv Q]. assert (Q1 : a = 48 + v / 10) by congruence. assert (Q2 : b = 48 + v mod 10) by congruence.
        assert (Q3 : s = r) by congruence. clear Q. subst s. specialize (BK v Hv).
        destruct (Z.leb_spec 48 a), (Z.leb_spec a 57), (Z.leb_spec 48 b), (Z.leb_spec b 57); try lia.
        cbn [andb negb]. replace (10 * (a - 48) + (b - 48)) with v by lia. reflexivity.
  Qed.

  Notation oks k st s c rest := (cls_of (k st s) = COk c rest).
  Lemma field_iff lo hi set k st s c rest : 0 <= lo -> hi <= 99 -> t_buf st = [] -> units cw s ->
    (oks (field_phase cw lo hi set k) st s c rest <->
     exists v s', lo <= v <= hi /\ s = pad2 v ++ s' /\ oks k (mk_ts [] (phase_next (t_phase st)) (t_int st) (set v (t_val st))) s' c rest).
  Proof.
    intros Hlo Hhi HB U. unfold field_phase. rewrite HB. split.
    - destruct (two_phase cw [] s) as [[b|v r|r]|] eqn:E; try discriminate.
      apply two_iff in E as [Hv ->]; [|exact U]. destruct (Z.ltb_spec v lo); [discriminate|]. destruct (Z.ltb_spec hi v); [discriminate|].
      cbn [orb]. intros H1. exists v, r. split; [lia|]. auto.
    - intros (v & s' & Hv & -> & H). rewrite (proj2 (two_iff (pad2 v ++ s') v s' U)) by (split; [lia|reflexivity]).
      destruct (Z.ltb_spec v lo); [lia|]. destruct (Z.ltb_spec hi v); [lia|]. exact H.
  Qed.
  Lemma token_iff tok k st s c rest :
    (oks (token_phase tok k) st s c rest <->
     exists s', s = tok :: s' /\ oks k (mk_ts (t_buf st) (phase_next (t_phase st)) (t_int st) (t_val st)) s' c rest).
  Proof.
    unfold token_phase. destruct s as [|x s]; [split; [discriminate|intros (s' & E & _); discriminate]|]. split.
    - destruct (Z.eqb_spec x tok); [|discriminate]. subst x. eauto.
    - intros (s' & E & H). injection E as -> ->. rewrite Z.eqb_refl. exact H.
  Qed.
  Lemma tz_minutes_iff st s c rest : t_buf st = [] -> units cw s ->
    (oks (f_tz_minutes cw) st s c rest <-> exists m, 0 <= m <= 59 /\ s = pad2 m ++ rest /\
       c = set_tz (match t_int st with ph_sign => - (cv_tz (t_val st) * 3600 + m * 60) | _ => cv_tz (t_val st) * 3600 + m * 60 end) (t_val st)).
  Proof.
    intros HB U. unfold f_tz_minutes. rewrite HB. split.
    - destruct (two_phase cw [] s) as [[b|v r|r]|] eqn:E; try discriminate.
      apply two_iff in E as [Hv ->]; [|exact U]. destruct (Z.ltb_spec 59 v); [discriminate|].
      cbn [cls_of t_val]. intros H1. injection H1 as <- <-. exists v. split; [lia|]. auto.
    - intros (v & Hv & -> & ->). rewrite (proj2 (two_iff (pad2 v ++ rest) v rest U)) by (split; [lia|reflexivity]).
      destruct (Z.ltb_spec 59 v); [lia|]. reflexivity.
  Qed.

  (** From the sign of the offset on. *)
  Lemma tz_iff neg st s c rest : t_buf st = [] -> t_phase st = P_timezone_hours -> t_int st = (if neg : bool then ph_sign else ph_space) -> units cw s ->
    (oks (f_tz_hours cw) st s c rest <-> exists h m, 0 <= h <= 23 /\ 0 <= m <= 59 /\ s = pad2 h ++ [58] ++ pad2 m ++ rest /\
      c = set_tz (if neg then - (h * 3600 + m * 60) else h * 3600 + m * 60) (t_val st)).
  Proof.
    intros HB HP HI U. unfold f_tz_hours. rewrite field_iff by (auto; lia). unfold f_after_tz_hours. split.
    - intros (h & s1 & Hh & -> & H). apply token_iff in H as (s2 & -> & H). cbn [t_buf t_phase t_int t_val] in H.
      apply tz_minutes_iff in H as (m & Hm & -> & ->); [|reflexivity|].
      + exists h, m. split; [exact Hh|]. split; [exact Hm|]. split; [reflexivity|]. cbn [t_int t_val set_tz cv_tz]. rewrite HI.
        destruct neg, (t_val st); reflexivity.
      + apply units_pad2 in U. now apply units_tail in U.
    - intros (h & m & Hh & Hm & -> & ->). exists h, ([58] ++ pad2 m ++ rest). split; [exact Hh|]. split; [reflexivity|].
      apply token_iff. exists (pad2 m ++ rest). split; [reflexivity|]. apply tz_minutes_iff; [reflexivity| |].
      + apply units_pad2 in U. now apply units_tail in U.
      + exists m. split; [exact Hm|]. split; [reflexivity|]. cbn [t_int t_val set_tz cv_tz]. rewrite HI. destruct neg, (t_val st); reflexivity.
  Qed.
  Lemma marker_iff point st s c rest : units cw s ->
    (oks (f_marker cw point) st s c rest <->
      (exists tz zs, zone_reads tz zs /\ s = zs ++ rest /\ c = set_tz tz (t_val st)) \/
      (exists s', s = 46 :: s' /\ oks point st s c rest)).
  Proof.
    intros U. unfold f_marker. destruct s as [|x s].
    { split; [discriminate|]. intros [(tz & zs & Z & E & _)|(s' & E & _)]; [|discriminate].
      destruct Z as [(-> & _)|(neg & h & m & _ & _ & -> & _)]; [discriminate|destruct neg; discriminate]. }
    split.
    - destruct (Z.eqb_spec x 90).
      { subst x. cbn [cls_of t_val]. intros H. injection H as <- <-. left. exists 0, (text "Z"). split; [left; auto|]. auto. }
      destruct (Z.eqb_spec x 43).
      { subst x. intros H. apply (tz_iff false) in H; try reflexivity; [|exact (units_tail _ _ U)].
        destruct H as (h & m & Hh & Hm & -> & ->). left. eexists _, (text "+" ++ pad2 h ++ text ":" ++ pad2 m).
        split; [right; exists false, h, m; auto|]. auto. }
      destruct (Z.eqb_spec x 45).
      { subst x. intros H. apply (tz_iff true) in H; try reflexivity; [|exact (units_tail _ _ U)].
        destruct H as (h & m & Hh & Hm & -> & ->). left. eexists _, (text "-" ++ pad2 h ++ text ":" ++ pad2 m).
        split; [right; exists true, h, m; auto|]. auto. }
      destruct (Z.eqb_spec x 46); [|discriminate]. subst x. intros H. right. eauto.
    - intros [(tz & zs & Z & E & ->)|(s' & E & H)].
      + destruct Z as [(-> & ->)|(neg & h & m & Hh & Hm & -> & ->)].
        * injection E as -> ->. reflexivity.
        * destruct neg; injection E as -> ->; cbn [Z.eqb].
          -- apply (tz_iff true); try reflexivity; [exact (units_tail _ _ U)|]. exists h, m. auto.
          -- apply (tz_iff false); try reflexivity; [exact (units_tail _ _ U)|]. exists h, m. auto.
      + injection E as -> ->. exact H.
  Qed.
  Lemma after_sub_iff st s c rest : units cw s ->
    (oks (f_after_subseconds cw) st s c rest <-> exists tz zs, zone_reads tz zs /\ s = zs ++ rest /\ c = set_tz tz (t_val st)).
  Proof.
    intros U. unfold f_after_subseconds. rewrite marker_iff by exact U. split; [|auto]. intros [H|(s' & _ & H)]; [exact H|discriminate].
  Qed.
  Lemma zone_head_iff tz zs rest : zone_reads tz zs -> exists x t, zs ++ rest = x :: t /\ is_dec cw x = false.
  Proof.
    assert (D : forall x, x = 90 \/ x = 43 \/ x = 45 -> is_dec cw x = false).
    { intros x Hx. rewrite is_dec_spec; [|exact Hw|pose proof (cw_pow cw Hw); lia]. destruct Hx as [-> | [-> | ->]]; reflexivity. }
    intros [(-> & _)|(neg & h & m & _ & _ & -> & _)]; [|destruct neg]; eexists _, _; (split; [reflexivity|apply D; auto]).
  Qed.
  Lemma sub_iff st s c rest : t_buf st = [] -> units cw s -> short_runs cw s ->
    (oks (f_subseconds cw sse) st s c rest <-> exists ds tz zs, digits_ok 10 ds /\ 1 <= zlen ds <= 19 /\ zone_reads tz zs /\
       s = map (digit_char false) ds ++ zs ++ rest /\ c = set_tz tz (set_sub (value_of 10 ds * 10 ^ (19 - zlen ds)) (t_val st))).
  Proof.
    intros HB U S. unfold f_subseconds. rewrite HB.
    assert (EM : s = [] -> (exists ds tz zs, digits_ok 10 ds /\ 1 <= zlen ds <= 19 /\ zone_reads tz zs /\
       s = map (digit_char false) ds ++ zs ++ rest /\ c = set_tz tz (set_sub (value_of 10 ds * 10 ^ (19 - zlen ds)) (t_val st))) -> False).
    { intros -> (ds & tz & zs & _ & L & _ & E & _). destruct ds; [cbn in L; lia|discriminate]. }
    destruct s as [|x s0] eqn:Es; [split; [discriminate|intros H; exfalso; now apply EM]|]. rewrite <- Es in *. clear EM.
    rewrite frac_chunk_canon; auto; [|rewrite Es; discriminate|cbn [app]; now apply short_take].
    unfold frac_canon. cbn [app]. pose proof (take_drop cw s) as TD.
    assert (UD : units cw (drop_dec cw s) /\ units cw (take_dec cw s)).
    { rewrite <- TD in U. apply Forall_app in U. tauto. }
    pose proof (decs cw Hw _ (proj2 UD) (take_all cw s)) as DD. split.
    - destruct (drop_dec cw s) as [|y r] eqn:ED; [discriminate|]. destruct (take_dec cw s) as [|d ds] eqn:ET; [discriminate|].
      intros H. apply after_sub_iff in H as (tz & zs & Z & E & ->); [|tauto].
      exists (dval (d :: ds)), tz, zs. split; [now apply dval_ok|]. rewrite dval_len. split.
      + pose proof (short_take cw s S) as L. rewrite ET in L. unfold zlen in *. cbn [length] in *. lia.
      + split; [exact Z|]. split; [rewrite dval_text by exact DD; rewrite <- E; symmetry; exact TD|]. reflexivity.
    - intros (ds & tz & zs & Hd & L & Z & E & ->).
      destruct (zone_head_iff tz zs rest Z) as (y & t & EZ & Hy).
      destruct (text_dec ds Hd) as [T1 T2].
      assert (T1' : Forall (fun c => is_dec cw c = true) (map (digit_char false) ds)) by (eapply Forall_impl; [|exact T1]; intros; now apply dec_is).
      assert (E1 : take_dec cw s = map (digit_char false) ds /\ drop_dec cw s = zs ++ rest).
      { rewrite E, take_app, drop_app by exact T1'. rewrite EZ. cbn [take_dec drop_dec]. rewrite Hy, app_nil_r. auto. }
      destruct E1 as [-> E2]. rewrite E2 in *. rewrite EZ.
      destruct (map (digit_char false) ds) as [|d l] eqn:EM; [destruct ds; [cbn in L; lia|discriminate]|]. rewrite <- EZ, <- EM.
      apply after_sub_iff; [tauto|]. exists tz, zs. split; [exact Z|]. split; [reflexivity|].
      cbn [with_phase with_val t_val]. unfold frac_val. rewrite EM, T2. f_equal. f_equal. unfold zlen. rewrite <- EM, map_length. reflexivity.
  Qed.

  (** From the seconds' end on. *)
  Lemma timezone_marker_iff st s c rest : t_buf st = [] -> units cw s -> short_runs cw s -> cv_sub (t_val st) = 0 ->
    (oks (f_timezone_marker cw sse) st s c rest <->
      exists sub tz fs zs, fraction_reads sub fs /\ zone_reads tz zs /\ s = fs ++ zs ++ rest /\ c = set_tz tz (set_sub sub (t_val st))).
  Proof.
    intros HB U S H0. unfold f_timezone_marker. rewrite marker_iff by exact U. split.
    - intros [(tz & zs & Z & -> & ->)|(s' & -> & H)].
      + exists 0, tz, [], zs. split; [left; auto|]. split; [exact Z|]. split; [reflexivity|].
        destruct (t_val st); cbn in *; subst; reflexivity.
      + cbn [skipn] in H. apply sub_iff in H; [|exact HB|exact (units_tail _ _ U)|exact (short_suffix cw [46] _ S)].
        destruct H as (ds & tz & zs & Hd & L & Z & -> & ->).
        eexists _, tz, (text "." ++ map (digit_char false) ds), zs. split; [right; exists ds; split; [exact Hd|]; split; [exact L|]; split; reflexivity|].
        split; [exact Z|]. split; reflexivity.
    - intros (sub & tz & fs & zs & F & Z & -> & ->). destruct F as [(-> & ->)|(ds & Hd & L & -> & ->)].
      + left. exists tz, zs. split; [exact Z|]. split; [reflexivity|]. destruct (t_val st); cbn in *; subst; reflexivity.
      + right. eexists. split; [reflexivity|]. cbn [skipn]. apply sub_iff; [exact HB| | |].
        * exact (units_tail _ _ U).
        * exact (short_suffix cw [46] _ S).
        * exists ds, tz, zs. auto 6.
  Qed.
End GRAMMAR.
