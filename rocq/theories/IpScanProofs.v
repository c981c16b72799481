(** Scanning internet addresses. *)
From Coq Require Import String.
From Verif Require Import Base NumSpec NumFacts ByteSpec LebeModel ByteProofs IntPrintModel IntPrintProofs IntPrintCorrect IntScanModel ScanSpec
  IntScanProofs IntSseProofs IntRoundProofs IntSoundProofs TimeTextModel TimeTextProofs TimeScanProofs IpSpec IpModel IpProofs IpShortProofs.

Lemma units_safe cw s : units cw s -> safe_first 10 cw s.
Proof. intros H. destruct s; [exact I|]. inversion H; subst. split; [assumption|]. lia. Qed.
Lemma field_cfg w cw sse : In w int_widths -> In cw char_widths -> good_cfg (mk_scfg 10 true false false (mk_int w false) cw sse).
Proof. intros H1 H2. split; [cbn; lia|]. split; assumption. Qed.
Lemma uint_range w v : in_range (mk_int w false) v <-> 0 <= v < 2 ^ w.
Proof. unfold in_range, int_min, int_max. cbn [isigned iw]. lia. Qed.
Lemma outcome_uint w v u : 0 <= v -> outcome (mk_int w false) v u = if v <? 2 ^ w then mk_pres pc_ok u (Some v) else mk_pres pc_overflow u None.
Proof.
  intros H. unfold outcome. destruct (Z.ltb_spec v (2 ^ w)).
  - replace (in_rangeb (mk_int w false) v) with true; [reflexivity|]. symmetry. unfold in_rangeb, int_min, int_max. cbn [isigned iw]. 
    apply andb_true_iff. split; apply Z.leb_le; lia.
  - replace (in_rangeb (mk_int w false) v) with false; [reflexivity|]. symmetry. unfold in_rangeb, int_min, int_max. cbn [isigned iw].
    apply andb_false_iff. right. apply Z.leb_gt. lia.
Qed.

Lemma field_digits w cw sse cs ds rest : In w int_widths -> In cw char_widths -> digit_string 10 cs ds -> no_leading_zero ds ->
  units cw rest -> no_digit_first 10 rest ->
  exists r, scan_int (mk_scfg 10 true false false (mk_int w false) cw sse) (cs ++ rest) = Some r /\
    p_code r = (if value_of 10 ds <? 2 ^ w then pc_ok else pc_overflow) /\
    (value_of 10 ds < 2 ^ w -> p_val r = Some (value_of 10 ds) /\ p_used r = zlen cs).
Proof.
  intros Hw Hcw D Nz Hu Hn.
  assert (0 <= value_of 10 ds).
  { apply value_of_bound; [lia|]. clear - D. induction D as [|c d cs ds [Hd _] _ IH]; constructor; auto. }
  destruct (scan_int_gen (mk_scfg 10 true false false (mk_int w false) cw sse) [] false cs ds rest) as (r & E & S1 & S2 & S3); auto.
  - now apply field_cfg.
  - discriminate.
  - intros E. cbn [sc_cw] in E. exact (units_bytes _ _ Hu E).
  - destruct ds; [contradiction|discriminate].
  - now apply units_safe.
  - cbn [sc_ty sc_base] in S1, S2, S3. cbn [signed_value] in S1, S2, S3. rewrite outcome_uint in S1, S2, S3 by assumption.
    cbn [app sign_chars] in E. exists r. split; [exact E|]. destruct (Z.ltb_spec (value_of 10 ds) (2 ^ w)) as [L|L]; (split; [exact S1|]); intros; [|lia].
    split; [exact S2|]. rewrite S3 by (left; reflexivity). cbn [p_used sign_chars]. rewrite !(zlen_nil (A:=Z)). lia.
Qed.

Lemma digits10 ds cs : digit_string 10 cs ds -> cs = map (digit_char false) ds.
Proof.
  induction 1 as [|c d cs ds Hd _ IH]; [reflexivity|]. cbn [map]. f_equal; [|exact IH].
  pose proof (denotes10 _ _ Hd) as [E R]. rewrite digit_char_small by lia. exact E.
Qed.
Lemma numeral10 cs ds : digit_string 10 cs ds -> no_leading_zero ds -> is_numeral 10 false (value_of 10 ds) cs.
Proof.
  intros D N. exists ds. split.
  - clear N. induction D as [|c d cs ds [Hd _] _ IH]; constructor; auto.
  - split; [exact N|]. split; [reflexivity|]. now apply digits10.
Qed.

(** A field of the text: the code read and what follows it. *)
Lemma field_ok ty w cw sse u num rest s : ty = mk_int w false -> In w int_widths -> In cw char_widths -> 0 <= u < 2 ^ w -> is_numeral 10 false u num ->
  units cw rest -> no_digit_first 10 rest -> 
  scan_field_int ty cw sse (num ++ rest) (num ++ s) = SGo (u, s).
Proof.
  intros -> Hw Hcw Hu N Hr Hn. destruct (numeral_digit_string 10 false u num ltac:(lia) N) as (ds & D & V & Nz).
  destruct (field_digits w cw sse num ds rest) as (r & E & C & R); auto. rewrite V in *.
  destruct (R ltac:(lia)) as [R1 R2]. unfold scan_field_int. rewrite E, C, R1, R2.
  destruct (Z.ltb_spec u (2 ^ w)); [|lia]. f_equal. f_equal. unfold zlen. rewrite Nat2Z.id. now rewrite skipn_app, skipn_all, Nat.sub_diag.
Qed.

(** An empty field is read as 0. *)
Lemma field_empty w cw sse : In w int_widths -> In cw char_widths ->
  scan_int (mk_scfg 10 true false false (mk_int w false) cw sse) [] = Some (mk_pres pc_ok 0 (Some 0)).
Proof.
  intros H1 H2. cbn [int_widths char_widths In] in H1, H2.
  repeat match goal with H : _ \/ _ |- _ => destruct H | H : False |- _ => contradiction | H : _ = w |- _ => subst w | H : _ = cw |- _ => subst cw end;
  destruct sse; vm_compute; reflexivity.
Qed.

(** What a field scan that goes on has read: a numeral in range, or nothing at all. *)
Lemma field_inv ty w cw sse window s u r : ty = mk_int w false -> In w int_widths -> In cw char_widths -> units cw window ->
  scan_field_int ty cw sse window s = SGo (u, r) ->
  (window = [] /\ u = 0 /\ r = s) \/
  (exists num rest, window = num ++ rest /\ is_numeral 10 false u num /\ no_digit_first 10 rest /\ 0 <= u < 2 ^ w /\ r = skipn (length num) s).
Proof.
  intros -> Hw Hcw Hu. unfold scan_field_int.
  destruct (text_cases 10 false true false window) as (ws & minus & body & E & Hws & Hnw & Hm & Hb).
  rewrite Hnw in E by reflexivity. destruct minus; [discriminate Hm; reflexivity|]. cbn [app sign_chars] in E. subst body. clear ws Hws Hnw Hm.
  pose proof (field_cfg w cw sse Hw Hcw) as G.
  destruct Hb as [Hb|[(B1 & B2 & _ & _)|[(_ & c & rest & B2 & B3)|(cs & ds & rest & B1 & B2 & B3 & B4 & B5)]]].
  - intros H. left. subst window. split; [reflexivity|]. rewrite field_empty in H by assumption. cbn in H. injection H as <- <-. auto.
  - assert (I0 : scan_int (mk_scfg 10 true false false (mk_int w false) cw sse) ([] ++ sign_chars false ++ window) = Some (mk_pres pc_invalid 0 None)).
    { rewrite scan_invalid; auto; try discriminate.
      - intros _. destruct window; [exact I|]. split; discriminate.
      - now apply units_safe. }
    cbn [app sign_chars] in I0. rewrite I0. cbn. discriminate.
  - assert (I0 : scan_int (mk_scfg 10 true false false (mk_int w false) cw sse) ([] ++ sign_chars false ++ 48 :: c :: rest) = Some (mk_pres pc_invalid 1 None)).
    { rewrite scan_leading_zero; auto. }
    cbn [app sign_chars] in I0. subst window. rewrite I0. cbn. discriminate.
  - subst window. apply Forall_app in Hu as Hu'. destruct Hu' as [_ Hu'].
    destruct (field_digits w cw sse cs ds rest) as (x & E & C & R); auto. rewrite E, C.
    destruct (Z.ltb_spec (value_of 10 ds) (2 ^ w)) as [L|L]; [|discriminate].
    destruct (R L) as [R1 R2]. rewrite R1, R2. intros H. injection H as <- <-. right. exists cs, rest.
    split; [reflexivity|]. split; [apply numeral10; auto|]. split; [exact B4|]. split.
    + split; [|exact L]. apply value_of_bound; [lia|]. clear - B2. induction B2 as [|c d cs ds [Hd _] _ IH]; constructor; auto.
    + unfold zlen. now rewrite Nat2Z.id.
Qed.

Lemma field_total ty w cw sse window s : ty = mk_int w false -> In w int_widths -> In cw char_widths -> units cw window ->
  scan_field_int ty cw sse window s <> SUb.
Proof.
  intros -> Hw Hcw Hu. unfold scan_field_int.
  assert (T : exists x, scan_int (mk_scfg 10 true false false (mk_int w false) cw sse) window = Some x).
  { destruct (sse && (cw =? 8)) eqn:E.
    - apply andb_true_iff in E as [-> E]. apply Z.eqb_eq in E. subst cw.
      destruct (scan_int_agree (mk_scfg 10 true false false (mk_int w false) 8 false) window) as (rv & rs & E1 & _); auto.
      + now apply field_cfg.
      + exists rv. exact E1.
    - apply scan_int10; auto. intros t _. unfold no_sse. cbn [sc_sse sc_base sc_cw]. change (10 =? 10) with true.
      destruct sse; cbn [andb] in *; [rewrite E|]; reflexivity. }
  destruct T as [x ->]. destruct (p_code x); try discriminate. destruct (p_val x); discriminate.
Qed.

Lemma numeral_octet_len u num : octet u -> is_numeral 10 false u num -> (1 <= length num <= 3)%nat.
Proof.
  intros H N. pose proof (numeral_length 10 false u num 8 ltac:(lia) w8 N H) as L.
  change (cal_max_int_size (mk_int 8 false) 10) with 3 in L. unfold zlen in L.
  destruct N as (ds & _ & Nz & _ & ->). rewrite map_length in *. destruct ds; [contradiction|]. cbn [length] in *. lia.
Qed.
Lemma dot_not_digit s : no_digit_first 10 (46 :: s).
Proof. cbn. rewrite is_digit10. lia. Qed.
Lemma octet3_ok cw sse u num s : In cw char_widths -> octet u -> is_numeral 10 false u num -> units cw (46 :: s) -> 3 <= zlen (num ++ 46 :: s) ->
  scan_octet3 cw sse (num ++ 46 :: s) = SGo (u, 46 :: s).
Proof.
  intros Hcw Hu N Hs L. unfold scan_octet3. destruct (Z.ltb_spec (zlen (num ++ 46 :: s)) 3); [lia|].
  pose proof (numeral_octet_len u num Hu N). rewrite firstn_app. rewrite firstn_all2 by lia.
  apply (field_ok _ 8); auto using w8.
  - unfold units. rewrite <- (firstn_skipn (3 - length num) (46 :: s)) in Hs. apply Forall_app in Hs. apply Hs.
  - destruct (3 - length num)%nat; [exact I|]. cbn [firstn]. apply dot_not_digit.
Qed.

Lemma dot46 : text "." = [46]. Proof. reflexivity. Qed.
Lemma scan_sep_ok c s : scan_sep c (c :: s) = SGo s.
Proof. cbn. now rewrite Z.eqb_refl. Qed.

Lemma cw_ascii cw c : In cw char_widths -> 0 <= c < 128 -> 0 <= c < 2 ^ cw.
Proof. intros H. cbn [char_widths In] in H. destruct H as [<-|[<-|[<-|[]]]]; cbn; lia. Qed.
Lemma numeral_units cw u num : In cw char_widths -> is_numeral 10 false u num -> units cw num.
Proof.
  intros Hcw (ds & O & _ & _ & ->). unfold units. induction O as [|d ds Hd _ IH]; cbn [map]; constructor; [|exact IH].
  rewrite digit_char_small by lia. apply cw_ascii; [exact Hcw|lia].
Qed.
Lemma units_app cw a b : units cw a -> units cw b -> units cw (a ++ b). Proof. intros. now apply Forall_app. Qed.
Lemma units_cons cw c a : 0 <= c < 2 ^ cw -> units cw a -> units cw (c :: a). Proof. intros. now apply Forall_cons. Qed.

Lemma scan_v4_ok cw sse a b c d txt rest : In cw char_widths -> octet a -> octet b -> octet c -> octet d -> v4_text a b c d txt ->
  units cw rest -> no_digit_first 10 rest -> scan_v4 cw sse (txt ++ rest) = SGo ([a; b; c; d], rest).
Proof.
  intros Hcw Ha Hb Hc Hd (ta & tb & tc & td & Na & Nb & Nc & Nd & ->) Hr Hn. unfold scan_v4.
  pose proof (numeral_octet_len _ _ Ha Na). pose proof (numeral_octet_len _ _ Hb Nb).
  pose proof (numeral_octet_len _ _ Hc Nc). pose proof (numeral_octet_len _ _ Hd Nd).
  rewrite dot46. rewrite <- !app_assoc. cbn [app].
  assert (Udot : forall s, units cw s -> units cw (46 :: s)) by (intros; apply units_cons; [apply cw_ascii; [assumption|lia]|assumption]).
  assert (U3 : units cw (46 :: td ++ rest)) by (apply Udot, units_app; [eapply numeral_units; eassumption|assumption]).
  assert (U2 : units cw (46 :: tc ++ 46 :: td ++ rest)) by (apply Udot, units_app; [eapply numeral_units; eassumption|assumption]).
  assert (U1 : units cw (46 :: tb ++ 46 :: tc ++ 46 :: td ++ rest)) by (apply Udot, units_app; [eapply numeral_units; eassumption|assumption]).
  match goal with |- context[zlen ?x <? 7] => destruct (Z.ltb_spec (zlen x) 7) as [B|B] end;
    [exfalso; revert B; unfold zlen; repeat (rewrite app_length; cbn [length]); lia|].
  rewrite (octet3_ok cw sse a ta); try assumption; [|lia]. cbn [sbind]. rewrite scan_sep_ok. cbn [sbind].
  rewrite (octet3_ok cw sse b tb); try assumption; try (unfold zlen; repeat (rewrite app_length; cbn [length]); lia). cbn [sbind]. rewrite scan_sep_ok. cbn [sbind].
  match goal with |- context[zlen ?x <? 3] => destruct (Z.ltb_spec (zlen x) 3) as [B2|B2] end;
    [exfalso; revert B2; unfold zlen; repeat (rewrite app_length; cbn [length]); lia|].
  rewrite (octet3_ok cw sse c tc); try assumption; try (unfold zlen; repeat (rewrite app_length; cbn [length]); lia). cbn [sbind]. rewrite scan_sep_ok. cbn [sbind].
  rewrite (field_ok uint8_ty 8 cw sse d td rest rest) by auto using w8. reflexivity.
Qed.

Lemma scan_port_ok cw sse p num rest : In cw char_widths -> 0 <= p < 65536 -> is_numeral 10 false p num ->
  units cw rest -> no_digit_first 10 rest -> scan_port cw sse (58 :: num ++ rest) = SGo (p, rest).
Proof.
  intros Hcw Hp N Hr Hn. unfold scan_port. rewrite scan_sep_ok. cbn [sbind]. apply (field_ok uint16_ty 16); auto using w16.
Qed.

(** ** What an IPv4 scan accepts *)
Lemma sep_inv c s r : scan_sep c s = SGo r -> s = c :: r.
Proof. destruct s as [|x s]; cbn; [discriminate|]. destruct (Z.eqb_spec x c); [|discriminate]. intros E. injection E as <-. subst. reflexivity. Qed.
Lemma octet3_inv cw sse s u r : In cw char_widths -> units cw s -> scan_octet3 cw sse s = SGo (u, r) ->
  exists num, s = num ++ r /\ is_numeral 10 false u num /\ octet u.
Proof.
  intros Hcw Hu. unfold scan_octet3. destruct (Z.ltb_spec (zlen s) 3) as [L|L]; [discriminate|]. intros E.
  assert (Hw : units cw (firstn 3 s)). { rewrite <- (firstn_skipn 3 s) in Hu. apply Forall_app in Hu. apply Hu. }
  apply (field_inv uint8_ty 8) in E as [(E & _)|(num & rest & E & N & _ & R & ->)]; auto using w8.
  - destruct s; [cbn in L; lia|discriminate].
  - exists num. split; [|split; [exact N|exact R]].
    assert (firstn (length num) s = num).
    { pose proof (f_equal (firstn (length num)) E) as F. rewrite firstn_firstn in F.
      rewrite firstn_app, Nat.sub_diag, firstn_all, firstn_O, app_nil_r in F.
      pose proof (f_equal (@length Z) E) as G. rewrite firstn_length, app_length in G. rewrite Nat.min_l in F by lia. exact F. }
    rewrite <- (firstn_skipn (length num) s) at 1. congruence.
Qed.
Lemma octet3_safe cw sse s : In cw char_widths -> units cw s -> 3 <= zlen s -> scan_octet3 cw sse s <> SUb.
Proof.
  intros Hcw Hu L. unfold scan_octet3. destruct (Z.ltb_spec (zlen s) 3); [lia|].
  apply (field_total _ 8); auto using w8. rewrite <- (firstn_skipn 3 s) in Hu. apply Forall_app in Hu. apply Hu.
Qed.

Lemma octet3_len cw sse s u r : In cw char_widths -> units cw s -> scan_octet3 cw sse s = SGo (u, r) -> zlen s - 3 <= zlen r /\ units cw r.
Proof.
  intros Hcw Hu E. apply octet3_inv in E as (num & -> & N & O); auto. apply (numeral_octet_len u num O) in N.
  apply Forall_app in Hu as [_ Hu]. unfold zlen. rewrite app_length. split; [lia|exact Hu].
Qed.
Lemma sep_tail cw c s r : units cw s -> scan_sep c s = SGo r -> units cw r /\ zlen r = zlen s - 1.
Proof. intros Hu E. apply sep_inv in E. subst s. inversion Hu; subst. rewrite zlen_cons. split; [assumption|lia]. Qed.
Lemma sep_safe c s : scan_sep c s <> SUb.
Proof. destruct s as [|x s]; cbn; [discriminate|]. destruct (_ =? _); discriminate. Qed.

Lemma scan_v4_safe cw sse s : In cw char_widths -> units cw s -> scan_v4 cw sse s <> SUb.
Proof.
  intros Hcw Hu. unfold scan_v4. destruct (Z.ltb_spec (zlen s) 7) as [L|L]; [discriminate|].
  destruct (scan_octet3 cw sse s) as [|ec r|[a s1]] eqn:E1; cbn [sbind]; [exfalso; revert E1; apply octet3_safe; auto; lia|discriminate|].
  apply octet3_len in E1 as [L1 U1]; auto.
  destruct (scan_sep 46 s1) as [|ec r|s2] eqn:E2; cbn [sbind]; [exfalso; now apply sep_safe in E2|discriminate|].
  apply (sep_tail cw) in E2 as [U2 L2]; auto.
  destruct (scan_octet3 cw sse s2) as [|ec r|[b s3]] eqn:E3; cbn [sbind]; [exfalso; revert E3; apply octet3_safe; auto; lia|discriminate|].
  apply octet3_len in E3 as [L3 U3]; auto.
  destruct (scan_sep 46 s3) as [|ec r|s4] eqn:E4; cbn [sbind]; [exfalso; now apply sep_safe in E4|discriminate|].
  apply (sep_tail cw) in E4 as [U4 L4]; auto.
  destruct (Z.ltb_spec (zlen s4) 3) as [L5|L5]; [discriminate|].
  destruct (scan_octet3 cw sse s4) as [|ec r|[c s5]] eqn:E5; cbn [sbind]; [exfalso; revert E5; apply octet3_safe; auto; lia|discriminate|].
  apply octet3_len in E5 as [L6 U5]; auto.
  destruct (scan_sep 46 s5) as [|ec r|s6] eqn:E6; cbn [sbind]; [exfalso; now apply sep_safe in E6|discriminate|].
  apply (sep_tail cw) in E6 as [U6 L7]; auto.
  destruct (scan_field_int uint8_ty cw sse s6 s6) as [|ec r|[d s7]] eqn:E7; cbn [sbind]; try discriminate.
  exfalso. revert E7. apply (field_total _ 8); auto using w8.
Qed.

Lemma scan_v4_inv cw sse s l r : In cw char_widths -> units cw s -> scan_v4 cw sse s = SGo (l, r) ->
  exists a b c d, l = [a; b; c; d] /\ octet a /\ octet b /\ octet c /\ octet d /\
    ((exists txt, v4_text a b c d txt /\ s = txt ++ r /\ no_digit_first 10 r) \/
     (d = 0 /\ r = [] /\ exists txt, v4_text a b c 0 (txt ++ text "0") /\ s = txt)).
Proof.
  intros Hcw Hu. unfold scan_v4. destruct (Z.ltb_spec (zlen s) 7) as [L|L]; [discriminate|].
  destruct (scan_octet3 cw sse s) as [|ec r1|[a s1]] eqn:E1; cbn [sbind]; try discriminate.
  pose proof (octet3_len _ _ _ _ _ Hcw Hu E1) as [_ U1]. apply octet3_inv in E1 as (ta & -> & Na & Oa); auto.
  destruct (scan_sep 46 s1) as [|ec r1|s2] eqn:E2; cbn [sbind]; try discriminate.
  pose proof (sep_tail _ _ _ _ U1 E2) as [U2 _]. apply sep_inv in E2. subst s1.
  destruct (scan_octet3 cw sse s2) as [|ec r1|[b s3]] eqn:E3; cbn [sbind]; try discriminate.
  pose proof (octet3_len _ _ _ _ _ Hcw U2 E3) as [_ U3]. apply octet3_inv in E3 as (tb & -> & Nb & Ob); auto.
  destruct (scan_sep 46 s3) as [|ec r1|s4] eqn:E4; cbn [sbind]; try discriminate.
  pose proof (sep_tail _ _ _ _ U3 E4) as [U4 _]. apply sep_inv in E4. subst s3.
  destruct (Z.ltb_spec (zlen s4) 3) as [L5|L5]; [discriminate|].
  destruct (scan_octet3 cw sse s4) as [|ec r1|[c s5]] eqn:E5; cbn [sbind]; try discriminate.
  pose proof (octet3_len _ _ _ _ _ Hcw U4 E5) as [_ U5]. apply octet3_inv in E5 as (tc & -> & Nc & Oc); auto.
  destruct (scan_sep 46 s5) as [|ec r1|s6] eqn:E6; cbn [sbind]; try discriminate.
  pose proof (sep_tail _ _ _ _ U5 E6) as [U6 _]. apply sep_inv in E6. subst s5.
  destruct (scan_field_int uint8_ty cw sse s6 s6) as [|ec r1|[d s7]] eqn:E7; cbn [sbind]; try discriminate.
  intros E. injection E as <- <-. exists a, b, c, d. split; [reflexivity|]. split; [exact Oa|]. split; [exact Ob|]. split; [exact Oc|].
  apply (field_inv uint8_ty 8) in E7 as [(E & -> & E0)|(td & rest & E & Nd & Nr & R & E0)]; auto using w8.
  - split; [unfold octet; lia|]. right. split; [reflexivity|]. split; [congruence|].
    exists (ta ++ 46 :: tb ++ 46 :: tc ++ 46 :: []). split.
    + exists ta, tb, tc, (text "0"). repeat (split; [assumption|]). split.
      * exists [0]. split; [repeat constructor; lia|]. split; [exact I|]. split; reflexivity.
      * repeat (rewrite <- app_assoc; cbn [app]). reflexivity.
    + subst s6. reflexivity.
  - split; [exact R|]. left. exists (ta ++ text "." ++ tb ++ text "." ++ tc ++ text "." ++ td).
    subst s6. rewrite skipn_app, skipn_all, Nat.sub_diag in E0. cbn [app skipn] in E0. subst s7.
    split; [exists ta, tb, tc, td; auto 10|]. split; [|exact Nr].
    rewrite dot46. repeat (rewrite <- app_assoc; cbn [app]). reflexivity.
Qed.
