(** Scanning IPv6 addresses: what the scanner reads for each group. *)
From Coq Require Import String.
From Verif Require Import Leb128Proofs Base NumSpec NumFacts ByteSpec LebeModel ByteProofs IntPrintModel IntPrintProofs IntPrintCorrect IntScanModel ScanSpec
  IntScanProofs IntSseProofs IntRoundProofs TimeTextModel TimeTextProofs IpSpec IpModel IpProofs IpShortProofs IpScanProofs.

(** The value a run of hexadecimal digits is read as. *)
Definition misread (ds : list Z) : Z :=
  match ds with
  | [d0] => d0
  | [d0; d1] => 16 * d0 + d1
  | [d0; d1; d2] => 16 * d0 + d1 + 256 * d2
  | [d0; d1; d2; d3] => 16 * d0 + d1 + 256 * (16 * d2 + d3)
  | _ => 0
  end.

Lemma word1_stored host r : 0 <= r < 256 -> word1 host r = stored host r.
Proof.
  intros H. rewrite stored_value by (unfold group; lia). unfold word1. destruct host; [|reflexivity].
  rewrite Z.shiftl_mul_pow2 by lia. change (2 ^ 8) with 256. rewrite Z.div_small, Z.mod_small by lia. lia.
Qed.
Lemma lor_bytes a b : 0 <= a < 256 -> 0 <= b -> Z.lor a (Z.shiftl b 8) = a + 256 * b.
Proof.
  intros Ha Hb. rewrite Z.shiftl_mul_pow2 by lia. rewrite Leb128Proofs.lor_add by (change (2 ^ 8) with 256; lia). change (2 ^ 8) with 256. lia.
Qed.
Lemma word2_stored host r0 r1 : 0 <= r0 < 256 -> 0 <= r1 < 256 -> word2 host r0 r1 = stored host (r0 + 256 * r1).
Proof.
  intros H0 H1. rewrite stored_value by (unfold group; lia). unfold word2. destruct host; [|now apply lor_bytes].
  rewrite Z.lor_comm, lor_bytes by lia. replace (r0 + 256 * r1) with (r0 + r1 * 256) by lia.
  rewrite Z.div_add, Z.mod_add by lia. rewrite Z.div_small, Z.mod_small by lia. lia.
Qed.

Lemma digit16_not_colon c d : denotes 16 c d -> c =? 58 = false.
Proof. intros H. apply (denotes_cases 16) in H; [|lia]. apply Z.eqb_neq. lia. Qed.

Lemma scan_group_ok host cw cs ds rest : In cw char_widths -> digit_string 16 cs ds -> (1 <= length ds <= 4)%nat ->
  ((2 <= length ds <= 3)%nat -> no_leading_zero ds) -> safe_first 16 cw rest -> no_digit_first 16 rest ->
  scan_group host cw (cs ++ rest) = SGo (stored host (misread ds), rest).
Proof.
  intros Hcw D L Nz Hs Hn.
  assert (Stop : match rest with [] => True | c :: _ => char_digit 16 cw c = Some None end).
  { destruct rest; [exact I|]. apply char_digit_none; auto; lia. }
  assert (CD : forall c d, denotes 16 c d -> char_digit 16 cw c = Some (Some d)) by (intros; apply char_digit_some; auto; lia).
  assert (R : forall c d, denotes 16 c d -> 0 <= d < 16) by (intros c d [H _]; exact H).
  inversion D as [|c0 d0 cs0 ds0 Q0 D0]; subst; [cbn in L; lia|]. clear D. cbn [app scan_group].
  rewrite (digit16_not_colon c0 d0) by assumption. rewrite (CD c0 d0) by assumption. pose proof (R _ _ Q0) as B0.
  inversion D0 as [|c1 d1 cs1 ds1 Q1 D1]; subst; clear D0.
  { cbn [app]. cbn [misread]. destruct rest as [|x rest]; [|rewrite Stop]; rewrite word1_stored by lia; reflexivity. }
  cbn [app]. rewrite (CD c1 d1) by assumption. pose proof (R _ _ Q1) as B1.
  assert (W0 : wrap 8 (wrap 8 (d0 * 16) + d1) = 16 * d0 + d1) by (unfold wrap; rewrite !Z.mod_small by (change (2 ^ 8) with 256; try rewrite Z.mod_small; change (2 ^ 8) with 256; lia); lia).
  rewrite W0.
  inversion D1 as [|c2 d2 cs2 ds2 Q2 D2]; subst; clear D1.
  { assert (NZ0 : d0 <> 0) by (apply Nz; cbn; lia). assert (E0 : (d0 =? 0) = false) by (now apply Z.eqb_neq).
    cbn [app misread]. destruct rest as [|x rest]; [|rewrite Stop]; rewrite E0, word1_stored by lia; reflexivity. }
  cbn [app]. rewrite (CD c2 d2) by assumption. pose proof (R _ _ Q2) as B2.
  inversion D2 as [|c3 d3 cs3 ds3 Q3 D3]; subst; clear D2.
  { assert (NZ0 : d0 <> 0) by (apply Nz; cbn; lia). assert (E0 : (d0 =? 0) = false) by (now apply Z.eqb_neq).
    cbn [app misread]. destruct rest as [|x rest]; [|rewrite Stop]; rewrite E0, word2_stored by lia; reflexivity. }
  cbn [app]. rewrite (CD c3 d3) by assumption. pose proof (R _ _ Q3) as B3.
  assert (W1 : wrap 8 (wrap 8 (d2 * 16) + d3) = 16 * d2 + d3) by (unfold wrap; rewrite !Z.mod_small by (change (2 ^ 8) with 256; try rewrite Z.mod_small; change (2 ^ 8) with 256; lia); lia).
  rewrite W1.
  inversion D3 as [|c4 d4 cs4 ds4 Q4 D4]; subst; [|cbn in L; lia].
  cbn [app misread]. destruct rest as [|x rest]; [|rewrite Stop]; rewrite word2_stored by lia; reflexivity.
Qed.

(** What a printed group is read back as. *)
Definition reread (full : bool) (g : Z) : Z :=
  if full then g / 256 + 256 * (g mod 256)
  else if g <? 256 then g else if g <? 4096 then g / 16 + 256 * (g mod 16) else g / 256 + 256 * (g mod 256).

Ltac lensplit ds L := destruct ds as [|d0 [|d1 [|d2 [|d3 [|d4 ds]]]]]; cbn [length] in L; try lia.
Lemma misread4 d0 d1 d2 d3 : 0 <= d0 < 16 -> 0 <= d1 < 16 -> 0 <= d2 < 16 -> 0 <= d3 < 16 ->
  let g := value_of 16 [d0; d1; d2; d3] in misread [d0; d1; d2; d3] = g / 256 + 256 * (g mod 256).
Proof.
  intros H0 H1 H2 H3 g. assert (E : g = (16 * d2 + d3) + (16 * d0 + d1) * 256) by (unfold g, value_of; cbn [fold_left]; lia).
  rewrite E. rewrite Z.div_add, Z.mod_add by lia. rewrite Z.div_small, Z.mod_small by lia. cbn [misread]. lia.
Qed.
Lemma piece_reread upper full g t : group g -> piece upper full g t ->
  exists ds, digit_string 16 t ds /\ (1 <= length ds <= 4)%nat /\ ((2 <= length ds <= 3)%nat -> no_leading_zero ds) /\ misread ds = reread full g.
Proof.
  intros Hg. unfold piece. destruct full.
  - intros (ds & O & L & V & ->). exists ds. split; [now apply map_digit_string|]. split; [lia|]. split; [lia|].
    lensplit ds L. unfold digits_ok in O. repeat match goal with H : Forall _ (_ :: _) |- _ => inversion H; clear H; subst end.
    unfold reread. apply misread4; assumption.
  - intros N. pose proof (numeral_length 16 upper g t 16 ltac:(lia) w16 N Hg) as L.
    change (cal_max_int_size (mk_int 16 false) 16) with 4 in L.
    destruct N as (ds & O & Nz & V & ->). exists ds. split; [now apply map_digit_string|].
    unfold zlen in L. rewrite map_length in L. 
    split; [destruct ds; [contradiction|cbn [length] in *; lia]|]. split; [intros; exact Nz|].
    unfold digits_ok in O. unfold reread. subst g.
    lensplit ds L; [contradiction| | | |]; repeat match goal with H : Forall _ (_ :: _) |- _ => inversion H; clear H; subst end; cbn [no_leading_zero] in Nz.
    + unfold value_of. cbn [fold_left misread]. destruct (Z.ltb_spec (0 * 16 + d0) 256); lia.
    + unfold value_of. cbn [fold_left misread]. match goal with |- context[?x <? 256] => destruct (Z.ltb_spec x 256) end; lia.
    + unfold value_of. cbn [fold_left misread].
      match goal with |- context[?x <? 256] => assert (E : x = d2 + (16 * d0 + d1) * 16) by lia; rewrite E end.
      destruct (Z.ltb_spec (d2 + (16 * d0 + d1) * 16) 256); [lia|]. destruct (Z.ltb_spec (d2 + (16 * d0 + d1) * 16) 4096); [|lia].
      rewrite Z.div_add, Z.mod_add by lia. rewrite Z.div_small, Z.mod_small by lia. lia.
    + rewrite misread4 by assumption.
      assert (4096 <= value_of 16 [d0; d1; d2; d3]) by (unfold value_of; cbn [fold_left]; lia).
      destruct (Z.ltb_spec (value_of 16 [d0; d1; d2; d3]) 256); [lia|]. destruct (Z.ltb_spec (value_of 16 [d0; d1; d2; d3]) 4096); [lia|]. reflexivity.
Qed.

Lemma colon_safe cw s : In cw char_widths -> safe_first 16 cw (58 :: s).
Proof. intros H. split; [apply cw_ascii; [exact H|lia]|]. intros _. destruct (cw =? 8); lia. Qed.
Lemma colon_no_digit s : no_digit_first 16 (58 :: s).
Proof. cbn. intros [d H]. apply (denotes_cases 16) in H; lia. Qed.

Lemma scan_long_ok host cw upper full gs : Forall group gs -> forall txt rest n, In cw char_widths -> length gs = S n ->
  joined (piece upper full) gs txt -> safe_first 16 cw rest -> no_digit_first 16 rest ->
  scan_long n host cw (txt ++ rest) = SGo (map (stored host) (map (reread full) gs), rest).
Proof.
  intros HG txt rest n Hcw HL J Hs Hn. revert n HL. induction J as [|g t P|g t h gs s P J IH]; intros n HL; [discriminate| |].
  - injection HL as <-. inversion HG as [|? ? Hg _]; subst. destruct (piece_reread _ _ _ _ Hg P) as (ds & D & L & Nz & M). cbn [scan_long].
    rewrite (scan_group_ok host cw t ds rest) by auto. rewrite M. reflexivity.
  - inversion HG as [|? ? Hg HG']; subst. destruct n as [|n]; [discriminate|]. cbn [scan_long]. 
    destruct (piece_reread _ _ _ _ Hg P) as (ds & D & L & Nz & M). rewrite <- app_assoc. change (text ":") with [58]. rewrite <- app_assoc. cbn [app].
    rewrite (scan_group_ok host cw t ds) by (auto using colon_safe, colon_no_digit). rewrite M. cbn [no_eof sbind]. rewrite Z.eqb_refl.
    rewrite (IH HG' n) by (cbn [length] in *; lia). reflexivity.
Qed.

(** The scan that allows the shortened form. *)
Lemma scan_short_never_ok host cw n : forall s r, scan_short n host cw s <> SReturns pc_ok r.
Proof.
  induction n as [|n IH]; intros s r; cbn [scan_short]; [discriminate|].
  destruct (scan_group host cw s) as [|ec r'|[w s']] eqn:E; try discriminate; [|apply IH].
  destruct ec; try discriminate. exfalso. revert E. unfold scan_group.
  repeat match goal with
  | |- context[match ?x with _ => _ end] => destruct x
  end; discriminate.
Qed.

Lemma scan_short_loops host cw upper full gs txt rest : In cw char_widths -> length gs = 8%nat -> Forall group gs ->
  joined (piece upper full) gs txt \/ shortened (piece upper full) gs txt ->
  scan_short 8 host cw (txt ++ rest) = SLoops.
Proof.
  intros Hcw HL HG H.
  assert (A : forall g h gs' t s, group g -> joined (piece upper full) (g :: h :: gs') t -> scan_short 8 host cw (t ++ s) = SLoops).
  { intros g h gs' t s Hg J. inversion J as [| |? t0 ? ? s0 P J']; subst. destruct (piece_reread _ _ _ _ Hg P) as (ds & D & L & Nz & M).
    cbn [scan_short]. rewrite <- app_assoc. change (text ":") with [58]. rewrite <- app_assoc. cbn [app].
    rewrite (scan_group_ok host cw t0 ds) by (auto using colon_safe, colon_no_digit). cbn [scan_short scan_group]. reflexivity. }
  assert (B : joined (piece upper full) gs txt -> scan_short 8 host cw (txt ++ rest) = SLoops).
  { intros J. destruct gs as [|g [|h gs]]; try discriminate. inversion HG; subst. eapply A; eassumption. }
  destruct H as [J|[[_ J]|(p & n & tl & tr & BR & J1 & J2 & ->)]]; auto.
  rewrite <- !app_assoc. remember (firstn p gs) as l eqn:El. destruct l as [|g [|h l]].
  - inversion J1; subst. reflexivity.
  - assert (Hg : group g). { rewrite Forall_forall in HG. apply HG. apply (firstn_In _ p). rewrite <- El. left; reflexivity. }
    inversion J1 as [|? t0 P|]; subst. destruct (piece_reread _ _ _ _ Hg P) as (ds & D & L & Nz & M).
    cbn [scan_short]. change (text "::" ++ tr ++ rest) with (58 :: 58 :: tr ++ rest).
    rewrite (scan_group_ok host cw tl ds) by (auto using colon_safe, colon_no_digit). cbn [scan_short scan_group]. reflexivity.
  - assert (Hg : group g). { rewrite Forall_forall in HG. apply HG. apply (firstn_In _ p). rewrite <- El. left; reflexivity. }
    eapply A; eassumption.
Qed.
