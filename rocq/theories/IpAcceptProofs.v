(** What the IPv6 scanner accepts. *)
From Coq Require Import String.
From Verif Require Import Base NumSpec ByteSpec IntScanModel ScanSpec IntScanProofs IntSoundProofs
  TimeTextModel IpSpec IpModel IpScanProofs IpScan6Proofs.

Lemma char_digit_inv cw c o : In cw char_widths -> 0 <= c < 2 ^ cw -> char_digit 16 cw c = Some o ->
  match o with Some d => denotes 16 c d | None => ~ is_digit_of 16 c end.
Proof.
  intros Hw Hc E. destruct (is_digit_dec 16 c) as [[d Hd]|Hn].
  - rewrite (char_digit_some 16 cw c d) in E by (auto; lia). inversion E; subst. exact Hd.
  - destruct (Z.eq_dec c (if cw =? 8 then 255 else 97 + 16 - 10)) as [E1|E1].
    + exfalso. unfold char_digit, sto_tb_size in E. change (16 <=? 10) with false in E. cbv iota in E. subst c.
      destruct (cw =? 8); cbn in E; discriminate.
    + rewrite (char_digit_none 16 cw c) in E; [inversion E; exact Hn|lia|exact Hw|split; auto|exact Hn].
Qed.

Lemma byte_of d0 d1 : 0 <= d0 < 16 -> 0 <= d1 < 16 -> wrap 8 (wrap 8 (d0 * 16) + d1) = 16 * d0 + d1.
Proof.
  intros H0 H1. unfold wrap. change (2 ^ 8) with 256. rewrite (Z.mod_small (d0 * 16)) by lia. rewrite Z.mod_small by lia. lia.
Qed.
Ltac fin F t ds W :=
  apply (F t ds); [reflexivity | (unfold digit_string; repeat (apply Forall2_cons; [assumption|]); apply Forall2_nil) | cbn; lia
  | first [exact I | assumption] | cbn [misread]; rewrite W by lia; f_equal; lia | first [contradiction | intros _; cbn; lia]].
(** An accepted group: one to four hexadecimal digits and no fifth one. *)
Lemma scan_group_inv host cw s w r : In cw char_widths -> Forall (fun x => 0 <= x < 2 ^ cw) s ->
  scan_group host cw s = SGo (w, r) ->
  exists t ds, s = t ++ r /\ digit_string 16 t ds /\ 1 <= zlen ds <= 4 /\ no_digit_first 16 r /\ w = stored host (misread ds)
    /\ (nth 0 ds 0 = 0 -> zlen ds = 1 \/ zlen ds = 4).
Proof.
  intros Hw Hs. unfold scan_group. destruct s as [|c0 s1]; [discriminate|].
  inversion Hs as [|? ? U0 Hs1]; subst. destruct (c0 =? 58); [discriminate|].
  destruct (char_digit 16 cw c0) as [[d0|]|] eqn:C0; try discriminate.
  apply (char_digit_inv _ _ _ Hw U0) in C0. cbv beta iota in C0. pose proof (proj1 C0) as R0.
  assert (Fin : forall t ds, s1 = t ++ r -> digit_string 16 (c0 :: t) (d0 :: ds) -> zlen (d0 :: ds) <= 4 -> no_digit_first 16 r ->
    w = stored host (misread (d0 :: ds)) -> (d0 = 0 -> zlen (d0 :: ds) = 1 \/ zlen (d0 :: ds) = 4) ->
    exists t ds, c0 :: s1 = t ++ r /\ digit_string 16 t ds /\ 1 <= zlen ds <= 4 /\ no_digit_first 16 r /\ w = stored host (misread ds)
    /\ (nth 0 ds 0 = 0 -> zlen ds = 1 \/ zlen ds = 4)).
  { intros t ds E D L N W Z0. exists (c0 :: t), (d0 :: ds). rewrite E. split; [reflexivity|]. split; [exact D|].
    split; [unfold zlen in *; cbn [length] in *; lia|]. auto. }
  cbv zeta. destruct s1 as [|c1 s2].
  { intros E; injection E as <- <-. fin Fin (@nil Z) (@nil Z) word1_stored. }
  pose proof (Forall_inv Hs1) as U1; cbn beta in U1; pose proof (Forall_inv_tail Hs1) as Hs2.
  destruct (char_digit 16 cw c1) as [[d1|]|] eqn:C1; try discriminate;
    apply (char_digit_inv _ _ _ Hw U1) in C1; cbv beta iota in C1.
  2:{ intros E; injection E as <- <-. fin Fin (@nil Z) (@nil Z) word1_stored. }
  pose proof (proj1 C1) as R1. rewrite byte_of by assumption. remember (16 * d0 + d1) as b0 eqn:B0.
  destruct s2 as [|c2 s3].
  { destruct (Z.eqb_spec d0 0) as [|N0]; [discriminate|]. intros E; injection E as <- <-.
    fin Fin ([c1]) ([d1]) word1_stored. }
  pose proof (Forall_inv Hs2) as U2; cbn beta in U2; pose proof (Forall_inv_tail Hs2) as Hs3.
  destruct (char_digit 16 cw c2) as [[d2|]|] eqn:C2; try discriminate;
    apply (char_digit_inv _ _ _ Hw U2) in C2; cbv beta iota in C2.
  2:{ destruct (Z.eqb_spec d0 0) as [|N0]; [discriminate|]. intros E; injection E as <- <-.
      fin Fin ([c1]) ([d1]) word1_stored. }
  pose proof (proj1 C2) as R2.
  destruct s3 as [|c3 s4].
  { destruct (Z.eqb_spec d0 0) as [|N0]; [discriminate|]. intros E; injection E as <- <-.
    fin Fin ([c1; c2]) ([d1; d2]) word2_stored. }
  pose proof (Forall_inv Hs3) as U3; cbn beta in U3; pose proof (Forall_inv_tail Hs3) as Hs4.
  destruct (char_digit 16 cw c3) as [[d3|]|] eqn:C3; try discriminate;
    apply (char_digit_inv _ _ _ Hw U3) in C3; cbv beta iota in C3.
  2:{ destruct (Z.eqb_spec d0 0) as [|N0]; [discriminate|]. intros E; injection E as <- <-.
      fin Fin ([c1; c2]) ([d1; d2]) word2_stored. }
  pose proof (proj1 C3) as R3. rewrite byte_of by assumption. remember (16 * d2 + d3) as b1 eqn:B1.
  destruct s4 as [|c4 s5].
  { intros E; injection E as <- <-. fin Fin ([c1; c2; c3]) ([d1; d2; d3]) word2_stored. }
  pose proof (Forall_inv Hs4) as U4; cbn beta in U4; pose proof (Forall_inv_tail Hs4) as Hs5.
  destruct (char_digit 16 cw c4) as [[d4|]|] eqn:C4; try discriminate.
  apply (char_digit_inv _ _ _ Hw U4) in C4. cbv beta iota in C4.
  intros E; injection E as <- <-. fin Fin ([c1; c2; c3]) ([d1; d2; d3]) word2_stored.
Qed.

(** The groups of an accepted address. *)
Lemma scan_long_inv host cw : In cw char_widths -> forall n s ws r, Forall (fun x => 0 <= x < 2 ^ cw) s ->
  scan_long n host cw s = SGo (ws, r) ->
  exists gs txt, s = txt ++ r /\ length gs = S n /\ length ws = S n /\ joined hex_piece gs txt /\ no_digit_first 16 r.
Proof.
  intros Hw. induction n as [|n IH]; intros s ws r Hs; cbn [scan_long].
  - destruct (scan_group host cw s) as [|ec r1|[w s1]] eqn:E; cbn [no_eof sbind]; try discriminate; [destruct ec; discriminate|].
    intros X; inversion X; subst. destruct (scan_group_inv _ _ _ _ _ Hw Hs E) as (t & ds & E1 & D & L & N & _).
    exists [value_of 16 ds], t. split; [exact E1|]. split; [reflexivity|]. split; [reflexivity|]. split; [|exact N].
    constructor. exists ds. auto.
  - destruct (scan_group host cw s) as [|ec r1|[w s1]] eqn:E; cbn [no_eof sbind]; try discriminate; [destruct ec; discriminate|].
    destruct (scan_group_inv _ _ _ _ _ Hw Hs E) as (t & ds & E1 & D & L & N & _).
    destruct s1 as [|c s2]; [discriminate|]. destruct (Z.eqb_spec c 58) as [->|]; [|discriminate].
    destruct (scan_long n host cw s2) as [|ec r1|[ws1 r1]] eqn:E2; cbn [sbind]; try discriminate.
    assert (Hs2 : Forall (fun x => 0 <= x < 2 ^ cw) s2).
    { rewrite E1 in Hs. apply Forall_app in Hs as [_ Hs]. inversion Hs; auto. }
    destruct (IH _ _ _ Hs2 E2) as (gs & txt & E3 & G1 & G2 & J & N2).
    intros X; inversion X; subst. exists (value_of 16 ds :: gs), (t ++ text ":" ++ txt).
    split; [rewrite <- !app_assoc; reflexivity|]. split; [cbn; congruence|]. split; [cbn; congruence|]. split; [|exact N2].
    destruct gs as [|g gs]; [discriminate|]. constructor; [|exact J]. exists ds. auto.
Qed.
Lemma skip_space_inv cw : In cw char_widths -> forall s, Forall (fun x => 0 <= x < 2 ^ cw) s ->
  exists sp, s = sp ++ skip_space cw s /\ Forall c_space sp.
Proof.
  intros Hw. induction s as [|c s IH]; intros Hs; cbn [skip_space]; [exists []; auto|]. inversion Hs; subst.
  destruct (is_c_space cw c) eqn:E; [|exists []; auto].
  destruct IH as (sp & E1 & F); auto. exists (c :: sp). split; [cbn; congruence|]. constructor; auto.
  apply (is_c_space_spec cw); auto.
Qed.
Lemma scan_in6_inv bracket host cw s ws r : In cw char_widths -> Forall (fun x => 0 <= x < 2 ^ cw) s ->
  scan_in6 bracket host cw s = SGo (ws, r) ->
  exists gs txt sp1 sp2, length gs = 8%nat /\ length ws = 8%nat /\ joined hex_piece gs txt /\ Forall c_space sp1 /\ Forall c_space sp2 /\
    ((s = sp1 ++ sp2 ++ txt ++ r /\ no_digit_first 16 r) \/ (bracket = true /\ s = sp1 ++ text "[" ++ sp2 ++ txt ++ text "]" ++ r)).
Proof.
  intros Hw Hs. unfold scan_in6, scan_in6_body.
  destruct (skip_space_inv cw Hw s Hs) as (sp1 & E1 & F1). set (s1 := skip_space cw s) in *. clearbody s1.
  assert (Hs1 : Forall (fun x => 0 <= x < 2 ^ cw) s1) by (rewrite E1 in Hs; apply Forall_app in Hs; tauto).
  assert (Plain : scan_long 7 host cw s1 = SGo (ws, r) -> exists gs txt sp1 sp2, length gs = 8%nat /\ length ws = 8%nat /\ joined hex_piece gs txt /\ Forall c_space sp1 /\ Forall c_space sp2 /\
    ((s = sp1 ++ sp2 ++ txt ++ r /\ no_digit_first 16 r) \/ (bracket = true /\ s = sp1 ++ text "[" ++ sp2 ++ txt ++ text "]" ++ r))).
  { intros E. destruct (scan_long_inv _ _ Hw _ _ _ _ Hs1 E) as (gs & txt & E2 & G1 & G2 & J & N).
    exists gs, txt, sp1, []. repeat (split; [assumption|]). split; [constructor|]. left. rewrite E1, E2. auto. }
  destruct bracket; [|exact Plain]. destruct s1 as [|c s2]; [discriminate|].
  destruct (Z.eqb_spec c 91) as [->|N91].
  - inversion Hs1 as [|? ? _ Hs2]; subst.
    destruct (skip_space_inv cw Hw s2 Hs2) as (sp2 & E2 & F2). set (s3 := skip_space cw s2) in *. clearbody s3.
    destruct (scan_long 7 host cw s3) as [|ec r1|[ws1 r1]] eqn:E3; cbn [sbind]; try discriminate.
    assert (Hs3 : Forall (fun x => 0 <= x < 2 ^ cw) s3) by (rewrite E2 in Hs2; apply Forall_app in Hs2; tauto).
    destruct r1 as [|c r2]; [discriminate|]. destruct (Z.eqb_spec c 93) as [->|]; [|discriminate].
    intros X; inversion X; subst. destruct (scan_long_inv _ _ Hw _ _ _ _ Hs3 E3) as (gs & txt & E4 & G1 & G2 & J & N).
    exists gs, txt, sp1, sp2. repeat (split; [assumption|]). right. split; [reflexivity|]. rewrite E4. reflexivity.
  - intros E. assert (Hsk : exists sp2, c :: s2 = sp2 ++ skip_space cw (c :: s2) /\ Forall c_space sp2) by (apply skip_space_inv; auto).
    destruct Hsk as (sp2 & E2 & F2). set (s3 := skip_space cw (c :: s2)) in *. clearbody s3.
    assert (Hs3 : Forall (fun x => 0 <= x < 2 ^ cw) s3) by (rewrite E2 in Hs1; apply Forall_app in Hs1; tauto).
    destruct (scan_long_inv _ _ Hw _ _ _ _ Hs3 E) as (gs & txt & E4 & G1 & G2 & J & N).
    exists gs, txt, sp1, sp2. repeat (split; [assumption|]). left. rewrite E1, E2, E4. auto.
Qed.
