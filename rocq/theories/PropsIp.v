(** C27-C29: internet addresses. *)
From Coq Require Import String.
From Verif Require Import Base NumSpec ByteSpec IntPrintModel IntPrintProofs IntPrintCorrect IntScanModel ScanSpec IntScanProofs IntRoundProofs
  TimeTextModel TimeTextProofs IpSpec IpModel IpProofs IpShortProofs IpScanProofs IpScan6Proofs IpAcceptProofs.

(** *** C27 *)
(** The printed text is the dotted decimal one, with ":port" when asked, within the reserved size. *)
Theorem C27_print : forall host fl a b c d port, octet a -> octet b -> octet c -> octet d -> 0 <= port < 65536 ->
  exists v4 pt, v4_text a b c d v4 /\ is_numeral 10 false port pt /\
    print_addr host fl (In4 [a; b; c; d]) = Some (v4 ++ (if f_port fl then text ":0" else [])) /\
    print_addr host fl (Addr4 [a; b; c; d]) = Some (v4 ++ (if f_port fl then text ":0" else [])) /\
    print_addr host fl (V4 [a; b; c; d] port) = Some (v4 ++ (if f_port fl then text ":" ++ pt else [])) /\
    print_addr host fl (Ip4 [a; b; c; d] port) = Some (v4 ++ (if f_port fl then text ":" ++ pt else [])) /\
    zlen (v4 ++ (if f_port fl then text ":" ++ pt else [])) <= addr_reserve_size fl (V4 [a; b; c; d] port) /\
    zlen (v4 ++ (if f_port fl then text ":0" else [])) <= addr_reserve_size fl (In4 [a; b; c; d]) /\
    addr_reserve_size fl (V4 [a; b; c; d] port) <= addr_reserve_size fl (Ip4 [a; b; c; d] port) /\
    addr_reserve_size fl (In4 [a; b; c; d]) <= addr_reserve_size fl (Addr4 [a; b; c; d]).
Proof.
  intros host fl a b c d port Ha Hb Hc Hd Hp. destruct (print_octets_ok a b c d Ha Hb Hc Hd) as (v4 & E & T).
  destruct (print_unsigned default_pflags 16 port w16 ltac:(cbn; lia) eq_refl eq_refl ltac:(lia) Hp) as (pt & EP & NP). cbn in NP.
  exists v4, pt. split; [exact T|]. split; [exact NP|].
  assert (L4 : zlen v4 <= 15).
  { destruct T as (ta & tb & tc & td & Na & Nb & Nc & Nd & ->). unfold zlen. rewrite !app_length. change (length (text ".")) with 1%nat.
    pose proof (numeral_octet_len _ _ Ha Na). pose proof (numeral_octet_len _ _ Hb Nb). pose proof (numeral_octet_len _ _ Hc Nc). pose proof (numeral_octet_len _ _ Hd Nd). lia. }
  assert (LP : zlen pt <= 5).
  { pose proof (numeral_length 10 false port pt 16 ltac:(lia) w16 NP Hp) as L. change (cal_max_int_size (mk_int 16 false) 10) with 5 in L. exact L. }
  assert (EPP : print_port port = Some (text ":" ++ pt)) by (unfold print_port, uint16_ty; rewrite EP; reflexivity).
  cbn [print_addr]. rewrite E, EPP.
  assert (Z1 : zlen (text ":" ++ pt) <= 6) by (rewrite zlen_app; change (zlen (text ":")) with 1; lia).
  assert (R1 : addr_reserve_size fl (V4 [a; b; c; d] port) = if f_port fl then 21 else 15) by (unfold addr_reserve_size; destruct (f_port fl); vm_compute; reflexivity).
  assert (R2 : addr_reserve_size fl (In4 [a; b; c; d]) = if f_port fl then 21 else 15) by (unfold addr_reserve_size; destruct (f_port fl); vm_compute; reflexivity).
  assert (R3 : addr_reserve_size fl (Ip4 [a; b; c; d] port) = if f_port fl then 56 else if f_bracket fl then 49 else 47) by (unfold addr_reserve_size; destruct (f_port fl), (f_bracket fl); vm_compute; reflexivity).
  assert (R4 : addr_reserve_size fl (Addr4 [a; b; c; d]) = if f_port fl then 56 else if f_bracket fl then 49 else 47) by (unfold addr_reserve_size; destruct (f_port fl), (f_bracket fl); vm_compute; reflexivity).
  rewrite R1, R2, R3, R4. destruct (f_port fl), (f_bracket fl); cbn [opt_app]; rewrite ?app_nil_r; rewrite ?zlen_app; change (zlen (text ":0")) with 2; change (zlen (text ":")) with 1;
    repeat (split; [reflexivity|]); repeat split; lia.
Qed.
Print Assumptions C27_print.

(** Scanning that text, whatever follows it (not a digit), gives the address and the port back. *)
Theorem C27_round_trip : forall host fl cw sse a b c d port rest, In cw char_widths ->
  octet a -> octet b -> octet c -> octet d -> 0 <= port < 65536 ->
  Forall (fun x => 0 <= x < 2 ^ cw) rest -> no_digit_first 10 rest ->
  exists txt, print_addr host fl (V4 [a; b; c; d] port) = Some txt /\
    scan_ipv4 (f_port fl) cw sse (txt ++ rest) = SGo ([a; b; c; d], if f_port fl then port else 0, rest).
Proof.
  intros host fl cw sse a b c d port rest Hcw Ha Hb Hc Hd Hp Hr Hn.
  destruct (C27_print host fl a b c d port Ha Hb Hc Hd Hp) as (v4 & pt & T & NP & _ & _ & E & _).
  eexists. split; [exact E|]. unfold scan_ipv4. rewrite <- app_assoc. destruct (f_port fl).
  - rewrite (scan_v4_ok cw sse a b c d v4); auto.
    + cbn [sbind]. rewrite <- app_assoc. change (text ":" ++ pt ++ rest) with (58 :: pt ++ rest). rewrite (scan_port_ok cw sse port) by auto. reflexivity.
    + rewrite <- app_assoc. change (text ":" ++ pt ++ rest) with (58 :: pt ++ rest). apply units_cons; [apply cw_ascii; [exact Hcw|lia]|].
      apply units_app; [eapply numeral_units; eassumption|exact Hr].
    + cbn. rewrite IntSseProofs.is_digit10. lia.
  - cbn [app]. rewrite (scan_v4_ok cw sse a b c d v4); auto.
Qed.
Print Assumptions C27_round_trip.

(** No text makes the scanner read outside it. *)
Theorem C27_scan_in_bounds : forall requireport cw sse s, In cw char_widths -> Forall (fun x => 0 <= x < 2 ^ cw) s ->
  scan_ipv4 requireport cw sse s <> SUb.
Proof.
  intros rp cw sse s Hcw Hu. unfold scan_ipv4. pose proof (scan_v4_safe cw sse s Hcw Hu) as Sf.
  destruct (scan_v4 cw sse s) as [|ec r|[l r]] eqn:E; [contradiction|discriminate|]. cbn [sbind]. destruct rp; [|discriminate].
  unfold scan_port. destruct (scan_sep 58 r) as [|ec r'|r'] eqn:E2; [now apply sep_safe in E2|discriminate|]. cbn [sbind].
  assert (Hr' : units cw r').
  { apply sep_inv in E2. subst r. destruct (scan_v4_inv cw sse s l (58 :: r') Hcw Hu E) as (a & b & c & d & _ & _ & _ & _ & _ & [(t & _ & -> & _)|(_ & D & _)]); [|discriminate].
    apply Forall_app in Hu as [_ Hu]. now inversion Hu. }
  pose proof (field_total uint16_ty 16 cw sse r' r' eq_refl w16 Hcw Hr') as F.
  destruct (scan_field_int uint16_ty cw sse r' r') as [|ec r2|[p r2]]; [contradiction|discriminate|discriminate].
Qed.
Print Assumptions C27_scan_in_bounds.

(** An accepted text is a dotted decimal one with every part in range and the answer is its value; what is missing is
    that the last part may be empty at the end of the text (see the refutation), and so may the port. *)
Theorem C27_accepts_only_partial : forall cw sse s l r, In cw char_widths -> Forall (fun x => 0 <= x < 2 ^ cw) s ->
  scan_v4 cw sse s = SGo (l, r) ->
  exists a b c d, l = [a; b; c; d] /\ octet a /\ octet b /\ octet c /\ octet d /\
    ((exists txt, v4_text a b c d txt /\ s = txt ++ r /\ no_digit_first 10 r) \/
     (d = 0 /\ r = [] /\ exists txt, v4_text a b c 0 (txt ++ text "0") /\ s = txt)).
Proof. intros. eapply scan_v4_inv; eassumption. Qed.
Print Assumptions C27_accepts_only_partial.

Theorem C27_missing_part_refuted : forall sse,
  scan_v4 8 sse (text "10.2.33.") = SGo ([10; 2; 33; 0], []) /\
  scan_ipv4 true 8 sse (text "10.2.3.4:") = SGo ([10; 2; 3; 4], 0, []).
Proof. intros []; split; vm_compute; reflexivity. Qed.
Print Assumptions C27_missing_part_refuted.

Example C27_nonvacuous :
  print_addr little (mk_ipf true false false false true) (V4 [192; 168; 0; 255] 8080) = Some (text "192.168.0.255:8080") /\
  scan_ipv4 true 8 true (text "192.168.0.255:8080/index.html and more text than 32 bytes") = SGo ([192; 168; 0; 255], 8080, text "/index.html and more text than 32 bytes") /\
  scan_v4 8 false (text "192.168.0.256") = SFail pc_overflow [] /\ scan_v4 8 false (text "192.168.01.2") = SFail pc_invalid (text "1.2").
Proof. repeat split; vm_compute; reflexivity. Qed.

(** *** C28 *)
(** Every form of every IPv6 address: "[" "]" when asked or when a port follows, the port, and between the brackets the
    eight groups or the RFC 5952 shortened form; the text fits the reserved size. *)
Theorem C28_print : forall host fl gs port, v6_groups gs -> 0 <= port < 65536 ->
  exists body pt, (if f_shorten fl then shortened (piece (f_upper fl) (f_full fl)) gs body else joined (piece (f_upper fl) (f_full fl)) gs body) /\
    is_numeral 10 false port pt /\
    let a := map (stored host) gs in
    let br t := if f_port fl || f_bracket fl then text "[" ++ t ++ text "]" else t in
    print_addr host fl (In6 a) = Some (br body ++ (if f_port fl then text ":0" else [])) /\
    print_addr host fl (Addr6 a) = Some (br body ++ (if f_port fl then text ":0" else [])) /\
    print_addr host fl (V6 a port) = Some (br body ++ (if f_port fl then text ":" ++ pt else [])) /\
    print_addr host fl (Ip6 a port) = Some (br body ++ (if f_port fl then text ":" ++ pt else [])) /\
    zlen (br body ++ (if f_port fl then text ":" ++ pt else [])) <= addr_reserve_size fl (V6 a port) /\
    zlen (br body ++ (if f_port fl then text ":0" else [])) <= addr_reserve_size fl (In6 a) /\
    addr_reserve_size fl (Ip6 a port) = addr_reserve_size fl (V6 a port) /\ addr_reserve_size fl (Addr6 a) = addr_reserve_size fl (In6 a).
Proof.
  intros host fl gs port [HL HG] Hp.
  destruct (print_unsigned default_pflags 16 port w16 ltac:(cbn; lia) eq_refl eq_refl ltac:(lia) Hp) as (pt & EP & NP). cbn in NP.
  assert (LP : zlen pt <= 5).
  { pose proof (numeral_length 10 false port pt 16 ltac:(lia) w16 NP Hp) as L. change (cal_max_int_size (mk_int 16 false) 10) with 5 in L. exact L. }
  assert (EPP : print_port port = Some (text ":" ++ pt)) by (unfold print_port, uint16_ty; rewrite EP; reflexivity).
  assert (B : exists body, (if f_shorten fl then shortened (piece (f_upper fl) (f_full fl)) gs body else joined (piece (f_upper fl) (f_full fl)) gs body) /\
     (forall b, print_in6 host fl b (map (stored host) gs) = Some (if b then text "[" ++ body ++ text "]" else body)) /\ zlen body <= 39).
  { unfold print_in6. destruct (f_shorten fl).
    - pose proof (print_short_ok host (f_upper fl) (f_full fl) gs HL HG) as Ps. destruct (find_run 8 (map (stored host) gs) 0 8 8) as [p e].
      destruct Ps as (t & -> & Sh). exists t. split; [exact Sh|]. split; [intros []; reflexivity|]. eapply denotes_len. eapply shortened_denotes; eassumption.
    - destruct (print_long_ok host (f_upper fl) (f_full fl) gs HG true) as (t & -> & J); [intros ->; discriminate|]. cbn [app]. exists t. split; [exact J|].
      split; [intros []; reflexivity|]. eapply denotes_len. eapply joined_denotes; eassumption. }
  destruct B as (body & B1 & B2 & B3). exists body, pt. split; [exact B1|]. split; [exact NP|]. cbn zeta.
  cbn [print_addr]. rewrite EPP, !B2. set (a := map (stored host) gs). clearbody a.
  assert (R : forall v, (forall x, v <> In4 x) -> (forall x y, v <> V4 x y) -> addr_reserve_size fl v = if f_port fl then 56 else if f_bracket fl then 49 else 47).
  { intros v N1 N2. unfold addr_reserve_size. destruct v; try (exfalso; now eapply N1); try (exfalso; now eapply N2); destruct (f_port fl), (f_bracket fl); vm_compute; reflexivity. }
  rewrite !R by discriminate. destruct (f_port fl), (f_bracket fl); cbn [opt_app orb]; rewrite ?app_nil_r; rewrite ?zlen_app;
    change (zlen (text ":0")) with 2; change (zlen (text ":")) with 1; change (zlen (text "[")) with 1; change (zlen (text "]")) with 1;
    repeat (split; [reflexivity|]); repeat split; lia.
Qed.
Print Assumptions C28_print.

(** Each of those bodies denotes the address under RFC 4291, and no other. *)
Theorem C28_denotes : forall upper full gs txt, v6_groups gs ->
  joined (piece upper full) gs txt \/ shortened (piece upper full) gs txt ->
  v6_denotes txt gs /\ forall gs', v6_denotes txt gs' -> gs' = gs.
Proof.
  intros upper full gs txt [HL HG] H.
  assert (D : v6_denotes txt gs) by (destruct H; [eapply joined_denotes|eapply shortened_denotes]; eassumption).
  split; [exact D|]. intros gs' D'. eapply denotes_unique; eassumption.
Qed.
Print Assumptions C28_denotes.

Example C28_nonvacuous :
  let a := map (stored little) [0x2001; 0xdb8; 0; 0; 1; 0; 0; 0xff] in
  print_addr little (mk_ipf true false true false true) (V6 a 443) = Some (text "[2001:db8::1:0:0:ff]:443") /\
  print_addr little (mk_ipf false true false true false) (In6 a) = Some (text "2001:0DB8:0000:0000:0001:0000:0000:00FF") /\
  print_addr little (mk_ipf true false false false false) (In6 (repeat 0 8)) = Some (text "::").
Proof. repeat split; vm_compute; reflexivity. Qed.

(** *** C29 *)
(** The scan without shortening: exactly what it reads for each printed group, with or without brackets. *)
Theorem C29_what_is_read : forall host fl cw allowbracket gs rest, In cw char_widths -> v6_groups gs ->
  f_shorten fl = false -> f_port fl = false -> (f_bracket fl = true -> allowbracket = true) ->
  safe_first 16 cw rest -> no_digit_first 16 rest ->
  exists txt, print_addr host fl (In6 (map (stored host) gs)) = Some txt /\
    scan_in6 allowbracket host cw (txt ++ rest) = SGo (map (stored host) (map (reread (f_full fl)) gs), rest).
Proof.
  intros host fl cw ab gs rest Hcw HV Hs Hp Hb Sf Nd.
  destruct (C28_print host fl gs 0 HV ltac:(lia)) as (body & pt & B & _ & E & _). cbn zeta in E. destruct HV as [HL HG].
  rewrite Hs in B. rewrite Hp in E. cbn [orb] in E. rewrite app_nil_r in E. eexists. split; [exact E|].
  assert (First : exists c t, body = c :: t /\ 0 <= c < 2 ^ cw /\ ~ c_space c /\ c <> 91).
  { destruct gs as [|g [|h gs]]; try discriminate. inversion B as [| |? t0 ? ? s0 P J]; subst. inversion HG; subst.
    destruct (piece_reread _ _ _ _ H1 P) as (ds & D & L & _). inversion D as [|c d cs' ds' Hd]; subst; [cbn in L; lia|].
    eexists; eexists. split; [reflexivity|]. pose proof (denotes_cases 16 c d ltac:(lia) Hd). split; [apply cw_ascii; [assumption|lia]|].
    split; [|lia]. unfold c_space. cbn [In]. lia. }
  destruct First as (c & t & E0 & C1 & C2 & C3).
  assert (SK : forall r, skip_space cw (body ++ r) = body ++ r).
  { intros r. apply (skip_space_spec cw [] (body ++ r) Hcw (Forall_nil _)). rewrite E0. cbn [app]. auto. }
  assert (BODY : forall r, safe_first 16 cw r -> no_digit_first 16 r -> scan_long 7 host cw (body ++ r) = SGo (map (stored host) (map (reread (f_full fl)) gs), r)).
  { intros r R1 R2. eapply scan_long_ok; eassumption. }
  unfold scan_in6, scan_in6_body. destruct (f_bracket fl).
  - rewrite Hb by reflexivity. change (text "[") with [91]. change (text "]") with [93]. cbn [app].
    assert (SB : forall r, skip_space cw (91 :: r) = 91 :: r).
    { intros r. apply (skip_space_spec cw [] (91 :: r) Hcw (Forall_nil _)). split; [apply cw_ascii; [exact Hcw|lia]|unfold c_space; cbn; lia]. }
    rewrite SB. change (91 =? 91) with true. cbv iota. rewrite <- app_assoc. cbn [app]. rewrite SK. rewrite BODY.
    + cbn [sbind]. reflexivity.
    + split; [apply cw_ascii; [exact Hcw|lia]|]. intros _. destruct (cw =? 8); lia.
    + cbn. intros [d Hd]. apply (denotes_cases 16) in Hd; lia.
  - rewrite SK. destruct ab; [|apply BODY; assumption]. rewrite E0 at 1. cbn [app]. destruct (Z.eqb_spec c 91); [contradiction|].
    rewrite SK. apply BODY; assumption.
Qed.
Print Assumptions C29_what_is_read.

(** So addresses whose groups are all below 256, printed without leading zeros, come back; the other groups do not. *)
Theorem C29_round_trip_partial : forall host fl cw allowbracket gs rest, In cw char_widths -> v6_groups gs -> Forall (fun g => g < 256) gs ->
  f_shorten fl = false -> f_port fl = false -> f_full fl = false -> (f_bracket fl = true -> allowbracket = true) ->
  safe_first 16 cw rest -> no_digit_first 16 rest ->
  exists txt, print_addr host fl (In6 (map (stored host) gs)) = Some txt /\
    scan_in6 allowbracket host cw (txt ++ rest) = SGo (map (stored host) gs, rest).
Proof.
  intros host fl cw ab gs rest Hcw HV H256 Hs Hp Hf Hb Sf Nd.
  destruct (C29_what_is_read host fl cw ab gs rest Hcw HV Hs Hp Hb Sf Nd) as (txt & E & R). exists txt. split; [exact E|]. rewrite R, Hf.
  do 2 f_equal. f_equal. clear - H256. induction H256 as [|g gs Hg _ IH]; [reflexivity|]. cbn [map]. rewrite IH. f_equal.
  unfold reread. destruct (Z.ltb_spec g 256); [reflexivity|lia].
Qed.
Print Assumptions C29_round_trip_partial.

(** Whatever the scan accepts is, behind optional white space and within optional brackets, eight groups of one to four
    hexadecimal digits separated by colons, and no further digit follows. *)
Theorem C29_accepts_only : forall allowbracket host cw s ws r, In cw char_widths -> Forall (fun x => 0 <= x < 2 ^ cw) s ->
  scan_in6 allowbracket host cw s = SGo (ws, r) ->
  exists gs txt sp1 sp2, length gs = 8%nat /\ length ws = 8%nat /\ joined hex_piece gs txt /\ Forall c_space sp1 /\ Forall c_space sp2 /\
    ((s = sp1 ++ sp2 ++ txt ++ r /\ no_digit_first 16 r) \/ (allowbracket = true /\ s = sp1 ++ text "[" ++ sp2 ++ txt ++ text "]" ++ r)).
Proof. intros. eapply scan_in6_inv; eassumption. Qed.
Print Assumptions C29_accepts_only.

(** A group of three or four digits is misread on every host, and so is every nonzero group in the padded form. *)
Theorem C29_wrong_groups_refuted : forall host,
  let fl full := mk_ipf false false false full false in
  print_addr host (fl false) (In6 (map (stored host) [0x2001; 0xdb8; 0; 0; 0; 0; 0; 1])) = Some (text "2001:db8:0:0:0:0:0:1") /\
  scan_in6 true host 8 (text "2001:db8:0:0:0:0:0:1") = SGo (map (stored host) [0x0120; 0x08db; 0; 0; 0; 0; 0; 1], []) /\
  print_addr host (fl true) (In6 (map (stored host) [1; 0; 0; 0; 0; 0; 0; 0])) = Some (text "0001:0000:0000:0000:0000:0000:0000:0000") /\
  scan_in6 true host 8 (text "0001:0000:0000:0000:0000:0000:0000:0000") = SGo (map (stored host) [0x100; 0; 0; 0; 0; 0; 0; 0], []).
Proof. intros []; repeat split; vm_compute; reflexivity. Qed.
Print Assumptions C29_wrong_groups_refuted.

(** A scan that allows the shortened form (the default) never succeeds, and never ends on a printed address. *)
Theorem C29_shortened_scan_refuted : forall host cw,
  (forall s r, scan_short 8 host cw s <> SReturns pc_ok r) /\
  (In cw char_widths -> forall upper full gs txt rest, v6_groups gs ->
     joined (piece upper full) gs txt \/ shortened (piece upper full) gs txt -> scan_short 8 host cw (txt ++ rest) = SLoops).
Proof.
  intros host cw. split; [intros; apply scan_short_never_ok|]. intros Hcw upper full gs txt rest [HL HG] H. eapply scan_short_loops; eassumption.
Qed.
Print Assumptions C29_shortened_scan_refuted.

(** A truncated address makes the scan read past the text. *)
Theorem C29_overread_refuted : forall host, scan_in6 true host 8 (text "1:2:3") = SUb.
Proof. intros []; vm_compute; reflexivity. Qed.
Print Assumptions C29_overread_refuted.

Example C29_nonvacuous :
  scan_in6 true big 8 (text "[1:2:3:4:5:6:7f:0]:80") = SGo ([1; 2; 3; 4; 5; 6; 127; 0], text ":80") /\
  scan_short 8 big 8 (text "2001:db8::1") = SLoops /\ v6_groups [0x2001; 0xdb8; 0; 0; 0; 0; 0; 1].
Proof. split; [vm_compute; reflexivity|]. split; [vm_compute; reflexivity|]. split; [reflexivity|]. repeat (apply Forall_cons; [unfold group; lia|]). constructor. Qed.
