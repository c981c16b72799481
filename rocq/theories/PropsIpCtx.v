(** C75: IPv4 addresses read from a stream. *)
From Coq Require Import String List.
From Verif Require Import Base NumSpec ScanSpec ByteSpec IntPrintModel IntPrintProofs IntPrintCorrect IntScanModel IntScanProofs IntSseProofs IntRoundProofs IntCtxProofs
  TimeTextModel TimeTextProofs IpSpec IpModel IpProofs IpScanProofs IpCtxModel IpCtxProofs IpCtxSound PropsIp.

(** A cutting of a text into buffers; [bad_cut k chunks]: some buffer but the last ends, within the first [k] characters,
    directly after a number that is the single digit 0. *)
Definition bad_cut (k : Z) (chunks : list (list Z)) : Prop :=
  exists cs1 cs2 pre, chunks = cs1 ++ cs2 /\ concat cs2 <> [] /\ zlen (concat cs1) <= k /\
    concat cs1 = pre ++ text "0" /\ (forall p x, pre = p ++ [x] -> ~ is_digit_of 10 x).
(** What print writes, with white space before it and anything but a digit after it, however it is cut: the address and
    the port come back and everything up to their end is consumed.  Missing: the cuttings of [bad_cut], see below. *)
Theorem C75_chunks_partial : forall host fl cw sse a b c d port ws rest txt chunks, In cw char_widths ->
  octet a -> octet b -> octet c -> octet d -> 0 <= port < 65536 ->
  print_addr host fl (V4 [a; b; c; d] port) = Some txt -> Forall c_space ws ->
  Forall (fun x => 0 <= x < 2 ^ cw) rest -> no_digit_first 10 rest ->
  concat chunks = ws ++ txt ++ rest -> ~ bad_cut (zlen (ws ++ txt)) chunks ->
  scan_ipv4_chunks (f_port fl) cw sse chunks = Some (pc_ok, zlen (ws ++ txt), [a; b; c; d] ++ (if f_port fl then [port] else [])).
Proof.
  intros host fl cw sse a b c d port ws rest txt chunks Hcw Ha Hb Hc Hd Hp Hprint Hws Hr Hn HT Hcut.
  destruct (C27_print host fl a b c d port Ha Hb Hc Hd Hp) as (v4 & pt & T & NP & _ & _ & E & _).
  rewrite E in Hprint. injection Hprint as <-.
  assert (F : fits cw (ip_items (f_port fl)) ([a; b; c; d] ++ (if f_port fl then [port] else [])) (concat chunks) (zlen (ws ++ v4 ++ (if f_port fl then text ":" ++ pt else [])))).
  { rewrite HT. destruct (f_port fl); cbn [ip_items].
    - assert (Fp : fits cw [ISep 58; IField false 16] [port] (58 :: pt ++ rest) (zlen pt + 0 + 1)).
      { constructor; [apply cw_ascii; auto; lia|rewrite is_digit10; lia|].
        apply (fits_field cw false 16 [] port [] [] pt rest 0); auto; [right; left; auto|]. constructor; auto. }
      pose proof (v4_fits cw Hcw a b c d v4 ws (58 :: pt ++ rest) [port] (zlen pt + 0 + 1) [ISep 58; IField false 16] Ha Hb Hc Hd T Hws) as V.
      change (text ":" ++ pt) with (58 :: pt). rewrite <- (app_assoc v4). cbn [app].
      replace (zlen (ws ++ v4 ++ 58 :: pt)) with (zlen ws + zlen v4 + (zlen pt + 0 + 1)) by (rewrite !zlen_app, zlen_cons; lia).
      apply V; [cbn; rewrite is_digit10; lia|exact Fp].
    - rewrite !app_nil_r. pose proof (v4_fits cw Hcw a b c d v4 ws rest [] 0 [] Ha Hb Hc Hd T Hws Hn) as V. rewrite app_nil_r in V.
      replace (zlen (ws ++ v4)) with (zlen ws + zlen v4 + 0) by (rewrite zlen_app; lia). apply V. constructor; auto. }
  assert (HI : inv cw (ip_todo (ip_init (f_port fl))) (ip_int (ip_init (f_port fl))) ([a; b; c; d] ++ (if f_port fl then [port] else [])) (concat chunks)
    (zlen (ws ++ v4 ++ (if f_port fl then text ":" ++ pt else []))) []).
  { apply inv_start; [reflexivity| |exact F|].
    - destruct (f_port fl); exact eq_refl.
    - destruct (f_port fl); intros p x Ex; destruct p; discriminate. }
  unfold scan_ipv4_chunks. rewrite (run_ok cw sse Hcw chunks (ip_init (f_port fl)) 0 _ _ [] HI).
  - reflexivity.
  - destruct (f_port fl); discriminate.
  - destruct (f_port fl); cbn; repeat split; auto.
  - intros cs1 cs2 E1 HR Hk (pre & Ep & Hp1). apply Hcut. exists cs1, cs2, pre. cbn [app] in Ep. repeat split; auto.
Qed.
Print Assumptions C75_chunks_partial.

(** Everything but the last number: "a.b.c." or "a.b.c.d:". *)
Definition address_head (port : bool) (vs head : list Z) : Prop :=
  exists a b c ta tb tc, octet a /\ octet b /\ octet c /\ is_numeral 10 false a ta /\ is_numeral 10 false b tb /\ is_numeral 10 false c tc /\
  (if port then exists d td, octet d /\ is_numeral 10 false d td /\ vs = [a; b; c; d] /\ head = ta ++ text "." ++ tb ++ text "." ++ tc ++ text "." ++ td ++ text ":"
   else vs = [a; b; c] /\ head = ta ++ text "." ++ tb ++ text "." ++ tc ++ text ".").
Lemma spelt_head port vs t : spelt (removelast (ip_items port)) vs t -> exists ws head, t = ws ++ head /\ Forall c_space ws /\ address_head port vs head.
Proof.
  destruct port; cbn [ip_items v4_items v4_port_items app removelast spelt].
  - intros (ws & ta & t1 & a & v1 & -> & -> & Hws & _ & Na & Ha & t2 & -> & ws2 & tb & t3 & b & v2 & -> & -> & _ & W2 & Nb & Hb & t4 & -> & ws3 & tc & t5 & c & v3 & -> & -> & _ & W3 & Nc & Hc &
      t6 & -> & ws4 & td & t7 & d & v4 & -> & -> & _ & W4 & Nd & Hd & t8 & -> & -> & ->).
    rewrite (W2 eq_refl), (W3 eq_refl), (W4 eq_refl). eexists ws, _. split; [reflexivity|]. split; [exact Hws|].
    exists a, b, c, ta, tb, tc. unfold octet. change (2 ^ 8) with 256 in *. repeat split; auto; try lia. exists d, td. repeat split; auto; lia.
  - intros (ws & ta & t1 & a & v1 & -> & -> & Hws & _ & Na & Ha & t2 & -> & ws2 & tb & t3 & b & v2 & -> & -> & _ & W2 & Nb & Hb & t4 & -> & ws3 & tc & t5 & c & v3 & -> & -> & _ & W3 & Nc & Hc &
      t6 & -> & -> & ->).
    rewrite (W2 eq_refl), (W3 eq_refl). eexists ws, _. split; [reflexivity|]. split; [exact Hws|].
    exists a, b, c, ta, tb, tc. unfold octet. change (2 ^ 8) with 256 in *. repeat split; auto; lia.
Qed.
(** The texts accepted, whatever the input is: white space, the numbers without leading zeros and in range with their
    separators, and no digit after them.  At the very end of the input the last number may also be missing or have six or
    more digits, see below; and [bad_cut] again. *)
Theorem C75_ok_is_sound_partial : forall port cw sse chunks used vals, In cw char_widths -> Forall (fun x => 0 <= x < 2 ^ cw) (concat chunks) ->
  ~ bad_cut (zlen (concat chunks)) chunks ->
  scan_ipv4_chunks port cw sse chunks = Some (pc_ok, used, vals) ->
  exists ws head vs last v rest, concat chunks = ws ++ head ++ last ++ rest /\ used = zlen (ws ++ head ++ last) /\
    Forall c_space ws /\ address_head port vs head /\ vals = vs ++ [v] /\ Forall (is_digit_of 10) last /\
    ((is_numeral 10 false v last /\ 0 <= v < (if port then 65536 else 256) /\ no_digit_first 10 rest) \/
     (rest = [] /\ (last = [] \/ 6 <= zlen last))).
Proof.
  intros port cw sse chunks used vals Hcw Hu Hcut H. unfold scan_ipv4_chunks in H.
  assert (LAST : exists sk w, ip_items port = removelast (ip_items port) ++ [IField sk w] /\ 2 ^ w = (if port then 65536 else 256) /\ sk = false).
  { exists false, (if port then 16 else 8). destruct port; repeat split; reflexivity. }
  destruct LAST as (sk & w & EI & Ew & Esk).
  destruct (run_sound cw sse Hcw (ip_items port) chunks (ip_init port) 0 [] [] [] used vals) as [(a & r & A1 & A2 & A3 & A4)|(B1 & done' & sk' & w' & t' & ws & last & v & vs & ds & B2 & B3 & B4 & B5 & B6 & B7 & B8 & B9 & B10)]; auto.
  - destruct port; discriminate.
  - cbn. auto.
  - assert (M : mid true st_init []) by (exists []; split; [constructor|]; split; [discriminate|]; left; auto).
    destruct port; split; try exact M; intros p x E; destruct p; discriminate.
  - assert (D46 : ~ is_digit_of 10 46) by (rewrite is_digit10; lia). assert (D58 : ~ is_digit_of 10 58) by (rewrite is_digit10; lia).
    destruct port; cbn; repeat split; auto; discriminate.
  - intros cs1 cs2 E N (pre & E1 & E2). apply Hcut. exists cs1, cs2, pre. cbn [app] in E1. repeat split; auto.
    rewrite E, concat_app. rewrite zlen_app. pose proof (zlen_nonneg (concat cs2)). lia.
  - cbn [app] in A1.
    assert (SP : exists t1 vs num v, a = t1 ++ num /\ vals = vs ++ [v] /\ spelt (removelast (ip_items port)) vs t1 /\ is_numeral 10 false v num /\ 0 <= v < 2 ^ w).
    { rewrite EI in A3. revert A3. clear - Esk. generalize (removelast (ip_items port)) as items. intros items. revert vals a.
      induction items as [|[sk2 w2|ch] items IH]; intros vals a; cbn [app spelt].
      - intros (ws & num & t' & v & vs' & -> & -> & _ & W & N & V & -> & ->). rewrite (W Esk), app_nil_r. exists [], [], num, v. repeat split; auto; lia.
      - intros (ws & num & t' & v & vs' & -> & -> & W1 & W & N & V & S). destruct (IH _ _ S) as (t1 & vs & num2 & v2 & -> & -> & S2 & N2 & V2).
        exists (ws ++ num ++ t1), (v :: vs), num2, v2. rewrite <- !app_assoc. repeat split; auto; try lia. exists ws, num, t1, v, vs. repeat split; auto; lia.
      - intros (t' & -> & S). destruct (IH _ _ S) as (t1 & vs & num2 & v2 & -> & -> & S2 & N2 & V2). exists (ch :: t1), vs, num2, v2. repeat split; auto; try lia. exists t1. auto. }
    destruct SP as (t1 & vs & num & v & -> & -> & SP & N & V). destruct (spelt_head port vs t1 SP) as (ws & head & -> & Hws & AH).
    exists ws, head, vs, num, v, r. rewrite <- !app_assoc in *. repeat split; auto.
    + destruct (numeral_digit_string 10 false v num ltac:(lia) N) as (ds & D & _). clear - D. induction D; constructor; auto. exists y. auto.
    + left. rewrite <- Ew. repeat split; auto; lia.
  - cbn [app] in B1, B5. rewrite EI in B2. apply app_inj_tail in B2 as [<- B2]. injection B2 as <- <-. rewrite (B7 Esk) in B5. cbn [app] in B5.
    destruct (spelt_head port vs t' B4) as (ws2 & head & -> & Hws & AH). exists ws2, head, vs, last, v, []. rewrite !app_nil_r, B1, B5, <- !app_assoc. repeat split; auto.
    + clear - B8. induction B8; constructor; auto. exists y. auto.
    + destruct B10 as [P|[P|[P Q]]]; auto. left. rewrite <- Ew. repeat split; auto; lia.
Qed.
Print Assumptions C75_ok_is_sound_partial.

(** The cuttings left out: "10.0" ".0.1 " is refused (the second buffer loses its first character), and a buffer of one
    character after such a cut makes the scanner read past its end. *)
Theorem C75_cut_after_zero_refuted : forall sse,
  scan_ipv4_chunks false 8 sse [text "10.0.0.1 "] = Some (pc_ok, 8, [10; 0; 0; 1]) /\
  scan_ipv4_chunks false 8 sse [text "10.0"; text ".0.1 "] = Some (pc_invalid, 5, [10]) /\
  scan_ipv4_chunks false 8 sse [text "10.0"; text "."; text "0.1 "] = None /\
  scan_ipv4_chunks false 8 sse [text "10.0"; text "X.0.1 "] = Some (pc_ok, 9, [10; 0; 0; 1]).
Proof. intros []; repeat split; vm_compute; reflexivity. Qed.
Print Assumptions C75_cut_after_zero_refuted.

(** At the end of the input the last number is taken from the scanner's buffer whatever the state: too many digits, or
    none, are the number 0. *)
Theorem C75_overflow_accepted_refuted : forall sse,
  scan_ipv4_chunks false 8 sse [text "10.1.1.1000000"] = Some (pc_ok, 14, [10; 1; 1; 0]) /\
  scan_ipv4_chunks true 8 sse [text "10.1.1.1:8080808080"] = Some (pc_ok, 19, [10; 1; 1; 1; 0]) /\
  scan_ipv4_chunks false 8 sse [text "10.1.1."] = Some (pc_ok, 7, [10; 1; 1; 0]) /\
  scan_v4 8 sse (text "10.1.1.1000000") = SFail pc_overflow [].
Proof. intros []; repeat split; vm_compute; reflexivity. Qed.
Print Assumptions C75_overflow_accepted_refuted.

Example C75_nonvacuous :
  let chunks := [text "  1"; text "92.16"; text "8"; text ".0.25"; text "5"; text ":"; text "80"; text "80/x"] in
  ~ bad_cut 20 chunks /\
  print_addr little (mk_ipf true false false false true) (V4 [192; 168; 0; 255] 8080) = Some (text "192.168.0.255:8080") /\
  scan_ipv4_chunks true 8 true chunks = Some (pc_ok, 20, [192; 168; 0; 255; 8080]).
Proof.
  cbv zeta. split; [|split; vm_compute; reflexivity].
  intros (cs1 & cs2 & pre & E & _ & _ & Ep & Hp).
  apply (f_equal (@rev Z)) in Ep. rewrite rev_app_distr in Ep. change (rev (text "0")) with [48] in Ep.
  assert (Hc : cs1 = firstn 7 [text "  1"; text "92.16"; text "8"; text ".0.25"; text "5"; text ":"; text "80"; text "80/x"]).
  { do 8 (destruct cs1 as [|? cs1]; [try (vm_compute in Ep; discriminate Ep); reflexivity|cbn [app] in E; injection E as <- E]).
    destruct cs1; [vm_compute in Ep; discriminate Ep|discriminate E]. }
  subst cs1. clear E.
  remember (rev pre) as rp eqn:El. vm_compute in Ep.
  assert (Ee : exists q, pre = q ++ [56]).
  { injection Ep as Ep. rewrite <- Ep in El. eexists. rewrite <- (rev_involutive pre), <- El. cbn [rev]. reflexivity. }
  destruct Ee as (q & Eq). apply (Hp q 56 Eq). rewrite is_digit10. lia.
Qed.
