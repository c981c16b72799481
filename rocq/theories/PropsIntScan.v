(** Properties C05 (round trip), C06, C07, C08, C09.  Statements; proofs are in the *Proofs files. *)
From Coq Require Import String.
From Verif Require Import Base NumSpec NumFacts IntPrintModel IntPrintProofs IntPrintCorrect IntInjProofs IntSizeProofs
  ScanSpec IntScanModel IntScanProofs IntSseProofs IntCtxProofs IntRoundProofs IntSoundProofs PropsIntPrint.

(** Configuration names used below: base 2..36, code units of 8, 16 or 32 bits, integer of 8..128 bits.
    [safe_first] excludes the one code unit per configuration whose lookup reads past the digit table. *)
Definition valid_cfg (cfg : scfg) : Prop :=
  2 <= sc_base cfg <= 36 /\ In (sc_cw cfg) [8; 16; 32] /\ In (iw (sc_ty cfg)) [8; 16; 32; 64; 128].

(** What a scan of a numeral denoting [v] must answer. *)
Definition exact_answer (ty : int_type) (v : Z) (code : parse_code) (val : option Z) : Prop :=
  (in_range ty v /\ code = pc_ok /\ val = Some v) \/ (~ in_range ty v /\ code = pc_overflow /\ val = None).

Lemma exact_answer_outcome ty v u r : p_code r = p_code (outcome ty v u) -> p_val r = p_val (outcome ty v u) ->
  exact_answer ty v (p_code r) (p_val r).
Proof.
  intros -> ->. unfold exact_answer, outcome. destruct (in_rangeb ty v) eqn:E.
  - left. apply in_rangeb_spec in E. auto.
  - right. repeat split. intros H. apply in_rangeb_spec in H. congruence.
Qed.

(** *** C06 *)

(** A digit run of any length, after optional white space and sign, is either stored exactly or
    reported as overflow; the position is just after the last digit whenever the scan is ok, and also
    on overflow unless the vector path meets a run of more than 15 (31 for 64-bit targets) digits. *)
Theorem C06_scan_exact_partial : forall cfg ws (minus : bool) cs ds rest,
  valid_cfg cfg -> sc_shbase cfg = false ->
  (minus = true -> isigned (sc_ty cfg) = true) ->
  Forall c_space ws -> (sc_noskipws cfg = true -> ws = []) ->
  digit_string (sc_base cfg) cs ds -> cs <> [] -> (sc_skipzero cfg = false -> no_leading_zero ds) ->
  (sc_skipzero cfg = true -> value_of (sc_base cfg) ds = 0 -> sc_sse cfg = true -> zlen rest < 32) ->
  Forall (fun c => 0 <= c < 2 ^ sc_cw cfg) rest ->
  safe_first (sc_base cfg) (sc_cw cfg) rest -> no_digit_first (sc_base cfg) rest ->
  exists r, scan_int cfg (ws ++ (if minus then [45] else []) ++ cs ++ rest) = Some r
    /\ exact_answer (sc_ty cfg) (if minus then - value_of (sc_base cfg) ds else value_of (sc_base cfg) ds) (p_code r) (p_val r)
    /\ (p_code r = pc_ok \/ sc_sse cfg = false \/ sc_base cfg <> 10 \/ zlen cs <= (if iw (sc_ty cfg) <? 64 then 15 else 31) ->
        p_used r = zlen ws + (if minus then 1 else 0) + zlen cs).
Proof.
  intros cfg ws minus cs ds rest Hcfg Hsh Hm Hws Hnows Hds Hne Hl Hz Hr Hs Hn.
  destruct (scan_int_gen cfg ws minus cs ds rest) as (r & R & (S1 & S2 & S3)); auto.
  - intros E. destruct minus; [rewrite Hm in E by reflexivity; discriminate|reflexivity].
  - intros A B. unfold no_sse. destruct (sc_sse cfg) eqn:Es; [|reflexivity].
    rewrite (proj2 (Z.leb_gt 32 (zlen rest))) by (apply Hz; auto). apply andb_false_r.
  - intros E. rewrite E in Hr. exact Hr.
  - intros ->. inversion Hds; subst; contradiction.
  - exists r. split; [exact R|]. split; [eapply exact_answer_outcome; [exact S1|exact S2]|].
    intros H. rewrite S3.
    + unfold outcome. destruct minus; cbn [sign_chars]; destruct (in_rangeb _ _); reflexivity.
    + rewrite S1 in H. destruct H as [H|[H|[H|H]]]; [left; exact H|right|right|right].
      * left. unfold no_sse. rewrite H. reflexivity.
      * left. unfold no_sse. rewrite (proj2 (Z.eqb_neq _ _) H). rewrite andb_false_r. reflexivity.
      * right. exact H.
Qed.
Print Assumptions C06_scan_exact_partial.

(** Without the vector path the position is exact in every case. *)
Theorem C06_scan_exact_scalar : forall cfg ws (minus : bool) cs ds rest,
  valid_cfg cfg -> sc_shbase cfg = false -> sc_sse cfg = false ->
  (minus = true -> isigned (sc_ty cfg) = true) ->
  Forall c_space ws -> (sc_noskipws cfg = true -> ws = []) ->
  digit_string (sc_base cfg) cs ds -> cs <> [] -> (sc_skipzero cfg = false -> no_leading_zero ds) ->
  Forall (fun c => 0 <= c < 2 ^ sc_cw cfg) rest ->
  safe_first (sc_base cfg) (sc_cw cfg) rest -> no_digit_first (sc_base cfg) rest ->
  exists r, scan_int cfg (ws ++ (if minus then [45] else []) ++ cs ++ rest) = Some r
    /\ exact_answer (sc_ty cfg) (if minus then - value_of (sc_base cfg) ds else value_of (sc_base cfg) ds) (p_code r) (p_val r)
    /\ p_used r = zlen ws + (if minus then 1 else 0) + zlen cs.
Proof.
  intros cfg ws minus cs ds rest Hcfg Hsh Hsse Hm Hws Hnows Hds Hne Hl Hr Hs Hn.
  destruct (C06_scan_exact_partial cfg ws minus cs ds rest Hcfg Hsh Hm Hws Hnows Hds Hne Hl ltac:(intros _ _ E; congruence) Hr Hs Hn)
    as (r & A & B & C).
  exists r. split; [exact A|]. split; [exact B|]. apply C. auto.
Qed.
Print Assumptions C06_scan_exact_scalar.

(** The position clause fails on the vector path: 39 digits followed by nothing are overflow with a
    position past the end of the text. *)
Theorem C06_position_past_end_refuted : exists cfg s r, valid_cfg cfg /\ scan_int cfg s = Some r
  /\ p_code r = pc_overflow /\ zlen s < p_used r.
Proof.
  exists (mk_scfg 10 false false false (mk_int 64 false) 8 true), (repeat 49 40), (mk_pres pc_overflow 56 None).
  split; [repeat split; simpl; auto; lia|]. vm_compute. auto.
Qed.
Print Assumptions C06_position_past_end_refuted.

(** The table lookup is out of bounds for byte 255 after hexadecimal digits, and for u'g' in base 16. *)
Theorem C06_table_overread_refuted :
  scan_int (mk_scfg 16 false false false (mk_int 64 false) 8 false) (text "12" ++ [255]) = None
  /\ scan_int (mk_scfg 16 false false false (mk_int 64 false) 16 false) (text "12g") = None.
Proof. vm_compute. auto. Qed.
Print Assumptions C06_table_overread_refuted.

Example C06_nonvacuous :
  scan_int (mk_scfg 10 false false false (mk_int 64 true) 8 true) (text "  -9223372036854775808 and some more text to make it long")
    = Some (mk_pres pc_ok 22 (Some (-9223372036854775808)))
  /\ scan_int (mk_scfg 10 false false false (mk_int 64 true) 8 true) (text "9223372036854775808")
    = Some (mk_pres pc_overflow 19 None).
Proof. vm_compute. auto. Qed.

(** *** C05 *)

(** Scanning what print wrote (no flags, any base) restores the value and consumes exactly the text. *)
Theorem C05_print_scan_roundtrip : forall base upper cfg t rest,
  valid_cfg cfg -> sc_base cfg = base -> sc_shbase cfg = false -> in_range (sc_ty cfg) t ->
  (iw (sc_ty cfg) = 128 -> base = 10 \/ (In base [2; 4; 16] /\ upper = false)) ->
  (sc_skipzero cfg = true -> sc_sse cfg = true -> t = 0 -> zlen rest < 32) ->
  Forall (fun c => 0 <= c < 2 ^ sc_cw cfg) rest ->
  safe_first base (sc_cw cfg) rest -> no_digit_first base rest ->
  exists txt, print_int (mk_pflags base false false false upper false) (sc_ty cfg) t = Some txt
    /\ scan_int cfg (txt ++ rest) = Some (mk_pres pc_ok (zlen txt) (Some t)).
Proof.
  intros base upper cfg t rest Hcfg <- Hsh Ht H128 Hz Hr Hs Hn.
  apply roundtrip_plain; auto.
  - apply config_of. exact H128.
  - intros E. rewrite E in Hr. exact Hr.
Qed.
Print Assumptions C05_print_scan_roundtrip.

(** Also when the text arrives in pieces (except the single text "0", see C08). *)
Theorem C05_print_scan_chunked : forall base upper cfg t rest,
  valid_cfg cfg -> sc_base cfg = base -> sc_shbase cfg = false -> in_range (sc_ty cfg) t ->
  (iw (sc_ty cfg) = 128 -> base = 10 \/ (In base [2; 4; 16] /\ upper = false)) ->
  (sc_skipzero cfg = false -> t <> 0) ->
  safe_first base (sc_cw cfg) rest -> no_digit_first base rest ->
  exists txt, print_int (mk_pflags base false false false upper false) (sc_ty cfg) t = Some txt
    /\ forall chunks, Forall (fun c => c <> []) chunks -> concat chunks = txt ++ rest ->
       scan_chunks cfg chunks = Some (mk_pres pc_ok (zlen txt) (Some t)).
Proof.
  intros base upper cfg t rest Hcfg <- Hsh Ht H128 Hz Hs Hn. apply roundtrip_chunks; auto. apply config_of. exact H128.
Qed.
Print Assumptions C05_print_scan_chunked.

(** With base prefixes 0b, 0, 0x (either case) and 0t. *)
Theorem C05_prefix_roundtrip_partial : forall base upbase upper cfg t rest,
  valid_cfg cfg -> sc_base cfg = base -> sc_shbase cfg = true -> in_range (sc_ty cfg) t ->
  (base = 2 \/ base = 8 \/ base = 16 \/ (base = 3 /\ upbase = false)) ->
  (iw (sc_ty cfg) = 128 -> base = 10 \/ (In base [2; 4; 16] /\ upper = false)) ->
  Forall (fun c => 0 <= c < 2 ^ sc_cw cfg) rest ->
  safe_first base (sc_cw cfg) rest -> no_digit_first base rest ->
  exists txt, print_int (mk_pflags base true upbase false upper false) (sc_ty cfg) t = Some txt
    /\ scan_int cfg (txt ++ rest) = Some (mk_pres pc_ok (zlen txt) (Some t)).
Proof.
  intros base upbase upper cfg t rest Hcfg <- Hsh Ht Hb H128 Hr Hs Hn. apply roundtrip_prefix; auto.
  - apply config_of. exact H128.
  - intros E. rewrite E in Hr. exact Hr.
Qed.
Print Assumptions C05_prefix_roundtrip_partial.

(** The bracketed prefixes do not scan back: 10 in base 7 prints "0[7]13", which the scanner rejects,
    and so does the uppercase ternary prefix. *)
Theorem C05_bracket_prefix_refuted :
  print_int (mk_pflags 7 true false false false false) (mk_int 32 false) 10 = Some (text "0[7]13")
  /\ option_map p_code (scan_int (mk_scfg 7 false true false (mk_int 32 false) 8 false) (text "0[7]13")) = Some pc_invalid
  /\ print_int (mk_pflags 3 true true false false false) (mk_int 32 false) 5 = Some (text "0T12")
  /\ option_map p_code (scan_int (mk_scfg 3 false true false (mk_int 32 false) 8 false) (text "0T12")) = Some pc_invalid.
Proof. vm_compute. auto. Qed.
Print Assumptions C05_bracket_prefix_refuted.

Example C05_nonvacuous :
  print_int (mk_pflags 16 true true false true false) (mk_int 32 true) (-48879) = Some (text "-0XBEEF")
  /\ scan_int (mk_scfg 16 false true false (mk_int 32 true) 8 false) (text "-0XBEEF,") = Some (mk_pres pc_ok 7 (Some (-48879))).
Proof. vm_compute. auto. Qed.

(** *** C07 *)

(** A text whose first non-blank character (after an optional minus for signed targets) is present
    and not a digit is invalid, nothing is stored, and nothing but blanks and sign is consumed. *)
Theorem C07_malformed_invalid_partial : forall cfg ws (minus : bool) c rest,
  valid_cfg cfg -> sc_shbase cfg = false -> Forall c_space ws -> (sc_noskipws cfg = true -> ws = []) ->
  (minus = true -> isigned (sc_ty cfg) = true) ->
  (minus = false -> (sc_noskipws cfg = false -> ~ c_space c) /\ (isigned (sc_ty cfg) = true -> c <> 45)) ->
  safe_char (sc_base cfg) (sc_cw cfg) c -> ~ is_digit_of (sc_base cfg) c ->
  scan_int cfg (ws ++ (if minus then [45] else []) ++ c :: rest)
    = Some (mk_pres pc_invalid (zlen ws + (if minus then 1 else 0)) None).
Proof.
  intros cfg ws minus c rest Hcfg Hsh Hws Hnows Hm Hf Hs Hn.
  pose proof (scan_invalid cfg ws minus (c :: rest) Hcfg Hsh Hws Hnows Hm ltac:(discriminate) Hf Hs Hn) as R.
  destruct minus; exact R.
Qed.
Print Assumptions C07_malformed_invalid_partial.

(** Unless zeros are skipped, a zero followed by another digit is invalid. *)
Theorem C07_leading_zero_invalid : forall cfg ws (minus : bool) c rest,
  valid_cfg cfg -> sc_shbase cfg = false -> sc_skipzero cfg = false ->
  Forall c_space ws -> (sc_noskipws cfg = true -> ws = []) ->
  (minus = true -> isigned (sc_ty cfg) = true) -> is_digit_of (sc_base cfg) c ->
  scan_int cfg (ws ++ (if minus then [45] else []) ++ 48 :: c :: rest)
    = Some (mk_pres pc_invalid (zlen ws + (if minus then 1 else 0) + 1) None).
Proof.
  intros cfg ws minus c rest Hcfg Hsh Hsk Hws Hnows Hm Hd.
  pose proof (scan_leading_zero cfg ws minus c rest Hcfg Hsh Hsk Hws Hnows Hm Hd) as R. destruct minus; exact R.
Qed.
Print Assumptions C07_leading_zero_invalid.

(** Blanks only: end of file, nothing stored. *)
Theorem C07_blank_end_of_file : forall cfg ws, valid_cfg cfg -> sc_noskipws cfg = false -> Forall c_space ws ->
  scan_int cfg ws = Some (mk_pres pc_end_of_file (zlen ws) None).
Proof. intros cfg ws H. apply scan_blank. exact H. Qed.
Print Assumptions C07_blank_end_of_file.

(** Conversely, on every text without the over-reading code unit, ok means: blanks, an optional minus, a
    nonempty digit run denoting the stored in-range value, and the position just after it; the only other
    ok texts are the refuted ones (blanks and a lone minus; the empty text). *)
Theorem C07_ok_only_for_integers : forall cfg s r,
  valid_cfg cfg -> sc_shbase cfg = false -> (sc_skipzero cfg = true -> sc_sse cfg = false) ->
  Forall (safe_char (sc_base cfg) (sc_cw cfg)) s ->
  scan_int cfg s = Some r -> p_code r = pc_ok ->
  (exists ws (minus : bool) cs ds rest,
     s = ws ++ (if minus then [45] else []) ++ cs ++ rest /\ Forall c_space ws /\ (minus = true -> isigned (sc_ty cfg) = true) /\ digit_string (sc_base cfg) cs ds /\ cs <> [] /\ no_digit_first (sc_base cfg) rest /\ (let v := if minus then - value_of (sc_base cfg) ds else value_of (sc_base cfg) ds in
      in_range (sc_ty cfg) v /\ p_val r = Some v) /\
     p_used r = zlen ws + (if minus then 1 else 0) + zlen cs)
  \/ (exists ws, s = ws ++ [45] /\ Forall c_space ws /\ isigned (sc_ty cfg) = true)
  \/ s = [].
Proof.
  intros cfg s r Hcfg Hsh Hsse Hs Hr Hok.
  destruct (text_cases (sc_base cfg) (isigned (sc_ty cfg)) (sc_noskipws cfg) (sc_skipzero cfg) s)
    as (ws & minus & body & E & Hws & Hn & Hm & Hb).
  assert (Es : sign_chars minus = if minus then [45] else []) by (destruct minus; reflexivity).
  destruct Hb as [Hb|[(B1 & B2 & B3 & B4)|[(B1 & c & rest & B2 & B3)|(cs & ds & rest & B1 & B2 & B3 & B4 & B5)]]].
  - subst body. rewrite app_nil_r in E. destruct minus.
    + right. left. exists ws. rewrite Es in E. auto.
    + rewrite Es, app_nil_r in E. destruct (sc_noskipws cfg) eqn:En.
      * right. right. rewrite E. apply Hn. reflexivity.
      * exfalso. subst s. rewrite (C07_blank_end_of_file cfg ws Hcfg En Hws) in Hr. injection Hr as <-. discriminate.
  - exfalso. subst s. apply Forall_app in Hs as [_ Hs]. apply Forall_app in Hs as [_ Hs].
    rewrite scan_invalid in Hr; auto.
    + injection Hr as <-. discriminate.
    + destruct body; [auto|]. intros Em. split; [intros En; apply (B3 Em En)|apply (B4 Em)].
    + destruct body; [exact I|]. inversion Hs; assumption.
  - exfalso. subst s body. rewrite scan_leading_zero in Hr; auto. injection Hr as <-. discriminate.
  - left. exists ws, minus, cs, ds, rest. subst body. rewrite Es in E.
    split; [exact E|]. split; [exact Hws|]. split; [exact Hm|]. split; [exact B2|]. split; [exact B3|]. split; [exact B4|].
    subst s. apply Forall_app in Hs as [_ Hs]. apply Forall_app in Hs as [_ Hs]. apply Forall_app in Hs as [_ Hs].
    destruct (C06_scan_exact_partial cfg ws minus cs ds rest Hcfg Hsh Hm Hws Hn B2 B3 B5) as (r' & A1 & A2 & A3); auto.
    + intros Sk _ Se. rewrite Hsse in Se by exact Sk. discriminate.
    + eapply Forall_impl; [|exact Hs]. intros a [Ha _]. exact Ha.
    + destruct rest; [exact I|]. inversion Hs; assumption.
    + rewrite Hr in A1. injection A1 as <-. split; [|apply A3; auto].
      destruct A2 as [(P1 & P2 & P3)|(P1 & P2 & P3)]; [auto|rewrite P2 in Hok; discriminate].
Qed.
Print Assumptions C07_ok_only_for_integers.

(** The rest of C07 is false: a lone minus, a lone prefix and (without white space skipping) an empty
    text scan "successfully" as 0. *)
Theorem C07_no_digit_accepted_refuted :
  scan_int (mk_scfg 10 false false false (mk_int 32 true) 8 false) (text "-") = Some (mk_pres pc_ok 1 (Some 0))
  /\ scan_int (mk_scfg 16 false true false (mk_int 32 false) 8 false) (text "0x") = Some (mk_pres pc_ok 2 (Some 0))
  /\ scan_int (mk_scfg 10 true false false (mk_int 32 false) 8 false) [] = Some (mk_pres pc_ok 0 (Some 0)).
Proof. vm_compute. auto. Qed.
Print Assumptions C07_no_digit_accepted_refuted.

(** And "0[" at the end of the text reads past it. *)
Theorem C07_bracket_overread_refuted :
  scan_int (mk_scfg 7 false true false (mk_int 32 false) 8 false) (text "0[") = None.
Proof. vm_compute. auto. Qed.
Print Assumptions C07_bracket_overread_refuted.

Example C07_nonvacuous :
  scan_int (mk_scfg 10 false false false (mk_int 32 true) 8 true) (text "  -x12") = Some (mk_pres pc_invalid 3 None).
Proof. vm_compute. reflexivity. Qed.

(** *** C08 *)

(** Cutting the text into nonempty pieces anywhere does not change code, value or consumed length,
    for any number of digits that fits the scanner's buffer (at least the longest value plus one digit),
    the single text "0" without zero skipping excepted. *)
Theorem C08_chunked_equals_contiguous_partial : forall cfg ws (minus : bool) cs ds rest chunks,
  valid_cfg cfg -> sc_shbase cfg = false ->
  (minus = true -> isigned (sc_ty cfg) = true) ->
  Forall c_space ws -> (sc_noskipws cfg = true -> ws = []) ->
  digit_string (sc_base cfg) cs ds -> cs <> [] ->
  (sc_skipzero cfg = false -> no_leading_zero ds /\ value_of (sc_base cfg) ds <> 0) ->
  (sc_skipzero cfg = true -> value_of (sc_base cfg) ds = 0 -> sc_sse cfg = true -> zlen rest < 32) ->
  (if minus then 1 else 0) + zlen (strip_zeros ds) < ctx_buf_size cfg ->
  Forall (fun c => 0 <= c < 2 ^ sc_cw cfg) rest ->
  safe_first (sc_base cfg) (sc_cw cfg) rest -> no_digit_first (sc_base cfg) rest ->
  Forall (fun c => c <> []) chunks ->
  concat chunks = ws ++ (if minus then [45] else []) ++ cs ++ rest ->
  sc_sse cfg = false \/ sc_base cfg <> 10 \/ zlen cs <= (if iw (sc_ty cfg) <? 64 then 15 else 31) ->
  exists r, scan_chunks cfg chunks = Some r /\ scan_int cfg (concat chunks) = Some r
    /\ exact_answer (sc_ty cfg) (if minus then - value_of (sc_base cfg) ds else value_of (sc_base cfg) ds) (p_code r) (p_val r)
    /\ p_used r = zlen ws + (if minus then 1 else 0) + zlen cs.
Proof.
  intros cfg ws minus cs ds rest chunks Hcfg Hsh Hm Hws Hnows Hds Hne Hl Hz Hfit Hr Hs Hn Hc HT Hex.
  assert (Hsg : isigned (sc_ty cfg) = false -> minus = false)
    by (intros E; destruct minus; [rewrite Hm in E by reflexivity; discriminate|reflexivity]).
  assert (Hdne : ds <> []) by (intros ->; inversion Hds; subst; contradiction).
  destruct (C06_scan_exact_partial cfg ws minus cs ds rest) as (r & A & B & C); auto.
  { intros E. apply Hl; exact E. }
  specialize (C (or_intror Hex)).
  pose proof (scan_chunks_spec cfg Hcfg Hsh minus Hsg ws cs ds rest Hws Hnows Hds Hdne Hl) as SP.
  specialize (SP ltac:(destruct minus; exact Hfit) Hs Hn chunks 0 Hc ltac:(rewrite HT; destruct minus; reflexivity)).
  exists r. rewrite HT. split; [|auto]. unfold scan_chunks. rewrite SP. f_equal.
  destruct r as [rc ru rv]; cbn [p_code p_used p_val] in *. unfold outcome, signed_value.
  assert (Eu : 0 + (zlen ws + zlen (sign_chars minus) + zlen cs) = ru) by (rewrite C; destruct minus; cbn [sign_chars]; unfold zlen; cbn [length Z.of_nat]; lia).
  rewrite Eu. destruct B as [(B1 & -> & ->)|(B1 & -> & ->)].
  - apply in_rangeb_spec in B1. rewrite B1. reflexivity.
  - destruct (in_rangeb _ _) eqn:E; [apply in_rangeb_spec in E; contradiction|reflexivity].
Qed.
Print Assumptions C08_chunked_equals_contiguous_partial.

(** The English C08 is false: the text "0 1" cut after the zero reads out of bounds or answers wrongly,
    a too long number cut anywhere is invalid instead of overflow, and "-" differs from the contiguous scan. *)
Theorem C08_zero_at_chunk_end_refuted : exists cfg, valid_cfg cfg /\
  scan_int cfg (text "0,") = Some (mk_pres pc_ok 1 (Some 0)) /\ scan_chunks cfg [text "0"; text ","] = None
  /\ scan_int cfg (text "0,1") = Some (mk_pres pc_ok 1 (Some 0)) /\ scan_chunks cfg [text "0"; text ",1"] = Some (mk_pres pc_invalid 2 None).
Proof.
  exists (mk_scfg 10 false false false (mk_int 32 false) 8 false). split; [repeat split; simpl; auto; lia|]. vm_compute. auto.
Qed.
Print Assumptions C08_zero_at_chunk_end_refuted.

Theorem C08_overflow_across_chunks_refuted : exists cfg, valid_cfg cfg /\
  scan_int cfg (text "99999999999999,") = Some (mk_pres pc_overflow 14 None)
  /\ scan_chunks cfg [text "99999999999999"; text ","] = Some (mk_pres pc_invalid 14 None).
Proof.
  exists (mk_scfg 10 false false false (mk_int 32 false) 8 false). split; [repeat split; simpl; auto; lia|]. vm_compute. auto.
Qed.
Print Assumptions C08_overflow_across_chunks_refuted.

Theorem C08_lone_minus_refuted : exists cfg, valid_cfg cfg /\
  scan_int cfg (text "-") = Some (mk_pres pc_ok 1 (Some 0)) /\ scan_chunks cfg [text "-"] = Some (mk_pres pc_invalid 1 None).
Proof.
  exists (mk_scfg 10 false false false (mk_int 32 true) 8 false). split; [repeat split; simpl; auto; lia|]. vm_compute. auto.
Qed.
Print Assumptions C08_lone_minus_refuted.

Example C08_nonvacuous :
  scan_chunks (mk_scfg 10 false false false (mk_int 32 true) 8 false) [text " "; text " -"; text "12"; text "3"; text "4 x"]
    = Some (mk_pres pc_ok 7 (Some (-1234)))
  /\ scan_chunks (mk_scfg 10 false false true (mk_int 32 true) 8 false) [text "0"; text "0"; text "0042"] = Some (mk_pres pc_ok 6 (Some 42)).
Proof. vm_compute. auto. Qed.

(** *** C09 *)

(** On every byte text, for every target of at most 64 bits or more, the decimal scan with the vector
    path and the one without give the same code and value, and the same position unless the code is
    overflow (no leading-zero skipping). *)
Theorem C09_vector_equals_scalar_partial : forall noskipws ty s,
  In (iw ty) [8; 16; 32; 64; 128] -> Forall (fun c => 0 <= c < 256) s ->
  exists rv rs, scan_int (mk_scfg 10 noskipws false false ty 8 true) s = Some rv
    /\ scan_int (mk_scfg 10 noskipws false false ty 8 false) s = Some rs
    /\ p_code rv = p_code rs /\ p_val rv = p_val rs /\ (p_code rs <> pc_overflow -> p_used rv = p_used rs).
Proof.
  intros nows ty s Hw Hs.
  apply (scan_int_agree (mk_scfg 10 nows false false ty 8 false) s); auto.
  repeat split; simpl; auto; lia.
Qed.
Print Assumptions C09_vector_equals_scalar_partial.

(** Positions differ on long overflows (and run past the end of the text), and with zero skipping a
    zero followed by 32 other characters is rejected by the vector path only. *)
Theorem C09_position_refuted : exists s rv rs,
  scan_int (mk_scfg 10 false false false (mk_int 64 false) 8 true) s = Some rv
  /\ scan_int (mk_scfg 10 false false false (mk_int 64 false) 8 false) s = Some rs
  /\ zlen s < p_used rv /\ p_used rs = zlen s.
Proof. exists (repeat 49 40). eexists _, _. split; [vm_compute; reflexivity|]. split; [vm_compute; reflexivity|]. vm_compute. auto. Qed.
Print Assumptions C09_position_refuted.

Theorem C09_skipzero_refuted : exists s,
  scan_int (mk_scfg 10 false false true (mk_int 64 false) 8 true) s = Some (mk_pres pc_invalid 2 None)
  /\ scan_int (mk_scfg 10 false false true (mk_int 64 false) 8 false) s = Some (mk_pres pc_ok 2 (Some 0)).
Proof. exists (text "00 this text is more than thirty-two characters long"). vm_compute. auto. Qed.
Print Assumptions C09_skipzero_refuted.

Example C09_nonvacuous :
  scan_int (mk_scfg 10 false false false (mk_int 64 false) 8 true) (text "18446744073709551615, which is the maximum") = Some (mk_pres pc_ok 20 (Some 18446744073709551615))
  /\ scan_int (mk_scfg 10 false false false (mk_int 64 false) 8 true) (text "18446744073709551616, which is too large!") = Some (mk_pres pc_overflow 20 None).
Proof. vm_compute. auto. Qed.
