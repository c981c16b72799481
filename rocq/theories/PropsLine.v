From Verif Require Import Base CharModel CharSpec PropsChar FindModel FindSpec FindProofs FindMuslProofs PropsFind LineModel LineSpec LineProofs StrProofs.
Open Scope Z_scope.

(** * C36: the line scanner yields the lines of the text

    The builds: those in which C54 finds line feeds -- not GCC for AVX512BW, except for char and char32_t
    where memchr is used ([lf_ok]). *)

(** for(auto& line : line_scanner(in)) yields the lines of the text whatever the buffer holds at first and however
    the rest arrives.  (Texts of fewer than 2^64 characters.) *)
Theorem C36_lines : forall c buf src t fuel,
  lf_ok c -> stream_text buf src t -> text (f_w c) t -> Z.of_nat (length t) < 2 ^ 64 ->
  (length t + 2 <= fuel)%nat ->
  exists ls, for_each_line c fuel (start_lines buf src) = Some ls /\ lines_of t ls.
Proof.
  intros c buf src t fuel Hc [-> Hs] Ht Hl Hf.
  apply (for_each_ok c Hc fuel (start_lines buf src)); try assumption; try reflexivity.
  unfold wf_iter, start_lines. cbn [i_pos i_buf i_scan i_src l_buf].
  split; [lia|]. split; [unfold wf_buf; cbn; lia|]. split; [exact Hs|]. exact Ht.
Qed.
Print Assumptions C36_lines.

(** A text has one sequence of lines, so two chunkings of it give the same lines. *)
Theorem C36_chunking : forall c buf src buf' src' t fuel fuel',
  lf_ok c -> stream_text buf src t -> stream_text buf' src' t -> text (f_w c) t -> Z.of_nat (length t) < 2 ^ 64 ->
  (length t + 2 <= fuel)%nat -> (length t + 2 <= fuel')%nat ->
  for_each_line c fuel (start_lines buf src) = for_each_line c fuel' (start_lines buf' src').
Proof.
  intros c buf src buf' src' t fuel fuel' Hc H1 H2 Ht Hl Hf Hf'.
  destruct (C36_lines c buf src t fuel) as (ls & E & L); try assumption.
  destruct (C36_lines c buf' src' t fuel') as (ls' & E' & L'); try assumption.
  rewrite E, E'. f_equal. exact (lines_unique ls ls' t L L').
Qed.
Print Assumptions C36_chunking.

(** Over a contiguous stream (a string view, a mapped file): the lines, if the text is empty or ends in a
    line feed. *)
Theorem C36_contiguous_partial : forall c t fuel, lf_ok c -> text (f_w c) t ->
  t = [] \/ (exists t', t = t' ++ [10]) -> (length t + 1 <= fuel)%nat ->
  exists ls, for_each_cline c fuel (0, 0)%nat t 0 = Some ls /\ lines_of t ls.
Proof. intros c t fuel Hc Ht He Hf. exact (cline_ok c fuel (0, 0)%nat t 0%nat Hc Ht (Nat.le_0_l _) He Hf). Qed.
Print Assumptions C36_contiguous_partial.

(** Otherwise the text after the last line feed is lost: its place is taken by the line before (or by an
    empty line).  "a\nb" gives "a", "a"; "b" gives "". *)
Definition any_char : fcfg := mk_fcfg 8 16 false true 8 false.
Theorem C36_contiguous_refuted :
  for_each_cline any_char 10 (0, 0)%nat [97; 10; 98] 0 = Some [[97]; [97]] /\
  for_each_cline any_char 10 (0, 0)%nat [98] 0 = Some [[]] /\
  ~ lines_of [97; 10; 98] [[97]; [97]] /\ ~ lines_of [98] [[]].
Proof.
  split; [reflexivity|]. split; [reflexivity|]. split.
  - intros H. assert (L : lines_of [97; 10; 98] [[97]; [98]]).
    { split; [repeat constructor; cbn; lia|]. right. exists [[97]], [98]. repeat split; discriminate. }
    pose proof (lines_unique _ _ _ H L). discriminate.
  - intros H. assert (L : lines_of [98] [[98]]).
    { split; [repeat constructor; cbn; lia|]. right. exists [], [98]. repeat split; discriminate. }
    pose proof (lines_unique _ _ _ H L). discriminate.
Qed.
Print Assumptions C36_contiguous_refuted.

(** "ab\n\nc" in chunks, a line across a boundary, an empty line, no final line feed. *)
Example C36_example :
  lf_ok any_char /\ stream_text [97] [[98]; [10; 10]; [99]] [97; 98; 10; 10; 99] /\ text 8 [97; 98; 10; 10; 99] /\
  for_each_line any_char 10 (start_lines [97] [[98]; [10; 10]; [99]]) = Some [[97; 98]; []; [99]].
Proof.
  split; [right; cbn; lia|]. split; [split; [reflexivity|repeat constructor; discriminate]|].
  split; [unfold text, code_unit; repeat constructor; cbn; lia|reflexivity].
Qed.

(** * C55: reading a string takes the word, the line or the rest of the text *)

(** What a scan that succeeded left: the object, the text that is left in the stream. *)
Definition reads {S} (r : scanned S) (P : S -> Prop) (rest : list Z) : Prop :=
  exists st buf src, r = Scanned true st buf src /\ P st /\ stream_text buf src rest.
Definition ends {S} (r : scanned S) (P : S -> Prop) : Prop :=
  exists st, r = Scanned false st [] [] /\ P st.

Lemma spaces_iff : forall c s, char_width (f_w c) -> text (f_w c) s ->
  (Forall (fun x => sp c x = true) s <-> Forall C_space s) /\
  (Forall (fun x => ns c x = true) s <-> Forall (fun x => ~ C_space x) s).
Proof.
  intros c s Hw Ht. unfold text in Ht. rewrite !Forall_forall in *.
  split; split; intros H x Hx; specialize (H x Hx); specialize (Ht x Hx);
    pose proof (sp_spec c x Hw Ht) as A; pose proof (ns_spec c x Hw Ht) as B; pose proof (ns_sp c x) as N.
  - destruct (sp c x); [|discriminate]. apply B. rewrite N. reflexivity.
  - destruct (sp c x); [reflexivity|]. destruct A as [A _]. exfalso. apply A; auto.
  - intros K. apply B in K. congruence.
  - destruct (ns c x) eqn:E; [reflexivity|]. exfalso. apply H. apply B. reflexivity.
Qed.

(** scan(in, str): the first word, and the stream is left at the character after it; if there is only whitespace, false
    is returned and the string keeps what it held.  This is so in builds without vector instructions; otherwise
    if the text has no control characters below '\t' and no code units of the upper half of the
    type from 2^(w-1)+9 on (C54). *)
Theorem C55_word_partial : forall c old buf src t,
  space_search_ok c -> stream_text buf src t -> text (f_w c) t -> plain_text c t ->
  (forall word rest, first_word t word rest ->
     reads (scan_word c old buf src) (fun st => ss_str st = word) rest) /\
  (Forall C_space t -> ends (scan_word c old buf src) (fun st => ss_str st = old)) /\
  (Forall C_space t \/ exists word rest, first_word t word rest).
Proof.
  intros c old buf src t Hc [-> Hs] Ht Hp. set (t := buf ++ concat src) in *.
  assert (Hw : char_width (f_w c)) by apply Hc.
  assert (Main : (Forall C_space t /\ scan_word c old buf src = Scanned false (mk_sstr false old) [] []) \/
    exists word rest, first_word t word rest /\ reads (scan_word c old buf src) (fun st => ss_str st = word) rest).
  { destruct (word_loop c src old buf Hc Hs Ht Hp) as [[E1 E2]|(sps & x & b & buf2 & src2 & E1 & E2 & E3 & E4 & E5 & E6)].
    - left. split; [|exact E2]. apply (proj1 (spaces_iff c t Hw Ht)). exact E1.
    - right. fold t in E1. rewrite E6.
      assert (Tt := Ht). rewrite E1 in Tt. unfold text in Tt. rewrite Forall_app in Tt. destruct Tt as [T1 T2].
      assert (Nx : ns c x = true) by (rewrite ns_sp, E3; reflexivity).
      assert (Sps : Forall C_space sps) by (apply (proj1 (spaces_iff c sps Hw T1)); exact E2).
      destruct (gather_ok (f_w c) (ns c) false (string_define c false false) (string_eof false false)
                  (fun g s H => word_def c g s Hc H) src2 [] buf2 E4) as [[G1 G2]|(a & y & r & buf' & src' & G1 & G2 & G3 & G4 & G5 & G6)].
      + rewrite E5. exact T2.
      + rewrite E5 in G1, G2. exists (x :: b), []. split.
        * exists sps. rewrite app_nil_r. split; [exact E1|]. split; [exact Sps|].
          split; [apply (proj2 (spaces_iff c (x :: b) Hw T2)); exact G1|]. split; [discriminate|left; reflexivity].
        * rewrite G2. exists (mk_sstr true (x :: b)), [], []. split; [reflexivity|]. split; [reflexivity|split; [reflexivity|constructor]].
      + rewrite E5 in G1. exists a, (y :: r).
        assert (Ty := T2). rewrite G1 in Ty. rewrite Forall_app in Ty. destruct Ty as [Ta Tyr]. inversion Tyr as [|? ? Cy Cr]; subst.
        split.
        * exists sps. rewrite E1, G1. split; [reflexivity|]. split; [exact Sps|].
          split; [apply (proj2 (spaces_iff c a Hw Ta)); exact G2|].
          split; [|right; exists y, r; split; [reflexivity|apply (ns_spec c y Hw Cy); exact G3]].
          intros ->. cbn in G1. inversion G1; subst. congruence.
        * rewrite G4. exists (mk_sstr true a), buf', src'. split; [reflexivity|]. split; [reflexivity|].
          split; [symmetry; exact G5|exact G6]. }
  assert (Uniq : forall w1 r1 w2 r2, first_word t w1 r1 -> first_word t w2 r2 -> w1 = w2 /\ r1 = r2).
  { assert (Pre : forall (P : Z -> Prop) a a' b b', Forall P a -> Forall P a' ->
        (forall x r, b = x :: r -> ~ P x) -> (forall x r, b' = x :: r -> ~ P x) ->
        a ++ b = a' ++ b' -> a = a' /\ b = b').
    { intros P. induction a as [|x a IH]; intros [|y a'] b b' F1 F2 N1 N2 E; cbn in E.
      - auto.
      - exfalso. apply (N1 _ _ E). inversion F2; assumption.
      - exfalso. symmetry in E. apply (N2 _ _ E). inversion F1; assumption.
      - inversion E; subst. inversion F1; inversion F2; subst.
        destruct (IH a' b b') as [-> ->]; auto. }
    intros w1 r1 w2 r2 (s1 & A1 & A2 & A3 & A4 & A5) (s2 & B1 & B2 & B3 & B4 & B5).
    assert (Head : forall w r, Forall (fun x => ~ C_space x) w -> w <> [] -> forall x q, w ++ r = x :: q -> ~ C_space x).
    { intros [|z w] r F N x q K; [congruence|]. inversion F; inversion K; subst. assumption. }
    rewrite A1 in B1.
    destruct (Pre C_space s1 s2 (w1 ++ r1) (w2 ++ r2) A2 B2) as [_ E]; auto.
    - apply Head; assumption.
    - apply Head; assumption.
    - assert (Tail : forall r, r = [] \/ (exists x q, r = x :: q /\ C_space x) -> forall x q, r = x :: q -> ~ ~ C_space x).
      { intros r [->|(x0 & q0 & -> & S0)] x q K; inversion K; subst; auto. }
      exact (Pre (fun x => ~ C_space x) w1 w2 r1 r2 A3 B3 (Tail r1 A5) (Tail r2 B5) E). }
  split; [|split].
  - intros word rest F. destruct Main as [[M1 M2]|(w' & r' & M1 & M2)].
    + exfalso. destruct F as (sps & A1 & A2 & A3 & A4 & A5). rewrite A1, !Forall_app in M1. destruct M1 as (_ & M1 & _).
      destruct word as [|x word]; [congruence|]. inversion A3; inversion M1; subst. contradiction.
    + destruct (Uniq _ _ _ _ F M1) as [-> ->]. exact M2.
  - intros F. destruct Main as [[M1 M2]|(w' & r' & M1 & M2)].
    + exists (mk_sstr false old). split; [exact M2|reflexivity].
    + exfalso. destruct M1 as (sps & A1 & A2 & A3 & A4 & A5). rewrite A1, !Forall_app in F. destruct F as (_ & F & _).
      destruct w' as [|x word]; [congruence|]. inversion A3; inversion F; subst. contradiction.
  - destruct Main as [[M1 M2]|(w' & r' & M1 & M2)]; [left; exact M1|right; exists w', r'; exact M1].
Qed.
Print Assumptions C55_word_partial.

(** Without that condition words are lost: after sixteen spaces, the word of eight letters U+00E9 is not read
    -- if all of it is in the buffer at once; if the first 20 characters come alone the word is read. *)
Definition accents : list Z := concat (repeat [195; 169] 8).
Theorem C55_word_refuted :
  exists c t, space_search_ok c /\ text (f_w c) t /\ first_word t accents [10] /\
    scan_word c [] t [] = Scanned false (mk_sstr false []) [] [] /\
    scan_word c [] (firstn 20 t) [skipn 20 t] = Scanned true (mk_sstr true accents) [10] [].
Proof.
  exists sse2_char, spaces_then_accents.
  split; [split; [unfold build_ok, char_width, sse2_char; cbn; lia|reflexivity]|].
  split; [unfold text, code_unit, spaces_then_accents; cbn; repeat constructor; lia|].
  split.
  - exists (repeat 32 16). split; [reflexivity|].
    split; [apply Forall_forall; intros x Hx; apply repeat_spec in Hx; subst; left; reflexivity|].
    split; [unfold accents, C_space; cbn; repeat constructor; lia|].
    split; [discriminate|]. right. exists 10, []. split; [reflexivity|unfold C_space; lia].
  - split; vm_compute; reflexivity.
Qed.
Print Assumptions C55_word_refuted.

(** scan(in, line_get(str)): the first line, the stream left after the line feed; at the end of the text false,
    and the string is empty. *)
Theorem C55_line : forall c old buf src t,
  lf_ok c -> stream_text buf src t -> text (f_w c) t ->
  (forall line rest, first_line t line rest ->
     reads (scan_line c old buf src) (fun st => ss_str st = line) rest) /\
  (t = [] -> ends (scan_line c old buf src) (fun st => ss_str st = [])) /\
  (t = [] \/ exists line rest, first_line t line rest).
Proof.
  intros c old buf src t Hc [-> Hs] Ht. set (t := buf ++ concat src) in *.
  assert (Start : scan_line c old buf src =
    scan_buffered (string_define c false true) (string_eof false true) (mk_sstr true []) buf src).
  { apply gather_start. reflexivity. }
  assert (NL : forall s, Forall (fun x => not_lf x = true) s <-> ~ In 10 s).
  { intros s. rewrite Forall_forall. unfold not_lf. split.
    - intros H K. specialize (H _ K). discriminate.
    - intros H x Hx. apply negb_true_iff, Z.eqb_neq. intros ->. auto. }
  assert (Main : (t = [] /\ scan_line c old buf src = Scanned false (mk_sstr true []) [] []) \/
    exists line rest, first_line t line rest /\ reads (scan_line c old buf src) (fun st => ss_str st = line) rest).
  { rewrite Start.
    destruct (gather_ok (f_w c) not_lf true (string_define c false true) (string_eof false true)
                  (fun g s H => line_def c g s Hc H) src [] buf Hs Ht) as [[G1 G2]|(a & y & r & buf' & src' & G1 & G2 & G3 & G4 & G5 & G6)];
      fold t in G1.
    - fold t in G2. rewrite G2. unfold scan_eof, string_eof. cbn [orb ss_str app].
      destruct t as [|x t0] eqn:Et; [left; split; reflexivity|right].
      exists (x :: t0), []. split.
      + split; [apply NL; exact G1|right]. repeat split; discriminate.
      + exists (mk_sstr true (x :: t0)), [], []. split; [reflexivity|]. split; [reflexivity|split; [reflexivity|constructor]].
    - right. exists a, r. unfold not_lf in G3. apply negb_false_iff, Z.eqb_eq in G3. subst y. split.
      + split; [apply NL; exact G2|left; exact G1].
      + rewrite G4. exists (mk_sstr true a), buf', src'. split; [reflexivity|]. split; [reflexivity|].
        split; [symmetry; exact G5|exact G6]. }
  assert (Uniq : forall l1 r1 l2 r2, first_line t l1 r1 -> first_line t l2 r2 -> l1 = l2 /\ r1 = r2).
  { assert (Split : forall l l' (r r' : list Z), ~ In 10 l -> ~ In 10 l' -> l ++ 10 :: r = l' ++ 10 :: r' -> l = l' /\ r = r').
    { induction l as [|x l IH]; intros [|y l'] r r' H1 H2 E; cbn in *.
      - inversion E; auto.
      - inversion E; subst. exfalso; auto.
      - inversion E; subst. exfalso; auto.
      - inversion E; subst. destruct (IH l' r r') as [-> ->]; auto. }
    assert (Mem : forall l (r : list Z), In 10 (l ++ 10 :: r)) by (intros; apply in_or_app; right; left; reflexivity).
    intros l1 r1 l2 r2 [N1 A] [N2 B]. destruct A as [A|(A & A2 & ->)]; destruct B as [B|(B & B2 & ->)].
    - rewrite A in B. apply Split; auto.
    - exfalso. apply N2. rewrite <- B, A. apply Mem.
    - exfalso. apply N1. rewrite <- A, B. apply Mem.
    - split; congruence. }
  assert (NE : forall line rest, first_line t line rest -> t <> []).
  { intros line rest [_ [F|(F & N & _)]] K; rewrite K in F; [destruct line; discriminate|congruence]. }
  split; [|split].
  - intros line rest F. destruct Main as [[M1 M2]|(l' & r' & M1 & M2)].
    + exfalso. exact (NE _ _ F M1).
    + destruct (Uniq _ _ _ _ F M1) as [-> ->]. exact M2.
  - intros F. destruct Main as [[M1 M2]|(l' & r' & M1 & M2)].
    + exists (mk_sstr true []). split; [exact M2|reflexivity].
    + exfalso. exact (NE _ _ M1 F).
  - destruct Main as [[M1 M2]|(l' & r' & M1 & M2)]; [left; exact M1|right; exists l', r'; exact M1].
Qed.
Print Assumptions C55_line.

(** scan(in, noskipws(str)): the characters up to the first whitespace character (none if the text begins
    with one); at the end of the text false. *)
Theorem C55_noskipws : forall c old buf src t,
  space_search_ok c -> stream_text buf src t -> text (f_w c) t ->
  (forall word rest, t = word ++ rest -> Forall (fun x => ~ C_space x) word ->
     (rest = [] \/ exists x r, rest = x :: r /\ C_space x) -> t <> [] ->
     reads (scan_noskip c old buf src) (fun st => ss_str st = word) rest) /\
  (t = [] -> ends (scan_noskip c old buf src) (fun st => ss_str st = [])).
Proof.
  intros c old buf src t Hc [-> Hs] Ht. set (t := buf ++ concat src) in *.
  assert (Hw : char_width (f_w c)) by apply Hc.
  assert (Start : scan_noskip c old buf src =
    scan_buffered (string_define c true false) (string_eof true false) (mk_sstr true []) buf src).
  { apply gather_start. reflexivity. }
  rewrite Start.
  destruct (gather_ok (f_w c) (ns c) false (string_define c true false) (string_eof true false)
                  (fun g s H => noskip_def c g s Hc H) src [] buf Hs Ht) as [[G1 G2]|(a & y & r & buf' & src' & G1 & G2 & G3 & G4 & G5 & G6)];
    fold t in G1.
  - fold t in G2. rewrite G2. unfold scan_eof, string_eof. cbn [orb ss_str app].
    apply (proj2 (spaces_iff c t Hw Ht)) in G1. split.
    + intros word rest E F1 F2 N. destruct F2 as [->|(x & r & -> & Sx)].
      * rewrite app_nil_r in E. destruct t as [|x t0] eqn:Et; [congruence|].
        exists (mk_sstr true (x :: t0)), [], []. split; [reflexivity|]. split; [cbn; congruence|split; [reflexivity|constructor]].
      * exfalso. rewrite E, Forall_app in G1. destruct G1 as [_ G1]. inversion G1; contradiction.
    + intros ->. exists (mk_sstr true []). split; reflexivity.
  - assert (Ty := Ht). rewrite G1 in Ty. unfold text in Ty. rewrite Forall_app in Ty. destruct Ty as [Ta Tyr].
    inversion Tyr as [|? ? Cy Cr]; subst.
    apply (proj2 (spaces_iff c a Hw Ta)) in G2. apply (ns_spec c y Hw Cy) in G3.
    split; [|intros K; rewrite K in G1; destruct a; discriminate].
    intros word rest E F1 F2 N. rewrite G4.
    assert (E2 : a = word /\ y :: r = rest).
    { rewrite G1 in E. clear - E F1 F2 G2 G3. revert word E F1. induction a as [|x a IH]; intros [|z word] E F1; cbn in E.
      - auto.
      - inversion E; subst. inversion F1; contradiction.
      - subst rest. destruct F2 as [K|(x0 & r0 & K & S0)]; [discriminate|]. inversion K; subst. inversion G2; contradiction.
      - inversion E as [[Ez Er]]; subst. apply Forall_inv_tail in G2. apply Forall_inv_tail in F1. destruct (IH G2 word Er F1) as [-> ->]. auto. }
    destruct E2 as [<- <-]. exists (mk_sstr true a), buf', src'. split; [reflexivity|]. split; [reflexivity|].
    split; [symmetry; exact G5|exact G6].
Qed.
Print Assumptions C55_noskipws.

(** scan(in, whole_get(str)): all of the text. *)
Theorem C55_whole : forall old buf src t, stream_text buf src t ->
  reads (scan_whole old buf src) (fun st => ss_str st = t) [].
Proof.
  intros old buf src t [-> Hs].
  assert (Fill : forall src g buf, no_empty src ->
    scan_buffered whole_define whole_eof (mk_sstr true g) buf src = Scanned true (mk_sstr true (g ++ buf ++ concat src)) [] []).
  { clear. induction src as [|ch src IH]; intros g buf Hs; cbn [scan_buffered whole_define ss_copying ss_str negb concat].
    - rewrite app_nil_r. reflexivity.
    - inversion Hs; subst. destruct ch as [|c0 ch]; [contradiction|]. unfold whole_define at 1. cbn [ss_copying negb ss_str].
      rewrite IH by assumption. rewrite <- app_assoc. reflexivity. }
  exists (mk_sstr true (buf ++ concat src)), [], []. split; [|split; [reflexivity|split; [reflexivity|constructor]]].
  assert (Start : scan_whole old buf src = scan_buffered whole_define whole_eof (mk_sstr true []) buf src).
  { unfold scan_whole. destruct src; reflexivity. }
  rewrite Start. apply (Fill src [] buf Hs).
Qed.
Print Assumptions C55_whole.

(** String types without a buffer of their own give the same words and lines (the text is gathered in the
    context); only on failure does line_get differ: the string keeps what it held. *)
Theorem C55_strlike_partial : forall c old buf src t,
  space_search_ok c -> lf_ok c -> stream_text buf src t -> text (f_w c) t -> plain_text c t ->
  (forall word rest, first_word t word rest ->
     reads (scan_general_word c old buf src) (fun st => gs_str st = word) rest) /\
  (Forall C_space t -> ends (scan_general_word c old buf src) (fun st => gs_str st = old)) /\
  (forall line rest, first_line t line rest ->
     reads (scan_general_line c old buf src) (fun st => gs_str st = line) rest) /\
  (t = [] -> ends (scan_general_line c old buf src) (fun st => gs_str st = old)).
Proof.
  intros c old buf src t Hc Hl Hst Ht Hp. destruct (C55_word_partial c old buf src t Hc Hst Ht Hp) as (W1 & W2 & _).
  destruct (C55_line c old buf src t Hl Hst Ht) as (L1 & L2 & _). destruct Hst as [-> Hs].
  assert (GW : scan_general_word c old buf src = to_general old (scan_word c old buf src)).
  { apply (general_sim c false src (mk_sstr false old) (mk_gstr [] old) buf); try assumption.
    - intros s st st' k T P [B|K] D; [|discriminate K]. exact (begun_word c st s st' k Hc T P B D).
    - left. unfold begun. cbn [ss_copying]. discriminate.
    - right. split; reflexivity. }
  assert (GL : scan_general_line c old buf src = to_general old (scan_line c old buf src)).
  { apply (general_sim c true src (mk_sstr false old) (mk_gstr [] old) buf); try assumption.
    - intros s st st' k T P _ D. exact (begun_line c st s st' k D).
    - right. reflexivity.
    - right. split; reflexivity. }
  assert (R : forall r w rest, reads r (fun st => ss_str st = w) rest ->
    reads (to_general old r) (fun st => gs_str st = w) rest).
  { intros r w rest (st & b & s & -> & P & Q). exists (mk_gstr (ss_str st) (ss_str st)), b, s. auto. }
  assert (N : forall r P, ends r P -> ends (to_general old r) (fun st => gs_str st = old)).
  { intros r P (st & -> & Q). exists (mk_gstr [] old). auto. }
  rewrite GW, GL. repeat split.
  - intros word rest F. apply R, W1, F.
  - intros F. eapply N. apply W2, F.
  - intros line rest F. apply R, L1, F.
  - intros F. eapply N. apply L2, F.
Qed.
Print Assumptions C55_strlike_partial.

(** From a contiguous stream (a string view) the same is read as from a stream that has everything
    in its buffer. *)
Theorem C55_contiguous : forall c noskipws line st buf,
  scan_contiguous (string_define c noskipws line) (string_eof noskipws line) st buf =
  scan_buffered (string_define c noskipws line) (string_eof noskipws line) st buf [].
Proof. exact contiguous_same. Qed.
Print Assumptions C55_contiguous.

(** A refill that delivers nothing ends the stream: whatever the source would deliver later is not looked at,
    the same is stored and returned as at the end of the source. *)
Definition outcome_of {S} (r : scanned S) : option (bool * S) + parse_code :=
  match r with Scanned b st _ _ => inl (Some (b, st)) | Raised c => inr c | Overrun => inl None end.
Lemma empty_refill {S} (def : S -> list Z -> define_res S) eof : forall src st buf later, Forall (fun c => c <> []) src ->
  outcome_of (scan_buffered def eof st buf (src ++ [] :: later)) = outcome_of (scan_buffered def eof st buf src).
Proof.
  induction src as [|c src IH]; intros st buf later H; cbn [app scan_buffered].
  - destruct (def st buf) as [st' k []|]; try reflexivity. unfold scan_eof. destruct (eof st') as [st'' []]; reflexivity.
  - inversion H; subst. destruct (def st buf) as [st' k []|]; try reflexivity.
    destruct c as [|x c]; [contradiction|]. apply IH. assumption.
Qed.
Theorem C55_empty_refill : forall c old buf src later, Forall (fun ch => ch <> []) src ->
  outcome_of (scan_word c old buf (src ++ [] :: later)) = outcome_of (scan_word c old buf src) /\
  outcome_of (scan_line c old buf (src ++ [] :: later)) = outcome_of (scan_line c old buf src) /\
  outcome_of (scan_noskip c old buf (src ++ [] :: later)) = outcome_of (scan_noskip c old buf src) /\
  outcome_of (scan_whole old buf (src ++ [] :: later)) = outcome_of (scan_whole old buf src) /\
  outcome_of (scan_general_word c old buf (src ++ [] :: later)) = outcome_of (scan_general_word c old buf src) /\
  outcome_of (scan_general_line c old buf (src ++ [] :: later)) = outcome_of (scan_general_line c old buf src).
Proof. intros. repeat split; apply empty_refill; assumption. Qed.
Print Assumptions C55_empty_refill.

Example C55_example :
  space_search_ok any_char /\ plain_text any_char [32; 97; 98; 10; 99] /\
  first_word [32; 97; 98; 10; 99] [97; 98] [10; 99] /\ first_line [32; 97; 98; 10; 99] [32; 97; 98] [99] /\
  scan_word any_char [] [32] [[97]; [98; 10]; [99]] = Scanned true (mk_sstr true [97; 98]) [10] [[99]].
Proof.
  split; [split; [unfold build_ok, char_width, any_char; cbn; lia|discriminate]|].
  split; [right; cbn; repeat constructor; lia|].
  split.
  - exists [32]. unfold C_space. split; [reflexivity|]. split; [constructor; [lia|constructor]|].
    split; [constructor; [lia|constructor; [lia|constructor]]|]. split; [discriminate|].
    right. exists 10, [99]. split; [reflexivity|lia].
  - split; [split; [cbn; lia|left; reflexivity]|reflexivity].
Qed.

(** * C56: str_get_all(str, n) reads exactly n characters *)

(** Into a string with a buffer: the next n characters of the stream, or false if there are fewer. *)
Theorem C56_get_all : forall n cap old buf src t, stream_text buf src t ->
  if Nat.leb n (length t)
  then reads (scan_get_all_buffer n cap old buf src) (fun st => gb_elems st = firstn n t) (skipn n t)
  else ends (scan_get_all_buffer n cap old buf src) (fun st => gb_elems st = t).
Proof.
  intros n cap old buf src t [-> Hs].
  assert (Start : scan_get_all_buffer n cap old buf src =
    scan_buffered (get_all_buffer n) get_all_eof (mk_gbuf (Nat.max n cap) [] true []) buf src).
  { unfold scan_get_all_buffer. destruct src; reflexivity. }
  rewrite Start.
  pose proof (get_all_gather n true src (Nat.max n cap) [] true [] buf ltac:(lia) ltac:(cbn; lia) (fun _ => eq_refl) Hs) as G.
  cbv zeta in G. cbn [app] in G. cbn iota in G.
  destruct (Nat.leb n (length (buf ++ concat src))).
  - destruct G as (buf' & src' & G1 & G2 & G3). rewrite G1. exists (mk_gbuf (Nat.max n cap) (firstn n (buf ++ concat src)) true []), buf', src'.
    split; [reflexivity|]. split; [reflexivity|]. split; [symmetry; exact G2|exact G3].
  - rewrite G. eexists. split; [reflexivity|reflexivity].
Qed.
Print Assumptions C56_get_all.

(** Into other string types: the same for n up to the size of the context buffer, 2048 bytes. *)
Theorem C56_get_all_strlike_partial : forall w n old buf src t, stream_text buf src t ->
  (n <= concat_buffer_size w)%nat ->
  if Nat.leb n (length t)
  then reads (scan_get_all_general w n old buf src) (fun st => gb_str st = firstn n t) (skipn n t)
  else ends (scan_get_all_general w n old buf src) (fun st => gb_str st = old).
Proof.
  intros w n old buf src t [-> Hs] Hn. unfold scan_get_all_general.
  pose proof (get_all_gather n false src (concat_buffer_size w) [] false old buf Hn ltac:(cbn; lia) ltac:(discriminate) Hs) as G.
  cbv zeta in G. cbn [app] in G. cbn iota in G.
  destruct (Nat.leb n (length (buf ++ concat src))).
  - destruct G as (buf' & src' & G1 & G2 & G3). rewrite G1. eexists; exists buf', src'.
    split; [reflexivity|]. split; [reflexivity|]. split; [symmetry; exact G2|exact G3].
  - rewrite G. eexists. split; [reflexivity|reflexivity].
Qed.
Print Assumptions C56_get_all_strlike_partial.

(** For larger n the context buffer, which lies on the stack, is overrun by any text that is longer than
    the buffer. *)
Theorem C56_get_all_strlike_refuted : forall w n old buf src t, stream_text buf src t ->
  (concat_buffer_size w < n)%nat -> (concat_buffer_size w < length t)%nat ->
  scan_get_all_general w n old buf src = Overrun.
Proof.
  intros w n old buf src t [-> Hs] Hn Hl. apply get_all_overrun; [exact Hn|cbn; lia|exact Hs|exact Hl].
Qed.
Print Assumptions C56_get_all_strlike_refuted.

Example C56_example :
  stream_text [97] [[98; 99]; [100]] [97; 98; 99; 100] /\
  scan_get_all_buffer 2 0 [1; 2; 3] [97] [[98; 99]; [100]] = Scanned true (mk_gbuf 2 [97; 98] true []) [99] [[100]] /\
  (concat_buffer_size 8 < length (repeat 97 3000))%nat /\
  scan_get_all_general 8 3000 [] (repeat 97 3000) [] = Overrun.
Proof.
  split; [split; [reflexivity|repeat constructor; discriminate]|]. split; [reflexivity|].
  split; [apply Nat.ltb_lt; vm_compute; reflexivity|vm_compute; reflexivity].
Qed.
