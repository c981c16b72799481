(** C85, C86: reading HTTP headers.  Specification in HttpSpec. *)
From Coq Require Import List Bool PeanoNat Lia.
From Verif Require Import Base HttpModel HttpSpec HttpProofs HttpLines.
Import ListNotations.
Local Open Scope nat_scope.

(** C85.  A header - lines ended by CR LF, then an empty line - is read whole, wherever the input is cut into buffers: the header buffer
    holds it, the rest of the input is left, and the verdict is the one on the whole text; a header longer than the buffer is refused. *)
Theorem C85_chunks_partial : forall cap ls rest chunks, ls <> [] -> Forall line_ok ls -> concat chunks = lines_text ls ++ rest ->
  if length (lines_text ls) <=? cap then
    exists verdict b', http_run cap 0 fresh_hbuf chunks = (verdict, b', rest) /\ stored b' = lines_text ls
      /\ http_run cap 0 fresh_hbuf [lines_text ls] = (verdict, b', [])
  else fst (fst (http_run cap 0 fresh_hbuf chunks)) = Invalid.
Proof.
  assert (G : forall cap ls rest chunks, ls <> [] -> Forall line_ok ls -> concat chunks = lines_text ls ++ rest ->
    if length (lines_text ls) <=? cap then
      http_run cap 0 fresh_hbuf chunks = (fst (determine (with_text fresh_hbuf (lines_text ls))), snd (determine (with_text fresh_hbuf (lines_text ls))), rest)
    else fst (fst (http_run cap 0 fresh_hbuf chunks)) = Invalid).
  { intros cap ls rest chunks Hn F E. pose proof (mach_header ls rest Hn F) as M. rewrite <- E in M.
    destruct (run_accepts cap chunks 0 fresh_hbuf rest ltac:(lia) M ltac:(cbn; lia)) as [p [Ep H]]. rewrite E in Ep. apply app_inv_tail in Ep. subst p.
    cbn [stored fresh_hbuf app] in H. destruct (length (lines_text ls) <=? cap); [| exact H].
    destruct (http_run cap 0 fresh_hbuf chunks) as [[v b'] r] eqn:Er. cbn [fst snd] in H. destruct H as [H1 [H2 H3]]. rewrite <- H1, <- H2. f_equal. apply H3.
    rewrite H1. intro Hp. revert Hp. clear. generalize (with_text fresh_hbuf (lines_text ls)). intro bb. unfold determine. destruct (stored bb) as [| x s]; [discriminate |]. destruct (x =? sp)%Z; [discriminate |].
    destruct (find_ch sp false (x :: s)) as [w1 [| x1 r1]]; [discriminate |]. destruct (find_ch sp true r1) as [g1 [| x2 r2]]; [discriminate |].
    destruct (find_ch sp false (x2 :: r2)) as [w2 [| x3 r3]]; [discriminate |]. destruct (find_ch sp true (x3 :: r3)) as [g2 [| x4 r4]]; [discriminate |].
    destruct (find_ch cr false (x4 :: r4)) as [w3 [| x5 r5]]; discriminate. }
  intros cap ls rest chunks Hn F E. pose proof (G cap ls rest chunks Hn F E) as A.
  pose proof (G cap ls [] [lines_text ls] Hn F eq_refl) as B.
  destruct (length (lines_text ls) <=? cap); [| exact A]. eexists _, _. split; [exact A |]. split; [rewrite determine_stored; reflexivity | exact B].
Qed.
Print Assumptions C85_chunks_partial.

(** Whatever the input and however it is cut: if a header is accepted, it is the input up to the first blank line, whole, and the rest
    is left; it fits the buffer.  So an input without a blank line is never accepted. *)
Theorem C85_sound : forall cap chunks b' rest, http_run cap 0 fresh_hbuf chunks = (Ok, b', rest) ->
  concat chunks = stored b' ++ rest /\ after_blank_line (concat chunks) = Some rest /\ length (stored b') <= cap.
Proof.
  intros cap chunks b' rest H. destruct (run_sound cap chunks 0 fresh_hbuf b' rest ltac:(lia) ltac:(cbn; lia) H) as [p [E1 [E2 [E3 [E4 _]]]]].
  cbn [stored fresh_hbuf app pending] in *. rewrite E1. rewrite E1 in E3. auto.
Qed.
Print Assumptions C85_sound.

(** Refuted: a CR that is not followed by LF is refused in one piece and accepted when the input is cut there. *)
Definition bare_cr : list Z := [71; 32; 47; 32; 97; 13; 98; 13; 10; 13; 10]%Z.
Theorem C85_bare_cr_refuted : exists c1 c2 b', c1 ++ c2 = bare_cr
  /\ fst (fst (http_run 4096 0 fresh_hbuf [bare_cr])) = Invalid
  /\ http_run 4096 0 fresh_hbuf [c1; c2] = (Ok, b', []).
Proof. exists [71; 32; 47; 32; 97; 13]%Z, [98; 13; 10; 13; 10]%Z. eexists. split; [reflexivity |]. split; vm_compute; reflexivity. Qed.
Print Assumptions C85_bare_cr_refuted.

(** Refuted: reading a second header into the same object appends it: the object then shows the first one. *)
Definition header_a : list Z := [71; 32; 47; 32; 97; 13; 10; 13; 10]%Z.
Definition header_b : list Z := [80; 32; 42; 32; 98; 13; 10; 13; 10]%Z.
Theorem C85_reuse_refuted : exists b1 b2,
  http_run 4096 0 fresh_hbuf [header_a] = (Ok, b1, []) /\ http_run 4096 0 b1 [header_b] = (Ok, b2, [])
  /\ stored b2 = header_a ++ header_b /\ request b2 = [71%Z].
Proof. eexists _, _. split; [vm_compute; reflexivity |]. split; [vm_compute; reflexivity |]. split; vm_compute; reflexivity. Qed.
Print Assumptions C85_reuse_refuted.

(** C86.  The parts of a header.  For every header of a first line with three parts and fields with key and value, read in any
    cutting: request(), code() and reason() are the three parts and the line generator gives the fields in order. *)
Lemma field_line_ok : forall f, field_ok f -> line_ok (field_text f).
Proof.
  intros f [[[_ [A _]] _] [_ [B _]]]. split; [unfold field_text; destruct (f_key f); discriminate |].
  unfold field_text. rewrite !in_app_iff. intros [H | [[H | []] | [H | H]]]; try contradiction; [discriminate |]. apply repeat_spec in H. discriminate.
Qed.
Lemma start_line_ok : forall l, start_ok l -> line_ok (start_text l).
Proof.
  intros l [[A [_ [A' _]]] [[_ [_ [B _]]] [[_ [C _]] _]]]. split; [unfold start_text; destruct (part1 l); [congruence | discriminate] |].
  unfold start_text. rewrite !in_app_iff. intros [H | [H | [H | [H | H]]]]; try contradiction; apply repeat_spec in H; discriminate.
Qed.
Theorem C86_header : forall cap l fs rest chunks, start_ok l -> Forall field_ok fs ->
  concat chunks = header_text l fs ++ rest -> length (header_text l fs) <= cap ->
  exists b', http_run cap 0 fresh_hbuf chunks = (Ok, b', rest)
    /\ stored b' = header_text l fs /\ request b' = part1 l /\ code_ b' = part2 l /\ reason b' = part3 l
    /\ header_lines b' = map (fun f => (f_key f, f_value f)) fs.
Proof.
  intros cap l fs rest chunks Hl Hf E Hc.
  assert (Hn : start_text l :: map field_text fs <> []) by discriminate.
  assert (F : Forall line_ok (start_text l :: map field_text fs)).
  { constructor; [apply start_line_ok; exact Hl |]. apply Forall_map. eapply Forall_impl; [| exact Hf]. apply field_line_ok. }
  pose proof (mach_header _ rest Hn F) as M. fold (header_text l fs) in M. rewrite <- E in M.
  destruct (run_accepts cap chunks 0 fresh_hbuf rest ltac:(lia) M ltac:(cbn; lia)) as [p [Ep H]]. rewrite E in Ep. apply app_inv_tail in Ep. subst p.
  cbn [stored fresh_hbuf app] in H. rewrite (proj2 (Nat.leb_le _ _) Hc) in H.
  assert (Hs : header_text l fs = start_text l ++ crlf ++ (fields_text fs ++ crlf)) by (unfold header_text, lines_text, fields_text; cbn [map concat]; rewrite <- !app_assoc; reflexivity).
  destruct (determine_header (with_text fresh_hbuf (header_text l fs)) l _ Hl Hs) as [b' [D [S [R1 [R2 [R3 R4]]]]]].
  rewrite D in H. cbn [fst snd] in H. destruct (http_run cap 0 fresh_hbuf chunks) as [[v bb] r]. cbn [fst snd] in H. destruct H as [-> [-> H3]].
  exists b'. rewrite H3 by discriminate. cbn [stored with_text] in S. repeat split; try assumption.
  unfold header_lines. apply iterate_lines; [exact Hf | | |].
  - rewrite S, Hs, !app_length. unfold fields_text. assert (G : length fs <= length (concat (map (fun l0 => l0 ++ crlf) (map field_text fs)))).
    { clear. induction fs as [| f fs IH]; [cbn; lia |]. cbn [map concat length]. rewrite !app_length. cbn. lia. }
    lia.
  - cbn [line_generator value_end]. rewrite R4, S, Hs, app_length. lia.
  - cbn [line_generator value_end]. rewrite R4, S, Hs. rewrite skipn_app, Nat.sub_diag, skipn_all2 by lia. reflexivity.
Qed.
Print Assumptions C86_header.

(** Refuted: a status line without a reason and without the blank before it ("HTTP/1.1 200"): the code runs on into the next line. *)
Definition no_reason : list Z := [72; 32; 50; 48; 48; 13; 10; 65; 58; 32; 98; 13; 10; 13; 10]%Z.
Theorem C86_no_reason_refuted : exists b', http_run 4096 0 fresh_hbuf [no_reason] = (Ok, b', []) /\ code_ b' = [50; 48; 48; 13; 10; 65; 58]%Z
  /\ header_lines b' = [].
Proof. eexists. split; [vm_compute; reflexivity |]. split; vm_compute; reflexivity. Qed.
Print Assumptions C86_no_reason_refuted.

Example C86_hypotheses_hold :
  let l := mk_start [71%Z] 1 [47%Z] 2 [72%Z] in let fs := [mk_field [65%Z] 1 [98%Z]; mk_field [66%Z] 0 []] in
  start_ok l /\ Forall field_ok fs
  /\ fst (fst (http_run 64 0 fresh_hbuf [firstn 7 (header_text l fs); []; skipn 7 (header_text l fs) ++ [1%Z]])) = Ok
  /\ header_lines (snd (fst (http_run 64 0 fresh_hbuf [header_text l fs]))) = [([65%Z], [98%Z]); ([66%Z], [])].
Proof.
  cbv zeta. split; [| split; [| split; vm_compute; reflexivity]].
  - unfold start_ok, word, tail_text; cbn. repeat split; try discriminate; try lia; intuition discriminate.
  - repeat constructor; cbn; try discriminate; intuition discriminate.
Qed.
