(** Proofs about the scan driver: words, lines, characters, literals, LEB128 and fixed-size integers. *)
From Verif Require Import Base NumSpec ScanSpec IntPrintModel IntScanModel IntScanProofs IntCtxProofs CharModel CharSpec PropsChar FindModel FindSpec FindProofs PropsFind LineModel LineSpec LineProofs StrProofs PropsLine
  Leb128Model Leb128Spec Leb128Proofs PropsLeb128 ByteSpec LebeModel PropsLebe ScanDrvModel ScanDrvProofs.
Open Scope Z_scope.

(** ** What is left of the source is a suffix of it. *)
Lemma ctx_suffix {S} (define : S -> list Z -> option (S * nat * parse_code)) eof : forall src st buf b st' buf' src',
  ctx_scan define eof st buf src = Scanned b st' buf' src' -> exists s0, src = s0 ++ src'.
Proof.
  assert (E : forall st buf src b st' buf' src', at_eof eof st buf src = Scanned b st' buf' src' -> src = src').
  { intros st buf src b st' buf' src'. unfold at_eof. destruct (eof st) as [[? []]|]; congruence. }
  induction src as [|c src IH]; intros st buf b st' buf' src' H; cbn [ctx_scan] in H; destruct (define st buf) as [[[s1 k] code]|]; try discriminate;
    destruct (_ <? _)%nat; try discriminate; destruct code; try discriminate.
  - injection H as _ _ _ <-. exists []. reflexivity.
  - apply E in H. exists []. exact H.
  - injection H as _ _ _ <-. exists []. reflexivity.
  - destruct c as [|x c].
    + apply E in H. exists [[]]. rewrite H. reflexivity.
    + apply IH in H as (s0 & ->). exists ((x :: c) :: s0). reflexivity.
Qed.
Lemma both_suffix {S} contig (define : S -> list Z -> option (S * nat * parse_code)) eof src st buf b st' buf' src' :
  both_scan contig define eof st buf src = Scanned b st' buf' src' -> exists s0, src = s0 ++ src'.
Proof.
  unfold both_scan. destruct (contig buf) as [[[s1 k] code]|]; [|discriminate]. destruct (Nat.eqb _ _); [apply ctx_suffix|].
  destruct (_ <? _)%nat; [discriminate|]. destruct code; try discriminate. intros H. injection H as _ _ _ <-. exists []. reflexivity.
Qed.
Lemma take_suffix : forall src n buf t b s, take_chars n buf src = Some (t, b, s) -> exists s0, src = s0 ++ s.
Proof.
  induction src as [|c src IH]; intros n buf t b s H; cbn [take_chars] in H; destruct (_ <=? _)%nat; try discriminate.
  - injection H as _ _ <-. exists []. reflexivity.
  - injection H as _ _ <-. exists []. reflexivity.
  - destruct c as [|x c]; [discriminate|]. destruct (take_chars _ (x :: c) src) as [[[t1 b1] s1]|] eqn:E; [|discriminate].
    injection H as _ _ <-. apply IH in E as (s0 & ->). exists ((x :: c) :: s0). reflexivity.
Qed.
Lemma map_suffix {S} (f : S -> list Z) r b v buf src : map_scanned f r = Scanned b v buf src -> exists st, r = Scanned b st buf src.
Proof. destruct r; cbn; intros H; inversion H; subst. eexists. reflexivity. Qed.
Lemma one_suffix a buf src b v buf' src' : scan_one a buf src = Scanned b v buf' src' -> exists s0, src = s0 ++ src' \/ src' = [].
Proof.
  destruct a; cbn [scan_one]; intros H.
  - apply map_suffix in H as (st & H). apply both_suffix in H as (s0 & H). eauto.
  - apply map_suffix in H as (st & H). apply ctx_suffix in H as (s0 & H). eauto.
  - apply map_suffix in H as (st & H). apply ctx_suffix in H as (s0 & H). eauto.
  - apply ctx_suffix in H as (s0 & H). eauto.
  - apply map_suffix in H as (st & H). apply ctx_suffix in H as (s0 & H). eauto.
  - destruct (both_scan _ _ _ _ _ _) as [b1 [gc t] b2 s2| |] eqn:E; try discriminate. injection H as _ _ _ <-. apply both_suffix in E as (s0 & H). eauto.
  - unfold precise_scan in H. destruct (take_chars _ _ _) as [[[t b1] s1]|] eqn:E.
    + destruct (lebe_get _ _ _ _ _ _); [|discriminate]. injection H as _ _ _ <-. apply take_suffix in E as (s0 & E). eauto.
    + injection H as _ _ _ <-. exists []. auto.
  - apply map_suffix in H as (st & H). apply both_suffix in H as (s0 & H). eauto.
Qed.

(** ** Words and lines *)
Lemma str_is_buffered c noskipws line : forall src st buf,
  (forall st x, In x (buf :: src) -> match string_define c noskipws line st x with Defined _ k _ => (k <= length x)%nat | Smashed => True end) ->
  ctx_scan (str_define c noskipws line) (str_eof noskipws line) st buf src =
  scan_buffered (string_define c noskipws line) (string_eof noskipws line) st buf src.
Proof.
  assert (E : forall st buf src, at_eof (str_eof noskipws line) st buf src = scan_eof (string_eof noskipws line) st buf src).
  { intros st buf src. unfold at_eof, str_eof, scan_eof. destruct (string_eof noskipws line st) as [s1 []]; reflexivity. }
  induction src as [|x src IH]; intros st buf H; cbn [ctx_scan scan_buffered]; unfold str_define at 1; pose proof (H st buf (or_introl eq_refl)) as H0;
    destruct (string_define c noskipws line st buf) as [st' k code|]; try reflexivity; rewrite (proj2 (Nat.ltb_ge _ _)) by exact H0; destruct code; try reflexivity.
  destruct x as [|y x]; [reflexivity|]. apply IH. intros s z Hz. apply H. right. exact Hz.
Qed.
Lemma text_parts {w buf src} : text w (buf ++ concat src) -> forall x, In x (buf :: src) -> text w x.
Proof.
  intros H x Hx. unfold text in *. rewrite Forall_forall in *. intros y Hy. apply H. apply in_or_app. destruct Hx as [->|Hx]; [auto|].
  right. apply in_concat. eauto.
Qed.
Lemma plain_parts {c buf src} : plain_text c (buf ++ concat src) -> forall x, In x (buf :: src) -> plain_text c x.
Proof.
  unfold plain_text. intros [H|H] x Hx; [left; exact H|right]. rewrite Forall_forall in *. intros y Hy. apply H. apply in_or_app. destruct Hx as [->|Hx]; [auto|].
  right. apply in_concat. eauto.
Qed.
Lemma skipn_text w n s : text w s -> text w (skipn n s).
Proof. intros H. unfold text in *. rewrite <- (firstn_skipn n s) in H. apply Forall_app in H. apply H. Qed.
Lemma word_is_buffered c old buf src : space_search_ok c -> text (f_w c) (buf ++ concat src) -> plain_text c (buf ++ concat src) ->
  ctx_scan (str_define c false false) (str_eof false false) (mk_sstr false old) buf src = scan_word c old buf src.
Proof.
  intros Hc Ht Hp. apply str_is_buffered. intros st x Hx. pose proof (text_parts Ht x Hx) as Tx. pose proof (plain_parts Hp x Hx) as Px.
  unfold string_define. cbn [negb andb orb]. rewrite find_none_skip by assumption. pose proof (skip_while_le (sp c) x) as L.
  destruct (ss_copying st); cbn [negb].
  - cbn [skipn]. rewrite find_c_space_skip by assumption. pose proof (skip_while_le (ns c) x). destruct (Nat.eqb _ _); cbn; lia.
  - destruct (Nat.eqb _ _); [lia|]. rewrite find_c_space_skip by (try assumption; apply skipn_text; assumption).
    pose proof (skip_while_le (ns c) (skipn (skip_while (sp c) x) x)) as L2. rewrite skipn_length in L2. destruct (Nat.eqb _ _); lia.
Qed.
Lemma line_is_buffered c old buf src : lf_ok c -> text (f_w c) (buf ++ concat src) ->
  ctx_scan (str_define c false true) (str_eof false true) (mk_sstr false old) buf src = scan_line c old buf src.
Proof.
  intros Hc Ht. apply str_is_buffered. intros st x Hx. pose proof (text_parts Ht x Hx) as Tx.
  unfold string_define. cbn [negb andb orb skipn]. rewrite find_lf_skip by assumption. pose proof (skip_while_le not_lf x) as L.
  destruct (Nat.eqb _ _) eqn:E; [lia|]. apply Nat.eqb_neq in E. cbn in *. lia.
Qed.

(** ** One character *)
Lemma skip_spaces c a b : char_width (f_w c) -> text (f_w c) (a ++ b) -> Forall C_space a ->
  match b with [] => True | x :: _ => ~ C_space x end -> skip_while (sp c) (a ++ b) = length a.
Proof.
  intros Hw. induction a as [|x a IH]; intros Ht Ha Hb.
  - destruct b as [|x b]; [reflexivity|]. cbn [app skip_while length]. apply Forall_inv in Ht. rewrite (proj2 (sp_spec c x Hw Ht)) by exact Hb. reflexivity.
  - cbn [app skip_while length]. pose proof (Forall_inv Ht) as T1. pose proof (Forall_inv_tail Ht) as T2.
    assert (E : sp c x = true).
    { destruct (sp c x) eqn:E; [reflexivity|]. exfalso. apply (proj1 (sp_spec c x Hw T1) E). exact (Forall_inv Ha). }
    rewrite E. f_equal. apply IH; auto. exact (Forall_inv_tail Ha).
Qed.
Lemma char_piece c x ws rest : space_search_ok c -> Forall C_space ws -> ~ C_space x ->
  forall src buf st, Forall (fun c => c <> []) src -> text (f_w c) (buf ++ concat src) -> plain_text c (buf ++ concat src) ->
  buf ++ concat src = ws ++ x :: rest ->
  gives (ctx_scan (char_define c) char_eof st buf src) (fun v => v = [x]) rest.
Proof.
  intros Hc Hws Hx src. revert ws Hws. assert (Hw : char_width (f_w c)) by apply Hc.
  induction src as [|ch src IH]; intros ws Hws buf st Hs Ht Hp HT.
  all: pose proof (text_parts Ht buf (or_introl eq_refl)) as Tb; pose proof (plain_parts Hp buf (or_introl eq_refl)) as Pb.
  all: destruct (app_split _ _ _ _ HT) as [(w2 & E1 & E2)|(r1 & Nr & E1 & E2)].
  2, 4: destruct r1 as [|y r1]; [contradiction|]; injection E2 as <- ->; subst buf; cbn [ctx_scan]; unfold char_define;
    rewrite find_none_skip by assumption; rewrite skip_spaces by (auto; exact Hx);
    rewrite (skipn_app (length ws)), skipn_all, Nat.sub_diag; change ([] ++ skipn 0 (x :: r1)) with (x :: r1); cbv iota; rewrite (proj2 (Nat.ltb_ge _ _)) by (rewrite app_length; cbn; lia);
    (assert (SN : skipn (Datatypes.S (length ws)) (ws ++ x :: r1) = r1)
      by (change (x :: r1) with ([x] ++ r1); rewrite app_assoc; replace (Datatypes.S (length ws)) with (length (ws ++ [x])) by (rewrite app_length; cbn; lia);
          rewrite skipn_app, skipn_all, Nat.sub_diag; reflexivity));
    rewrite SN; eexists [x], r1, _; (split; [reflexivity|]); (split; [reflexivity|]); split; [reflexivity|exact Hs].
  - exfalso. cbn [concat] in E2. destruct w2; discriminate.
  - subst ws. apply Forall_app in Hws as [W1 W2].
    assert (SK : find_none_c_space c buf = length buf).
    { rewrite find_none_skip by assumption. rewrite <- (app_nil_r buf) at 1. apply skip_spaces; auto. rewrite app_nil_r. exact Tb. }
    cbn [ctx_scan]. unfold char_define at 1. rewrite SK, skipn_all, Nat.ltb_irrefl.
    pose proof (Forall_inv Hs) as H1; pose proof (Forall_inv_tail Hs) as H2. destruct ch as [|y ch]; [contradiction|].
    cbn [concat] in *. apply Forall_app in Ht as [_ Ht]. apply plain_app in Hp as [_ Hp]. apply (IH w2); auto.
Qed.
Lemma char_nothing c : space_search_ok c -> forall src buf st, Forall (fun c => c <> []) src ->
  text (f_w c) (buf ++ concat src) -> plain_text c (buf ++ concat src) -> Forall C_space (buf ++ concat src) ->
  ctx_scan (char_define c) char_eof st buf src = Scanned false st [] [].
Proof.
  intros Hc. assert (Hw : char_width (f_w c)) by apply Hc.
  induction src as [|ch src IH]; intros buf st Hs Ht Hp Hsp.
  all: pose proof (text_parts Ht buf (or_introl eq_refl)) as Tb; pose proof (plain_parts Hp buf (or_introl eq_refl)) as Pb.
  all: assert (SK : find_none_c_space c buf = length buf)
    by (rewrite find_none_skip by assumption; rewrite <- (app_nil_r buf) at 1; apply (skip_spaces c buf []); [exact Hw|rewrite app_nil_r; exact Tb|apply Forall_app in Hsp; apply Hsp|exact I]).
  all: cbn [ctx_scan]; unfold char_define at 1; rewrite SK, skipn_all, Nat.ltb_irrefl.
  - reflexivity.
  - pose proof (Forall_inv Hs) as H1; pose proof (Forall_inv_tail Hs) as H2. destruct ch as [|y ch]; [contradiction|].
    cbn [concat] in *. apply Forall_app in Ht as [_ Ht]. apply plain_app in Hp as [_ Hp]. apply Forall_app in Hsp as [_ Hsp]. apply IH; auto.
Qed.

(** ** A literal *)
Lemma mismatch_prefix a : forall b, mismatch (a ++ b) a = length a.
Proof. induction a as [|x a IH]; intros b; cbn; [destruct b; reflexivity|]. rewrite Z.eqb_refl, IH. reflexivity. Qed.
Lemma match_piece lit rest : forall src buf, Forall (fun c => c <> []) src -> buf ++ concat src = lit ++ rest ->
  (forall n, (0 < n < length lit)%nat -> ~ cut_at buf src n) ->
  gives (ctx_scan (match_define lit) match_eof 0%nat buf src) (fun _ => True) rest.
Proof.
  assert (Whole : forall src b, Forall (fun c => c <> []) src -> gives (ctx_scan (match_define lit) match_eof 0%nat (lit ++ b) src) (fun _ => True) (b ++ concat src)).
  { intros src b Hs. assert (D : match_define lit 0 (lit ++ b) = Some (length lit, length lit, pc_ok)).
    { unfold match_define. rewrite Nat.sub_0_r, firstn_all, mismatch_prefix, Nat.eqb_refl. cbn [negb Nat.add]. destruct (Nat.eqb _ _); reflexivity. }
    exists (length lit), b, src. split; [|split; [exact I|split; [reflexivity|exact Hs]]].
    destruct src; cbn [ctx_scan]; rewrite D, (proj2 (Nat.ltb_ge _ _)) by (rewrite app_length; lia); rewrite skipn_app, skipn_all, Nat.sub_diag; reflexivity. }
  intros src buf Hs HT Hcut. destruct (app_split _ _ _ _ HT) as [(l2 & E1 & E2)|(r1 & Nr & E1 & E2)].
  - destruct l2 as [|y l2].
    + rewrite app_nil_r in E1. subst buf. cbn [app] in E2. subst rest. rewrite <- (app_nil_r lit) at 2. apply Whole. exact Hs.
    + destruct src as [|c src]; [discriminate|]. pose proof (Forall_inv Hs) as H1; pose proof (Forall_inv_tail Hs) as H2.
      destruct buf as [|x buf].
      * cbn [app] in *. subst lit. destruct c as [|z c]; [contradiction|]. cbn [concat] in E2.
        cbn [ctx_scan]. unfold match_define at 1. cbn [mismatch length Nat.eqb negb Nat.sub firstn Nat.add Nat.ltb Nat.leb].
        destruct (app_split (z :: c) (concat src) (y :: l2) rest E2) as [(l3 & F1 & F2)|(r1 & Nr & F1 & F2)].
        -- destruct l3 as [|u l3].
           ++ rewrite app_nil_r in F1. cbn [app] in F2. rewrite <- F1, <- F2. pose proof (Whole src [] H2) as G. rewrite app_nil_r in G. exact G.
           ++ exfalso. destruct src as [|c2 src]; [discriminate F2|]. apply (Hcut (length (z :: c))).
              ** rewrite F1, app_length. cbn [length]. lia.
              ** exists [z :: c], (c2 :: src). repeat split; [discriminate|]. cbn [concat app]. rewrite app_nil_r. reflexivity.
        -- rewrite F1, F2. apply Whole. exact H2.
      * exfalso. apply (Hcut (length (x :: buf))).
        -- rewrite E1, app_length. cbn [length]. lia.
        -- exists [], (c :: src). repeat split; [discriminate|]. cbn [concat]. rewrite app_nil_r. reflexivity.
  - subst buf. rewrite E2. apply Whole. exact Hs.
Qed.
Lemma match_nothing lit : lit <> [] -> ctx_scan (match_define lit) match_eof 0%nat [] [] = Scanned false 0%nat [] [].
Proof. destruct lit; [contradiction|]. reflexivity. Qed.

(** ** Fixed-size integers *)
Lemma take_ok rest : forall src n buf t, Forall (fun c => c <> []) src -> n = length t -> buf ++ concat src = t ++ rest ->
  exists b s, take_chars n buf src = Some (t, b, s) /\ stream_text b s rest.
Proof.
  induction src as [|c src IH]; intros n buf t Hs -> HT; cbn [take_chars].
  - cbn [concat] in HT. rewrite app_nil_r in HT. subst buf. rewrite (proj2 (Nat.leb_le _ _)) by (rewrite app_length; lia).
    rewrite firstn_app, firstn_all, Nat.sub_diag, skipn_app, skipn_all, Nat.sub_diag. cbn [firstn skipn app]. rewrite app_nil_r.
    eexists _, _. split; [reflexivity|]. split; [symmetry; apply app_nil_r|constructor].
  - destruct (Nat.leb_spec (length t) (length buf)) as [L|L].
    + destruct (app_split _ _ _ _ HT) as [(t2 & E1 & E2)|(r1 & Nr & E1 & E2)].
      * assert (t2 = []) by (rewrite E1, app_length in L; destruct t2; [reflexivity|cbn in L; lia]). subst t2. rewrite app_nil_r in E1. subst t.
        rewrite firstn_all, skipn_all. eexists _, _. split; [reflexivity|]. split; [cbn [app] in *; congruence|exact Hs].
      * subst buf. rewrite firstn_app, firstn_all, Nat.sub_diag, skipn_app, skipn_all, Nat.sub_diag. cbn [firstn skipn app]. rewrite app_nil_r.
        eexists _, _. split; [reflexivity|]. split; [exact E2|exact Hs].
    + destruct (app_split _ _ _ _ HT) as [(t2 & E1 & E2)|(r1 & Nr & E1 & E2)]; [|subst buf; rewrite app_length in L; lia].
      pose proof (Forall_inv Hs) as H1; pose proof (Forall_inv_tail Hs) as H2. destruct c as [|x c]; [contradiction|]. cbn [concat] in E2.
      destruct (IH (length t - length buf)%nat (x :: c) t2 H2) as (b & s & E & HS); [rewrite E1, app_length; lia|exact E2|].
      rewrite E. exists b, s. split; [rewrite E1; reflexivity|exact HS].
Qed.
Lemma take_short : forall src n buf, Forall (fun c => c <> []) src -> (length (buf ++ concat src) < n)%nat -> take_chars n buf src = None.
Proof.
  induction src as [|c src IH]; intros n buf Hs L; cbn [take_chars].
  - cbn [concat] in L. rewrite app_nil_r in L. rewrite (proj2 (Nat.leb_gt _ _)) by lia. reflexivity.
  - cbn [concat] in L. rewrite !app_length in L. rewrite (proj2 (Nat.leb_gt _ _)) by lia.
    pose proof (Forall_inv Hs) as H1; pose proof (Forall_inv_tail Hs) as H2. destruct c as [|x c]; [contradiction|].
    rewrite IH; auto. rewrite app_length. lia.
Qed.

(** ** LEB128 *)
Lemma leb_loop_used ty cw : forall s cnt tmp used, let r := leb_loop ty cw s cnt tmp used in
  used <= l_used r <= used + zlen s /\ (l_code r = pc_partial -> l_used r = used + zlen s).
Proof.
  induction s as [|c s IH]; intros cnt tmp used; cbn [leb_loop]; cbv zeta.
  - cbn. unfold zlen; cbn; lia.
  - rewrite zlen_cons. pose proof (zlen_nonneg s).
    repeat match goal with |- context [if ?b then _ else _] => destruct b; cbn [l_used l_code] end;
      try (split; [lia|intros; try discriminate; lia]);
    match goal with |- context [leb_loop ty cw s ?a ?b ?c] => pose proof (IH a b c) as G; cbv zeta in G; split; [lia|]; intros E; destruct G as [_ G]; rewrite (G E); lia end.
Qed.

Lemma leb_run_cons ty cw gc t u s rest : leb_ctx_run ty cw gc t u (s :: rest) =
  match leb_ctx_feed ty cw gc t s with
  | (pc_partial, n, gc, t') => leb_ctx_run ty cw gc t' (u + n) rest
  | (pc_ok, n, _, t') => (pc_ok, u + n, Some (leb_value ty t'))
  | (c, n, _, _) => (c, u + n, None)
  end.
Proof. reflexivity. Qed.
Lemma leb_run_grows ty cw : forall l gc t u code u' o, leb_ctx_run ty cw gc t u l = (code, u', o) -> u <= u'.
Proof.
  induction l as [|s l IH]; intros gc t u code u' o H; [cbn in H; injection H as _ <- _; lia|].
  rewrite leb_run_cons in H. unfold leb_ctx_feed in H. pose proof (leb_loop_used ty cw s gc 0 0) as [U1 _].
  destruct (l_code (leb_loop ty cw s gc 0 0)); try (injection H as _ <- _; lia). apply IH in H. lia.
Qed.
Lemma leb_ctx ty cw v : forall src buf gc t u n, Forall (fun c => c <> []) src -> 0 <= n ->
  leb_ctx_run ty cw gc t u (buf :: src) = (pc_ok, u + n, Some v) ->
  gives (ctx_scan (leb_define ty cw) leb_eof (gc, t) buf src) (fun st => leb_value ty (snd st) = v) (skipn (Z.to_nat n) (buf ++ concat src)).
Proof.
  induction src as [|c src IH]; intros buf gc t u n Hs Hn H; cbn [ctx_scan]; unfold leb_define at 1; cbn [fst snd]; rewrite leb_run_cons in H;
    unfold leb_ctx_feed in *; pose proof (leb_loop_used ty cw buf gc 0 0) as [U1 U2]; destruct (l_code (leb_loop ty cw buf gc 0 0)); try discriminate.
  - injection H as H1 H2. assert (Hn' : n = l_used (leb_loop ty cw buf gc 0 0)) by lia. rewrite <- Hn' in *.
    rewrite (proj2 (Nat.ltb_ge _ _)) by (unfold zlen in U1; lia). eexists _, _, _. split; [reflexivity|]. split; [exact H2|]. split; [|constructor].
    rewrite skipn_app. replace (Z.to_nat n - length buf)%nat with O by (unfold zlen in U1; lia). reflexivity.
  - injection H as H1 H2. assert (Hn' : n = l_used (leb_loop ty cw buf gc 0 0)) by lia. rewrite <- Hn' in *.
    rewrite (proj2 (Nat.ltb_ge _ _)) by (unfold zlen in U1; lia). eexists _, _, _. split; [reflexivity|]. split; [exact H2|]. split; [|exact Hs].
    rewrite skipn_app. replace (Z.to_nat n - length buf)%nat with O by (unfold zlen in U1; lia). reflexivity.
  - specialize (U2 eq_refl). rewrite (proj2 (Nat.ltb_ge _ _)) by (unfold zlen in U2; lia).
    pose proof (Forall_inv Hs) as H1; pose proof (Forall_inv_tail Hs) as H2. destruct c as [|x c]; [contradiction|].
    pose proof (leb_run_grows _ _ _ _ _ _ _ _ _ H) as G. rewrite U2 in *.
    assert (Hge : 0 <= n - zlen buf) by lia.
    rewrite skipn_app, skipn_all2 by (unfold zlen in Hge; lia). cbn [app].
    replace (Z.to_nat n - length buf)%nat with (Z.to_nat (n - zlen buf)) by (unfold zlen; lia).
    eapply (IH (x :: c) _ _ (u + (0 + zlen buf)) (n - zlen buf) H2 Hge). rewrite H. do 2 f_equal. lia.
Qed.

Lemma wf_prefix_unfinished : forall a b, leb_wf (a ++ b) -> b <> [] -> unfinished a.
Proof.
  unfold unfinished. induction a as [|x a IH]; intros b H Hb; [constructor|]. cbn [app leb_wf] in H.
  destruct (a ++ b) as [|y l] eqn:E; [apply app_eq_nil in E as [_ ->]; contradiction|]. destruct H as [H1 H2].
  constructor; [lia|]. apply (IH b); [rewrite E; exact H2|exact Hb].
Qed.
Lemma leb_piece ty cw old bs rest : leb_type ty -> leb_units cw (bs ++ rest) -> leb_wf bs -> zlen bs <= leb_reserve (iw ty) ->
  in_range ty (leb_denotes (isigned ty) bs) ->
  forall src buf, Forall (fun c => c <> []) src -> buf ++ concat src = bs ++ rest ->
  gives (both_scan (leb_contig ty cw) (leb_define ty cw) leb_eof (0, old) buf src) (fun st => leb_value ty (snd st) = leb_denotes (isigned ty) bs) rest.
Proof.
  intros Hty Hu Hwf Hl HV src buf Hs HT. set (V := leb_denotes (isigned ty) bs) in *.
  assert (Hctx : gives (ctx_scan (leb_define ty cw) leb_eof (0, old) buf src) (fun st => leb_value ty (snd st) = V) rest).
  { destruct (C12_decode_exact ty cw bs rest Hty Hu Hwf) as [A _]. specialize (A HV Hl).
    assert (HC : concat (buf :: src) = bs ++ rest) by exact HT.
    pose proof (C13_chunk_independent ty cw old (buf :: src) Hty) as B. rewrite HC in B. specialize (B Hu). rewrite A in B.
    assert (Hnu : ~ unfinished (bs ++ rest)).
    { intros N. clear - N Hwf. unfold unfinished in N. apply Forall_app in N as [N _]. induction bs as [|b bs IH]; [exact Hwf|].
      cbn [leb_wf] in Hwf. destruct bs; [apply Forall_inv in N; lia|]. apply IH; [apply Hwf|exact (Forall_inv_tail N)]. }
    specialize (B (or_introl Hnu)). unfold leb_scan_chunks in B. pose proof (zlen_nonneg bs) as Zb.
    pose proof (leb_ctx ty cw V src buf 0 old 0 (zlen bs) Hs Zb) as G. rewrite Z.add_0_l in G. specialize (G B).
    rewrite HT in G. unfold zlen in G. rewrite Nat2Z.id, skipn_app, skipn_all, Nat.sub_diag in G. exact G. }
  unfold both_scan, leb_contig. destruct (app_split _ _ _ _ HT) as [(b2 & E1 & E2)|(r1 & Nr & E1 & E2)].
  - destruct b2 as [|y b2].
    + rewrite app_nil_r in E1. assert (Hu' : leb_units cw (bs ++ [])).
      { destruct Hu as [Hu1 Hu2]. split; [exact Hu1|]. rewrite app_nil_r. apply Forall_app in Hu2. apply Hu2. }
      destruct (C12_decode_exact ty cw bs [] Hty Hu' Hwf) as [A _]. specialize (A HV Hl). rewrite app_nil_r, E1 in A. rewrite A.
      unfold zlen. rewrite Nat2Z.id, Nat.eqb_refl. exact Hctx.
    + assert (Hf : unfinished buf) by (apply (wf_prefix_unfinished buf (y :: b2)); [rewrite <- E1; exact Hwf|discriminate]).
      assert (Hlb : zlen (concat [buf]) < leb_reserve (iw ty)).
      { cbn [concat]. rewrite app_nil_r. rewrite E1, zlen_app, zlen_cons in Hl. pose proof (zlen_nonneg b2). lia. }
      destruct (C13_unfinished ty cw old [buf] Hty) as [_ A]; [cbn [concat]; rewrite app_nil_r; exact Hf|exact Hlb|].
      cbn [concat] in A. rewrite app_nil_r in A. rewrite A. unfold zlen. rewrite Nat2Z.id, Nat.eqb_refl. exact Hctx.
  - assert (Hu' : leb_units cw (bs ++ r1)).
    { destruct Hu as [Hu1 Hu2]. split; [exact Hu1|]. rewrite E2, app_assoc in Hu2. apply Forall_app in Hu2. apply Hu2. }
    destruct (C12_decode_exact ty cw bs r1 Hty Hu' Hwf) as [A _]. specialize (A HV Hl). rewrite E1, A.
    unfold zlen. rewrite Nat2Z.id. assert (Lr : (length r1 <> 0)%nat) by (destruct r1; [contradiction|cbn; lia]).
    rewrite (proj2 (Nat.eqb_neq _ _)) by (rewrite app_length; lia). rewrite (proj2 (Nat.ltb_ge _ _)) by (rewrite app_length; lia).
    rewrite skipn_app, skipn_all, Nat.sub_diag. cbn [app skipn]. eexists _, _, _. split; [reflexivity|]. split; [|split; [exact E2|exact Hs]].
    cbn [snd]. fold V. exact (leb_value_mod ty Hty V HV).
Qed.
Lemma leb_nothing ty cw old : exists st, both_scan (leb_contig ty cw) (leb_define ty cw) leb_eof (0, old) [] [] = Scanned false st [] [].
Proof. unfold both_scan, leb_contig, leb_scan. cbn. eexists. reflexivity. Qed.
