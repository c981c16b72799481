(** Proofs about to (ToModel): scanners that have only the context interface. *)
From Verif Require Import Base NumSpec ScanSpec BufModel PrintModel BufSpec IntPrintModel IntScanModel CharSpec FindModel FindSpec PropsFind FindProofs LineModel LineSpec LineProofs StrProofs PropsLine
  Leb128Model IpModel IpCtxModel ScanDrvModel ScanDrvSpec ScanDrvProofs ScanDrvPieces ScanDrvMain ToModel ToProofs.

Definition nonempty (t : list Z) : bool := match t with [] => false | _ => true end.
Lemma filter_concat ts : concat (filter nonempty ts) = concat ts.
Proof. induction ts as [|[|x t] ts IH]; cbn; [reflexivity|exact IH|rewrite IH; reflexivity]. Qed.
Lemma filter_nonempty ts : Forall (fun c => c <> []) (filter nonempty ts).
Proof. induction ts as [|[|x t] ts IH]; cbn; [constructor|exact IH|constructor; [discriminate|exact IH]]. Qed.
Lemma filter_parts (P : list Z -> Prop) ts : Forall P ts -> Forall P (filter nonempty ts).
Proof. induction 1 as [|[|x t] ts H1 H IH]; cbn; auto. Qed.

Section Drop.
Context {S : Type}.
Variable define : S -> list Z -> option (S * nat * parse_code).
Variable eof : S -> option (S * parse_code).
Hypothesis Hnil : forall st, exists code, define st [] = Some (st, O, code).
(** Arguments that print nothing do nothing (unless all of them print nothing). *)
Definition at_end (st : S) : to_res S := match eof st with None => TUndef | Some (st2, code2) => checked code2 st2 end.
Lemma to_drop_all : forall ts st, filter nonempty ts = [] -> ts <> [] -> to_texts define eof st ts = at_end st.
Proof.
  induction ts as [|[|x t] ts IH]; intros st E N; [contradiction| |discriminate]. cbn [filter nonempty] in E. rewrite to_texts_cons. destruct (Hnil st) as (code & ->). cbn [length Nat.eqb negb].
  destruct ts as [|t2 ts]; [reflexivity|]. apply IH; [exact E|discriminate].
Qed.
Lemma to_drop_empty : forall ts st, filter nonempty ts <> [] -> to_texts define eof st ts = to_texts define eof st (filter nonempty ts).
Proof.
  induction ts as [|t ts IH]; intros st N; [reflexivity|]. destruct t as [|x t].
  - cbn [filter nonempty] in N |- *. rewrite to_texts_cons. destruct (Hnil st) as (code & ->). cbn [length Nat.eqb negb]. destruct ts as [|t2 ts]; [contradiction|]. apply IH. exact N.
  - cbn [filter nonempty]. rewrite !to_texts_cons. destruct (define st (x :: t)) as [[[st' k] code]|]; [|reflexivity]. destruct (negb _); [reflexivity|].
    destruct ts as [|t2 ts]; [reflexivity|]. destruct (filter nonempty (t2 :: ts)) as [|t3 ts3] eqn:E.
    + rewrite to_drop_all by (assumption || discriminate). reflexivity.
    + rewrite IH by discriminate. reflexivity.
Qed.
End Drop.

(** The scan of the stream of the texts, when it ends inside a buffer. *)
Lemma to_of_scan {S} (define : S -> list Z -> option (S * nat * parse_code)) eof :
  (forall st t st' k, define st t = Some (st', k, pc_partial) -> (length t <= k)%nat) ->
  forall more st t st' buf' src', Forall (fun c => c <> []) more -> ctx_scan define eof st t more = Scanned true st' buf' src' -> buf' <> [] ->
  to_texts define eof st (t :: more) = TGot st'.
Proof.
  intros HP. induction more as [|t2 more IH]; intros st t st' buf' src' Hne H Hb; rewrite to_texts_cons; cbn [ctx_scan] in H;
    destruct (define st t) as [[[s1 k] code]|] eqn:E; try discriminate; destruct (Nat.ltb_spec (length t) k) as [L|L]; try discriminate; destruct code; try discriminate.
  - injection H as <- <- <-. assert (k < length t)%nat by (destruct (Nat.eq_dec k (length t)) as [-> | N]; [rewrite skipn_all in Hb; contradiction|lia]).
    rewrite (proj2 (Nat.eqb_neq _ _)) by lia. reflexivity.
  - unfold at_eof in H. destruct (eof s1) as [[s2 []]|]; try discriminate. injection H as <- <- <-. contradiction.
  - injection H as <- <- <-. assert (k < length t)%nat by (destruct (Nat.eq_dec k (length t)) as [-> | N]; [rewrite skipn_all in Hb; contradiction|lia]).
    rewrite (proj2 (Nat.eqb_neq _ _)) by lia. reflexivity.
  - specialize (HP _ _ _ _ E). assert (k = length t) as -> by lia. rewrite Nat.eqb_refl. cbn [negb].
    pose proof (Forall_inv Hne). destruct t2 as [|x t2]; [contradiction|]. eapply IH; eauto. exact (Forall_inv_tail Hne).
Qed.
(** If something is left and no piece ends exactly where the scan stops, the scan stops inside a buffer. *)
Lemma stops_inside {S} (define : S -> list Z -> option (S * nat * parse_code)) eof st t more st' buf' src' txt tail :
  ctx_scan define eof st t more = Scanned true st' buf' src' -> t ++ concat more = txt ++ tail -> stream_text buf' src' tail -> tail <> [] ->
  ~ cut_after t more (length txt) -> buf' <> [].
Proof.
  intros H HT [HS Hne] Ht Hc ->. destruct (ctx_suffix define eof _ _ _ _ _ _ _ H) as (s0 & ->). apply Hc. exists s0, src'. split; [reflexivity|]. cbn [app] in HS. split.
  - intros ->. apply Ht. exact HS.
  - apply (f_equal (@length Z)) in HT. rewrite concat_app, !app_length, HS in HT. rewrite app_length. lia.
Qed.

(** ** Words *)
Lemma word_nil c st : space_search_ok c -> exists code, str_define c false false st [] = Some (st, O, code).
Proof.
  intros Hc. assert (T0 : text (f_w c) []) by constructor. assert (P0 : plain_text c []) by (right; constructor).
  unfold str_define, string_define. cbn [negb andb orb length]. rewrite find_none_skip by assumption.
  destruct st as [cp s]. cbn [ss_copying ss_str skip_while Nat.eqb]. destruct cp; cbn [negb]; [|eexists; reflexivity].
  cbn [skipn]. rewrite find_c_space_skip by assumption. cbn [skip_while firstn Nat.add Nat.eqb]. rewrite app_nil_r. eexists. reflexivity.
Qed.
Lemma word_honest c st t st' k code : space_search_ok c -> text (f_w c) t -> plain_text c t -> t <> [] -> str_define c false false st t = Some (st', k, code) ->
  (code = pc_partial -> k = length t) /\ (code <> pc_partial -> (k < length t)%nat).
Proof.
  intros Hc Tt Pt Ne. unfold str_define, string_define. cbn [negb andb orb]. rewrite find_none_skip by assumption. pose proof (skip_while_le (sp c) t) as L.
  assert (G : forall it s1, (it <= length t)%nat ->
    match (let rest := skipn it t in let n := find_c_space c rest in let str := ss_str s1 ++ firstn n rest in
           let st2 := mk_sstr (ss_copying s1) str in let it_space := (it + n)%nat in
           if Nat.eqb it_space (length t) then Defined st2 it_space pc_partial else Defined st2 it_space pc_ok) with
    | Smashed => None | Defined st' k code => Some (st', k, code) end = Some (st', k, code) ->
    (code = pc_partial -> k = length t) /\ (code <> pc_partial -> (k < length t)%nat)).
  { intros it s1 Hit. cbv zeta. rewrite find_c_space_skip by (auto; apply skipn_text; assumption). pose proof (skip_while_le (ns c) (skipn it t)) as L2. rewrite skipn_length in L2.
    destruct (Nat.eqb_spec (it + skip_while (ns c) (skipn it t)) (length t)) as [E|E]; intros H; injection H as <- <- <-; split; intros C; try discriminate; try contradiction; lia. }
  destruct (ss_copying st); cbn [negb]; [apply G; lia|].
  destruct (Nat.eqb_spec (skip_while (sp c) t) (length t)) as [E|E]; [|apply G; exact L].
  intros H. injection H as <- <- <-. split; [reflexivity|intros C; contradiction].
Qed.
Lemma parts_text (w : Z) ts : text w (concat ts) -> Forall (text w) ts.
Proof. induction ts as [|t ts IH]; intros H; constructor; cbn in H; unfold text in *; apply Forall_app in H as [A B]; auto. Qed.
Lemma parts_plain c ts : plain_text c (concat ts) -> Forall (plain_text c) ts.
Proof.
  unfold plain_text. intros [H|H].
  - apply Forall_forall. auto.
  - induction ts as [|t ts IH]; constructor; cbn in H; apply Forall_app in H as [A B]; auto.
Qed.
Lemma word_pieces c old ts : space_search_ok c -> text (f_w c) (concat ts) -> plain_text c (concat ts) -> ts <> [] ->
  (forall word rest, first_word (concat ts) word rest -> map_to ss_str (to_texts (str_define c false false) (str_eof false false) (mk_sstr false old) ts) = TGot word) /\
  (Forall C_space (concat ts) -> map_to ss_str (to_texts (str_define c false false) (str_eof false false) (mk_sstr false old) ts) = TThrew pc_end_of_file).
Proof.
  intros Hc Tt Pt Ne. destruct (filter nonempty ts) as [|t more] eqn:E.
  - assert (E0 : concat ts = []) by (rewrite <- filter_concat, E; reflexivity). rewrite E0. split.
    + intros word rest (sps & A & _ & _ & B & _). symmetry in A. apply app_eq_nil in A as [_ A]. apply app_eq_nil in A as [A _]. contradiction.
    + intros _. rewrite to_drop_all; [reflexivity|intros; apply word_nil; exact Hc|exact E|exact Ne].
  - assert (Ec : t ++ concat more = concat ts) by (change (concat (t :: more) = concat ts); rewrite <- E; apply filter_concat).
    pose proof (filter_nonempty ts) as Fn. rewrite E in Fn.
    pose proof (filter_parts _ ts (parts_text _ _ Tt)) as Ft. pose proof (filter_parts _ ts (parts_plain _ _ Pt)) as Fp. rewrite E in Ft, Fp.
    rewrite to_drop_empty; [|intros; apply word_nil; exact Hc|rewrite E; discriminate]. rewrite E.
    rewrite (to_is_scan _ _ (fun _ => True) (fun x => text (f_w c) x /\ plain_text c x)); auto.
    + rewrite word_is_buffered by (auto; rewrite Ec; assumption).
      destruct (C55_word_partial c old t more (concat ts) Hc (conj (eq_sym Ec) (Forall_inv_tail Fn)) Tt Pt) as (W & N & _). split.
      * intros word rest FW. destruct (W word rest FW) as (st & b & s & -> & <- & _). reflexivity.
      * intros Sp. destruct (N Sp) as (st & -> & _). reflexivity.
    + intros st x st' k code _ [Tx Px] Nx D. destruct (word_honest c st x st' k code Hc Tx Px Nx D) as [A B]. split; [intros C; split; [exact I|exact (A C)]|exact B].
    + apply Forall_forall. rewrite Forall_forall in Ft, Fp. intros x Hx. split; auto.
Qed.

(** ** A line without a line feed *)
Lemma line_honest c st t : lf_ok c -> text (f_w c) t -> ~ In 10 t ->
  str_define c false true st t = Some (mk_sstr true (if ss_copying st then ss_str st ++ t else t), length t, pc_partial).
Proof.
  intros Hc Tt Nl. unfold str_define, string_define. cbn [negb andb orb skipn]. rewrite find_lf_skip by assumption.
  assert (E : skip_while not_lf t = length t).
  { clear - Nl. induction t as [|x t IH]; [reflexivity|]. cbn [skip_while length]. unfold not_lf at 1. destruct (Z.eqb_spec x 10) as [-> | N]; [exfalso; apply Nl; left; reflexivity|]. cbn [negb]. rewrite IH; [reflexivity|]. intros H. apply Nl. right. exact H. }
  rewrite E, Nat.add_0_l, Nat.eqb_refl, firstn_all. destruct (ss_copying st); reflexivity.
Qed.
Lemma line_pieces c : forall ts st, lf_ok c -> text (f_w c) (concat ts) -> ~ In 10 (concat ts) -> ts <> [] -> (if ss_copying st then ss_str st else []) ++ concat ts <> [] ->
  map_to ss_str (to_texts (str_define c false true) (str_eof false true) st ts) = TGot ((if ss_copying st then ss_str st else []) ++ concat ts).
Proof.
  induction ts as [|t ts IH]; intros st Hc Tt Nl Ne N0; [contradiction|]. rewrite to_texts_cons. cbn [concat] in Tt, Nl, N0.
  assert (T1 : text (f_w c) t /\ text (f_w c) (concat ts)) by (unfold text in *; apply Forall_app in Tt; exact Tt). destruct T1 as [T1 T2].
  rewrite line_honest; auto; [|intros H; apply Nl; apply in_or_app; auto]. rewrite Nat.eqb_refl. cbn [negb].
  destruct ts as [|t2 ts].
  - unfold str_eof, string_eof. cbn [orb ss_copying ss_str negb]. cbn [concat] in N0 |- *. rewrite app_nil_r in N0 |- *.
    destruct (ss_copying st); [destruct (ss_str st ++ t); [contradiction|reflexivity]|cbn [app] in *; destruct t; [contradiction|reflexivity]].
  - rewrite IH; auto; [cbn [ss_copying ss_str concat]; destruct (ss_copying st); [rewrite <- app_assoc|]; reflexivity|intros H; apply Nl; apply in_or_app; auto|discriminate|].
    cbn [ss_copying ss_str]. destruct (ss_copying st); [rewrite <- app_assoc|]; exact N0.
Qed.
