(** C87, C88, C89: to<T>(args...), inplace_to(t, args...). *)
From Coq Require Import String.
From Coq Require Import List.
From Verif Require Import Base NumSpec NumFacts ScanSpec BufModel PrintModel BufSpec IntPrintModel IntPrintProofs PropsIntPrint IntScanModel IntScanProofs IntSseProofs IntCtxProofs IntRoundProofs IntSoundProofs PropsIntScan
  CharSpec FindModel FindSpec PropsFind LineModel LineSpec LineProofs StrProofs PropsLine Leb128Model IpModel IpCtxModel ScanDrvModel ScanDrvSpec ScanDrvProofs ScanDrvPieces ScanDrvInt ScanDrvMain
  ToModel ToSpec ToProofs ToIntProofs ToCtxProofs.
Import ListNotations.
Open Scope string_scope.
Open Scope list_scope.
Open Scope Z_scope.
Definition chars (s : string) : list Z := NumSpec.text s.
Definition str (s : string) : parg := PScatter (chars s).
Definition dec (ty : int_type) (cw : Z) (sse : bool) : scfg := mk_scfg 10 false false false ty cw sse.
Definition int_types (ty : int_type) (cw : Z) : Prop := In (iw ty) [8; 16; 32; 64; 128] /\ In cw [8; 16; 32].

Lemma dec_good ty cw sse : int_types ty cw -> good_cfg (dec ty cw sse).
Proof. intros [A B]. repeat split; auto; cbn; lia. Qed.
Lemma units_safe cw t : units cw t -> Forall (safe_char 10 cw) t.
Proof. apply Forall_impl. intros c H. split; [exact H|lia]. Qed.
Lemma filter_app_inv {A} (f : A -> bool) : forall l x y, filter f l = x ++ y -> exists l1 l2, l = l1 ++ l2 /\ filter f l1 = x /\ filter f l2 = y.
Proof.
  induction l as [|a l IH]; intros x y E.
  - symmetry in E. apply app_eq_nil in E as [-> ->]. exists [], []. auto.
  - cbn in E. destruct (f a) eqn:F.
    + destruct x as [|b x]; [exists [], (a :: l); cbn; rewrite F; auto|]. injection E as <- E. destruct (IH x y E) as (l1 & l2 & -> & <- & <-). exists (a :: l1), l2. cbn. rewrite F. auto.
    + destruct (IH x y E) as (l1 & l2 & -> & <- & <-). exists (a :: l1), l2. cbn. rewrite F. auto.
Qed.
Lemma map_app_inv {A B} (f : A -> B) : forall l x y, map f l = x ++ y -> exists l1 l2, l = l1 ++ l2 /\ map f l1 = x /\ map f l2 = y.
Proof.
  induction l as [|a l IH]; intros x y E.
  - symmetry in E. apply app_eq_nil in E as [-> ->]. exists [], []. auto.
  - destruct x as [|b x]; [exists [], (a :: l); auto|]. injection E as <- E. destruct (IH x y E) as (l1 & l2 & -> & <- & <-). exists (a :: l1), l2. auto.
Qed.
Lemma cut_is_arg args t more n : filter nonempty (map text_of args) = t :: more -> cut_at t more n -> arg_ends_at args n.
Proof.
  intros E (s1 & s2 & -> & N & ->). destruct (filter_app_inv nonempty (map text_of args) (t :: s1) s2 E) as (l1 & l2 & E1 & E2 & E3).
  destruct (map_app_inv _ _ _ _ E1) as (a1 & a2 & -> & <- & <-). exists a1, a2. split; [reflexivity|]. unfold all_text. rewrite <- (filter_concat (map text_of a2)), E3, <- (filter_concat (map text_of a1)), E2. split; [|reflexivity].
  pose proof (filter_nonempty (map text_of a2)) as F. rewrite E3 in F. destruct s2 as [|x s2]; [contradiction|]. apply Forall_inv in F. destruct x; [contradiction|discriminate].
Qed.
(** Both ways to scan an integer. *)
Lemma to_int_one ty cw sse p : arg_ok p -> plain_arg p = true ->
  to_int ty cw sse [p] = match scan_int (dec ty cw sse) (text_of p) with
    | None => TUndef | Some r => checked (p_code r) (match p_val r with Some v => [v] | None => [] end) end.
Proof.
  intros Ho Hp. unfold to_int, to_arg. rewrite to_decay_single by assumption. unfold to_single, int_contig. fold (dec ty cw sse).
  destruct (scan_int (dec ty cw sse) (text_of p)) as [r|]; [|reflexivity]. destruct (p_code r); reflexivity.
Qed.
Lemma to_int_many ty cw sse p q args : room_ok (p :: q :: args) ->
  to_int ty cw sse (p :: q :: args) = map_to snd (to_texts (int_define (dec ty cw sse)) (int_eof (dec ty cw sse)) (st_init, []) (map text_of (p :: q :: args))).
Proof. intros H. unfold to_int, to_arg. rewrite to_decay_texts by (exact H || reflexivity). reflexivity. Qed.
Lemma texts_safe cw args : units cw (all_text args) -> Forall (Forall (safe_char 10 cw)) (map text_of args).
Proof. unfold all_text. induction args as [|p args IH]; cbn [map concat]; intros H; constructor; apply Forall_app in H as [A B]; [apply units_safe; exact A|apply IH; exact B]. Qed.

(** ** C87: integers
    The arguments print a decimal numeral, in however many pieces and whatever comes after it: its value if the type can
    hold it.  With several arguments, the single digit 0 must not be the end of an argument that others follow. *)
Theorem C87_value_partial : forall ty cw sse args v t tail,
  int_types ty cw -> room_ok args -> units cw (all_text args) -> all_text args = t ++ tail ->
  number (isigned ty) v t tail -> in_range ty v -> (v = 0 -> ~ arg_ends_at args (length t)) ->
  to_int ty cw sse args = TGot [v].
Proof.
  intros ty cw sse args v t tail Hty Hroom Hu HT (ws & sg & cs & ds & Et & Hws & Hm & Hcs & Hne & Hl & Ev & Hn) HV Hz.
  pose proof (dec_good ty cw sse Hty) as Hcfg.
  assert (Hsg : isigned ty = false -> sg = false) by (intros E; destruct sg; [specialize (Hm eq_refl); congruence|reflexivity]).
  change (if sg then [45] else []) with (sign_chars sg) in Et. change (if sg then - value_of 10 ds else value_of 10 ds) with (signed_value sg (value_of 10 ds)) in Ev.
  assert (Hut : units cw tail) by (unfold units in *; rewrite HT in Hu; apply Forall_app in Hu; apply Hu).
  assert (Hsf : safe_first 10 cw tail) by (destruct tail as [|x tail]; [exact I|exact (Forall_inv (units_safe _ _ Hut))]).
  pose proof (proj2 (in_rangeb_spec ty v) HV) as HVb.
  destruct args as [|p [|q args]].
  - exfalso. cbn in HT. symmetry in HT. apply app_eq_nil in HT as [HT _]. rewrite HT in Et. symmetry in Et. apply app_eq_nil in Et as [_ Et]. apply app_eq_nil in Et as [_ ->]. inversion Hcs; subst. contradiction.
  - destruct Hroom as (Ho & Hp & _). rewrite to_int_one by (exact (Forall_inv Ho) || exact (Forall_inv Hp)).
    assert (ET : text_of p = ws ++ sign_chars sg ++ cs ++ tail) by (unfold all_text in HT; cbn [map concat] in HT; rewrite app_nil_r in HT; rewrite HT, Et, <- !app_assoc; reflexivity).
    destruct (scan_int_gen (dec ty cw sse) ws sg cs ds tail Hcfg eq_refl Hsg) as (r & R & (S1 & S2 & _)); auto; try discriminate.
    { intros Ec. cbn [dec sc_cw] in Ec. subst cw. exact Hut. }
    rewrite ET, R, S1, S2. cbn [dec sc_ty sc_base]. rewrite <- Ev. unfold outcome. rewrite HVb. reflexivity.
  - rewrite to_int_many by exact Hroom. set (args2 := p :: q :: args) in *.
    assert (EC : concat (filter nonempty (map text_of args2)) = ws ++ sign_chars sg ++ cs ++ tail).
    { rewrite filter_concat. fold (all_text args2). rewrite HT, Et, <- !app_assoc. reflexivity. }
    pose proof (texts_safe cw args2 Hu) as Hsafe. pose proof (filter_nonempty (map text_of args2)) as Fn. pose proof (filter_parts _ _ Hsafe) as Fs.
    destruct (filter nonempty (map text_of args2)) as [|t1 more] eqn:EF.
    { exfalso. symmetry in EC. cbn in EC. apply app_eq_nil in EC as [_ EC]. apply app_eq_nil in EC as [_ EC]. apply app_eq_nil in EC as [-> _]. inversion Hcs; subst. contradiction. }
    pose proof (to_texts_filter 10 cw ty sse Hcfg (map text_of args2) Hsafe) as TF. rewrite EF in TF. cbn beta zeta in TF. fold (dec ty cw sse) in TF. rewrite TF by discriminate.
    pose proof (to_texts_scan 10 cw ty sse Hcfg t1 more [] Fs Fn) as TS. fold (dec ty cw sse) in TS. rewrite TS.
    assert (G : gives (ctx_scan (int_define (dec ty cw sse)) (int_eof (dec ty cw sse)) (st_init, []) t1 more) (fun x => snd x = [v]) tail).
    { rewrite Ev. apply (ctx_piece 10 cw ty sse Hcfg ws sg cs ds tail); auto.
      - rewrite <- Ev. exact HVb.
      - exact (Forall_inv_tail Fn).
      - intros E0 C. apply Hz; [rewrite Ev, E0; destruct sg; reflexivity|]. rewrite Et. apply (cut_is_arg args2 t1 more); assumption. }
    destruct G as (st & b & src & -> & E & _). cbn [map_to]. rewrite E. reflexivity.
Qed.
Print Assumptions C87_value_partial.

(** A value that the type cannot hold is the exception "overflow": always with one argument; with several, if the numeral
    has at most one digit more than 2^bits - 1 (see C87_refuted). *)
Theorem C87_overflow_partial : forall ty cw sse args v t tail,
  int_types ty cw -> room_ok args -> units cw (all_text args) -> all_text args = t ++ tail ->
  number (isigned ty) v t tail -> ~ in_range ty v ->
  (exists p, args = [p]) \/ (exists n, 2 <= n /\ 10 ^ (n - 2) < 2 ^ iw ty /\ Z.abs v < 10 ^ n) ->
  to_int ty cw sse args = TThrew pc_overflow.
Proof.
  intros ty cw sse args v t tail Hty Hroom Hu HT (ws & sg & cs & ds & Et & Hws & Hm & Hcs & Hne & Hl & Ev & Hn) HV Hsz.
  pose proof (dec_good ty cw sse Hty) as Hcfg.
  assert (Hsg : isigned ty = false -> sg = false) by (intros E; destruct sg; [specialize (Hm eq_refl); congruence|reflexivity]).
  change (if sg then [45] else []) with (sign_chars sg) in Et. change (if sg then - value_of 10 ds else value_of 10 ds) with (signed_value sg (value_of 10 ds)) in Ev.
  assert (Hut : units cw tail) by (unfold units in *; rewrite HT in Hu; apply Forall_app in Hu; apply Hu).
  assert (Hsf : safe_first 10 cw tail) by (destruct tail as [|x tail]; [exact I|exact (Forall_inv (units_safe _ _ Hut))]).
  assert (HVb : in_rangeb ty v = false) by (destruct (in_rangeb ty v) eqn:E; [apply in_rangeb_spec in E; contradiction|reflexivity]).
  destruct args as [|p [|q args]].
  - exfalso. cbn in HT. symmetry in HT. apply app_eq_nil in HT as [HT _]. rewrite HT in Et. symmetry in Et. apply app_eq_nil in Et as [_ Et]. apply app_eq_nil in Et as [_ ->]. inversion Hcs; subst. contradiction.
  - destruct Hroom as (Ho & Hp & _). rewrite to_int_one by (exact (Forall_inv Ho) || exact (Forall_inv Hp)).
    assert (ET : text_of p = ws ++ sign_chars sg ++ cs ++ tail) by (unfold all_text in HT; cbn [map concat] in HT; rewrite app_nil_r in HT; rewrite HT, Et, <- !app_assoc; reflexivity).
    destruct (scan_int_gen (dec ty cw sse) ws sg cs ds tail Hcfg eq_refl Hsg) as (r & R & (S1 & S2 & _)); auto; try discriminate.
    { intros Ec. cbn [dec sc_cw] in Ec. subst cw. exact Hut. }
    rewrite ET, R, S1, S2. cbn [dec sc_ty sc_base]. rewrite <- Ev. unfold outcome. rewrite HVb. reflexivity.
  - destruct Hsz as [(p0 & Hsz)|(n & N1 & N2 & N3)]; [discriminate|]. rewrite to_int_many by exact Hroom. set (args2 := p :: q :: args) in *.
    pose proof (texts_safe cw args2 Hu) as Hsafe.
    pose proof (to_texts_run 10 cw ty sse Hcfg (map text_of args2) [] st_init [] 0 (seen_init 10 cw ty sse) Hsafe ltac:(discriminate)) as TR.
    fold (dec ty cw sse) in TR. rewrite TR.
    assert (EC : concat (filter nonempty (map text_of args2)) = ws ++ sign_chars sg ++ cs ++ tail).
    { rewrite filter_concat. fold (all_text args2). rewrite HT, Et, <- !app_assoc. reflexivity. }
    assert (V0 : value_of 10 ds <> 0).
    { intros E. apply HV. rewrite Ev, E. replace (signed_value sg 0) with 0 by (destruct sg; reflexivity). clear - Hty. destruct Hty as [Hw _]. unfold in_range, int_min, int_max.
      apply width_cases in Hw. assert (0 < 2 ^ (iw ty - 1)) by (apply Z.pow_pos_nonneg; lia). assert (0 < 2 ^ iw ty) by (apply Z.pow_pos_nonneg; lia). destruct (isigned ty); lia. }
    assert (Fit : zlen (sign_chars sg) + zlen (strip_zeros ds) < ctx_buf_size (dec ty cw sse)).
    { pose proof (digit_string_ok 10 cs ds ltac:(lia) Hcs) as Dk. destruct ds as [|d ds]; [contradiction|].
      assert (Hd : d <> 0) by (intros ->; destruct ds; [apply V0; reflexivity|cbn in Hl; contradiction]).
      assert (Es : strip_zeros (d :: ds) = d :: ds) by (cbn [strip_zeros]; rewrite (proj2 (Z.eqb_neq _ _) Hd); reflexivity). rewrite Es.
      pose proof (Forall_inv Dk) as Dd. cbn beta in Dd. pose proof (value_of_bound 10 ds ltac:(lia) (Forall_inv_tail Dk)) as Bd.
      assert (LB : 10 ^ zlen ds <= value_of 10 (d :: ds)).
      { rewrite value_of_cons. unfold zlen. assert (0 < 10 ^ Z.of_nat (length ds)) by (apply Z.pow_pos_nonneg; lia). clear - Bd Dd Hd H. nia. }
      assert (Ea : Z.abs v = value_of 10 (d :: ds)).
      { pose proof (value_of_bound 10 (d :: ds) ltac:(lia) Dk). rewrite Ev. destruct sg; cbn [signed_value]; lia. }
      assert (L1 : zlen ds < n) by (apply (Z.pow_lt_mono_r_iff 10); lia).
      destruct (cal_max_int_size_spec (mk_int (iw ty) false) 10 (proj1 Hty) ltac:(lia)) as (D1 & D3 & _).
      unfold ctx_buf_size. cbn [dec sc_ty sc_base]. set (D := cal_max_int_size (mk_int (iw ty) false) 10) in *.
      unfold int_max in D3. cbn [isigned iw] in D3.
      assert (L2 : n - 2 < D) by (apply (Z.pow_lt_mono_r_iff 10); lia). clearbody D.
      rewrite zlen_cons. destruct sg; cbn [sign_chars]; [|change (zlen (@nil Z)) with 0; destruct (isigned ty); lia].
      change (zlen [45]) with 1. destruct (isigned ty) eqn:E; [lia|]. specialize (Hsg eq_refl). discriminate. }
    rewrite (scan_chunks_spec (dec ty cw sse) Hcfg eq_refl sg Hsg ws cs ds tail Hws ltac:(discriminate) Hcs Hne ltac:(auto) Fit Hsf Hn _ 0 (filter_nonempty _) EC).
    cbn [answer dec sc_ty sc_base]. rewrite <- Ev. unfold outcome. rewrite HVb. reflexivity.
Qed.
Print Assumptions C87_overflow_partial.

(** Conversely: a value is the value of the numeral at the beginning of what the arguments print.  The exceptions are
    texts whose first digit is 0, for which 0 may come although another digit follows, and one argument that is a lone
    minus. *)
Theorem C87_sound_partial : forall ty cw sse args o,
  int_types ty cw -> room_ok args -> units cw (all_text args) -> args <> [] -> to_int ty cw sse args = TGot o ->
  (exists v t tail, o = [v] /\ all_text args = t ++ tail /\ number (isigned ty) v t tail /\ in_range ty v) \/
  (o = [0] /\ exists ws (minus : bool) rest, all_text args = ws ++ (if minus then [45] else []) ++ 48 :: rest /\ Forall c_space ws) \/
  (exists p ws, args = [p] /\ text_of p = ws ++ [45] /\ Forall c_space ws /\ isigned ty = true) \/ (exists p, args = [p] /\ text_of p = []).
Proof.
  intros ty cw sse args o Hty Hroom Hu Hne H. pose proof (dec_good ty cw sse Hty) as Hcfg. destruct args as [|p [|q args]]; [contradiction| |].
  - destruct Hroom as (Ho & Hp & _). rewrite to_int_one in H by (exact (Forall_inv Ho) || exact (Forall_inv Hp)).
    assert (Ea : all_text [p] = text_of p) by (unfold all_text; cbn; apply app_nil_r). rewrite Ea in *.
    destruct (scan_int (dec ty cw sse) (text_of p)) as [r|] eqn:E; [|discriminate]. destruct (p_code r) eqn:C; try discriminate. cbn [checked] in H. injection H as <-.
    destruct (C07_ok_only_for_integers (dec ty cw sse) (text_of p) r) as [(ws & sg & cs & ds & rest & A1 & A2 & A3 & A4 & A5 & A6 & (A7 & A8) & _)|[(ws & A)|A]]; auto.
    + discriminate.
    + apply units_safe. exact Hu.
    + left. cbn [dec sc_ty sc_base] in A3, A4, A6, A7, A8. rewrite A8. exists (if sg then - value_of 10 ds else value_of 10 ds), (ws ++ (if sg then [45] else []) ++ cs), rest.
      split; [reflexivity|]. split; [rewrite A1, <- !app_assoc; reflexivity|]. split; [|exact A7]. exists ws, sg, cs, ds. split; [reflexivity|]. split; [exact A2|]. split; [exact A3|]. split; [exact A4|].
      split; [destruct A4; [contradiction|discriminate]|]. split; [|auto].
      destruct ds as [|d [|d2 ds]]; [inversion A4; subst; contradiction|exact I|]. intros ->. inversion A4 as [|x ? cs1 ? B1 B2]; subst. inversion B2 as [|y ? cs2 ? B3 B4]; subst.
      apply (denotes_cases 10) in B1; [|lia]. destruct B1 as [(_ & _ & ->)|B1]; [|lia].
      pose proof (C07_leading_zero_invalid (dec ty cw sse) ws sg y (cs2 ++ rest) (dec_good ty cw sse Hty) eq_refl eq_refl A2 ltac:(discriminate) A3 ltac:(exists d2; exact B3)) as LZ.
      rewrite A1 in E. cbn [app] in E. change (48 + 0) with 48 in E. rewrite LZ in E. injection E as <-. discriminate.
    + right. right. left. exists p, ws. tauto.
    + right. right. right. exists p. auto.
  - rewrite to_int_many in H by exact Hroom. set (args2 := p :: q :: args) in *.
    pose proof (to_texts_sound 10 cw ty sse Hcfg (map text_of args2) [] st_init [] o (seen_init 10 cw ty sse) (texts_safe cw args2 Hu) ltac:(discriminate) H) as (v & -> & S).
    destruct S as (ws & sg & cs & ds & rest & X1 & X2 & X3 & X4 & X5 & X6 & X7 & X8 & X9). cbn [app] in X1. fold (all_text args2) in X1.
    destruct X9 as [X9|X9].
    + left. exists v, (ws ++ sign_chars sg ++ cs), rest. split; [reflexivity|]. split; [rewrite X1, <- !app_assoc; reflexivity|]. split; [|exact X8].
      exists ws, sg, cs, ds. split; [reflexivity|]. split; [exact X2|]. split; [intros ->; destruct (isigned ty) eqn:E; [reflexivity|symmetry; exact (X3 E)]|]. repeat split; auto.
    + right. left. subst cs. split; [|exists ws, sg, rest; auto]. inversion X4 as [|? d ? ds' A B2]; subst. inversion B2; subst. apply (denotes_cases 10) in A; [|lia]. assert (d = 0) by lia. subst d. destruct sg; reflexivity.
Qed.
Print Assumptions C87_sound_partial.

(** Conversion: an integer argument is converted exactly, or refused. *)
Definition int_arg (ty : int_type) (x : Z) : parg :=
  PReserve (Z.to_nat (reserved_size default_pflags ty)) (match print_int default_pflags ty x with Some t => t | None => [] end).
Theorem C87_convert : forall from ty cw sse x, int_types ty cw -> In (iw from) [8; 16; 32; 64; 128] -> in_range from x ->
  to_int ty cw sse [int_arg from x] =
    if (int_min ty <=? x) && (x <=? int_max ty) then TGot [x]
    else if (x <? 0) && negb (isigned ty) then TThrew pc_invalid else TThrew pc_overflow.
Proof.
  intros from ty cw sse x Hty Hf Hx.
  destruct (C04_sign_prefix_magnitude default_pflags from x Hf ltac:(cbn; lia) eq_refl ltac:(cbn; auto) Hx) as (num & Hn & Hp).
  cbn [default_pflags pf_showpos pf_showbase pf_base pf_upper app] in Hn, Hp.
  pose proof (C03_reserve_enough_decimal default_pflags from x _ Hf eq_refl eq_refl Hx Hp) as Hr.
  assert (Hok : arg_ok (int_arg from x)) by (unfold int_arg; rewrite Hp; cbn [arg_ok]; lia).
  assert (Ht : text_of (int_arg from x) = sign_text false x ++ num) by (unfold int_arg; rewrite Hp; reflexivity).
  destruct Hn as (ds & D1 & D2 & D3 & ->). assert (Dne : ds <> []) by (destruct ds; [contradiction|discriminate]).
  assert (Dcs : digit_string 10 (map (digit_char false) ds) ds) by (clear - D1; induction D1 as [|d ds A B IH]; constructor; [split; auto|exact IH]).
  assert (Hroom : room_ok [int_arg from x]) by (split; [constructor; [exact Hok|constructor]|split; [repeat constructor|left; reflexivity]]).
  assert (Ea : all_text [int_arg from x] = text_of (int_arg from x) ++ []) by (unfold all_text; cbn; reflexivity).
  assert (Hu : units cw (all_text [int_arg from x])).
  { rewrite Ea, app_nil_r, Ht. assert (256 <= 2 ^ cw) by (destruct Hty as [_ Hc]; cbn in Hc; destruct Hc as [<-|[<-|[<-|[]]]]; cbn; lia).
    unfold units. apply Forall_app. split; [unfold sign_text; destruct (x <? 0); [constructor; [cbn; lia|constructor]|constructor]|].
    clear - Dcs H. induction Dcs as [|c d cs ds A B IH]; constructor; [|exact IH]. apply (denotes_cases 10) in A; lia. }
  destruct ((x <? 0) && negb (isigned ty)) eqn:En.
  - apply andb_true_iff in En as [E1 E2]. apply Z.ltb_lt in E1. apply negb_true_iff in E2. unfold int_min. rewrite E2. rewrite (proj2 (Z.leb_gt 0 x)) by lia. cbn [andb].
    rewrite to_int_one by (exact Hok || reflexivity). rewrite Ht. unfold sign_text. rewrite (proj2 (Z.ltb_lt x 0)) by lia.
    pose proof (C07_malformed_invalid_partial (dec ty cw sse) [] false 45 (map (digit_char false) ds) (dec_good ty cw sse Hty) eq_refl (Forall_nil _) ltac:(auto) ltac:(discriminate)) as MI.
    cbn [app] in MI. change (NumSpec.text "-" ++ map (digit_char false) ds) with (45 :: map (digit_char false) ds). rewrite MI; [reflexivity| | |].
    + intros _. split; [intros _ [C|[C|[C|[C|[C|[C|[]]]]]]]; discriminate|]. cbn [dec sc_ty]. congruence.
    + cbn [dec sc_base sc_cw]. split; [|lia]. destruct Hty as [_ Hc]; cbn in Hc; destruct Hc as [<-|[<-|[<-|[]]]]; cbn; lia.
    + cbn [dec sc_base]. rewrite is_digit10. lia.
  - assert (Hnum : number (isigned ty) x (text_of (int_arg from x)) []).
    { exists [], (x <? 0), (map (digit_char false) ds), ds. rewrite Ht. split; [unfold sign_text; destruct (x <? 0); reflexivity|]. split; [constructor|].
      split; [intros E; rewrite E in En; cbn in En; apply negb_false_iff in En; exact En|]. split; [exact Dcs|]. split; [exact Dne|]. split; [exact D2|]. split; [|exact I].
      rewrite D3. destruct (Z.ltb_spec x 0); lia. }
    destruct ((int_min ty <=? x) && (x <=? int_max ty)) eqn:Er.
    + apply andb_true_iff in Er as [R1 R2]. apply Z.leb_le in R1, R2.
      apply (C87_value_partial ty cw sse [int_arg from x] x (text_of (int_arg from x)) []); auto; [split; assumption|].
      intros _ (a1 & a2 & E1 & E2 & E3). destruct a1 as [|p a1].
      * rewrite Ht in E3. cbn in E3. rewrite app_length, map_length in E3. destruct ds; [contradiction|cbn in E3; lia].
      * injection E1 as _ E1. symmetry in E1. apply app_eq_nil in E1 as [_ ->]. apply E2. reflexivity.
    + apply (C87_overflow_partial ty cw sse [int_arg from x] x (text_of (int_arg from x)) []); auto; [|left; eexists; reflexivity].
      intros [R1 R2]. rewrite (proj2 (Z.leb_le _ _) R1), (proj2 (Z.leb_le _ _) R2) in Er. discriminate.
Qed.
Print Assumptions C87_convert.

(** What the conditions leave out. *)
Definition int32 : int_type := mk_int 32 true.
Theorem C87_refuted :
  to_int int32 8 false [str "0"; str " "] = TUndef /\ to_int int32 8 false [str "0"; str "5"] = TUndef /\
  to_int int32 8 false [str "0"; str ",5"] = TThrew pc_invalid /\ to_int int32 8 false [str "0"; str "5x"] = TGot [0] /\
  to_int int32 8 false [str "-"] = TGot [0] /\ to_int int32 8 false [str "-"; str ""] = TThrew pc_invalid /\
  to_int int32 8 false [str "99999999999999,"] = TThrew pc_overflow /\ to_int int32 8 false [str "99999999999999"; str ","] = TThrew pc_invalid.
Proof. repeat match goal with |- _ /\ _ => split end; vm_compute; reflexivity. Qed.
Print Assumptions C87_refuted.

(** ** C88: strings and the other scanners
    to<std::string>: the first word of what the arguments print, whatever the pieces. *)
Theorem C88_word : forall c old args, space_search_ok c -> room_ok args -> args <> [] -> text (f_w c) (all_text args) -> plain_text c (all_text args) ->
  (forall word rest, first_word (all_text args) word rest -> to_arg (AWord c old) args = TGot word) /\
  (Forall C_space (all_text args) -> to_arg (AWord c old) args = TThrew pc_end_of_file) /\
  (Forall C_space (all_text args) \/ exists word rest, first_word (all_text args) word rest).
Proof.
  intros c old args Hc Hroom Hne Tt Pt. unfold to_arg. rewrite to_decay_texts by (exact Hroom || reflexivity). unfold all_text in *.
  destruct (word_pieces c old (map text_of args) Hc Tt Pt) as [W N]; [destruct args; [contradiction|discriminate]|].
  split; [exact W|]. split; [exact N|]. apply (C55_word_partial c old (concat (map text_of args)) [] (concat (map text_of args)) Hc); auto. split; [cbn; rewrite app_nil_r; reflexivity|constructor].
Qed.
Print Assumptions C88_word.
(** A line: all of it if there is no line feed in it. *)
Theorem C88_line_partial : forall c old args, lf_ok c -> room_ok args -> text (f_w c) (all_text args) -> all_text args <> [] -> ~ In 10 (all_text args) ->
  to_arg (ALine c old) args = TGot (all_text args).
Proof.
  intros c old args Hc Hroom Tt Hne Nl. unfold to_arg. rewrite to_decay_texts by (exact Hroom || reflexivity). unfold all_text in *.
  rewrite line_pieces; auto. intros E. destruct args; [contradiction|discriminate].
Qed.
Print Assumptions C88_line_partial.
(** A line, a character or a literal: the object, if something follows its text and no argument ends directly after it
    (nor, for a literal, inside it). *)
Theorem C88_followed_partial : forall a v t tail args,
  match a with ALine _ _ | AChar _ | AMatch _ => True | _ => False end ->
  piece_text a v t tail -> room_ok args -> Forall (fun p => text_of p <> []) args -> all_text args = t ++ tail -> tail <> [] ->
  (forall n, bad_place a v t n \/ n = length t -> ~ arg_ends_at args n) -> to_arg a args = TGot v.
Proof.
  intros a v t tail args Ha HP Hroom Hne HT Htail Hcut.
  assert (EF : filter nonempty (map text_of args) = map text_of args).
  { clear - Hne. induction Hne as [|p args A B IH]; [reflexivity|]. cbn. rewrite IH. destruct (text_of p); [contradiction|reflexivity]. }
  assert (Hn : Forall (fun c => c <> []) (map text_of args)) by (apply Forall_map; exact Hne).
  unfold all_text in HT. destruct (map text_of args) as [|t1 more] eqn:EM; [exfalso; symmetry in HT; apply app_eq_nil in HT as [_ HT]; contradiction|].
  assert (HS : stream_text t1 more (t ++ tail)) by (split; [symmetry; exact HT|exact (Forall_inv_tail Hn)]).
  assert (Hc2 : forall n, bad_place a v t n \/ n = length t -> ~ cut_after t1 more n).
  { intros n Hb C. apply (Hcut n Hb). apply (cut_is_arg args t1 more); [rewrite EM; exact EF|exact C]. }
  destruct (one_gives a v t tail t1 more HP HS) as (x & b & s & E & -> & S); [intros n Hb; apply Hc2; auto|].
  destruct a; try contradiction; cbn [scan_one to_arg] in *; rewrite to_decay_texts by (exact Hroom || reflexivity); rewrite EM.
  - apply map_suffix in E as E2. destruct E2 as (st & E2). rewrite E2 in E. cbn in E. injection E as <-.
    erewrite to_of_scan; [reflexivity|intros; eapply str_partial; eauto|exact (Forall_inv_tail Hn)|exact E2|].
    eapply (stops_inside _ _ _ t1 more st b s t tail); eauto.
  - erewrite to_of_scan; [reflexivity|intros; eapply char_partial; eauto|exact (Forall_inv_tail Hn)|exact E|].
    eapply (stops_inside _ _ _ t1 more _ b s t tail); eauto.
  - apply map_suffix in E as E2. destruct E2 as (st & E2). rewrite E2 in E. cbn in E. injection E as <-.
    erewrite to_of_scan; [reflexivity|intros; eapply match_partial; eauto|exact (Forall_inv_tail Hn)|exact E2|].
    eapply (stops_inside _ _ _ t1 more st b s t tail); eauto.
Qed.
Print Assumptions C88_followed_partial.
(** One argument, and a type with a contiguous scanner. *)
Theorem C88_one_partial : forall a v t tail p,
  match a with ALeb _ _ _ | AIp _ _ _ | AInt _ => True | _ => False end ->
  piece_text a v t tail -> arg_ok p -> plain_arg p = true -> text_of p = t ++ tail -> to_arg a [p] = TGot v.
Proof.
  intros a v t tail p Ha HP Ho Hp HT. pose proof (one_view_gives a v t tail HP) as E.
  destruct a; try contradiction; cbn [scan_one_view to_arg] in *; rewrite to_decay_single by assumption; rewrite HT; unfold to_single, view_scan in *.
  - destruct (int_contig cfg (t ++ tail)) as [[[st k] code]|]; [|discriminate]. destruct (_ <? _)%nat; [discriminate|]. destruct code; try discriminate. cbn in *. congruence.
  - destruct (leb_contig ty cw (t ++ tail)) as [[[[gc x] k] code]|]; [|discriminate]. destruct (_ <? _)%nat; [discriminate|]. destruct code; try discriminate. cbn in *. congruence.
  - destruct (ip_contig port cw sse (t ++ tail)) as [[[st k] code]|]; [|discriminate]. destruct (_ <? _)%nat; [discriminate|]. destruct code; try discriminate. cbn in *. congruence.
Qed.
Print Assumptions C88_one_partial.

(** What the conditions leave out: the answer of the scanner is not looked at when it used the whole argument. *)
Definition plain : fcfg := mk_fcfg 8 0 false false 8 false.
Theorem C88_refuted :
  to_arg (AMatch (chars "abc")) [str "abc"] = TThrew pc_end_of_file /\ to_arg (AMatch (chars "abc")) [str "abcd"] = TGot [] /\
  to_arg (AChar plain) [str "a"] = TThrew pc_end_of_file /\ to_arg (AChar plain) [str "a"; str "bc"] = TGot (chars "b") /\
  to_arg (ALine plain []) [PScatter (chars "abc" ++ [10]); str "def"] = TGot (chars "abcdef") /\
  to_arg (ALine plain []) [PScatter (chars "abc" ++ 10 :: chars "def")] = TGot (chars "abc") /\
  to_arg (ALine plain []) [PScatter [10]] = TThrew pc_end_of_file /\
  to_arg (ALeb (mk_int 32 false) 8 0) [PScatter [172; 2]] = TGot [300] /\
  to_arg (ALeb (mk_int 32 false) 8 0) [PScatter [172]; PScatter [2]] = TThrew pc_end_of_file /\
  to_arg (AIp false 8 false) [str "1.2.3.4"] = TGot [1; 2; 3; 4] /\
  to_arg (AIp false 8 false) [str "1.2.3."; str ""] = TGot [1; 2; 3; 0].
Proof. repeat match goal with |- _ /\ _ => split end; vm_compute; reflexivity. Qed.
Print Assumptions C88_refuted.

(** ** C89: the buffer
    How the arguments are printed does not matter, only what they print -- if not both arguments of static and of dynamic
    size are there. *)
Theorem C89_texts_partial : forall a args args', room_ok args -> room_ok args' -> map text_of args = map text_of args' ->
  match a with ABytes _ _ _ _ _ => False | _ => True end -> to_arg a args = to_arg a args'.
Proof.
  intros a args args' H1 H2 HT Ha.
  assert (G : forall S contig (define : S -> list Z -> option (S * nat * parse_code)) eof hc init,
    to_decay contig define eof hc true init args = to_decay contig define eof hc true init args').
  { intros S contig define eof hc init. destruct (hc && match args with [_] => true | _ => false end) eqn:E.
    - apply andb_true_iff in E as [-> E]. destruct args as [|p [|? ?]]; try discriminate. destruct args' as [|q [|? ?]]; try discriminate. cbn [map] in HT. injection HT as HT.
      destruct H1 as (O1 & P1 & _), H2 as (O2 & P2 & _). rewrite !to_decay_single by (exact (Forall_inv O1) || exact (Forall_inv O2) || exact (Forall_inv P1) || exact (Forall_inv P2)). rewrite HT. reflexivity.
    - assert (E' : hc && match args' with [_] => true | _ => false end = false).
      { apply (f_equal (@length _)) in HT. rewrite !map_length in HT. destruct args as [|p [|? ?]], args' as [|q [|? ?]]; (discriminate HT || exact E). }
      rewrite !to_decay_texts by assumption. rewrite HT. reflexivity. }
  destruct a; cbn [to_arg]; try contradiction; rewrite G; reflexivity.
Qed.
Print Assumptions C89_texts_partial.
(** The buffer for several arguments is as large as the largest dynamic size; static sizes are forgotten. *)
Theorem C89_refuted : exists args, Forall arg_ok args /\ Forall (fun p => plain_arg p = true) args /\
  to_int int32 8 false args = TUndef /\ to_int int32 8 false (map (fun p => PScatter (text_of p)) args) = TGot [1234].
Proof. exists [PDynamic 1 (chars "1"); PReserve 11 (chars "234")]. repeat split; try (repeat constructor; cbn; lia); vm_compute; reflexivity. Qed.
Print Assumptions C89_refuted.

Example C87_nonvacuous : let args := [str " -1"; int_arg int32 20; str ""; str ",x"] in
  int_types int32 8 /\ room_ok args /\ units 8 (all_text args) /\ all_text args = chars " -120" ++ chars ",x" /\ number true (-120) (chars " -120") (chars ",x") /\
  to_int int32 8 true args = TGot [-120].
Proof.
  cbv zeta. split; [split; cbn; auto|]. split; [split; [repeat constructor; vm_compute; repeat constructor|split; [repeat constructor|left; reflexivity]]|].
  split; [vm_compute; repeat constructor; discriminate|]. split; [vm_compute; reflexivity|]. split; [|vm_compute; reflexivity].
  exists (chars " "), true, (chars "120"), [1; 2; 0]. split; [reflexivity|]. split; [repeat constructor|]. split; [reflexivity|].
  split; [repeat constructor; lia|]. split; [discriminate|]. split; [cbn; lia|]. split; [reflexivity|]. cbn. rewrite is_digit10. lia.
Qed.
Example C87_overflow_nonvacuous : let args := [str "4294967296"] in
  number true 4294967296 (chars "4294967296") [] /\ ~ in_range int32 4294967296 /\ to_int int32 8 true [str "429496"; str "7296"] = TThrew pc_overflow /\
  2 <= 11 /\ 10 ^ (11 - 2) < 2 ^ 32 /\ Z.abs 4294967296 < 10 ^ 11.
Proof.
  cbv zeta. split.
  - exists [], false, (chars "4294967296"), [4; 2; 9; 4; 9; 6; 7; 2; 9; 6]. split; [reflexivity|]. split; [constructor|]. split; [discriminate|].
    split; [repeat constructor; lia|]. split; [discriminate|]. split; [cbn; lia|]. split; [reflexivity|exact I].
  - split; [unfold in_range; vm_compute; intros [_ H]; apply H; reflexivity|]. split; [vm_compute; reflexivity|]. lia.
Qed.
Example C88_nonvacuous : let args := [str "a"; str "bcX"] in
  room_ok args /\ all_text args = chars "ab" ++ chars "cX" /\ piece_text (AMatch (chars "abc")) [] (chars "abc") (chars "X") /\
  first_word (all_text args) (chars "abcX") [] /\ to_arg (AWord plain []) args = TGot (chars "abcX").
Proof.
  cbv zeta. split; [split; [repeat constructor|split; [repeat constructor|left; reflexivity]]|]. split; [reflexivity|]. split; [split; reflexivity|]. split; [|vm_compute; reflexivity].
  exists []. split; [reflexivity|]. split; [constructor|]. split; [|split; [discriminate|left; reflexivity]]. repeat apply Forall_cons; try apply Forall_nil; unfold C_space; cbn; lia.
Qed.
Example C88_followed_nonvacuous : let args := [str " "; str "ab"; str "c"] in
  room_ok args /\ Forall (fun p => text_of p <> []) args /\ all_text args = chars " a" ++ chars "bc" /\
  piece_text (AChar plain) (chars "a") (chars " a") (chars "bc") /\ (forall n, n = length (chars " a") -> ~ arg_ends_at args n) /\ to_arg (AChar plain) args = TGot (chars "a").
Proof.
  cbv zeta. split; [split; [repeat constructor|split; [repeat constructor|left; reflexivity]]|]. split; [repeat constructor; discriminate|]. split; [reflexivity|].
  split; [split; [split; [unfold build_ok, char_width, plain; cbn; lia|discriminate]|]; split; [vm_compute; repeat constructor; discriminate|]; split; [left; reflexivity|]; exists (chars " "), 97; split; [reflexivity|]; split; [repeat constructor|]; split; [unfold C_space; lia|reflexivity]|].
  split; [|vm_compute; reflexivity]. intros n -> (a1 & a2 & E & _ & L).
  destruct a1 as [|p1 a1]; [discriminate L|]. injection E as <- E. destruct a1 as [|p2 a1]; [discriminate L|]. injection E as <- E. destruct a1 as [|p3 a1]; [discriminate L|]. injection E as <- E. destruct a1; [discriminate L|discriminate E].
Qed.
