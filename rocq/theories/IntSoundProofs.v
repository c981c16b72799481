(** Soundness of the contiguous integer scanner on every text: what can make it answer ok. *)
From Verif Require Import Base NumSpec NumFacts IntPrintModel IntPrintProofs ScanSpec IntScanModel IntScanProofs IntRoundProofs.

Lemma scan_leading_zero cfg ws (minus : bool) c rest : good_cfg cfg -> sc_shbase cfg = false -> sc_skipzero cfg = false ->
  Forall c_space ws -> (sc_noskipws cfg = true -> ws = []) ->
  (minus = true -> isigned (sc_ty cfg) = true) -> is_digit_of (sc_base cfg) c ->
  scan_int cfg (ws ++ sign_chars minus ++ 48 :: c :: rest) = Some (mk_pres pc_invalid (zlen ws + zlen (sign_chars minus) + 1) None).
Proof.
  intros Hcfg Hsh Hsk Hws Hnows Hsg (d & Hd). pose proof Hcfg as (Hb & Hcw & Hw). pose proof (cw_pow _ Hcw) as Hp.
  assert (Hc0 : char_digit (sc_base cfg) (sc_cw cfg) 48 = Some (Some 0)).
  { apply char_digit_some; auto. apply (denotes_small _ 0); lia. }
  assert (Hc1 : char_digit (sc_base cfg) (sc_cw cfg) c = Some (Some d)) by (apply char_digit_some; auto).
  unfold scan_int. rewrite Hsh. cbn [andb]. rewrite andb_false_r.
  set (body := sign_chars minus ++ 48 :: c :: rest).
  assert (Es1 : (if sc_noskipws cfg then ws ++ body else skip_space (sc_cw cfg) (ws ++ body)) = body).
  { destruct (sc_noskipws cfg); [rewrite Hnows by reflexivity; reflexivity|].
    apply skip_space_spec; auto. unfold body. destruct minus; cbn [sign_chars app]; (split; [lia|unfold c_space; simpl; lia]). }
  rewrite Es1.
  assert (Hz : forall sg u, scan_zero_part cfg sg u (48 :: c :: rest) = Some (mk_pres pc_invalid (u + 1) None)).
  { intros sg u. unfold scan_zero_part. rewrite Hc0, Hsk, Hc1. reflexivity. }
  assert (Hgoal : scan_none_space cfg false (zlen (ws ++ body) - zlen body) body = Some (mk_pres pc_invalid (zlen ws + zlen (sign_chars minus) + 1) None)).
  { replace (zlen (ws ++ body) - zlen body) with (zlen ws) by (rewrite zlen_app; lia).
    unfold scan_none_space, body. destruct minus; cbn [sign_chars app].
    - rewrite (Hsg eq_refl). rewrite Z.eqb_refl. cbn [andb]. rewrite Hz. reflexivity.
    - change (zlen []) with 0. rewrite Z.add_0_r. destruct (isigned (sc_ty cfg)); [|apply Hz]. cbn [andb]. apply Hz. }
  destruct (sc_noskipws cfg); [exact Hgoal|]. unfold body in *. destruct minus; exact Hgoal.
Qed.

Lemma c_space_dec c : {c_space c} + {~ c_space c}.
Proof. unfold c_space. apply in_dec, Z.eq_dec. Defined.

Lemma is_digit_dec base c : {is_digit_of base c} + {~ is_digit_of base c}.
Proof.
  destruct (existsb (fun n => let d := Z.of_nat n in (c =? digit_char false d) || (c =? digit_char true d)) (seq 0 (Z.to_nat base))) eqn:E.
  - left. apply existsb_exists in E as (n & Hn & E). apply in_seq in Hn. exists (Z.of_nat n). split; [lia|].
    apply orb_true_iff in E as [E|E]; apply Z.eqb_eq in E; auto.
  - right. intros (d & H1 & H2). assert (E' : existsb (fun n => let d := Z.of_nat n in (c =? digit_char false d) || (c =? digit_char true d)) (seq 0 (Z.to_nat base)) = true); [|congruence].
    apply existsb_exists. exists (Z.to_nat d). split; [apply in_seq; lia|]. rewrite Z2Nat.id by lia. apply orb_true_iff.
    destruct H2 as [->| ->]; [left|right]; apply Z.eqb_refl.
Qed.

Lemma span_space s : exists ws rest, s = ws ++ rest /\ Forall c_space ws /\ match rest with [] => True | c :: _ => ~ c_space c end.
Proof.
  induction s as [|c s (ws & rest & -> & A & B)]; [exists [], []; repeat split; constructor|].
  destruct (c_space_dec c); [exists (c :: ws), rest; repeat split; auto|exists [], (c :: ws ++ rest); repeat split; auto].
Qed.
Lemma span_digits base s : exists cs ds rest, s = cs ++ rest /\ digit_string base cs ds /\ no_digit_first base rest.
Proof.
  induction s as [|c s (cs & ds & rest & -> & A & B)]; [exists [], [], []; repeat split; constructor|].
  destruct (is_digit_dec base c) as [(d & Hd)|Hd].
  - exists (c :: cs), (d :: ds), rest. repeat split; auto. constructor; auto.
  - exists [], [], (c :: cs ++ rest). repeat split; [constructor|exact Hd].
Qed.

(** Every text is blanks, an optional sign, then: nothing; no digit; a leading zero and a digit; a digit run. *)
Lemma text_cases base sgn noskip skipz s : exists ws (minus : bool) body,
  s = ws ++ sign_chars minus ++ body /\ Forall c_space ws /\ (noskip = true -> ws = []) /\ (minus = true -> sgn = true) /\
  (body = [] \/
   (body <> [] /\ no_digit_first base body /\ (minus = false -> noskip = false -> match body with [] => True | c :: _ => ~ c_space c end) /\
     (minus = false -> match body with [] => True | c :: _ => (sgn = true -> c <> 45) end)) \/
   (skipz = false /\ exists c rest, body = 48 :: c :: rest /\ is_digit_of base c) \/
   (exists cs ds rest, body = cs ++ rest /\ digit_string base cs ds /\ cs <> [] /\ no_digit_first base rest /\ (skipz = false -> no_leading_zero ds))).
Proof.
  assert (Hsp : exists ws rest, s = ws ++ rest /\ Forall c_space ws /\ (noskip = true -> ws = []) /\ (noskip = false -> match rest with [] => True | c :: _ => ~ c_space c end)).
  { destruct noskip; [exists [], s; repeat split; auto; discriminate|]. destruct (span_space s) as (ws & rest & A & B & C). exists ws, rest. repeat split; auto; discriminate. }
  destruct Hsp as (ws & rest & -> & Hws & Hn & Hr).
  assert (Hsg : exists (minus : bool) body, rest = sign_chars minus ++ body /\ (minus = true -> sgn = true) /\ (minus = false -> match body with [] => True | c :: _ => sgn = true -> c <> 45 end)).
  { destruct rest as [|c rest]; [exists false, []; repeat split; auto; discriminate|].
    destruct sgn; [destruct (Z.eq_dec c 45)|].
    - subst c. exists true, rest. repeat split; auto. discriminate.
    - exists false, (c :: rest). repeat split; auto.
    - exists false, (c :: rest). repeat split; auto; discriminate. }
  destruct Hsg as (minus & body & -> & Hm & Hb). exists ws, minus, body. repeat (split; [auto; fail|]).
  destruct body as [|c body]; [auto|]. right.
  destruct (span_digits base (c :: body)) as (cs & ds & rest & E & A & B).
  destruct cs as [|c' cs].
  - left. cbn [app] in E. subst rest. split; [discriminate|]. split; [exact B|]. split; [intros Em En|exact Hb].
    specialize (Hr En). subst minus. exact Hr.
  - right. cbn [app] in E. injection E as <- ->. inversion A as [|? d ? ds' Hd Hds]; subst.
    assert (Hcase : (skipz = false /\ d = 0 /\ cs <> []) \/ (skipz = false -> no_leading_zero (d :: ds'))).
    { destruct skipz; [right; discriminate|]. destruct (Z.eq_dec d 0) as [->|]; [|right; intros _; destruct ds'; cbn; auto].
      destruct cs; [right; intros _; inversion Hds; subst; cbn; auto|left; repeat split; auto; discriminate]. }
    destruct Hcase as [(S1 & S2 & S3)|S1].
    + left. split; [exact S1|]. destruct cs as [|c2 cs]; [contradiction|]. inversion Hds; subst.
      exists c2, (cs ++ rest). cbn [app]. split; [|eexists; eassumption].
      assert (c = 48) as ->; [|reflexivity]. destruct Hd as [_ [E|E]]; exact E.
    + right. exists (c :: cs), (d :: ds'), rest. repeat split; auto; discriminate.
Qed.
