From Verif Require Import Base CharModel CharSpec PropsChar FindModel FindSpec FindProofs FindMuslProofs PropsFind LineModel LineSpec LineProofs.
Open Scope Z_scope.

(** ** Prefixes of characters with a property *)

Lemma skip_while_cases : forall p s,
  (skip_while p s = length s /\ Forall (fun x => p x = true) s) \/
  exists a x b, s = a ++ x :: b /\ Forall (fun y => p y = true) a /\ p x = false /\ skip_while p s = length a.
Proof.
  induction s as [|x s IH]; [left; split; [reflexivity|constructor]|].
  cbn [skip_while]. destruct (p x) eqn:E.
  - destruct IH as [[I1 I2]|(a & y & b & I1 & I2 & I3 & I4)].
    + left. split; [cbn; lia|constructor; assumption].
    + right. exists (x :: a), y, b. subst s. repeat split; auto. cbn. f_equal. exact I4.
  - right. exists [], x, s. repeat split; auto.
Qed.

Lemma firstn_len_app : forall (a b : list Z), firstn (length a) (a ++ b) = a.
Proof. intros. rewrite firstn_app, Nat.sub_diag. cbn [firstn]. rewrite app_nil_r. apply firstn_all. Qed.
Lemma skipn_len_app : forall (a b : list Z), skipn (length a) (a ++ b) = b.
Proof. intros. rewrite skipn_app, Nat.sub_diag, skipn_all. reflexivity. Qed.
Lemma skipn_len_cons : forall (a b : list Z) x, skipn (S (length a)) (a ++ x :: b) = b.
Proof.
  intros. replace (a ++ x :: b) with ((a ++ [x]) ++ b) by (rewrite <- app_assoc; reflexivity).
  replace (S (length a)) with (length (a ++ [x])) by (rewrite app_length; cbn; lia).
  apply skipn_len_app.
Qed.

Definition no_empty (src : chunks) : Prop := Forall (fun ch => ch <> []) src.

(** ** Gathering up to a terminator *)

Section Gather.
Variable w : Z.
Variable p : Z -> bool.                         (* the characters that belong to the string *)
Variable eats : bool.                           (* whether the terminator is taken as well *)
Variable def : sstr -> list Z -> define_res sstr.
Variable eof : sstr -> sstr * parse_code.
Hypothesis Hdef : forall g s, text w s -> def (mk_sstr true g) s =
  let n := skip_while p s in
  if Nat.eqb n (length s) then Defined (mk_sstr true (g ++ s)) (length s) pc_partial
  else Defined (mk_sstr true (g ++ firstn n s)) (if eats then S n else n) pc_ok.

Lemma gather_ok : forall src g buf, no_empty src -> text w (buf ++ concat src) ->
  (Forall (fun x => p x = true) (buf ++ concat src) /\
   scan_buffered def eof (mk_sstr true g) buf src = scan_eof eof (mk_sstr true (g ++ buf ++ concat src)) [] []) \/
  (exists a x b buf' src', buf ++ concat src = a ++ x :: b /\ Forall (fun y => p y = true) a /\ p x = false /\
   scan_buffered def eof (mk_sstr true g) buf src = Scanned true (mk_sstr true (g ++ a)) buf' src' /\
   buf' ++ concat src' = (if eats then b else x :: b) /\ no_empty src').
Proof.
  induction src as [|ch src IH]; intros g buf Hs Ht.
  - cbn [concat] in *. rewrite app_nil_r in *. cbn [scan_buffered]. rewrite Hdef by exact Ht. cbv zeta.
    destruct (skip_while_cases p buf) as [[E1 E2]|(a & x & b & E1 & E2 & E3 & E4)].
    + left. rewrite E1, Nat.eqb_refl. split; [exact E2|reflexivity].
    + right. rewrite E4. replace (Nat.eqb (length a) (length buf)) with false
        by (symmetry; apply Nat.eqb_neq; rewrite E1, app_length; cbn; lia).
      exists a, x, b. eexists. exists []. split; [exact E1|]. split; [exact E2|]. split; [exact E3|].
      rewrite E1 at 1. rewrite firstn_len_app. split; [reflexivity|]. split; [|constructor].
      cbn [concat]. rewrite app_nil_r, E1. destruct eats; [apply skipn_len_cons|apply skipn_len_app].
  - inversion Hs as [|? ? Hch Hs']; subst. cbn [concat] in *.
    assert (Ht2 := Ht). unfold text in Ht2. rewrite Forall_app in Ht2. destruct Ht2 as [Tb Tr].
    cbn [scan_buffered]. rewrite Hdef by exact Tb. cbv zeta.
    destruct (skip_while_cases p buf) as [[E1 E2]|(a & x & b & E1 & E2 & E3 & E4)].
    + rewrite E1, Nat.eqb_refl. destruct ch as [|c0 ch]; [contradiction|].
      destruct (IH (g ++ buf) (c0 :: ch) Hs' Tr) as [[I1 I2]|(a & x & b & buf' & src' & I1 & I2 & I3 & I4 & I5 & I6)].
      * left. split; [apply Forall_app; split; assumption|]. rewrite I2, <- app_assoc. reflexivity.
      * right. exists (buf ++ a), x, b, buf', src'. rewrite I1, <- !app_assoc. split; [reflexivity|].
        split; [apply Forall_app; split; assumption|]. split; [exact I3|].
        rewrite I4, <- app_assoc. auto.
    + right. rewrite E4. replace (Nat.eqb (length a) (length buf)) with false
        by (symmetry; apply Nat.eqb_neq; rewrite E1, app_length; cbn; lia).
      exists a, x, (b ++ ch ++ concat src). eexists. exists (ch :: src).
      split; [rewrite E1, <- app_assoc; reflexivity|]. split; [exact E2|]. split; [exact E3|].
      rewrite E1 at 1. rewrite firstn_len_app. split; [reflexivity|]. split; [|exact Hs].
      cbn [concat]. rewrite E1. destruct eats; [rewrite skipn_len_cons; reflexivity|rewrite skipn_len_app; reflexivity].
Qed.

(** The first call behaves as if the string was empty and being filled. *)
Lemma gather_start : forall src st buf, def st buf = def (mk_sstr true []) buf ->
  scan_buffered def eof st buf src = scan_buffered def eof (mk_sstr true []) buf src.
Proof. intros [|ch src] st buf H; cbn [scan_buffered]; rewrite H; reflexivity. Qed.
End Gather.

(** ** The defines *)

Definition ns (c : fcfg) : Z -> bool := pass_space (f_w c) false false.
Definition sp (c : fcfg) : Z -> bool := pass_space (f_w c) false true.
Definition space_search_ok (c : fcfg) : Prop := build_ok c /\ (f_simd c = 64%nat -> f_ptestm c = false).

Lemma zero_test : forall c, (f_simd c = 64%nat -> f_ptestm c = false) -> zero_test_ok c.
Proof. intros c H. unfold zero_test_ok. destruct (Nat.eq_dec (f_simd c) 64); auto. Qed.

Lemma find_c_space_skip : forall c s, space_search_ok c -> text (f_w c) s ->
  find_c_space c s = skip_while (ns c) s.
Proof.
  intros c s [Hb Hz] Ht. apply find_space_is_loop; [exact Hb|exact Ht|apply zero_test; exact Hz|discriminate].
Qed.
(** The condition under which C54 finds the first character that is not whitespace. *)
Definition plain_text (c : fcfg) (s : list Z) : Prop :=
  f_simd c = 0%nat \/ Forall (fun x => 9 <= x < 2 ^ (f_w c - 1) + 9) s.
Lemma plain_app : forall c a b, plain_text c (a ++ b) <-> plain_text c a /\ plain_text c b.
Proof. intros. unfold plain_text. rewrite Forall_app. tauto. Qed.
Lemma find_none_skip : forall c s, space_search_ok c -> text (f_w c) s -> plain_text c s ->
  find_none_c_space c s = skip_while (sp c) s.
Proof.
  intros c s [Hb Hz] Ht Hp. apply find_space_is_loop; [exact Hb|exact Ht|apply zero_test; exact Hz|].
  intros _. destruct Hp as [H|H]; [left; exact H|right; exact H].
Qed.
Lemma ns_spec : forall c x, char_width (f_w c) -> code_unit (f_w c) x -> ns c x = false <-> C_space x.
Proof. intros. apply (pass_space_spec (f_w c) false false x); assumption. Qed.
Lemma sp_spec : forall c x, char_width (f_w c) -> code_unit (f_w c) x -> sp c x = false <-> ~ C_space x.
Proof. intros. apply (pass_space_spec (f_w c) false true x); assumption. Qed.
Lemma ns_sp : forall c x, ns c x = negb (sp c x).
Proof. reflexivity. Qed.

Lemma line_def : forall c g s, lf_ok c -> text (f_w c) s ->
  string_define c false true (mk_sstr true g) s =
  let n := skip_while not_lf s in
  if Nat.eqb n (length s) then Defined (mk_sstr true (g ++ s)) (length s) pc_partial
  else Defined (mk_sstr true (g ++ firstn n s)) (S n) pc_ok.
Proof.
  intros c g s Hc Ht. unfold string_define. cbn [negb andb orb ss_copying ss_str skipn]. cbv zeta.
  rewrite find_lf_skip by assumption. cbn [Nat.add].
  destruct (Nat.eqb (skip_while not_lf s) (length s)) eqn:E; [|reflexivity].
  apply Nat.eqb_eq in E. rewrite E, firstn_all. reflexivity.
Qed.
Lemma noskip_def : forall c g s, space_search_ok c -> text (f_w c) s ->
  string_define c true false (mk_sstr true g) s =
  let n := skip_while (ns c) s in
  if Nat.eqb n (length s) then Defined (mk_sstr true (g ++ s)) (length s) pc_partial
  else Defined (mk_sstr true (g ++ firstn n s)) n pc_ok.
Proof.
  intros c g s Hc Ht. unfold string_define. cbn [negb andb orb ss_copying ss_str skipn]. cbv zeta.
  rewrite find_c_space_skip by assumption. cbn [Nat.add].
  destruct (Nat.eqb (skip_while (ns c) s) (length s)) eqn:E; [|reflexivity].
  apply Nat.eqb_eq in E. rewrite E, firstn_all. reflexivity.
Qed.
Lemma word_def : forall c g s, space_search_ok c -> text (f_w c) s ->
  string_define c false false (mk_sstr true g) s =
  let n := skip_while (ns c) s in
  if Nat.eqb n (length s) then Defined (mk_sstr true (g ++ s)) (length s) pc_partial
  else Defined (mk_sstr true (g ++ firstn n s)) n pc_ok.
Proof.
  intros c g s Hc Ht. unfold string_define. cbn [negb andb orb ss_copying ss_str skipn]. cbv zeta.
  rewrite find_c_space_skip by assumption. cbn [Nat.add].
  destruct (Nat.eqb (skip_while (ns c) s) (length s)) eqn:E; [|reflexivity].
  apply Nat.eqb_eq in E. rewrite E, firstn_all. reflexivity.
Qed.
(** While whitespace is skipped. *)
Lemma word_skip : forall c old s, space_search_ok c -> text (f_w c) s -> plain_text c s ->
  string_define c false false (mk_sstr false old) s =
  let it := skip_while (sp c) s in
  if Nat.eqb it (length s) then Defined (mk_sstr false old) (length s) pc_partial
  else match string_define c false false (mk_sstr true []) (skipn it s) with
       | Defined st k code => Defined st (it + k) code
       | Smashed => Smashed
       end.
Proof.
  intros c old s Hc Ht Hp. unfold string_define. cbn [negb andb orb ss_copying ss_str]. cbv zeta.
  rewrite find_none_skip by assumption.
  destruct (Nat.eqb (skip_while (sp c) s) (length s)) eqn:E; [reflexivity|].
  cbn [skipn ss_copying ss_str]. set (it := skip_while (sp c) s) in *.
  assert (L : (it <= length s)%nat) by apply skip_while_le.
  rewrite (skipn_length it s).
  destruct (Nat.eqb (it + find_c_space c (skipn it s)) (length s)) eqn:E1;
  destruct (Nat.eqb (0 + find_c_space c (skipn it s)) (length s - it)) eqn:E2; try reflexivity;
  apply Nat.eqb_eq in E1 || apply Nat.eqb_neq in E1; apply Nat.eqb_eq in E2 || apply Nat.eqb_neq in E2; lia.
Qed.

(** The whole of a word scan. *)
Lemma word_loop : forall c src old buf, space_search_ok c -> no_empty src ->
  text (f_w c) (buf ++ concat src) -> plain_text c (buf ++ concat src) ->
  (Forall (fun x => sp c x = true) (buf ++ concat src) /\
   scan_word c old buf src = Scanned false (mk_sstr false old) [] []) \/
  (exists sps x b buf2 src2, buf ++ concat src = sps ++ x :: b /\ Forall (fun y => sp c y = true) sps /\ sp c x = false /\
   no_empty src2 /\ buf2 ++ concat src2 = x :: b /\
   scan_word c old buf src =
   scan_buffered (string_define c false false) (string_eof false false) (mk_sstr true []) buf2 src2).
Proof.
  intros c. induction src as [|ch src IH]; intros old buf Hc Hs Ht Hp; unfold scan_word in *.
  - cbn [concat] in *. rewrite app_nil_r in *. cbn [scan_buffered].
    rewrite word_skip by assumption. cbv zeta.
    destruct (skip_while_cases (sp c) buf) as [[E1 E2]|(a & x & b & E1 & E2 & E3 & E4)].
    + left. rewrite E1, Nat.eqb_refl. split; [exact E2|reflexivity].
    + right. rewrite E4. replace (Nat.eqb (length a) (length buf)) with false
        by (symmetry; apply Nat.eqb_neq; rewrite E1, app_length; cbn; lia).
      exists a, x, b, (x :: b), []. split; [exact E1|]. split; [exact E2|]. split; [exact E3|].
      split; [constructor|]. split; [cbn [concat]; apply app_nil_r|].
      assert (Es : skipn (length a) buf = x :: b) by (rewrite E1; apply skipn_len_app).
      rewrite Es. cbn [scan_buffered].
      destruct (string_define c false false (mk_sstr true []) (x :: b)) as [st k code|]; [|reflexivity].
      rewrite Nat.add_comm, <- skipn_skipn, Es. destruct code; reflexivity.
  - inversion Hs as [|? ? Hch Hs']; subst. cbn [concat] in *.
    assert (Ht2 := Ht). unfold text in Ht2. rewrite Forall_app in Ht2. destruct Ht2 as [Tb Tr].
    assert (Hp2 := Hp). apply plain_app in Hp2. destruct Hp2 as [Pb Pr].
    cbn [scan_buffered]. rewrite word_skip by assumption. cbv zeta.
    destruct (skip_while_cases (sp c) buf) as [[E1 E2]|(a & x & b & E1 & E2 & E3 & E4)].
    + rewrite E1, Nat.eqb_refl. destruct ch as [|c0 ch]; [contradiction|].
      destruct (IH old (c0 :: ch) Hc Hs' Tr Pr) as [[I1 I2]|(a & x & b & buf2 & src2 & I1 & I2 & I3 & I4 & I5 & I6)].
      * left. split; [apply Forall_app; split; assumption|exact I2].
      * right. exists (buf ++ a), x, b, buf2, src2. rewrite I1, <- app_assoc.
        split; [reflexivity|]. split; [apply Forall_app; split; assumption|]. auto.
    + right. rewrite E4. replace (Nat.eqb (length a) (length buf)) with false
        by (symmetry; apply Nat.eqb_neq; rewrite E1, app_length; cbn; lia).
      exists a, x, (b ++ ch ++ concat src), (x :: b), (ch :: src).
      split; [rewrite E1, <- app_assoc; reflexivity|]. split; [exact E2|]. split; [exact E3|].
      split; [exact Hs|]. split; [reflexivity|].
      assert (Es : skipn (length a) buf = x :: b) by (rewrite E1; apply skipn_len_app).
      rewrite Es. cbn [scan_buffered].
      destruct (string_define c false false (mk_sstr true []) (x :: b)) as [st k code|]; [|reflexivity].
      rewrite Nat.add_comm, <- skipn_skipn, Es. destruct code; reflexivity.
Qed.

(** ** Strings without a buffer: the same scan *)

Definition to_general (old : list Z) (r : scanned sstr) : scanned gstr :=
  match r with
  | Scanned true st b s => Scanned true (mk_gstr (ss_str st) (ss_str st)) b s
  | Scanned false st b s => Scanned false (mk_gstr [] old) b s
  | Raised code => Raised code
  | Overrun => Overrun
  end.


(** What the context holds: the gathered text; for words it is not empty once a word began. *)
Definition grel (line : bool) (st : sstr) (g : gstr) : Prop :=
  (ss_copying st = true /\ gs_ctx g = ss_str st /\ (line = false -> ss_str st <> [])) \/
  (ss_copying st = false /\ gs_ctx g = []).

Lemma define_code : forall c noskip line st s st' k code,
  string_define c noskip line st s = Defined st' k code -> code = pc_ok \/ code = pc_partial.
Proof.
  intros c noskip line st s st' k code. unfold string_define. cbv zeta.
  destruct (if negb noskip && negb line then _ else _) as [[it st1]|].
  - destruct (Nat.eqb _ (length s)); intros H; inversion H; auto.
  - intros H; inversion H; auto.
Qed.
Lemma define_not_smashed : forall c noskip line st s, string_define c noskip line st s <> Smashed.
Proof.
  intros c noskip line st s. unfold string_define. cbv zeta.
  destruct (if negb noskip && negb line then _ else _) as [[it st1]|]; [|discriminate].
  destruct (Nat.eqb _ (length s)); discriminate.
Qed.


(** After a call that wants more: the string of a word is not empty, a line has begun. *)
Definition begun (line : bool) (st : sstr) : Prop :=
  if line then ss_copying st = true else (ss_copying st = true -> ss_str st <> []).

Lemma begun_word : forall c st s st' k, space_search_ok c -> text (f_w c) s -> plain_text c s ->
  begun false st -> string_define c false false st s = Defined st' k pc_partial -> begun false st'.
Proof.
  intros c [b str] s st' k Hc Ht Hp Hb H. unfold begun in *. cbn [ss_copying ss_str] in *. destruct b.
  - rewrite word_def in H by assumption. cbv zeta in H.
    destruct (Nat.eqb _ (length s)); inversion H; subst. cbn [ss_str].
    intros _ K. apply app_eq_nil in K. destruct K as [K _]. apply Hb; auto.
  - rewrite word_skip in H by assumption. cbv zeta in H.
    destruct (Nat.eqb (skip_while (sp c) s) (length s)) eqn:E; [inversion H; subst; cbn [ss_copying]; discriminate|].
    apply Nat.eqb_neq in E. pose proof (skip_while_le (sp c) s) as L.
    assert (T' : text (f_w c) (skipn (skip_while (sp c) s) s)).
    { unfold text in *. rewrite <- (firstn_skipn (skip_while (sp c) s) s), Forall_app in Ht. apply Ht. }
    rewrite word_def in H by assumption. cbv zeta in H.
    destruct (Nat.eqb _ (length (skipn _ s))); inversion H; subst. cbn [ss_str app].
    intros _ K. apply (f_equal (@length Z)) in K. rewrite skipn_length in K. cbn in K. lia.
Qed.
Lemma begun_line : forall c st s st' k,
  string_define c false true st s = Defined st' k pc_partial -> begun true st'.
Proof.
  intros c st s st' k H. unfold string_define in H. cbn [negb andb orb ss_copying ss_str skipn] in H.
  cbv zeta in H. destruct (Nat.eqb _ (length s)); inversion H; subst. reflexivity.
Qed.

(** One call with the string of a fresh scan: only what it was before can differ, and only while
    nothing is gathered. *)
Lemma fresh_define : forall c line old old' s,
  (exists st k code, string_define c false line (mk_sstr false old) s = Defined st k code /\
     string_define c false line (mk_sstr false old') s = Defined st k code /\ ss_copying st = true) \/
  (string_define c false line (mk_sstr false old) s = Defined (mk_sstr false old) (length s) pc_partial /\
   string_define c false line (mk_sstr false old') s = Defined (mk_sstr false old') (length s) pc_partial).
Proof.
  intros c line old old' s. destruct line.
  - left. unfold string_define. cbn [negb andb orb ss_copying ss_str skipn]. cbv zeta.
    destruct (Nat.eqb _ (length s)); do 3 eexists; repeat split.
  - unfold string_define. cbn [negb andb orb ss_copying ss_str skipn]. cbv zeta.
    destruct (Nat.eqb (find_none_c_space c s) (length s)); [right; split; reflexivity|left].
    cbn [ss_copying ss_str]. destruct (Nat.eqb _ (length s)); do 3 eexists; repeat split.
Qed.

Lemma copying_stays : forall c line str s st k code,
  string_define c false line (mk_sstr true str) s = Defined st k code -> ss_copying st = true.
Proof.
  intros c line str s st k code H. unfold string_define in H. destruct line;
    cbn [negb andb orb ss_copying ss_str skipn] in H; cbv zeta in H; destruct (Nat.eqb _ (length s));
    inversion H; subst; reflexivity.
Qed.

(** The corresponding call of the general version. *)
Lemma general_step : forall c line st g s, grel line st g ->
  exists st' k code, string_define c false line st s = Defined st' k code /\
    ((code = pc_ok /\ general_define c false line g s = Defined (mk_gstr (ss_str st') (ss_str st')) k pc_ok) \/
     (code = pc_partial /\ exists g', general_define c false line g s = Defined g' k pc_partial /\
        gs_str g' = gs_str g /\ (begun line st' -> grel line st' g'))).
Proof.
  intros c line [b str] g s HR. unfold general_define.
  destruct HR as [(H1 & H2 & H3)|(H1 & H2)]; cbn [ss_copying ss_str] in *; subst b; rewrite H2.
  - assert (E : string_define c false line (mk_sstr (match str with [] => false | _ => true end) str) s =
              string_define c false line (mk_sstr true str) s).
    { destruct str; [|reflexivity]. destruct line; [reflexivity|exfalso; apply H3; reflexivity]. }
    rewrite E. destruct (string_define c false line (mk_sstr true str) s) as [st' k code|] eqn:D;
      [|exfalso; exact (define_not_smashed _ _ _ _ _ D)].
    exists st', k, code. split; [reflexivity|]. pose proof (copying_stays _ _ _ _ _ _ _ D) as C.
    destruct (define_code _ _ _ _ _ _ _ _ D); subst code; [left; split; reflexivity|right; split; [reflexivity|]].
    eexists. split; [reflexivity|]. cbn [gs_str gs_ctx]. split; [reflexivity|]. intros B. left.
    split; [exact C|]. split; [reflexivity|]. intros ->. exact (B C).
  - destruct (fresh_define c line str [] s) as [(st' & k & code & D1 & D2 & C)|[D1 D2]]; rewrite D1, D2.
    + exists st', k, code. split; [reflexivity|].
      destruct (define_code _ _ _ _ _ _ _ _ D1); subst code; [left; split; reflexivity|right; split; [reflexivity|]].
      eexists. split; [reflexivity|]. cbn [gs_str gs_ctx]. split; [reflexivity|]. intros B. left.
      split; [exact C|]. split; [reflexivity|]. intros ->. exact (B C).
    + do 3 eexists. split; [reflexivity|]. right. split; [reflexivity|]. eexists. split; [reflexivity|].
      split; [reflexivity|]. intros _. right. split; reflexivity.
Qed.

Lemma general_eof_sim : forall line st g buf src, begun line st -> grel line st g ->
  scan_eof general_eof g buf src = to_general (gs_str g) (scan_eof (string_eof false line) st buf src).
Proof.
  intros line [b str] [ctx old] buf src B HR. unfold grel in HR. cbn [ss_copying ss_str gs_ctx gs_str] in *.
  unfold scan_eof, general_eof, string_eof. cbn [gs_ctx gs_str ss_copying ss_str].
  destruct line; cbn [orb].
  - unfold begun in B. cbn in B. subst b. destruct HR as [(_ & E & _)|(K & _)]; [|discriminate K]. subst ctx.
    destruct str; reflexivity.
  - destruct HR as [(E1 & E & E2)|(E1 & E)]; subst b ctx.
    + specialize (E2 eq_refl). destruct str; [congruence|reflexivity].
    + reflexivity.
Qed.

Lemma general_sim : forall c line src st g buf,
  (forall s st st' k, text (f_w c) s -> plain_text c s -> begun line st \/ line = true ->
     string_define c false line st s = Defined st' k pc_partial -> begun line st') ->
  text (f_w c) (buf ++ concat src) -> plain_text c (buf ++ concat src) ->
  no_empty src -> begun line st \/ line = true -> grel line st g ->
  scan_buffered (general_define c false line) general_eof g buf src =
  to_general (gs_str g) (scan_buffered (string_define c false line) (string_eof false line) st buf src).
Proof.
  intros c line src st g buf HB. revert st g buf.
  induction src as [|ch src IH]; intros st g buf Ht Hp Hs Hb HR.
  - cbn [scan_buffered concat] in *. rewrite app_nil_r in *.
    destruct (general_step c line st g buf HR) as (st' & k & code & D & [[-> G]|(-> & g' & G & Go & Gr)]); rewrite D, G.
    + reflexivity.
    + specialize (HB buf st st' k Ht Hp Hb D). rewrite <- Go. apply general_eof_sim; auto.
  - cbn [scan_buffered concat] in *. inversion Hs as [|? ? Hch Hs']; subst.
    assert (Ht2 := Ht). unfold text in Ht2. rewrite Forall_app in Ht2. destruct Ht2 as [Tb Tr].
    assert (Hp2 := Hp). apply plain_app in Hp2. destruct Hp2 as [Pb Pr].
    destruct (general_step c line st g buf HR) as (st' & k & code & D & [[-> G]|(-> & g' & G & Go & Gr)]); rewrite D, G.
    + reflexivity.
    + specialize (HB buf st st' k Tb Pb Hb D). rewrite <- Go. destruct ch as [|c0 ch]; [contradiction|].
      apply IH; auto.
Qed.

(** ** Contiguous streams are streams without refills *)
Lemma contiguous_same : forall c noskip line st buf,
  scan_contiguous (string_define c noskip line) (string_eof noskip line) st buf =
  scan_buffered (string_define c noskip line) (string_eof noskip line) st buf [].
Proof.
  intros. unfold scan_contiguous. cbn [scan_buffered].
  destruct (string_define c noskip line st buf) as [st' k code|] eqn:D; [|reflexivity].
  destruct (define_code _ _ _ _ _ _ _ _ D); subst code; [reflexivity|].
  assert (E : skipn k buf = []); [|rewrite E; reflexivity].
  unfold string_define in D. cbv zeta in D.
  destruct (if negb noskip && negb line then _ else _) as [[it st1]|].
  - destruct (Nat.eqb (it + (if line then find_lf c (skipn it buf) else find_c_space c (skipn it buf))) (length buf)) eqn:E;
      inversion D; subst. apply Nat.eqb_eq in E. rewrite E. apply skipn_all.
  - inversion D; subst. apply skipn_all.
Qed.

(** ** str_get_all *)

Section GetAll.
Variable n : nat.
Lemma get_all_def : forall (buffer : bool) cap e ctx str buf,
  (n <= cap)%nat -> (length e <= n)%nat -> (buffer = true -> ctx = true) ->
  let def := if buffer then get_all_buffer n else get_all_general n in
  def (mk_gbuf cap e ctx str) buf =
      if Nat.ltb (length buf) (n - length e)
      then Defined (mk_gbuf cap (e ++ buf) ctx str) (length buf) pc_partial
      else Defined (mk_gbuf cap (e ++ firstn (n - length e) buf) ctx
                      (if buffer then str else e ++ firstn (n - length e) buf)) (n - length e) pc_ok.
Proof.
  intros buffer cap e ctx str buf Hc He Hb def. unfold def; destruct buffer;
    [unfold get_all_buffer; cbn [gb_ctx]; rewrite (Hb eq_refl); cbn [negb]|unfold get_all_general];
    unfold get_all_common; cbn [gb_elems gb_cap gb_ctx gb_str]; cbv zeta;
    destruct (Nat.ltb (length buf) (n - length e)) eqn:E;
    [apply Nat.ltb_lt in E|apply Nat.ltb_ge in E|apply Nat.ltb_lt in E|apply Nat.ltb_ge in E];
    match goal with |- context [Nat.leb ?a cap] =>
      replace (Nat.leb a cap) with true by (symmetry; apply Nat.leb_le; lia) end;
    rewrite ?firstn_all; reflexivity.
Qed.

Lemma get_all_gather : forall (buffer : bool) src cap e ctx str buf,
  (n <= cap)%nat -> (length e <= n)%nat -> (buffer = true -> ctx = true) -> no_empty src ->
  let def := if buffer then get_all_buffer n else get_all_general n in
  let T := e ++ buf ++ concat src in
  if Nat.leb n (length T)
  then exists buf' src', scan_buffered def get_all_eof (mk_gbuf cap e ctx str) buf src =
         Scanned true (mk_gbuf cap (firstn n T) ctx (if buffer then str else firstn n T)) buf' src' /\
         buf' ++ concat src' = skipn n T /\ no_empty src'
  else scan_buffered def get_all_eof (mk_gbuf cap e ctx str) buf src =
         Scanned false (mk_gbuf cap T ctx str) [] [].
Proof.
  intros buffer. induction src as [|ch src IH]; intros cap e ctx str buf Hc He Hb Hs def T.
  all: pose proof (get_all_def buffer cap e ctx str buf Hc He Hb) as D; cbv zeta in D; fold def in D.
  - assert (LT : length T = (length e + length buf)%nat)
      by (unfold T; cbn [concat]; rewrite app_nil_r, app_length; reflexivity).
    cbn [scan_buffered]. rewrite D. clear D.
    destruct (Nat.ltb (length buf) (n - length e)) eqn:E; [apply Nat.ltb_lt in E|apply Nat.ltb_ge in E].
    + replace (Nat.leb n (length T)) with false by (symmetry; apply Nat.leb_gt; lia).
      unfold T. cbn [concat]. rewrite app_nil_r. reflexivity.
    + replace (Nat.leb n (length T)) with true by (symmetry; apply Nat.leb_le; lia).
      assert (F : firstn n T = e ++ firstn (n - length e) buf).
      { unfold T. cbn [concat]. rewrite app_nil_r, firstn_app, (@firstn_all2 Z n e) by lia. reflexivity. }
      rewrite F. do 2 eexists. split; [reflexivity|]. split; [|constructor].
      unfold T. cbn [concat]. rewrite !app_nil_r, skipn_app, (@skipn_all2 Z n e) by lia. reflexivity.
  - inversion Hs as [|? ? Hch Hs']; subst.
    assert (LT : length T = (length e + length buf + length ch + length (concat src))%nat)
      by (unfold T; cbn [concat]; rewrite !app_length; lia).
    cbn [scan_buffered]. rewrite D. clear D.
    destruct (Nat.ltb (length buf) (n - length e)) eqn:E; [apply Nat.ltb_lt in E|apply Nat.ltb_ge in E].
    + destruct ch as [|c0 ch]; [contradiction|].
      specialize (IH cap (e ++ buf) ctx str (c0 :: ch) Hc ltac:(rewrite app_length; lia) Hb Hs').
      cbv zeta in IH. rewrite <- app_assoc in IH. exact IH.
    + replace (Nat.leb n (length T)) with true by (symmetry; apply Nat.leb_le; lia).
      assert (F : firstn n T = e ++ firstn (n - length e) buf).
      { unfold T. rewrite firstn_app, (@firstn_all2 Z n e) by lia. rewrite firstn_app.
        replace (n - length e - length buf)%nat with 0%nat by lia. cbn [firstn]. rewrite app_nil_r. reflexivity. }
      rewrite F. do 2 eexists. split; [reflexivity|]. split; [|exact Hs].
      unfold T. rewrite skipn_app, (@skipn_all2 Z n e) by lia. rewrite skipn_app.
      replace (n - length e - length buf)%nat with 0%nat by lia. reflexivity.
Qed.

(** Too small a buffer is overrun by any text that is longer. *)
Lemma get_all_overrun : forall src cap e ctx str buf,
  (cap < n)%nat -> (length e <= cap)%nat -> no_empty src ->
  (cap < length (e ++ buf ++ concat src))%nat ->
  scan_buffered (get_all_general n) get_all_eof (mk_gbuf cap e ctx str) buf src = Overrun.
Proof.
  induction src as [|ch src IH]; intros cap e ctx str buf Hc He Hs Hl; cbn [scan_buffered];
    unfold get_all_general at 1, get_all_common; cbn [gb_elems gb_cap gb_ctx gb_str]; cbv zeta; rewrite !app_length in Hl;
    cbn [concat] in Hl; rewrite ?app_length in Hl; cbn [length] in Hl;
    destruct (Nat.ltb (length buf) (n - length e)) eqn:E; [apply Nat.ltb_lt in E|apply Nat.ltb_ge in E|apply Nat.ltb_lt in E|apply Nat.ltb_ge in E].
  - replace (Nat.leb (length e + length buf) cap) with false by (symmetry; apply Nat.leb_gt; lia). reflexivity.
  - replace (Nat.leb (length e + (n - length e)) cap) with false by (symmetry; apply Nat.leb_gt; lia). reflexivity.
  - destruct (Nat.leb (length e + length buf) cap) eqn:L; [|reflexivity].
    apply Nat.leb_le in L. inversion Hs as [|? ? Hch Hs']; subst. destruct ch as [|c0 ch]; [contradiction|].
    apply IH; [exact Hc| |exact Hs'|]; rewrite firstn_all; rewrite ?app_length; lia.
  - replace (Nat.leb (length e + (n - length e)) cap) with false by (symmetry; apply Nat.leb_gt; lia). reflexivity.
Qed.
End GetAll.

(** ** Lines of a contiguous text *)
Lemma cline_ok : forall c fuel view text0 pos, lf_ok c -> text (f_w c) text0 -> (pos <= length text0)%nat ->
  (skipn pos text0 = [] \/ exists t, skipn pos text0 = t ++ [10]) ->
  (length (skipn pos text0) + 1 <= fuel)%nat ->
  exists ls, for_each_cline c fuel view text0 pos = Some ls /\ lines_of (skipn pos text0) ls.
Proof.
  intros c. induction fuel as [|fuel IH]; intros view text0 pos Hc Ht Hp He Hf; [lia|].
  cbn [for_each_cline]. unfold cline_next. cbv zeta.
  assert (Ts : text (f_w c) (skipn pos text0)).
  { unfold text in *. rewrite <- (firstn_skipn pos text0), Forall_app in Ht. apply Ht. }
  rewrite find_lf_skip by assumption. set (s := skipn pos text0) in *.
  assert (Ls : length s = (length text0 - pos)%nat) by apply skipn_length.
  destruct (skip_not_lf s) as [(l & r & E1 & E2 & E3)|[E1 E2]].
  - rewrite E3. assert (LL : length s = (length l + S (length r))%nat) by (rewrite E1, app_length; reflexivity).
    replace (Nat.eqb (length l) (length s)) with false by (symmetry; apply Nat.eqb_neq; lia).
    assert (Er : skipn (pos + length l + 1) text0 = r).
    { replace (pos + length l + 1)%nat with (S (length l) + pos)%nat by lia.
      rewrite <- skipn_skipn. fold s. rewrite E1. apply skipn_len_cons. }
    destruct (IH (pos, (pos + length l)%nat) text0 (pos + length l + 1)%nat Hc Ht) as (ls & I1 & I2).
    + lia.
    + rewrite Er. destruct He as [He|[t He]]; [rewrite He in E1; destruct l; discriminate|].
      destruct r as [|x r]; [left; reflexivity|right].
      destruct (@exists_last _ (x :: r) ltac:(discriminate)) as [t' [y Ey]].
      rewrite Ey in E1. rewrite He in E1. exists t'. rewrite Ey.
      replace (l ++ 10 :: t' ++ [y]) with ((l ++ 10 :: t') ++ [y]) in E1 by (rewrite <- app_assoc; reflexivity).
      apply app_inj_tail in E1. destruct E1 as [_ <-]. reflexivity.
    + rewrite Er. lia.
    + rewrite I1. eexists. split; [reflexivity|]. cbn [fst snd].
      replace (pos + length l - pos)%nat with (length l) by lia. fold s. clearbody s. subst s. rewrite firstn_len_app.
      apply lines_cons; [exact E2|]. rewrite Er in I2. exact I2.
  - rewrite E2, Nat.eqb_refl. destruct He as [He|[t He]].
    + rewrite He. cbn [length Nat.eqb]. exists []. split; [reflexivity|]. split; [constructor|left; reflexivity].
    + exfalso. apply E1. rewrite He. apply in_or_app. right. left. reflexivity.
Qed.

(** Lines are determined by the text. *)
Lemma lines_unique : forall ls ls' t, lines_of t ls -> lines_of t ls' -> ls = ls'.
Proof.
  assert (Nil : forall ls, lines_of [] ls -> ls = []).
  { intros [|l ls] [_ [H|(front & last & E1 & E2 & E3)]]; auto.
    - cbn in H. destruct l; discriminate.
    - symmetry in E3. apply app_eq_nil in E3. destruct E3; contradiction. }
  assert (Split : forall l l' (r r' : list Z), ~ In 10 l -> ~ In 10 l' -> l ++ 10 :: r = l' ++ 10 :: r' -> l = l' /\ r = r').
  { induction l as [|x l IH]; intros [|y l'] r r' H1 H2 E; cbn in *.
    - inversion E; auto.
    - inversion E; subst. exfalso; auto.
    - inversion E; subst. exfalso; auto.
    - inversion E; subst. destruct (IH l' r r') as [-> ->]; auto. }
  assert (Uncons : forall l ls t, lines_of t (l :: ls) ->
     (exists r, t = l ++ 10 :: r /\ ~ In 10 l /\ lines_of r ls) \/ (t = l /\ l <> [] /\ ~ In 10 l /\ ls = [])).
  { intros l ls t [F H]. inversion F; subst. destruct H as [H|(front & last & E1 & E2 & E3)].
    - left. cbn [map concat] in H. rewrite <- app_assoc in H. eexists. split; [exact H|]. split; [assumption|].
      split; [assumption|left; reflexivity].
    - destruct front as [|f front]; cbn in E1; inversion E1; subst.
      + right. auto.
      + left. cbn [map concat]. rewrite <- !app_assoc. eexists. split; [reflexivity|]. split; [assumption|].
        split; [assumption|]. right. exists front, last. auto. }
  induction ls as [|l ls IH]; intros [|l' ls'] t H H'; auto.
  - destruct H as [_ [H|(front & last & E1 & _)]]; [|destruct front; discriminate].
    cbn in H. subst t. apply Nil in H'. discriminate.
  - destruct H' as [_ [H'|(front & last & E1 & _)]]; [|destruct front; discriminate].
    cbn in H'. subst t. apply Nil in H. discriminate.
  - apply Uncons in H. apply Uncons in H'.
    destruct H as [(r & E & N & H)|(E & N1 & N & ->)]; destruct H' as [(r' & E' & N' & H')|(E' & N1' & N' & ->)].
    + rewrite E in E'. destruct (Split _ _ _ _ N N' E') as [-> ->]. f_equal. eapply IH; eassumption.
    + exfalso. apply N'. rewrite <- E', E. apply in_or_app. right; left; reflexivity.
    + exfalso. apply N. rewrite <- E, E'. apply in_or_app. right; left; reflexivity.
    + congruence.
Qed.
