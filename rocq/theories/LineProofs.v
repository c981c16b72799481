From Verif Require Import Base CharModel CharSpec PropsChar FindModel FindSpec FindProofs FindMuslProofs PropsFind LineModel LineSpec.
Open Scope Z_scope.

(** ** Where the line feed is *)

Definition not_lf (x : Z) : bool := negb (x =? 10).

Lemma skipn_skipn : forall {A} a b (l : list A), skipn a (skipn b l) = skipn (a + b) l.
Proof.
  intros A a b; revert a. induction b as [|b IH]; intros a l.
  - rewrite Nat.add_0_r. reflexivity.
  - rewrite Nat.add_succ_r. destruct l as [|x l]; [rewrite !skipn_nil; reflexivity|cbn [skipn]; apply IH].
Qed.

Lemma skip_not_lf : forall s,
  (exists l r, s = l ++ 10 :: r /\ ~ In 10 l /\ skip_while not_lf s = length l) \/
  (~ In 10 s /\ skip_while not_lf s = length s).
Proof.
  induction s as [|x s IH]; [right; split; [intros []|reflexivity]|].
  cbn [skip_while]. unfold not_lf at 1 3. destruct (x =? 10) eqn:E; cbn [negb].
  - apply Z.eqb_eq in E. subst x. left. exists [], s. repeat split; auto.
  - apply Z.eqb_neq in E. destruct IH as [(l & r & E1 & E2 & E3)|[E1 E2]].
    + left. exists (x :: l), r. subst s. cbn [app length]. repeat split.
      * intros [K|K]; [congruence|auto].
      * f_equal. exact E3.
    + right. split; [intros [K|K]; [congruence|auto]|]. cbn [length]. f_equal. exact E2.
Qed.

(** The build finds line feeds (C54). *)
Definition lf_ok (c : fcfg) : Prop :=
  (build_ok c /\ (f_simd c = 64%nat -> f_ptestm c = false)) \/
  (f_memchr c = true /\ (f_w c = 8 \/ f_w c = 32)).

Lemma first_at_unique : forall P s j k, first_at P s j -> first_at P s k -> j = k.
Proof.
  intros P s j k (A1 & A2 & A3) (B1 & B2 & B3).
  destruct (Nat.lt_trichotomy j k) as [L|[E|L]]; [|exact E|].
  - exfalso. apply (B2 j L). apply A3. lia.
  - exfalso. apply (A2 k L). apply B3. lia.
Qed.

Lemma find_lf_skip : forall c s, lf_ok c -> text (f_w c) s -> find_lf c s = skip_while not_lf s.
Proof.
  intros c s H Ht.
  apply (first_at_unique (fun x => x = 10) s).
  - destruct H as [[Hb Hz]|[Hm Hw]].
    + assert (Hch : code_unit (f_w c) 10).
      { unfold code_unit. assert (2 ^ 8 <= 2 ^ f_w c); [|change (2 ^ 8) with 256 in *; lia].
        apply Z.pow_le_mono_r; [lia|]. destruct Hb as [Hw _]. unfold char_width in Hw. lia. }
      exact (C54_find_char c false 10 s Hb Hch Ht Hz (fun E _ => ltac:(discriminate E))).
    + apply C54_find_lf_memchr; assumption.
  - apply skip_while_first. apply Forall_forall. intros x _. unfold not_lf.
    rewrite negb_false_iff, Z.eqb_eq. reflexivity.
Qed.

(** ** The line scanner's own buffer *)

Definition wf_buf (b : lbuf) : Prop := (lb_used b <= length (lb_cells b))%nat.
Definition content (b : lbuf) : list Z := firstn (lb_used b) (lb_cells b).

Lemma content_length : forall b, wf_buf b -> length (content b) = lb_used b.
Proof. intros b H. unfold content, wf_buf in *. rewrite firstn_length. lia. Qed.

Lemma copy_into_ok : forall cells a data, (a + length data <= length cells)%nat ->
  exists b, copy_into cells a data = Some b /\ wf_buf b /\
    content b = firstn a cells ++ data /\ length (lb_cells b) = length cells /\ lb_used b = (a + length data)%nat.
Proof.
  intros cells a data H. unfold copy_into.
  replace (Nat.leb (a + length data) (length cells)) with true by (symmetry; apply Nat.leb_le; exact H).
  eexists. split; [reflexivity|]. unfold wf_buf, content. cbn [lb_cells lb_used].
  assert (L : length (firstn a cells ++ data ++ skipn (a + length data) cells) = length cells).
  { rewrite !app_length, firstn_length, skipn_length. lia. }
  split; [lia|]. split; [|split; [exact L|reflexivity]].
  rewrite app_assoc, firstn_app.
  assert (L2 : length (firstn a cells ++ data) = (a + length data)%nat).
  { rewrite app_length, firstn_length. lia. }
  rewrite L2, Nat.sub_diag. cbn [firstn]. rewrite app_nil_r. apply firstn_all2. lia.
Qed.

Lemma grow_enough : forall w elements sz cap, 0 <= elements -> 0 <= sz -> elements + sz < 2 ^ 64 ->
  elements + sz <= grow_capacity w elements sz cap.
Proof.
  intros w e sz cap H1 H2 H3. unfold grow_capacity. rewrite (Z.mod_small (e + sz)) by lia.
  destruct ((if szmx w / 2 <=? cap then szmx w else (cap * 2) mod 2 ^ 64) <? e + sz) eqn:E; lia.
Qed.

Lemma copy_to_buffer_ok : forall w b data, wf_buf b ->
  Z.of_nat (lb_used b) + Z.of_nat (length data) < 2 ^ 64 ->
  exists b', copy_to_buffer w b data = Some b' /\ wf_buf b' /\ content b' = content b ++ data.
Proof.
  intros w b data Hw Hs. unfold copy_to_buffer. unfold wf_buf in Hw.
  destruct (Nat.ltb (length (lb_cells b) - lb_used b) (length data)) eqn:E.
  - unfold copy_grow.
    assert (G := grow_enough w (Z.of_nat (lb_used b)) (Z.of_nat (length data)) (Z.of_nat (length (lb_cells b)))
              ltac:(lia) ltac:(lia) Hs).
    set (cap := grow_capacity w (Z.of_nat (lb_used b)) (Z.of_nat (length data)) (Z.of_nat (length (lb_cells b)))) in *.
    clearbody cap.
    destruct (copy_into_ok (repeat 0 (Z.to_nat cap)) 0 (firstn (lb_used b) (lb_cells b)))
      as (b1 & E1 & W1 & C1 & L1 & U1).
    { rewrite repeat_length, firstn_length. lia. }
    rewrite E1. rewrite repeat_length in L1. rewrite firstn_length in U1.
    destruct (copy_into_ok (lb_cells b1) (lb_used b1) data) as (b2 & E2 & W2 & C2 & L2 & U2); [lia|].
    exists b2. split; [exact E2|]. split; [exact W2|].
    rewrite C2. fold (content b1). rewrite C1. reflexivity.
  - apply Nat.ltb_ge in E.
    destruct (copy_into_ok (lb_cells b) (lb_used b) data) as (b2 & E2 & W2 & C2 & L2 & U2); [lia|].
    exists b2. split; [exact E2|]. split; [exact W2|exact C2].
Qed.

(** ** One step of the iterator *)

(** What the scanner has gathered of the current line. *)
Definition gathered (st : lscan) : list Z := if l_in st then content (l_buf st) else [].
Definition wf_scan (st : lscan) : Prop :=
  wf_buf (l_buf st) /\ (l_in st = true -> content (l_buf st) <> []).

Section Loop.
Variable c : fcfg.
Hypothesis Hlf : lf_ok c.

Definition rest_text (it : liter) : list Z := skipn (i_pos it) (i_buf it) ++ concat (i_src it).
Definition wf_iter (it : liter) : Prop :=
  (i_pos it <= length (i_buf it))%nat /\ wf_buf (l_buf (i_scan it)) /\
  Forall (fun ch => ch <> []) (i_src it) /\ text (f_w c) (rest_text it).

Lemma text_app : forall w a b, text w (a ++ b) <-> text w a /\ text w b.
Proof. intros. apply Forall_app. Qed.

Lemma line_loop_spec : forall src last st buf pos,
  (pos <= length buf)%nat -> wf_scan st -> Forall (fun ch => ch <> []) src ->
  text (f_w c) (skipn pos buf ++ concat src) ->
  Z.of_nat (length (gathered st)) + Z.of_nat (length (skipn pos buf ++ concat src)) < 2 ^ 64 ->
  last = false ->
  let R := skipn pos buf ++ concat src in
  (exists l r it, R = l ++ 10 :: r /\ ~ In 10 l /\ line_loop c last st buf pos src = Line it /\
      read_line it = gathered st ++ l /\ rest_text it = r /\ i_last it = false /\ wf_iter it) \/
  (~ In 10 R /\ gathered st ++ R <> [] /\ exists it, line_loop c last st buf pos src = Line it /\
      read_line it = gathered st ++ R /\ rest_text it = [] /\ i_last it = true /\ wf_iter it) \/
  (gathered st ++ R = [] /\ exists it, line_loop c last st buf pos src = End it).
Proof.
  induction src as [|ch src IH]; intros last st buf pos Hpos Hst Hsrc Htext Hsize Hlast R; subst last.
  - (* no chunk left *)
    assert (Fin : forall st2, wf_scan st2 -> ~ In 10 R -> gathered st2 = gathered st ++ R ->
      forall X, X = match line_eof st2 with
                    | (st', pc_ok) => Line (mk_liter st' true [] 0 [])
                    | (st', _) => End (mk_liter st' false [] 0 [])
                    end ->
      (exists l r it, R = l ++ 10 :: r /\ ~ In 10 l /\ X = Line it /\
          read_line it = gathered st ++ l /\ rest_text it = r /\ i_last it = false /\ wf_iter it) \/
      (~ In 10 R /\ gathered st ++ R <> [] /\ exists it, X = Line it /\
          read_line it = gathered st ++ R /\ rest_text it = [] /\ i_last it = true /\ wf_iter it) \/
      (gathered st ++ R = [] /\ exists it, X = End it)).
    { intros st2 [W1 W2] HR HG X ->. rewrite <- HG. unfold line_eof. unfold gathered.
      destruct (l_in st2) eqn:Ein.
      - right. left. split; [exact HR|]. split; [apply W2; reflexivity|].
        eexists. split; [reflexivity|]. unfold read_line, rest_text, wf_iter.
        cbn [i_scan i_last i_buf i_pos i_src l_view l_buf]. repeat split; auto; constructor.
      - right. right. split; [reflexivity|]. eexists. reflexivity. }
    cbn [line_loop].
    destruct (Nat.eqb pos (length buf)) eqn:Ep.
    + apply Nat.eqb_eq in Ep.
      assert (ER : R = []) by (unfold R; rewrite skipn_all2 by lia; reflexivity).
      apply (Fin st Hst); [rewrite ER; intros []|rewrite ER, app_nil_r; reflexivity|reflexivity].
    + apply Nat.eqb_neq in Ep.
      assert (ER : R = skipn pos buf) by (unfold R; cbn [concat]; apply app_nil_r).
      fold R in Htext, Hsize. rewrite <- ER. unfold line_next.
      rewrite find_lf_skip by assumption.
      assert (LR : length R = (length buf - pos)%nat) by (rewrite ER; apply skipn_length).
      destruct (skip_not_lf R) as [(l & r & E1 & E2 & E3)|[E1 E2]].
      * rewrite E3. assert (LL : length R = (length l + S (length r))%nat) by (rewrite E1, app_length; reflexivity).
        replace (Nat.eqb (length l) (length R)) with false by (symmetry; apply Nat.eqb_neq; lia).
        left. exists l, r. unfold gathered in *. destruct (l_in st) eqn:Ein.
        -- destruct (copy_to_buffer_ok (f_w c) (l_buf st) (firstn (length l) R)) as (b' & B1 & B2 & B3).
           { apply Hst. } { destruct Hst as [W _]. rewrite content_length in Hsize by exact W.
             rewrite firstn_length. lia. }
           rewrite B1. eexists. split; [exact E1|]. split; [exact E2|]. split; [reflexivity|].
           unfold read_line, rest_text, wf_iter. cbn [i_scan i_last i_buf i_pos i_src l_view l_buf].
           fold (content b'). rewrite B3.
           replace (firstn (length l) R) with l by (rewrite E1, firstn_app, Nat.sub_diag; cbn [firstn]; rewrite app_nil_r, firstn_all; reflexivity).
           assert (Er : skipn (pos + S (length l)) buf = r).
           { rewrite Nat.add_comm, <- skipn_skipn, <- ER, E1.
             replace (l ++ 10 :: r) with ((l ++ [10]) ++ r) by (rewrite <- app_assoc; reflexivity).
             replace (S (length l)) with (length (l ++ [10])) by (rewrite app_length; cbn; lia).
             rewrite skipn_app, Nat.sub_diag, skipn_all. reflexivity. }
           cbn [concat]. rewrite app_nil_r, Er.
           rewrite E1 in Htext. apply text_app in Htext. destruct Htext as [_ Htext]. inversion Htext; subst.
           repeat split; auto; try lia.
           unfold rest_text; cbn [i_buf i_pos i_src concat]; rewrite app_nil_r; assumption.
        -- eexists. split; [exact E1|]. split; [exact E2|]. split; [reflexivity|].
           unfold read_line, rest_text, wf_iter. cbn [i_scan i_last i_buf i_pos i_src l_view l_buf].
           assert (Er : skipn (pos + S (length l)) buf = r).
           { rewrite Nat.add_comm, <- skipn_skipn, <- ER, E1.
             replace (l ++ 10 :: r) with ((l ++ [10]) ++ r) by (rewrite <- app_assoc; reflexivity).
             replace (S (length l)) with (length (l ++ [10])) by (rewrite app_length; cbn; lia).
             rewrite skipn_app, Nat.sub_diag, skipn_all. reflexivity. }
           cbn [concat app]. rewrite app_nil_r, Er.
           rewrite E1 in Htext. apply text_app in Htext. destruct Htext as [_ Htext]. inversion Htext; subst.
           replace (pos + length l - pos)%nat with (length l) by lia. rewrite <- ER, E1.
           rewrite firstn_app, Nat.sub_diag. cbn [firstn]. rewrite app_nil_r, firstn_all.
           repeat split; auto; try lia; try apply Hst.
           unfold rest_text; cbn [i_buf i_pos i_src concat]; rewrite app_nil_r; assumption.
      * rewrite E2, Nat.eqb_refl.
        set (b0 := if negb (l_in st) then mk_lbuf (lb_cells (l_buf st)) 0 else l_buf st).
        assert (W0 : wf_buf b0 /\ content b0 = gathered st).
        { unfold b0, gathered. destruct (l_in st); cbn [negb]; [split; [apply Hst|reflexivity]|].
          unfold wf_buf, content. cbn [lb_used firstn]. split; [lia|reflexivity]. }
        destruct W0 as [W0 C0]. clearbody b0.
        destruct (copy_to_buffer_ok (f_w c) b0 R) as (b' & B1 & B2 & B3).
        { exact W0. } { rewrite <- C0, content_length in Hsize by exact W0. exact Hsize. }
        rewrite B1. cbv iota beta.
        replace (Nat.eqb (pos + length R) (length buf)) with true by (symmetry; apply Nat.eqb_eq; lia).
        apply (Fin (mk_lscan b' (l_view st) true)).
        -- split; [exact B2|]. cbn [l_in l_buf]. intros _. rewrite B3. intros K.
           apply app_eq_nil in K. destruct K as [_ K]. rewrite K in LR. cbn in LR. lia.
        -- exact E1.
        -- unfold gathered at 1. cbn [l_in l_buf]. rewrite B3, C0. reflexivity.
        -- reflexivity.
  - (* a chunk to come *)
    inversion Hsrc as [|? ? Hch Hsrc']; subst.
    cbn [line_loop].
    destruct ch as [|x0 ch0]; [contradiction|]. set (ch := x0 :: ch0) in *.
    assert (Next : forall st2 P, wf_scan st2 -> gathered st2 = gathered st ++ P -> ~ In 10 P ->
      skipn pos buf = P ->
      (exists l r it, R = l ++ 10 :: r /\ ~ In 10 l /\ line_loop c false st2 ch 0 src = Line it /\
          read_line it = gathered st ++ l /\ rest_text it = r /\ i_last it = false /\ wf_iter it) \/
      (~ In 10 R /\ gathered st ++ R <> [] /\ exists it, line_loop c false st2 ch 0 src = Line it /\
          read_line it = gathered st ++ R /\ rest_text it = [] /\ i_last it = true /\ wf_iter it) \/
      (gathered st ++ R = [] /\ exists it, line_loop c false st2 ch 0 src = End it)).
    { intros st2 P W G NP EP.
      assert (ER : R = P ++ (ch ++ concat src)) by (unfold R; rewrite EP; reflexivity).
      specialize (IH false st2 ch 0%nat ltac:(lia) W Hsrc'). cbn [skipn] in IH.
      fold R in Htext, Hsize. rewrite ER in Htext, Hsize.
      apply text_app in Htext. destruct Htext as [_ Htext]. specialize (IH Htext).
      rewrite G, !app_length in IH. rewrite !app_length in Hsize. specialize (IH ltac:(lia) eq_refl).
      cbv zeta in IH. set (R' := ch ++ concat src) in *.
      destruct IH as [(l & r & it & I1 & I2 & I3 & I4 & I5 & I6 & I7)|[(I1 & I2 & it & I3 & I4 & I5 & I6 & I7)|(I1 & it & I3)]].
      - left. exists (P ++ l), r, it. rewrite ER, I1, <- app_assoc. split; [reflexivity|].
        split; [rewrite in_app_iff; tauto|]. split; [exact I3|]. split; [|auto].
        rewrite I4, <- app_assoc. reflexivity.
      - right. left. rewrite ER. split; [rewrite in_app_iff; tauto|].
        rewrite app_assoc. split; [exact I2|]. exists it. split; [exact I3|].
        split; [exact I4|]. auto.
      - exfalso. apply app_eq_nil in I1. destruct I1 as [_ I1]. unfold R', ch in I1. discriminate I1. }
    destruct (Nat.eqb pos (length buf)) eqn:Ep.
    + apply Nat.eqb_eq in Ep. apply (Next st []); [exact Hst|rewrite app_nil_r; reflexivity|intros []|].
      apply skipn_all2. lia.
    + apply Nat.eqb_neq in Ep. set (P := skipn pos buf) in *.
      assert (LP : length P = (length buf - pos)%nat) by (unfold P; apply skipn_length).
      assert (TP : text (f_w c) P) by (apply text_app in Htext; apply Htext).
      unfold line_next. rewrite find_lf_skip by assumption.
      assert (HsizeP : Z.of_nat (length (gathered st)) + Z.of_nat (length P) < 2 ^ 64).
      { rewrite app_length in Hsize. lia. }
      destruct (skip_not_lf P) as [(l & r & E1 & E2 & E3)|[E1 E2]].
      * rewrite E3. assert (LL : length P = (length l + S (length r))%nat) by (rewrite E1, app_length; reflexivity).
        replace (Nat.eqb (length l) (length P)) with false by (symmetry; apply Nat.eqb_neq; lia).
        assert (Er : skipn (pos + S (length l)) buf = r).
        { rewrite Nat.add_comm, <- skipn_skipn. fold P. rewrite E1.
          replace (l ++ 10 :: r) with ((l ++ [10]) ++ r) by (rewrite <- app_assoc; reflexivity).
          replace (S (length l)) with (length (l ++ [10])) by (rewrite app_length; cbn; lia).
          rewrite skipn_app, Nat.sub_diag, skipn_all. reflexivity. }
        assert (ER : R = l ++ 10 :: (r ++ concat (ch :: src))).
        { unfold R. rewrite E1, <- app_assoc. reflexivity. }
        assert (Htr : text (f_w c) (r ++ concat (ch :: src))).
        { fold R in Htext. rewrite ER in Htext. apply text_app in Htext. destruct Htext as [_ Htext].
          inversion Htext; subst. assumption. }
        left. exists l, (r ++ concat (ch :: src)). unfold gathered in *. destruct (l_in st) eqn:Ein.
        -- destruct (copy_to_buffer_ok (f_w c) (l_buf st) (firstn (length l) P)) as (b' & B1 & B2 & B3).
           { apply Hst. } { destruct Hst as [W _]. rewrite content_length in HsizeP by exact W.
             rewrite firstn_length. lia. }
           rewrite B1. eexists. split; [exact ER|]. split; [exact E2|]. split; [reflexivity|].
           unfold read_line, rest_text, wf_iter. cbn [i_scan i_last i_buf i_pos i_src l_view l_buf].
           fold (content b'). rewrite B3, Er.
           replace (firstn (length l) P) with l by (rewrite E1, firstn_app, Nat.sub_diag; cbn [firstn]; rewrite app_nil_r, firstn_all; reflexivity).
           repeat split; auto; try lia.
           unfold rest_text; cbn [i_buf i_pos i_src]; rewrite Er; assumption.
        -- eexists. split; [exact ER|]. split; [exact E2|]. split; [reflexivity|].
           unfold read_line, rest_text, wf_iter. cbn [i_scan i_last i_buf i_pos i_src l_view l_buf].
           rewrite Er.
           replace (pos + length l - pos)%nat with (length l) by lia. fold P. rewrite E1.
           rewrite firstn_app, Nat.sub_diag. cbn [firstn app]. rewrite app_nil_r, firstn_all.
           repeat split; auto; try lia; try apply Hst.
           unfold rest_text; cbn [i_buf i_pos i_src]; rewrite Er; assumption.
      * rewrite E2, Nat.eqb_refl.
        set (b0 := if negb (l_in st) then mk_lbuf (lb_cells (l_buf st)) 0 else l_buf st).
        assert (W0 : wf_buf b0 /\ content b0 = gathered st).
        { unfold b0, gathered. destruct (l_in st); cbn [negb]; [split; [apply Hst|reflexivity]|].
          unfold wf_buf, content. cbn [lb_used firstn]. split; [lia|reflexivity]. }
        destruct W0 as [W0 C0]. clearbody b0.
        destruct (copy_to_buffer_ok (f_w c) b0 P) as (b' & B1 & B2 & B3).
        { exact W0. } { rewrite <- C0, content_length in HsizeP by exact W0. exact HsizeP. }
        rewrite B1. cbv iota beta.
        replace (Nat.eqb (pos + length P) (length buf)) with true by (symmetry; apply Nat.eqb_eq; lia).
        apply (Next (mk_lscan b' (l_view st) true) P).
        -- split; [exact B2|]. cbn [l_in l_buf]. intros _. rewrite B3. intros K.
           apply app_eq_nil in K. destruct K as [_ K]. rewrite K in LP. cbn in LP. lia.
        -- unfold gathered at 1. cbn [l_in l_buf]. rewrite B3, C0. reflexivity.
        -- exact E1.
        -- reflexivity.
Qed.

Lemma line_incr_last : forall it, i_last it = true -> wf_iter it -> rest_text it = [] ->
  exists it', line_incr c it = End it'.
Proof.
  intros it Hl Hw Hr. destruct Hw as (Hp & _ & Hs & _). unfold rest_text in Hr.
  apply app_eq_nil in Hr. destruct Hr as [Hr1 Hr2]. unfold line_incr.
  assert (Hpos : i_pos it = length (i_buf it)).
  { assert (length (skipn (i_pos it) (i_buf it)) = 0%nat) by (rewrite Hr1; reflexivity).
    rewrite skipn_length in H. lia. }
  destruct (i_src it); cbn [line_loop]; rewrite Hpos, Nat.eqb_refl, Hl; eexists; reflexivity.
Qed.

Lemma lines_cons : forall l r ls, ~ In 10 l -> lines_of r ls -> lines_of (l ++ 10 :: r) (l :: ls).
Proof.
  intros l r ls Hl [H1 H2]. split; [constructor; assumption|].
  destruct H2 as [E|(front & last & E1 & E2 & E3)].
  - left. cbn [map concat]. rewrite <- app_assoc, E. reflexivity.
  - right. exists (l :: front), last. subst ls. split; [reflexivity|]. split; [exact E2|].
    cbn [map concat]. rewrite E3, <- !app_assoc. reflexivity.
Qed.

Lemma for_each_ok : forall fuel it, i_last it = false -> wf_iter it ->
  Z.of_nat (length (rest_text it)) < 2 ^ 64 ->
  (length (rest_text it) + 2 <= fuel)%nat ->
  exists ls, for_each_line c fuel it = Some ls /\ lines_of (rest_text it) ls.
Proof.
  induction fuel as [|fuel IH]; intros it Hl Hw Hs Hf; [lia|].
  cbn [for_each_line]. unfold line_incr. destruct Hw as (Hp & Hb & Hsrc & Ht).
  destruct (line_loop_spec (i_src it) (i_last it) (mk_lscan (l_buf (i_scan it)) (l_view (i_scan it)) false)
              (i_buf it) (i_pos it)) as [(l & r & it' & E1 & E2 & E3 & E4 & E5 & E6 & E7)|[(E1 & E2 & it' & E3 & E4 & E5 & E6 & E7)|(E1 & it' & E3)]];
    try assumption.
  - split; [exact Hb|]. cbn [l_in]. discriminate.
  - rewrite E3. fold (rest_text it) in E1.
    destruct (IH it' E6 E7) as (ls & F1 & F2).
    + rewrite E5. rewrite E1, app_length in Hs. cbn [length] in Hs. lia.
    + rewrite E5. rewrite E1, app_length in Hf. cbn [length] in Hf. lia.
    + rewrite F1. eexists. split; [reflexivity|]. rewrite E4, E1, E5 in *.
      apply lines_cons; assumption.
  - rewrite E3. fold (rest_text it) in *. cbn [gathered l_in app] in *.
    destruct (line_incr_last it' E6 E7 E5) as [it2 E8].
    destruct fuel as [|fuel]; [lia|]. cbn [for_each_line]. rewrite E8.
    eexists. split; [reflexivity|]. rewrite E4. split; [constructor; [exact E1|constructor]|].
    right. exists [], (rest_text it). repeat split; auto.
  - rewrite E3. eexists. split; [reflexivity|]. fold (rest_text it) in E1. cbn [gathered l_in app] in E1.
    rewrite E1. split; [constructor|]. left. reflexivity.
Qed.
End Loop.
