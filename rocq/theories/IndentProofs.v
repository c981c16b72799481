(** Proofs about IndentModel. *)
From Verif Require Import Base BufModel PrintModel BufSpec IndentModel IndentSpec.
Local Open Scope nat_scope.

Lemma split_cons : forall sep l, exists h t, split sep l = h :: t.
Proof.
  induction l as [|c l (h & t & E)]; cbn; [eauto|]. destruct (Z.eqb c sep); [eauto|]. rewrite E. eauto.
Qed.
Lemma join_cons : forall sep x xs, join sep (x :: xs) = x ++ concat (map (fun y => [sep] ++ y) xs).
Proof.
  intros sep x xs. revert x. induction xs as [|y xs IH]; intros x; [cbn; rewrite app_nil_r; reflexivity|].
  change (join sep (x :: y :: xs)) with (x ++ [sep] ++ join sep (y :: xs)). rewrite IH. cbn [map concat].
  rewrite <- !app_assoc. reflexivity.
Qed.

Lemma bump_length : forall cont pos n, length cont <= length (bump cont pos n).
Proof.
  intros cont pos n. unfold bump. destruct (Nat.ltb_spec pos (length cont)).
  - destruct (Nat.ltb (nth pos cont 0) n); [|lia]. rewrite app_length, firstn_length. cbn [length]. rewrite skipn_length. lia.
  - rewrite app_length. lia.
Qed.
Lemma bump_reach : forall cont pos n, pos <= length cont -> pos < length (bump cont pos n).
Proof.
  intros cont pos n H. pose proof (bump_length cont pos n). unfold bump in *.
  destruct (Nat.ltb_spec pos (length cont)).
  - destruct (Nat.ltb (nth pos cont 0) n); lia.
  - rewrite app_length. cbn. lia.
Qed.
Lemma nth_set : forall (l : list nat) pos x k, pos < length l ->
  nth k (firstn pos l ++ x :: skipn (S pos) l) 0 = if Nat.eqb k pos then x else nth k l 0.
Proof.
  induction l as [|a l IH]; intros pos x k H; [cbn in H; lia|].
  destruct pos as [|pos]; destruct k as [|k]; cbn [firstn skipn app nth Nat.eqb]; auto.
  apply IH. cbn in H. lia.
Qed.
Lemma bump_nth : forall cont pos n k, pos <= length cont ->
  nth k (bump cont pos n) 0 = if Nat.eqb k pos then Nat.max (nth k cont 0) n else nth k cont 0.
Proof.
  intros cont pos n k H. unfold bump. destruct (Nat.ltb_spec pos (length cont)) as [Hl|Hl].
  - destruct (Nat.ltb_spec (nth pos cont 0) n) as [Hn|Hn].
    + rewrite nth_set by exact Hl. destruct (Nat.eqb_spec k pos); [subst; lia | reflexivity].
    + destruct (Nat.eqb_spec k pos); [subst; lia | reflexivity].
  - assert (pos = length cont) by lia. subst pos.
    destruct (Nat.eqb_spec k (length cont)) as [-> | Hk].
    + rewrite app_nth2, Nat.sub_diag by lia. cbn. rewrite (nth_overflow cont) by lia. reflexivity.
    + destruct (Nat.lt_ge_cases k (length cont)).
      * rewrite app_nth1 by assumption. reflexivity.
      * rewrite (nth_overflow cont) by lia. apply nth_overflow. rewrite app_length. cbn. lia.
Qed.

(** The widths only grow. *)
Lemma calc_mono : forall l n pos lines cont cont' lines', pos <= length cont ->
  calc_loop l n pos lines cont = (cont', lines') ->
  length cont <= length cont' /\ (forall k, nth k cont 0 <= nth k cont' 0) /\ lines <= lines'.
Proof.
  induction l as [|c l IH]; intros n pos lines cont cont' lines' Hp E; cbn [calc_loop] in E.
  - destruct (Nat.eqb n 0); inversion E; subst.
    + repeat split; auto.
    + split; [apply bump_length|]. split; [|lia]. intros k. rewrite bump_nth by exact Hp.
      destruct (Nat.eqb k pos); lia.
  - destruct (orb (Z.eqb c tab_ch) (Z.eqb c lf_ch)).
    + pose proof (bump_length cont pos n) as Hb. pose proof (bump_reach cont pos n Hp) as Hr.
      assert (Hm : forall k, nth k cont 0 <= nth k (bump cont pos n) 0).
      { intros k. rewrite bump_nth by exact Hp. destruct (Nat.eqb k pos); lia. }
      destruct (Z.eqb c lf_ch).
      * destruct (IH _ _ _ _ _ _ (Nat.le_0_l _) E) as (A & B & C). split; [lia|]. split; [|lia].
        intros k. specialize (B k). specialize (Hm k). lia.
      * assert (Hp' : pos + 1 <= length (bump cont pos n)) by lia.
        destruct (IH _ _ _ _ _ _ Hp' E) as (A & B & C). split; [lia|]. split; [|lia].
        intros k. specialize (B k). specialize (Hm k). lia.
    + destruct (IH _ _ _ _ _ _ Hp E) as (A & B & C). auto.
Qed.

(** ** What is printed *)
Definition addhead (cell : list Z) (cells : list (list Z)) : list (list Z) :=
  match cells with c :: r => (cell ++ c) :: r | [] => [cell] end.
Definition render (w : nat -> nat) (pos : nat) (cells : list (list Z)) : list Z := join 9 (aligned_line w pos cells).
Definition render_all (w : nat -> nat) (pos : nat) (cell : list Z) (lines : list (list Z)) : list Z :=
  match lines with
  | [] => []
  | h :: t => render w pos (addhead cell (split 9 h)) ++
              concat (map (fun ln => [10%Z] ++ render w 0 (split 9 ln)) t)
  end.
Lemma render_one : forall w pos c, render w pos [c] = c.
Proof. reflexivity. Qed.
Lemma render_cons : forall w pos c d cells,
  render w pos (c :: d :: cells) = c ++ repeat 32%Z (w pos - length c) ++ [9%Z] ++ render w (S pos) (d :: cells).
Proof.
  intros. unfold render.
  change (aligned_line w pos (c :: d :: cells)) with ((c ++ repeat 32%Z (w pos - length c)) :: aligned_line w (S pos) (d :: cells)).
  destruct (aligned_line w (S pos) (d :: cells)) as [|x xs] eqn:E.
  - destruct cells; discriminate E.
  - cbn [join]. rewrite <- app_assoc. reflexivity.
Qed.
Lemma addhead_nil : forall cells, cells <> [] -> addhead [] cells = cells.
Proof. intros [|c r] H; [congruence | reflexivity]. Qed.

Definition prefix (cont : list nat) (pos : nat) : nat := fold_right (fun w s => w + 1 + s) 0 (firstn pos cont).
Lemma prefix_S : forall cont pos, pos < length cont -> prefix cont (pos + 1) = prefix cont pos + nth pos cont 0 + 1.
Proof.
  unfold prefix. induction cont as [|a cont IH]; intros pos H; [cbn in H; lia|].
  destruct pos as [|pos]; cbn [firstn fold_right nth Nat.add]; [cbn; lia|].
  rewrite IH by (cbn in H; lia). lia.
Qed.
Lemma prefix_mono : forall cont pos, prefix cont pos <= prefix cont (length cont).
Proof.
  unfold prefix. induction cont as [|a cont IH]; intros pos; [destruct pos; cbn; lia|].
  destruct pos as [|pos]; cbn [firstn fold_right length]; [lia|]. specialize (IH pos). lia.
Qed.
Definition ends_with_tab (l : list Z) : Prop := exists p, l = p ++ [tab_ch].

Lemma loop_main : forall l cell pos lines cont cont' lines', pos <= length cont ->
  calc_loop l (length cell) pos lines cont = (cont', lines') ->
  exists out, indent_loop cont' l cell pos = Some out /\
    out = render_all (fun k => nth k cont' 0) pos cell (split 10 l) /\
    (~ ends_with_tab l -> (l = [] -> cell <> [] \/ pos = 0) ->
     length out + prefix cont' pos <= (lines' - lines) * (1 + prefix cont' (length cont'))).
Proof.
  induction l as [|c l IH]; intros cell pos lines cont cont' lines' Hp E.
  - cbn [indent_loop split render_all addhead map concat]. exists cell. split; [reflexivity|]. split.
    + cbn. rewrite !app_nil_r. reflexivity.
    + intros _ He. cbn [calc_loop] in E. destruct (Nat.eqb_spec (length cell) 0) as [H0|H0].
      * inversion E; subst. destruct cell; [|cbn in H0; lia]. destruct (He eq_refl) as [H|H]; [congruence|]. subst pos.
        cbn. lia.
      * inversion E; subst. pose proof (bump_reach cont pos (length cell) Hp) as Hr.
        replace (lines + 1 - lines) with 1 by lia.
        pose proof (prefix_S (bump cont pos (length cell)) pos Hr) as Hs.
        pose proof (prefix_mono (bump cont pos (length cell)) (pos + 1)) as Hm.
        rewrite (bump_nth cont pos (length cell) pos Hp), Nat.eqb_refl in Hs. lia.
  - cbn [calc_loop] in E. cbn [indent_loop split].
    destruct (Z.eqb_spec c tab_ch) as [Ht|Ht].
    + subst c. cbn [orb] in E. change (Z.eqb tab_ch lf_ch) with false in E. cbn [orb] in E. cbv iota in E.
      change (Z.eqb tab_ch 10) with false. cbv iota.
      pose proof (bump_reach cont pos (length cell) Hp) as Hr.
      assert (Hp' : pos + 1 <= length (bump cont pos (length cell))) by lia.
      destruct (calc_mono _ _ _ _ _ _ _ Hp' E) as (A & B & _).
      destruct (IH [] _ _ _ _ _ Hp' E) as (out & E1 & E2 & E3).
      assert (Hw : length cell <= nth pos cont' 0).
      { specialize (B pos). rewrite (bump_nth cont pos _ pos Hp), Nat.eqb_refl in B. lia. }
      assert (Hl : pos < length cont') by lia.
      rewrite (nth_error_nth' cont' 0 Hl).
      destruct (Nat.ltb_spec (nth pos cont' 0) (length cell)); [lia|].
      rewrite E1. cbn [bindo]. eexists. split; [reflexivity|].
      destruct (split_cons 10 l) as (h & t & Es). rewrite Es in *.
      destruct (split_cons 9 h) as (d & ds & Ed).
      split.
      * rewrite E2. cbn [render_all split]. change (Z.eqb tab_ch 9) with true. cbv iota. rewrite Ed.
        cbn [addhead app]. rewrite app_nil_r, render_cons. rewrite Nat.add_1_r.
        rewrite <- !app_assoc. reflexivity.
      * intros Hne He. rewrite !app_length, repeat_length. cbn [length].
        assert (Hne' : ~ ends_with_tab l).
        { intros [p Hl']. apply Hne. exists (tab_ch :: p). rewrite Hl'. reflexivity. }
        assert (Hl0 : l <> []).
        { intros ->. apply Hne. exists []. reflexivity. }
        specialize (E3 Hne' (fun H => False_ind _ (Hl0 H))).
        rewrite (prefix_S cont' pos Hl) in E3. lia.
    + destruct (Z.eqb_spec c lf_ch) as [Hn|Hn].
      * subst c. cbn [orb] in E. cbv iota in E. change (Z.eqb lf_ch 10) with true. cbv iota.
        pose proof (bump_reach cont pos (length cell) Hp) as Hr.
        destruct (calc_mono _ _ _ _ _ _ _ (Nat.le_0_l _) E) as (A & B & C).
        destruct (IH [] _ _ _ _ _ (Nat.le_0_l _) E) as (out & E1 & E2 & E3).
        rewrite E1. cbn [bindo]. eexists. split; [reflexivity|].
        destruct (split_cons 10 l) as (h & t & Es). rewrite Es in *.
        destruct (split_cons 9 h) as (d & ds & Ed).
        split.
        -- rewrite E2. cbn [render_all split addhead map concat]. rewrite Ed. cbn [addhead app].
           rewrite app_nil_r, render_one. reflexivity.
        -- intros Hne He. rewrite !app_length. cbn [length].
           assert (Hne' : ~ ends_with_tab l).
           { intros [p Hl']. apply Hne. exists (lf_ch :: p). rewrite Hl'. reflexivity. }
           specialize (E3 Hne' (fun _ => or_intror eq_refl)).
           assert (Hw : length cell <= nth pos cont' 0).
           { specialize (B pos). rewrite (bump_nth cont pos _ pos Hp), Nat.eqb_refl in B. lia. }
           assert (Hl : pos < length cont') by lia.
           pose proof (prefix_S cont' pos Hl) as Hs. pose proof (prefix_mono cont' (pos + 1)) as Hm.
           change (prefix cont' 0) with 0 in E3.
           replace (lines' - lines) with (S (lines' - (lines + 1))) by lia. cbn [Nat.mul]. lia.
      * cbn [orb] in E. cbv iota in E.
        replace (length cell + 1) with (length (cell ++ [c])) in E by (rewrite app_length; reflexivity).
        destruct (IH _ _ _ _ _ _ Hp E) as (out & E1 & E2 & E3).
        exists out. split; [exact E1|].
        assert (E10 : Z.eqb c 10 = false) by (apply Z.eqb_neq; exact Hn).
        assert (E9 : Z.eqb c 9 = false) by (apply Z.eqb_neq; exact Ht).
        rewrite E10.
        destruct (split_cons 10 l) as (h & t & Es). rewrite Es in *.
        destruct (split_cons 9 h) as (d & ds & Ed).
        split.
        -- rewrite E2. cbn [render_all split]. rewrite E9, Ed. cbn [addhead]. rewrite <- app_assoc. reflexivity.
        -- intros Hne He. apply E3.
           ++ intros [p Hl']. apply Hne. exists (c :: p). rewrite Hl'. reflexivity.
           ++ intros _. left. destruct cell; discriminate.
Qed.

(** ** The widths *)
Definition lens (n : nat) (cells : list (list Z)) : list nat :=
  match map (@length Z) cells with a :: r => (n + a) :: r | [] => [n] end.
Definition at_col (pos : nat) (ws : list nat) (k : nat) : nat := if Nat.ltb k pos then 0 else nth (k - pos) ws 0.
Definition colmax (k : nat) (t : list (list Z)) : nat :=
  fold_right (fun ln m => Nat.max (length (nth k (split 9 ln) [])) m) 0 t.
Lemma at_col_cons : forall pos n ws k, at_col pos (n :: ws) k = Nat.max (if Nat.eqb k pos then n else 0) (at_col (pos + 1) ws k).
Proof.
  intros pos n ws k. unfold at_col. destruct (Nat.eqb_spec k pos) as [-> | H].
  - rewrite Nat.ltb_irrefl, Nat.sub_diag. cbn [nth]. destruct (Nat.ltb_spec pos (pos + 1)); lia.
  - destruct (Nat.ltb_spec k pos); destruct (Nat.ltb_spec k (pos + 1)); try lia.
    replace (k - pos) with (S (k - (pos + 1))) by lia. cbn [nth]. lia.
Qed.
Lemma at_col_0 : forall cells k, at_col 0 (map (@length Z) cells) k = length (nth k cells []).
Proof. intros cells k. unfold at_col. cbn [Nat.ltb Nat.leb]. rewrite Nat.sub_0_r. exact (map_nth (@length Z) cells [] k). Qed.
Lemma lens_0 : forall cells, cells <> [] -> lens 0 cells = map (@length Z) cells.
Proof. intros [|c r] H; [congruence | reflexivity]. Qed.

Lemma calc_widths : forall l n pos lines cont cont' lines', pos <= length cont ->
  calc_loop l n pos lines cont = (cont', lines') ->
  forall h t k, split 10 l = h :: t ->
  nth k cont' 0 = Nat.max (nth k cont 0) (Nat.max (at_col pos (lens n (split 9 h)) k) (colmax k t)).
Proof.
  induction l as [|c l IH]; intros n pos lines cont cont' lines' Hp E h t k Es.
  - cbn in Es. inversion Es; subst. cbn [split lens map length colmax fold_right]. rewrite Nat.add_0_r.
    rewrite at_col_cons. assert (Hz : at_col (pos + 1) [] k = 0).
    { unfold at_col. destruct (Nat.ltb k (pos + 1)); [reflexivity|]. destruct (k - (pos + 1)); reflexivity. }
    rewrite Hz. cbn [calc_loop] in E. destruct (Nat.eqb_spec n 0) as [H0|H0].
    + inversion E; subst. destruct (Nat.eqb k pos); lia.
    + inversion E; subst. rewrite bump_nth by exact Hp. destruct (Nat.eqb k pos); lia.
  - cbn [calc_loop] in E. cbn [split] in Es. destruct (split_cons 10 l) as (h1 & t1 & E1).
    destruct (split_cons 9 h1) as (d & ds & Ed).
    destruct (Z.eqb_spec c tab_ch) as [Ht|Ht].
    + subst c. cbn [orb] in E. change (Z.eqb tab_ch lf_ch) with false in E. cbv iota in E.
      change (Z.eqb tab_ch 10) with false in Es. cbv iota in Es. rewrite E1 in Es. inversion Es; subst.
      pose proof (bump_reach cont pos n Hp) as Hr.
      assert (Hp' : pos + 1 <= length (bump cont pos n)) by lia.
      rewrite (IH _ _ _ _ _ _ Hp' E h1 t k E1). rewrite bump_nth by exact Hp.
      cbn [split]. change (Z.eqb tab_ch 9) with true. cbv iota. rewrite Ed.
      unfold lens. cbn [map length]. rewrite Nat.add_0_r, (at_col_cons pos n (length d :: map (length (A:=Z)) ds)). cbn [Nat.add].
      destruct (Nat.eqb k pos); lia.
    + destruct (Z.eqb_spec c lf_ch) as [Hn|Hn].
      * subst c. cbn [orb] in E. cbv iota in E. change (Z.eqb lf_ch 10) with true in Es. cbv iota in Es.
        rewrite E1 in Es. inversion Es; subst.
        rewrite (IH _ _ _ _ _ _ (Nat.le_0_l _) E h1 t1 k E1). rewrite bump_nth by exact Hp.
        cbn [split]. unfold lens at 2. cbn [map length]. rewrite Nat.add_0_r, at_col_cons.
        assert (Hz : at_col (pos + 1) [] k = 0).
        { unfold at_col. destruct (Nat.ltb k (pos + 1)); [reflexivity|]. destruct (k - (pos + 1)); reflexivity. }
        rewrite Hz. rewrite lens_0, at_col_0 by (rewrite Ed; discriminate).
        cbn [colmax fold_right]. fold (colmax k t1). destruct (Nat.eqb k pos); lia.
      * cbn [orb] in E. cbv iota in E.
        assert (E10 : Z.eqb c 10 = false) by (apply Z.eqb_neq; exact Hn).
        assert (E9 : Z.eqb c 9 = false) by (apply Z.eqb_neq; exact Ht).
        rewrite E10, E1 in Es. inversion Es; subst.
        rewrite (IH _ _ _ _ _ _ Hp E h1 t k E1). cbn [split]. rewrite E9, Ed.
        unfold lens. cbn [map length]. replace (n + 1 + length d) with (n + S (length d)) by lia. reflexivity.
Qed.

Lemma calc_width : forall text cont lines, calc_loop text 0 0 0 [] = (cont, lines) ->
  forall k, nth k cont 0 = width text k.
Proof.
  intros text cont lines E k. destruct (split_cons 10 text) as (h & t & Es).
  rewrite (calc_widths text 0 0 0 [] cont lines (le_n 0) E h t k Es).
  destruct (split_cons 9 h) as (d & ds & Ed).
  rewrite lens_0, at_col_0 by (rewrite Ed; discriminate).
  unfold width, table. rewrite Es. cbn [map fold_right].
  assert (Hc : colmax k t = fold_right (fun cells m => Nat.max (length (nth k cells [])) m) 0 (map (split 9) t)).
  { unfold colmax. clear. induction t as [|x t IH]; cbn [fold_right map]; [reflexivity|]. rewrite IH. reflexivity. }
  rewrite Hc. destruct k; cbn [nth]; lia.
Qed.
Lemma render_ext : forall w w' cells pos, (forall k, w k = w' k) -> render w pos cells = render w' pos cells.
Proof.
  intros w w' cells. induction cells as [|c cells IH]; intros pos H; [reflexivity|].
  destruct cells as [|d cells]; [reflexivity|]. rewrite !render_cons, H. rewrite IH by exact H. reflexivity.
Qed.
Lemma render_all_aligned : forall text w, (forall k, w k = width text k) ->
  render_all w 0 [] (split 10 text) = aligned text.
Proof.
  intros text w H. unfold aligned, table. destruct (split_cons 10 text) as (h & t & Es). rewrite Es.
  cbn [render_all map]. rewrite join_cons. destruct (split_cons 9 h) as (d & ds & Ed).
  rewrite addhead_nil by (rewrite Ed; discriminate).
  f_equal; [apply render_ext; exact H|]. rewrite !map_map. f_equal. apply map_ext. intros ln.
  f_equal. apply render_ext. exact H.
Qed.

(** ** Alignment *)
Definition free (sep : Z) (l : list Z) : Prop := ~ In sep l.
Lemma split_free : forall sep l, Forall (free sep) (split sep l).
Proof.
  intros sep l. induction l as [|c l IH]; cbn [split].
  - constructor; [intros []|constructor].
  - destruct (Z.eqb_spec c sep).
    + constructor; [intros [] | exact IH].
    + destruct (split sep l) as [|h t]; [constructor; [|constructor]; intros [H|[]]; congruence|].
      inversion IH; subst. constructor; [|assumption]. intros [H|H]; [congruence | contradiction].
Qed.
Lemma split_sub : forall sep l p x, In p (split sep l) -> In x p -> In x l.
Proof.
  intros sep l. induction l as [|c l IH]; intros p x Hp Hx; cbn [split] in Hp.
  - destruct Hp as [<-|[]]. exact Hx.
  - destruct (Z.eqb c sep).
    + destruct Hp as [<-|Hp]; [destruct Hx|]. right. eapply IH; eauto.
    + destruct (split sep l) as [|h t].
      * destruct Hp as [<-|[]]. destruct Hx as [<-|[]]. left. reflexivity.
      * destruct Hp as [<-|Hp].
        -- destruct Hx as [<-|Hx]; [left; reflexivity|]. right. apply (IH h); [left; reflexivity | exact Hx].
        -- right. apply (IH p); [right; exact Hp | exact Hx].
Qed.
Lemma split_free_app : forall sep x l, free sep x -> split sep (x ++ [sep] ++ l) = x :: split sep l.
Proof.
  intros sep x l. induction x as [|c x IH]; intros H.
  - cbn [app split]. rewrite Z.eqb_refl. reflexivity.
  - change ((c :: x) ++ [sep] ++ l) with (c :: (x ++ [sep] ++ l)). cbn [split]. destruct (Z.eqb_spec c sep) as [->|Hc]; [exfalso; apply H; left; reflexivity|].
    rewrite IH by (intros Hi; apply H; right; exact Hi). reflexivity.
Qed.
Lemma split_free_one : forall sep x, free sep x -> split sep x = [x].
Proof.
  intros sep x. induction x as [|c x IH]; intros H; cbn [split]; [reflexivity|].
  destruct (Z.eqb_spec c sep) as [->|Hc]; [exfalso; apply H; left; reflexivity|].
  rewrite IH by (intros Hi; apply H; right; exact Hi). reflexivity.
Qed.
Lemma split_join : forall sep ls, ls <> [] -> Forall (free sep) ls -> split sep (join sep ls) = ls.
Proof.
  intros sep ls. induction ls as [|x ls IH]; intros Hn Hf; [congruence|]. inversion Hf as [|? ? Hx Hl]; subst.
  destruct ls as [|y ls]; [apply split_free_one; exact Hx|].
  change (join sep (x :: y :: ls)) with (x ++ [sep] ++ join sep (y :: ls)).
  rewrite split_free_app by exact Hx. f_equal. apply IH; [discriminate | exact Hl].
Qed.
(** Where the tabs are. *)
Fixpoint column (w : nat -> nat) (pos k : nat) : nat :=
  match k with O => w pos | S k => w pos + 1 + column w (S pos) k end.
Lemma tabs_free : forall x i rest, free 9 x -> tabs_at i (x ++ rest) = tabs_at (i + length x) rest.
Proof.
  induction x as [|c x IH]; intros i rest H; cbn [app tabs_at length]; [f_equal; lia|].
  destruct (Z.eqb_spec c 9) as [->|Hc]; [exfalso; apply H; left; reflexivity|].
  rewrite IH by (intros Hi; apply H; right; exact Hi). f_equal. lia.
Qed.
Lemma free_spaces : forall sep n, sep <> 32%Z -> free sep (repeat 32%Z n).
Proof. intros sep n H Hi. apply repeat_spec in Hi. congruence. Qed.
Lemma tabs_render : forall w cells pos i k p,
  Forall (free 9) cells -> (forall j c, nth_error cells j = Some c -> length c <= w (pos + j)) ->
  nth_error (tabs_at i (render w pos cells)) k = Some p -> p = i + column w pos k.
Proof.
  intros w. induction cells as [|c cells IH]; intros pos i k p Hf Hw Hk.
  - cbn in Hk. destruct k; discriminate Hk.
  - inversion Hf as [|? ? Hc Hcs]; subst. destruct cells as [|d cells].
    + rewrite render_one in Hk. rewrite <- (app_nil_r c), tabs_free in Hk by exact Hc. cbn in Hk. destruct k; discriminate Hk.
    + rewrite render_cons in Hk. rewrite tabs_free in Hk by exact Hc.
      rewrite tabs_free in Hk by (apply free_spaces; lia). rewrite repeat_length in Hk.
      pose proof (Hw 0 c eq_refl) as Hl. rewrite Nat.add_0_r in Hl.
      replace (i + length c + (w pos - length c)) with (i + w pos) in Hk by lia.
      cbn [app tabs_at] in Hk. change (Z.eqb 9 9) with true in Hk. cbv iota in Hk.
      destruct k as [|k]; cbn [nth_error column] in *.
      * congruence.
      * rewrite (IH (S pos) (S (i + w pos)) k p Hcs) ; [lia | | exact Hk].
        intros j e He. specialize (Hw (S j) e He). replace (S pos + j) with (pos + S j) by lia. exact Hw.
Qed.
Lemma render_free : forall w sep cells pos, sep <> 32%Z -> sep <> 9%Z -> Forall (free sep) cells -> free sep (render w pos cells).
Proof.
  intros w sep. induction cells as [|c cells IH]; intros pos H1 H2 Hf Hi; [destruct Hi|].
  inversion Hf as [|? ? Hc Hcs]; subst. destruct cells as [|d cells].
  - rewrite render_one in Hi. contradiction.
  - rewrite render_cons in Hi. rewrite !in_app_iff in Hi.
    destruct Hi as [Hi|[Hi|[[Hi|[]]|Hi]]]; [contradiction | exact (free_spaces sep _ H1 Hi) | congruence |].
    exact (IH (S pos) H1 H2 Hcs Hi).
Qed.
Lemma width_ge : forall text cells j c, In cells (table text) -> nth_error cells j = Some c -> length c <= width text j.
Proof.
  intros text cells j c Hi Hj. unfold width. induction (table text) as [|x t IH]; [destruct Hi|].
  cbn [fold_right]. destruct Hi as [->|Hi].
  - rewrite (nth_error_nth _ _ [] Hj). lia.
  - specialize (IH Hi). lia.
Qed.
Lemma aligned_lines : forall text, split 10 (aligned text) = map (render (width text) 0) (table text).
Proof.
  intros text. unfold aligned. fold (render (width text) 0). apply split_join.
  - unfold table. destruct (split_cons 10 text) as (h & t & Es). rewrite Es. discriminate.
  - apply Forall_forall. intros x Hx. apply in_map_iff in Hx. destruct Hx as (cells & <- & Hi).
    apply render_free; try lia. unfold table in Hi. apply in_map_iff in Hi. destruct Hi as (ln & <- & Hl).
    apply Forall_forall. intros p Hp Hin. pose proof (split_free 10 text) as Hf. rewrite Forall_forall in Hf.
    apply (Hf ln Hl). exact (split_sub 9 ln p 10%Z Hp Hin).
Qed.
Lemma aligned_tabs : forall text ln k p, In ln (split 10 (aligned text)) -> nth_error (tabs_at 0 ln) k = Some p ->
  p = column (width text) 0 k.
Proof.
  intros text ln k p Hi Hk. rewrite aligned_lines in Hi. apply in_map_iff in Hi. destruct Hi as (cells & <- & Hc).
  apply (tabs_render (width text) cells 0 0 k p); [| |exact Hk].
  - unfold table in Hc. apply in_map_iff in Hc. destruct Hc as (l & <- & _). apply split_free.
  - intros j c Hj. exact (width_ge text cells j c Hc Hj).
Qed.

(** ** The size *)
Lemma total_prefix : forall cont acc t, total_width acc cont = Some t ->
  t = (acc + Z.of_nat (prefix cont (length cont)))%Z.
Proof.
  unfold prefix. induction cont as [|e cont IH]; intros acc t H; cbn [total_width] in H.
  - inversion H; subst. cbn. lia.
  - unfold checked in H. destruct (Z.ltb (acc + Z.of_nat e) (2 ^ 64)); [|discriminate H]. cbn [bindo] in H.
    destruct (Z.ltb (acc + Z.of_nat e + 1) (2 ^ 64)); [|discriminate H]. cbn [bindo] in H.
    apply IH in H. cbn [length firstn fold_right]. lia.
Qed.
Lemma calc_total_ok : forall cont lines, (forall x, In x [1 + prefix cont (length cont); (1 + prefix cont (length cont)) * lines] ->
   (Z.of_nat x < 2 ^ 64)%Z) ->
  exists t, total_width 1 cont = Some t /\ checked (t * Z.of_nat lines) = Some (t * Z.of_nat lines)%Z.
Proof.
  intros cont lines H.
  assert (Ht : forall c acc, (acc + Z.of_nat (prefix c (length c)) < 2 ^ 64)%Z ->
            exists t, total_width acc c = Some t).
  { unfold prefix. induction c as [|e c IH]; intros acc Hb; cbn [total_width]; [eauto|].
    cbn [length firstn fold_right] in Hb. unfold checked.
    destruct (Z.ltb_spec (acc + Z.of_nat e) (2 ^ 64)); [|lia]. cbn [bindo].
    destruct (Z.ltb_spec (acc + Z.of_nat e + 1) (2 ^ 64)); [|lia]. cbn [bindo]. apply IH. lia. }
  pose proof (H (1 + prefix cont (length cont)) (or_introl eq_refl)) as H1.
  pose proof (H ((1 + prefix cont (length cont)) * lines) (or_intror (or_introl eq_refl))) as H2.
  destruct (Ht cont 1%Z) as [t Et]; [lia|]. exists t. split; [exact Et|].
  apply total_prefix in Et. unfold checked. destruct (Z.ltb_spec (t * Z.of_nat lines) (2 ^ 64)); [reflexivity | lia].
Qed.
Definition sumw (cont : list nat) : nat := fold_right (fun w s => w + 1 + s) 0 cont.
Lemma sumw_prefix : forall cont, prefix cont (length cont) = sumw cont.
Proof. intros cont. unfold prefix, sumw. rewrite firstn_all. reflexivity. Qed.
Lemma sumw_app : forall a b, sumw (a ++ b) = sumw a + sumw b.
Proof. unfold sumw. induction a as [|x a IH]; intros b; cbn [app fold_right]; [reflexivity|]. rewrite IH. lia. Qed.
Lemma bump_sum : forall cont pos n, sumw (bump cont pos n) <= sumw cont + n + 1.
Proof.
  intros cont pos n. unfold bump. destruct (Nat.ltb_spec pos (length cont)) as [H|H].
  - destruct (Nat.ltb (nth pos cont 0) n); [|lia].
    rewrite sumw_app. cbn [sumw fold_right]. fold (sumw (skipn (S pos) cont)).
    assert (E : sumw cont = sumw (firstn pos cont) + sumw (skipn pos cont)) by (rewrite <- sumw_app, firstn_skipn; reflexivity).
    assert (E2 : sumw (skipn (S pos) cont) <= sumw (skipn pos cont)).
    { clear. revert pos. induction cont as [|a c IH]; intros pos; [destruct pos; cbn; lia|].
      destruct pos as [|pos]; [cbn [skipn sumw fold_right]; fold (sumw c); lia|]. cbn [skipn]. apply IH. }
    lia.
  - rewrite sumw_app. cbn. lia.
Qed.
Lemma calc_sum : forall l n pos lines cont cont' lines', calc_loop l n pos lines cont = (cont', lines') ->
  sumw cont' <= sumw cont + n + length l + 1 /\ lines' <= lines + length l + 1.
Proof.
  induction l as [|c l IH]; intros n pos lines cont cont' lines' E; cbn [calc_loop] in E.
  - destruct (Nat.eqb n 0); inversion E; subst; cbn [length]; [lia|]. pose proof (bump_sum cont pos n). lia.
  - cbn [length]. pose proof (bump_sum cont pos n) as Hb. destruct (orb _ _).
    + destruct (Z.eqb c lf_ch); apply IH in E; lia.
    + apply IH in E. lia.
Qed.
