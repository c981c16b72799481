(** Proofs about HttpModel: headers made of lines, the first line, the line generator. *)
From Coq Require Import List Bool PeanoNat Lia.
From Verif Require Import Base HttpModel HttpSpec HttpProofs.
Import ListNotations.
Local Open Scope nat_scope.

Lemma none_of : forall ch s, ~ In ch s -> Forall (fun c => (c =? ch)%Z = false) s.
Proof. intros ch s H. apply Forall_forall. intros c Hc. apply Z.eqb_neq. intros ->. contradiction. Qed.
Lemma all_blanks : forall n, Forall (fun c => (c =? sp)%Z = true) (blanks n).
Proof. intro n. apply Forall_forall. intros c Hc. apply repeat_spec in Hc. subst c. reflexivity. Qed.

Lemma mach_lines : forall ls rest, Forall line_ok ls ->
  mach false 2 (concat (map (fun l => l ++ crlf) ls) ++ crlf ++ rest) = Done rest.
Proof.
  intros ls rest F. induction F as [| l ls [Hn Hl] F IH]; [reflexivity |].
  cbn [map concat]. rewrite <- !app_assoc. destruct l as [| c l]; [congruence |].
  assert (Hc : (c =? 13)%Z = false) by (apply Z.eqb_neq; intros ->; apply Hl; left; reflexivity).
  cbn [app mach]. rewrite Hc. rewrite mach_skip; [destruct l; exact IH |]. apply none_of. intro H. apply Hl. right. exact H.
Qed.
Lemma mach_header : forall ls rest, ls <> [] -> Forall line_ok ls -> mach false 0 (lines_text ls ++ rest) = Done rest.
Proof.
  intros ls rest Hn F. unfold lines_text. destruct F as [| l ls [Hl Hc] F]; [congruence |]. cbn [map concat]. rewrite <- !app_assoc.
  rewrite mach_skip by (apply none_of; exact Hc). destruct l; [congruence |]. exact (mach_lines ls rest F).
Qed.

Lemma determine_header : forall b l more, start_ok l -> stored b = start_text l ++ crlf ++ more ->
  exists b', determine b = (Ok, b') /\ stored b' = stored b /\ request b' = part1 l /\ code_ b' = part2 l /\ reason b' = part3 l
    /\ reason_end b' = length (start_text l).
Proof.
  intros b l more [[H1 [H1s _]] [[H2 [H2s _]] [[H3b [H3c _]] [Hg1 Hg2]]]] Es.
  unfold determine. rewrite Es.
  assert (E0 : exists c s, start_text l ++ crlf ++ more = c :: s /\ (c =? sp)%Z = false).
  { unfold start_text. destruct (part1 l) as [| c s] eqn:Ep; [congruence |]. exists c. eexists. split; [reflexivity |].
    apply Z.eqb_neq. intros ->. apply H1s. left. reflexivity. }
  destruct E0 as [c [s [E0 Ec]]]. rewrite E0, Ec, <- E0. clear c s E0 Ec.
  unfold start_text at 1. rewrite <- !app_assoc.
  destruct (gap1 l) as [| n1] eqn:Eg1; [lia |]. destruct (gap2 l) as [| n2] eqn:Eg2; [lia |].
  rewrite find_ch_app; [| apply none_of; exact H1s | reflexivity].
  change (blanks (S n1) ++ ?x) with (sp :: (blanks n1 ++ x)). cbv iota beta.
  rewrite find_ch_app; [| apply all_blanks | destruct (part2 l) as [| c s]; [congruence |]; apply Z.eqb_neq; intros ->; apply H2s; left; reflexivity].
  destruct (part2 l ++ blanks (S n2) ++ part3 l ++ crlf ++ more) as [| x2 r2] eqn:E2; [destruct (part2 l); [congruence | discriminate] |]. rewrite <- E2. clear x2 r2 E2.
  rewrite find_ch_app; [| apply none_of; exact H2s | reflexivity].
  destruct (blanks (S n2) ++ part3 l ++ crlf ++ more) as [| x3 r3] eqn:E3; [discriminate |]. rewrite <- E3. clear x3 r3 E3.
  rewrite find_ch_app; [| apply all_blanks |].
  2:{ destruct (part3 l) as [| c s]; [reflexivity |]. cbn. apply Z.eqb_neq. exact H3b. }
  destruct (part3 l ++ crlf ++ more) as [| x4 r4] eqn:E4; [destruct (part3 l); discriminate |]. rewrite <- E4. clear x4 r4 E4.
  rewrite find_ch_app; [| apply none_of; exact H3c | reflexivity].
  cbn [crlf app]. eexists. split; [reflexivity |]. cbn [stored].
  change (13%Z :: 10%Z :: more) with (crlf ++ more). split; [reflexivity |].
  assert (Lb : forall n, length (blanks n) = n) by (intro n; apply repeat_length). rewrite !Lb.
  assert (Es' : start_text l ++ crlf ++ more = part1 l ++ blanks (S n1) ++ part2 l ++ blanks (S n2) ++ part3 l ++ crlf ++ more)
    by (unfold start_text; rewrite Eg1, Eg2, <- !app_assoc; reflexivity).
  assert (SK : forall (a x : list Z) n, n = length a -> skipn n (a ++ x) = x) by (intros a x n ->; rewrite skipn_app, Nat.sub_diag, skipn_all2 by lia; reflexivity).
  assert (FN : forall (a x : list Z) n, n = length a -> firstn n (a ++ x) = a) by (intros a x n ->; rewrite firstn_app, Nat.sub_diag, firstn_O, app_nil_r; apply firstn_all).
  repeat split.
  - unfold request, sub_range. cbn [request_end stored]. rewrite Es', skipn_O, Nat.sub_0_r. apply FN. reflexivity.
  - unfold code_, sub_range. cbn [code_start code_end stored]. rewrite Es'. rewrite (app_assoc (part1 l)). rewrite SK by (rewrite app_length, Lb; lia). apply FN. lia.
  - unfold reason, sub_range. cbn [reason_start reason_end stored]. rewrite Es'. rewrite !(app_assoc (part1 l)), !(app_assoc (part1 l ++ _)), (app_assoc ((part1 l ++ _) ++ _)).
    rewrite SK by (rewrite !app_length, !Lb; lia). apply FN. lia.
  - cbn [reason_end]. unfold start_text. rewrite Eg1, Eg2, !app_length, !Lb. lia.
Qed.

Lemma skipn_skipn : forall (s : list Z) n m, skipn n (skipn m s) = skipn (n + m) s.
Proof. induction s as [| c s IH]; intros n m; [now rewrite !skipn_nil |]. destruct m; [now rewrite Nat.add_0_r | rewrite Nat.add_succ_r; cbn [skipn]; apply IH]. Qed.
Lemma skipn_cut : forall (s : list Z) e a x, skipn e s = a ++ x -> skipn (e + length a) s = x.
Proof. intros s e a x H. replace (e + length a) with (length a + e) by lia. rewrite <- skipn_skipn, H, skipn_app, Nat.sub_diag, skipn_all2 by lia. reflexivity. Qed.
Lemma firstn_cut : forall (a x : list Z) n, n = length a -> firstn n (a ++ x) = a.
Proof. intros a x n ->. rewrite firstn_app, Nat.sub_diag, firstn_O, app_nil_r. apply firstn_all. Qed.

Definition fields_text (fs : list field) : list Z := concat (map (fun l => l ++ crlf) (map field_text fs)).
Lemma iterate_lines : forall fs fuel s g, Forall field_ok fs -> length fs < fuel -> value_end g <= length s ->
  skipn (value_end g) s = crlf ++ fields_text fs ++ crlf ->
  iterate fuel s g = map (fun f => (f_key f, f_value f)) fs.
Proof.
  induction fs as [| f fs IH]; intros fuel s g F Hf Hl Hs; (destruct fuel as [| fuel]; [lia |]).
  - cbn [iterate]. unfold advance. assert (length s - value_end g = 4) by (rewrite <- skipn_length, Hs; reflexivity).
    rewrite (proj2 (Nat.leb_le (length s - value_end g) 4)) by lia. cbn [current]. rewrite Nat.eqb_refl. reflexivity.
  - pose proof (Forall_inv F) as [[Hk Hkc] Hv]. pose proof (Forall_inv_tail F) as F'.
    set (e := value_end g) in *. set (ft := field_text f).
    assert (Hs' : skipn e s = [13%Z] ++ 10%Z :: (ft ++ 13%Z :: 10%Z :: (fields_text fs ++ crlf))).
    { rewrite Hs. unfold fields_text. cbn [map concat]. fold ft. rewrite <- !app_assoc. reflexivity. }
    assert (Hlen : length s - e = length (skipn e s)) by (symmetry; apply skipn_length).
    assert (Hft : 1 <= length ft) by (unfold ft, field_text; rewrite !app_length; cbn; lia).
    assert (Hbig : 4 < length s - e) by (rewrite Hlen, Hs'; cbn; rewrite app_length; cbn; lia).
    assert (Ncr : ~ In 13%Z ft).
    { unfold ft, field_text. rewrite !in_app_iff. destruct Hk as [_ [A _]], Hv as [_ [B _]]. intros [H | [[H | []] | [H | H]]]; try contradiction; [discriminate |]. apply repeat_spec in H. discriminate. }
    set (n := f_gap f) in *. set (k := f_key f) in *. set (v := f_value f) in *.
    assert (A : advance s g = mk_gen (e + 2) (e + 2 + length k) (e + 2 + length k + 1 + n) (e + 2 + length ft)).
    { unfold advance. fold e. rewrite (proj2 (Nat.leb_gt (length s - e) 4)) by lia. rewrite Hs'.
      rewrite (find_ch_app lf false [13%Z]) by (repeat constructor). cbn [length].
      change (10%Z :: ft ++ ?x) with ((10%Z :: ft) ++ x).
      rewrite (find_ch_app cr false (10%Z :: ft)); [| constructor; [reflexivity | apply none_of; exact Ncr] | reflexivity].
      cbn [app length]. replace (e + 1 + S (length ft) - (e + 1 + 1)) with (length ft) by lia. replace (e + 1 + 1) with (e + 2) by lia.
      assert (Hsk : skipn (e + 2) s = ft ++ 13%Z :: 10%Z :: (fields_text fs ++ crlf)) by (apply (skipn_cut s e [13%Z; 10%Z]); exact Hs').
      rewrite Hsk, firstn_cut by reflexivity.
      assert (Hb : find_ch sp true ft = ([], ft)).
      { refine (find_ch_app sp true [] ft _ _); [constructor |]. unfold ft, field_text. fold k. destruct k as [| c k']; [reflexivity |]. cbn. apply Z.eqb_neq. exact (proj1 Hk). }
      rewrite Hb. cbn [length]. rewrite Nat.add_0_r.
      assert (Hc : find_ch colon false ft = (k, 58%Z :: blanks n ++ v)) by (refine (find_ch_app colon false k _ _ _); [apply none_of; exact Hkc | reflexivity]).
      rewrite Hc.
      rewrite (find_ch_app sp true (blanks n) v); [| apply all_blanks | destruct v as [| c v']; [exact Logic.I | cbn; apply Z.eqb_neq; exact (proj1 Hv)]].
      unfold blanks. rewrite repeat_length. f_equal; lia. }
    cbn [iterate]. rewrite A. cbn [current key_end value_start value_end].
    assert (Hneq : (e + 2 =? length s) = false) by (apply Nat.eqb_neq; lia). rewrite Hneq. cbn [map]. fold k v.
    assert (Hsk : skipn (e + 2) s = k ++ (58%Z :: blanks n ++ v ++ 13%Z :: 10%Z :: (fields_text fs ++ crlf))).
    { etransitivity; [exact (skipn_cut s e [13%Z; 10%Z] _ Hs') |]. unfold ft, field_text. fold k n v. rewrite <- !app_assoc. reflexivity. }
    assert (Hlf : length ft = length k + 1 + n + length v) by (unfold ft, field_text; fold k n v; rewrite !app_length; unfold blanks; rewrite repeat_length; cbn; lia).
    f_equal.
    + f_equal.
      * rewrite Hsk. apply firstn_cut. lia.
      * pose proof (skipn_cut _ _ _ _ Hsk) as H1. pose proof (skipn_cut s (e + 2 + length k) ([58%Z] ++ blanks n) _ ltac:(rewrite H1, <- app_assoc; reflexivity)) as H2.
        rewrite app_length in H2. unfold blanks in H2 at 1. rewrite repeat_length in H2. cbn [length] in H2. replace (e + 2 + length k + (1 + n)) with (e + 2 + length k + 1 + n) in H2 by lia.
        rewrite H2. apply firstn_cut. lia.
    + apply IH; [exact F' | cbn in Hf; lia | |]; cbn [value_end].
      * assert (length (skipn e s) >= 2 + length ft) by (rewrite Hs'; cbn; rewrite app_length; cbn; lia). lia.
      * replace (e + 2 + length ft) with (e + length ([13%Z; 10%Z] ++ ft)) by (rewrite app_length; cbn; lia).
        apply skipn_cut. rewrite Hs'. cbn. reflexivity.
Qed.
