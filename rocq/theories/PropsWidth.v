From Verif Require Import Base NumSpec IntPrintModel IntPrintProofs IntPrintCorrect PropsIntPrint WidthModel WidthSpec.
Open Scope Z_scope.

Lemma fnl : forall (a b : list Z), firstn (length a) (a ++ b) = a.
Proof. intros. rewrite firstn_app, Nat.sub_diag. cbn [firstn]. rewrite app_nil_r. apply firstn_all. Qed.
Lemma snl : forall (a b : list Z), skipn (length a) (a ++ b) = b.
Proof. intros. rewrite skipn_app, Nat.sub_diag, skipn_all. reflexivity. Qed.
Lemma fnl' : forall n (a b : list Z), n = length a -> firstn n (a ++ b) = a.
Proof. intros n a b ->. apply fnl. Qed.
Lemma snl' : forall n (a b : list Z), n = length a -> skipn n (a ++ b) = b.
Proof. intros n a b ->. apply snl. Qed.

(** Splitting the free part of the buffer. *)
Lemma room : forall (j : list Z) n, (n <= length j)%nat -> exists a b, j = a ++ b /\ length a = n.
Proof. intros j n H. exists (firstn n j), (skipn n j). rewrite firstn_skipn, firstn_length. split; [reflexivity|lia]. Qed.

(** memmove of a block to the right by [n]. *)
Lemma move_right : forall pre t j n, (n <= length j)%nat ->
  exists g j', mem_move (pre ++ t ++ j) (length pre) (length t) (length pre + n) = Some (pre ++ g ++ t ++ j') /\
    length g = n /\ (length j' + n = length j)%nat.
Proof.
  intros pre t j n H. unfold mem_move. rewrite !app_length.
  replace (Nat.leb (length pre + length t) (length pre + (length t + length j))) with true by (symmetry; apply Nat.leb_le; lia).
  replace (Nat.leb (length pre + n + length t) (length pre + (length t + length j))) with true by (symmetry; apply Nat.leb_le; lia).
  cbn [andb].
  assert (E : firstn (length t) (skipn (length pre) (pre ++ t ++ j)) = t) by (rewrite snl; apply fnl).
  rewrite E. exists (firstn n (t ++ j)), (skipn (n + length t) (t ++ j)).
  split; [|split].
  - f_equal. rewrite (firstn_app (length pre + n) pre), (@firstn_all2 Z (length pre + n) pre) by lia.
    replace (length pre + n - length pre)%nat with n by lia.
    replace (skipn (length pre + n + length t) (pre ++ t ++ j)) with (skipn (n + length t) (t ++ j)).
    + rewrite <- app_assoc. reflexivity.
    + rewrite (skipn_app (length pre + n + length t) pre). rewrite (@skipn_all2 Z (length pre + n + length t) pre) by lia.
      replace (length pre + n + length t - length pre)%nat with (n + length t)%nat by lia. reflexivity.
  - rewrite firstn_length, app_length. lia.
  - rewrite skipn_length, app_length. lia.
Qed.

Lemma fill_block : forall pre g post n ch, length g = n ->
  my_fill_n (pre ++ g ++ post) (length pre) n ch = Some (pre ++ repeat ch n ++ post).
Proof.
  intros pre g post n ch E. unfold my_fill_n. rewrite !app_length.
  replace (Nat.leb (length pre + n) _) with true by (symmetry; apply Nat.leb_le; lia).
  rewrite fnl. do 2 f_equal. f_equal. rewrite app_assoc. apply snl'. rewrite app_length. lia.
Qed.

Lemma common_ok : forall pl text j wd ch, (wd <= length (text ++ j))%nat ->
  pl = pl_left \/ pl = pl_middle \/ pl = pl_right ->
  exists cells, handle_common false pl (text ++ j) (length text) wd ch = Some (cells, Nat.max wd (length text)) /\
    padded pl 0 text wd ch (firstn (Nat.max wd (length text)) cells) /\ length cells = length (text ++ j).
Proof.
  intros pl text j wd ch Hw Hpl. rewrite app_length in *. unfold handle_common, padded. cbv zeta.
  destruct (Nat.leb wd (length text)) eqn:E; [apply Nat.leb_le in E|apply Nat.leb_gt in E].
  - exists (text ++ j). rewrite Nat.max_r by lia. split; [reflexivity|]. split; [apply fnl|apply app_length].
  - rewrite Nat.max_l by lia. set (n := (wd - length text)%nat).
    assert (Hn : (n <= length j)%nat) by lia.
    destruct Hpl as [P|[P|P]]; subst pl.
    + destruct (room j n Hn) as (g & j' & -> & Lg).
      pose proof (fill_block text g j' n ch Lg) as F. rewrite F. cbn [bind].
      eexists. split; [reflexivity|]. split.
      * rewrite app_assoc. apply fnl'. rewrite app_length, repeat_length. lia.
      * rewrite !app_length, repeat_length. rewrite app_length in *. lia.
    + set (li := Nat.div2 n). assert (Hdiv : (n = li + li \/ n = li + S li)%nat).
      { unfold li. pose proof (Nat.div2_odd n). destruct (Nat.odd n); cbn [Nat.b2n] in H; lia. }
      unfold my_copy. destruct (move_right [] text j li ltac:(lia)) as (g & j' & M & Lg & Lj).
      cbn [app length Nat.add] in M. rewrite M. cbn [bind].
      pose proof (fill_block [] g (text ++ j') li ch Lg) as F. cbn [app length] in F. rewrite F. cbn [bind].
      destruct (room j' (n - li) ltac:(lia)) as (g2 & j2 & -> & Lg2).
      pose proof (fill_block (repeat ch li ++ text) g2 j2 (n - li) ch Lg2) as F2.
      rewrite <- app_assoc in F2. rewrite app_length, repeat_length in F2.
      replace (wd - (n - li))%nat with (li + length text)%nat by lia. rewrite F2. cbn [bind].
      eexists. split; [reflexivity|]. split.
      * exists li, (n - li)%nat. split; [lia|]. split; [lia|].
        replace ((repeat ch li ++ text) ++ repeat ch (n - li) ++ j2) with ((repeat ch li ++ text ++ repeat ch (n - li)) ++ j2)
          by (rewrite <- !app_assoc; reflexivity).
        apply fnl'. rewrite !app_length, !repeat_length. lia.
      * rewrite !app_length, !repeat_length. rewrite app_length in *. lia.
    + unfold my_copy. destruct (move_right [] text j n Hn) as (g & j' & M & Lg & Lj).
      cbn [app length Nat.add] in M. rewrite M. cbn [bind].
      pose proof (fill_block [] g (text ++ j') n ch Lg) as F. cbn [app length] in F. rewrite F. cbn [bind].
      eexists. split; [reflexivity|]. split.
      * rewrite app_assoc. apply fnl'. rewrite app_length, repeat_length. lia.
      * rewrite !app_length, repeat_length. lia.
Qed.

Lemma internal_ok : forall text j wd ch k, (wd <= length (text ++ j))%nat -> (k <= length text)%nat ->
  exists cells, handle_internal false (text ++ j) (length text) wd ch k = Some (cells, Nat.max wd (length text)) /\
    padded pl_internal k text wd ch (firstn (Nat.max wd (length text)) cells) /\ length cells = length (text ++ j).
Proof.
  intros text j wd ch k Hw Hk. rewrite app_length in *. unfold handle_internal, padded. cbv zeta.
  replace (Nat.ltb (length text) k) with false by (symmetry; apply Nat.ltb_ge; lia). rewrite orb_false_r.
  destruct (Nat.leb wd (length text)) eqn:E; [apply Nat.leb_le in E|apply Nat.leb_gt in E].
  - exists (text ++ j). rewrite Nat.max_r by lia. split; [reflexivity|]. split; [apply fnl|apply app_length].
  - rewrite Nat.max_l by lia.
    replace (wd - k - (length text - k))%nat with (wd - length text)%nat by lia. set (n := (wd - length text)%nat).
    assert (Hn : (n <= length j)%nat) by lia. assert (Hn2 : (n + length text = wd)%nat) by lia. clearbody n.
    destruct (room text k Hk) as (sign & rest & -> & Ls). rewrite <- app_assoc. rewrite app_length in *.
    unfold my_copy. destruct (move_right sign rest j n Hn) as (g & j' & M & Lg & Lj).
    rewrite Ls in M. replace (length sign + length rest - k)%nat with (length rest) by lia. rewrite M. cbn [bind].
    pose proof (fill_block sign g (rest ++ j') n ch Lg) as F. rewrite Ls in F. rewrite F. cbn [bind].
    replace (k + (wd - k))%nat with wd by lia.
    eexists. split; [reflexivity|]. split.
    + exists sign, rest. split; [reflexivity|]. split; [exact Ls|].
      replace (sign ++ repeat ch n ++ rest ++ j') with ((sign ++ repeat ch n ++ rest) ++ j') by (rewrite <- !app_assoc; reflexivity).
      apply fnl'. rewrite !app_length, repeat_length. lia.
    + rewrite !app_length, repeat_length. lia.
Qed.

Lemma rt_same : forall ce pl cells last wd ch, pl = pl_left \/ pl = pl_middle \/ pl = pl_right ->
  handle_common_rt ce pl cells last wd ch = handle_common ce pl cells last wd ch.
Proof. intros ce pl cells last wd ch [P|[P|P]]; subst pl; reflexivity. Qed.

(** * C37: the width manipulators pad exactly *)

(** A value that is printed as the concepts demand: its text fits in the size that it reserves, and its shift
    lies in the text. *)
Definition value_ok (v : wvalue) : Prop :=
  (length (v_text v) <= v_reserve v)%nat /\ forall k, v_shift v = Some k -> (k <= length (v_text v))%nat.
(** The placement that is meant: internal is right for objects without a sign. *)
Definition meant (pl : placement) (v : wvalue) : placement :=
  match pl with pl_internal => match v_shift v with Some _ => pl_internal | None => pl_right end | _ => pl end.
Definition sign_length (v : wvalue) : nat := match v_shift v with Some k => k | None => 0 end.
(** What the user asked for. *)
Definition wm_place (m : wmanip) : placement :=
  match m with Wplace pl _ _ | Wplace_ch pl _ _ _ | Wrun pl _ _ | Wrun_ch pl _ _ _ => pl end.
Definition wm_fill (m : wmanip) : Z :=
  match m with Wplace _ _ _ | Wrun _ _ _ => 32 | Wplace_ch _ _ _ ch | Wrun_ch _ _ _ ch => ch end.
(** left, middle, right, internal are the placements of the compile-time manipulators. *)
Definition wm_exists (m : wmanip) : Prop :=
  match m with Wplace pl _ _ | Wplace_ch pl _ _ _ => pl <> pl_none | _ => True end.

(** In a buffer of the size that the manipulator reserves (or larger), every manipulator of a value that is held
    by value -- integers, strings, everything small -- writes the padded text, at run time, and nothing
    outside of the buffer; its length is the larger of width and length of the text (none: the text). *)
Theorem C37_width_partial : forall m cells, wm_exists m -> value_ok (wm_value m) ->
  (print_width_size m <= length cells)%nat ->
  v_byref (wm_value m) = false \/
    (v_shift (wm_value m) = None /\ forall v n ch, m <> Wplace_ch pl_left v n ch) ->
  exists cells' e, print_width false m cells = Some (cells', e) /\ (e <= print_width_size m)%nat /\
    length cells' = length cells /\
    padded (meant (wm_place m) (wm_value m)) (sign_length (wm_value m)) (v_text (wm_value m)) (wm_width m) (wm_fill m)
      (firstn e cells') /\
    e = (if match wm_place m with pl_none => true | _ => false end then length (v_text (wm_value m))
         else Nat.max (wm_width m) (length (v_text (wm_value m)))).
Proof.
  intros m cells Hex [Hv Hk] Hsize Hby.
  assert (R : (v_reserve (wm_value m) <= print_width_size m /\ wm_width m <= print_width_size m)%nat).
  { unfold print_width_size, width_reserve. destruct (Nat.ltb (wm_width m) (v_reserve (wm_value m))) eqn:E;
      [apply Nat.ltb_lt in E|apply Nat.ltb_ge in E]; lia. }
  assert (P : put_text cells (v_text (wm_value m)) = Some (v_text (wm_value m) ++ skipn (length (v_text (wm_value m))) cells)).
  { unfold put_text. replace (Nat.leb _ _) with true by (symmetry; apply Nat.leb_le; lia). reflexivity. }
  assert (Seen : shift_seen (wm_value m) = v_shift (wm_value m)).
  { unfold shift_seen. destruct Hby as [->|[-> _]]; [reflexivity|destruct (v_byref (wm_value m)); reflexivity]. }
  set (v := wm_value m) in *. set (w := wm_width m) in *. set (j := skipn (length (v_text v)) cells) in *.
  assert (Lj : length (v_text v ++ j) = length cells) by (unfold j; rewrite app_length, skipn_length; lia).
  assert (G : forall (f : placement -> list Z -> nat -> nat -> Z -> option (list Z * nat)) pl ch,
    (forall pl c l w ch, pl = pl_left \/ pl = pl_middle \/ pl = pl_right -> f pl c l w ch = handle_common false pl c l w ch) ->
    (pl = pl_none -> forall c l w ch, f pl c l w ch = Some (c, l)) ->
    exists cells' e,
    match pl with
    | pl_internal => match shift_seen v with
                   | Some k => handle_internal false (v_text v ++ j) (length (v_text v)) w ch k
                   | None => f pl_right (v_text v ++ j) (length (v_text v)) w ch
                   end
    | _ => f pl (v_text v ++ j) (length (v_text v)) w ch
    end = Some (cells', e) /\ (e <= print_width_size m)%nat /\ length cells' = length cells /\
    padded (meant pl v) (sign_length v) (v_text v) w ch (firstn e cells') /\
    e = (if match pl with pl_none => true | _ => false end then length (v_text v) else Nat.max w (length (v_text v)))).
  { intros f pl ch Hf Hn. destruct pl.
    - rewrite (Hn eq_refl). do 2 eexists. split; [reflexivity|]. split; [lia|]. split; [exact Lj|]. split; [|reflexivity].
      unfold padded, meant. rewrite fnl. destruct (Nat.leb w (length (v_text v))); reflexivity.
    - rewrite Hf by tauto.
      destruct (common_ok pl_left (v_text v) j w ch ltac:(lia) ltac:(tauto)) as (c & -> & C2 & C3).
      do 2 eexists. split; [reflexivity|]. split; [lia|]. split; [lia|]. split; [exact C2|reflexivity].
    - rewrite Hf by tauto.
      destruct (common_ok pl_middle (v_text v) j w ch ltac:(lia) ltac:(tauto)) as (c & -> & C2 & C3).
      do 2 eexists. split; [reflexivity|]. split; [lia|]. split; [lia|]. split; [exact C2|reflexivity].
    - rewrite Hf by tauto.
      destruct (common_ok pl_right (v_text v) j w ch ltac:(lia) ltac:(tauto)) as (c & -> & C2 & C3).
      do 2 eexists. split; [reflexivity|]. split; [lia|]. split; [lia|]. split; [exact C2|reflexivity].
    - rewrite Seen. unfold meant, sign_length. destruct (v_shift v) as [k|] eqn:Ek.
      + destruct (internal_ok (v_text v) j w ch k ltac:(lia) (Hk k eq_refl)) as (c & -> & C2 & C3).
        do 2 eexists. split; [reflexivity|]. split; [lia|]. split; [lia|]. split; [exact C2|reflexivity].
      + rewrite Hf by tauto.
        destruct (common_ok pl_right (v_text v) j w ch ltac:(lia) ltac:(tauto)) as (c & -> & C2 & C3).
        do 2 eexists. split; [reflexivity|]. split; [lia|]. split; [lia|]. split; [exact C2|reflexivity]. }
  assert (RT : forall pl c l w ch, pl = pl_left \/ pl = pl_middle \/ pl = pl_right ->
     handle_common_rt false pl c l w ch = handle_common false pl c l w ch) by (intros; apply rt_same; assumption).
  assert (RN : forall pl : placement, pl = pl_none -> forall c l w ch, handle_common_rt false pl c l w ch = Some (c, l)).
  { intros pl -> c l w0 ch. unfold handle_common_rt. destruct (Nat.leb w0 l); reflexivity. }
  destruct m as [pl v0 n|pl v0 n ch|pl v0 n|pl v0 n ch];
    cbn [print_width wm_place wm_fill wm_value wm_width wm_exists] in *; subst v w;
    unfold width_define, width_define_rt; rewrite P; cbn [bind]; cbv zeta.
  - exact (G (handle_common false) pl 32 (fun _ _ _ _ _ _ => eq_refl) (fun E => match Hex E with end)).
  - assert (Ech : (match pl with pl_left => if v_byref v0 then 0 else ch | _ => ch end) = ch).
    { destruct pl; try reflexivity. destruct Hby as [->|[_ N]]; [reflexivity|]. exfalso. exact (N _ _ _ eq_refl). }
    rewrite Ech. exact (G (handle_common false) pl ch (fun _ _ _ _ _ _ => eq_refl) (fun E => match Hex E with end)).
  - exact (G (handle_common_rt false) pl 32 RT (RN pl)).
  - exact (G (handle_common_rt false) pl ch RT (RN pl)).
Qed.
Print Assumptions C37_width_partial.

(** Integers are such values: width, right, internal(...) of an integer in any base, with or without
    sign and base prefix; internal puts the fill between the sign and the rest.  (The conditions
    are those under which the text fits in what is reserved, C03.) *)
Theorem C37_integer_partial : forall fl ty t,
  In (iw ty) [8; 16; 32; 64; 128] -> 2 <= pf_base fl <= 36 ->
  (iw ty = 128 -> pf_base fl = 10 \/ (In (pf_base fl) [2; 4; 16] /\ pf_upper fl = false)) ->
  in_range ty t -> (isigned ty = true -> pf_full fl = false) ->
  (Z.abs t <= int_max ty \/ forall k, 0 <= k -> Z.abs t <> pf_base fl ^ k) ->
  exists v body, int_value fl ty t = Some v /\ value_ok v /\ v_byref v = false /\
    v_text v = sign_text (pf_showpos fl) t ++ body /\
    print_int fl ty t = Some (v_text v) /\
    forall wd ch out, padded (meant pl_internal v) (sign_length v) (v_text v) wd ch out ->
      out = sign_text (pf_showpos fl) t ++ repeat ch (wd - length (v_text v)) ++ body.
Proof.
  intros fl ty t Hw Hb Hc Ht Hf Hp.
  assert (Hc' : config_ok fl ty) by (apply config_of; exact Hc).
  destruct (print_int_correct fl ty t Hw Hb Hc' Ht) as (num & E & _).
  set (body := (if pf_showbase fl then base_prefix (pf_base fl) (pf_upshowbase fl) else []) ++ num) in *.
  assert (Hpos : isigned ty = false -> 0 <= t).
  { intros S. unfold in_range, int_min in Ht. rewrite S in Ht. lia. }
  eexists. exists body. unfold int_value. rewrite E. cbn [bind]. split; [reflexivity|].
  assert (Ls : forall k, int_shift fl ty t = Some k -> k = length (sign_text (pf_showpos fl) t)).
  { intros k H. unfold int_shift, sign_text in *. destruct (pf_showpos fl), (isigned ty); cbn [orb] in H; inversion H;
      destruct (t <? 0); reflexivity. }
  split; [split|].
  - cbn [v_text v_reserve]. pose proof (C03_reserve_enough_partial fl ty t _ Hw Hb Hc Ht Hf Hp E). lia.
  - cbn [v_text v_shift]. intros k H. rewrite (Ls k H), app_length. lia.
  - split; [reflexivity|]. split; [reflexivity|]. split; [reflexivity|].
    intros wd ch out. unfold padded, meant, sign_length. cbn [v_text v_shift].
    set (txt := sign_text (pf_showpos fl) t ++ body).
    destruct (Nat.leb wd (length txt)) eqn:L; [apply Nat.leb_le in L|apply Nat.leb_gt in L].
    + intros ->. replace (wd - length txt)%nat with 0%nat by lia. reflexivity.
    + destruct (int_shift fl ty t) as [k|] eqn:K.
      * intros (sign & rest & E1 & E2 & ->). rewrite (Ls k eq_refl) in E2. unfold txt in E1.
        apply app_eq_app in E1. destruct E1 as (l & [[A1 A2]|[A1 A2]]);
          rewrite A1 in E2; rewrite app_length in E2; assert (l = []) by (destruct l; [reflexivity|cbn in E2; lia]);
          subst l; rewrite app_nil_r in A1; cbn [app] in A2; subst; rewrite ?A1; reflexivity.
      * intros ->. assert (S : sign_text (pf_showpos fl) t = []).
        { unfold int_shift in K. unfold sign_text. destruct (pf_showpos fl); [discriminate|].
          destruct (isigned ty) eqn:Si; [discriminate|]. specialize (Hpos eq_refl).
          destruct (t <? 0) eqn:T; [apply Z.ltb_lt in T; lia|reflexivity]. }
        unfold txt. rewrite S. reflexivity.
Qed.
Print Assumptions C37_integer_partial.

(** Objects that are held by reference: left(x,n,ch) fills with zero characters instead of [ch]; internal(x,n) of an
    object with a sign pads before the sign. *)
Definition big_object : wvalue := mk_wvalue [45; 53] 2 (Some 1%nat) true.
Theorem C37_byref_refuted :
  (exists m cells, wm_exists m /\ value_ok (wm_value m) /\ (print_width_size m <= length cells)%nat /\
     m = Wplace_ch pl_left big_object 4 42 /\
     print_width false m cells = Some ([45; 53; 0; 0], 4%nat) /\
     ~ padded pl_left 1 [45; 53] 4 42 [45; 53; 0; 0]) /\
  (exists m cells, wm_exists m /\ value_ok (wm_value m) /\ (print_width_size m <= length cells)%nat /\
     m = Wplace_ch pl_internal big_object 4 48 /\
     print_width false m cells = Some ([48; 48; 45; 53], 4%nat) /\
     ~ padded pl_internal 1 [45; 53] 4 48 [48; 48; 45; 53]).
Proof.
  assert (V : value_ok big_object).
  { split; [cbn; lia|]. intros k H. inversion H. cbn. lia. }
  split.
  - exists (Wplace_ch pl_left big_object 4 42), [0; 0; 0; 0]. repeat split; try exact (proj1 V); try exact (proj2 V);
      try discriminate; cbn; lia.
  - exists (Wplace_ch pl_internal big_object 4 48), [0; 0; 0; 0]. repeat split; try exact (proj1 V); try exact (proj2 V);
      try discriminate; try (cbn; lia).
    intros (sign & rest & E1 & E2 & E3). destruct sign as [|x [|y sign]]; try discriminate E2.
    inversion E1. subst x rest. discriminate E3.
Qed.
Print Assumptions C37_byref_refuted.

(** During constant evaluation the copy goes forward and overwrites what it has yet to read: right("ab",3) is " aa". *)
Theorem C37_constant_evaluation_refuted :
  exists m cells, wm_exists m /\ value_ok (wm_value m) /\ (print_width_size m <= length cells)%nat /\
    wm_value m = mk_wvalue [97; 98] 2 None false /\ wm_place m = pl_right /\
    print_width true m cells = Some ([32; 97; 97], 3%nat) /\ ~ padded pl_right 0 [97; 98] 3 32 [32; 97; 97].
Proof.
  exists (Wplace pl_right (mk_wvalue [97; 98] 2 None false) 3), [0; 0; 0].
  repeat split; try discriminate; try (cbn; lia).
Qed.
Print Assumptions C37_constant_evaluation_refuted.

Example C37_example : exists v, int_value default_pflags (mk_int 32 true) (-5) = Some v /\ value_ok v /\
  print_width false (Wplace_ch pl_internal v 6 48) (repeat 0 11) = Some ([45; 48; 48; 48; 48; 53; 0; 0; 0; 0; 0], 6%nat) /\
  print_width false (Wrun_ch pl_middle v 5 46) (repeat 0 11) = Some ([46; 45; 53; 46; 46; 0; 0; 0; 0; 0; 0], 5%nat) /\
  (print_width_size (Wplace_ch pl_internal v 6 48) <= 11)%nat.
Proof.
  exists (mk_wvalue [45; 53] 11 (Some 1%nat) false).
  split; [vm_compute; reflexivity|]. split; [split; [cbn; lia|intros k H; inversion H; cbn; lia]|].
  split; [vm_compute; reflexivity|]. split; [vm_compute; reflexivity|]. cbn. lia.
Qed.
