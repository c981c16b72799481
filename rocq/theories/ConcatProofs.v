(** Proofs about concat and strings as output streams. *)
From Verif Require Import Base BufModel PrintModel BufSpec BufOutProofs ConcatModel ConcatSpec.

(** ** Streams that give up only when the text is very long *)
Section Generic.
  Context {S : Type}.
  Variables (o : ostream S) (inv : S -> Prop) (all : S -> list Z).
  Hypothesis Hconst : os_const o = None.
  Definition sgoes (s : S) (t : list Z) (r : res S) : Prop :=
    (exists s', r = Fine s' /\ inv s' /\ all s' = all s ++ t) \/ ((exists d, r = Died d \/ r = Raised d) /\ 2 ^ 60 <= Z.of_nat (length (all s ++ t))).
  Hypothesis Hstore : forall s t, inv s -> (length t <= os_room o s)%nat -> sgoes s t (os_store o s t).
  Hypothesis Hwrite : forall s t, inv s -> sgoes s t (os_write o s t).
  Hypothesis Hput : forall s ch, inv s -> sgoes s [ch] (os_put o s ch).

  Lemma sgoes_fine s : inv s -> sgoes s [] (Fine s).
  Proof. intros H. left. exists s. rewrite app_nil_r. auto. Qed.
  Lemma sgoes_bind s t u r f :
    sgoes s t r -> (forall s', inv s' -> sgoes s' u (f s')) -> sgoes s (t ++ u) (bindr r f).
  Proof.
    intros [(s' & -> & Hi & Hr)|[[d Hd] Hl]] Hf.
    - cbn. destruct (Hf s' Hi) as [(s'' & -> & Hi2 & Hr2)|[[d Hd] Hl]].
      + left. exists s''. rewrite Hr2, Hr, app_assoc. auto.
      + right. rewrite Hr, <- app_assoc in Hl. eauto.
    - right. split; [exists d; destruct Hd as [-> | ->]; auto|]. rewrite app_assoc, app_length. lia.
  Qed.
  Lemma sgoes_eq s t u r : sgoes s t r -> t = u -> sgoes s u r.
  Proof. intros H ->. exact H. Qed.
  Lemma slocal_write s t size : inv s -> (length t <= size)%nat -> sgoes s t (in_local size t (os_write o s t)).
  Proof. intros Hi Hl. unfold in_local. apply Nat.leb_le in Hl. rewrite Hl. apply Hwrite. exact Hi. Qed.


  Lemma swrites_goes : forall ws s, inv s -> sgoes s (concat ws) (do_writes (os_write o) s ws).
  Proof.
    induction ws as [|t ws IH]; intros s Hi; [apply sgoes_fine; auto|]. cbn [concat do_writes]. apply sgoes_bind; auto.
  Qed.
  Lemma scontrol_goes line s p : inv s -> arg_ok p -> sgoes s (text_of p ++ eol line) (print_control o line s p).
  Proof.
    intros Hi Hp. destruct p as [t|sz t|sz t|ws]; cbn [text_of print_control arg_ok] in *.
    - destruct line; cbn [eol].
      + destruct (_ <? _) eqn:E.
        * apply Z.ltb_lt in E. apply Hstore; auto. rewrite app_length; cbn [length]. lia.
        * apply sgoes_bind; auto.
      + rewrite app_nil_r. auto.
    - assert (Hl : (length (t ++ eol line) <= sz + eol_size line)%nat) by (rewrite app_length, eol_length; lia).
      rewrite Hconst; cbn [const_fits].
      destruct (Nat.ltb _ _) eqn:E; [|apply slocal_write; auto].
      apply Nat.ltb_lt in E. apply Hstore; auto. lia.
    - destruct Hp as [Hl0 Hz].
      assert (Hl : (length (t ++ eol line) <= sz + eol_size line)%nat) by (rewrite app_length, eol_length; lia).
      replace (dynamic_size_ok line sz) with true
        by (unfold dynamic_size_ok; destruct line; symmetry; [apply Z.ltb_lt|apply Z.leb_le]; lia).
      destruct (Nat.ltb _ _) eqn:E; [|apply slocal_write; auto].
      apply Nat.ltb_lt in E. apply Hstore; auto. lia.
    - apply sgoes_bind; [apply swrites_goes; auto|]. intros s' Hi'. destruct line; cbn [eol]; [apply Hput; auto|apply sgoes_fine; auto].
  Qed.

  Lemma splain_goes line : forall args s, inv s -> Forall arg_ok args -> args <> [] ->
    sgoes s (printed line args) (print_plain o line s args).
  Proof.
    induction args as [|p rest IH]; intros s Hi Ha Hne; [congruence|].
    inversion Ha as [|? ? Hp Hrest]; subst. destruct rest as [|q rest].
    - cbn [print_plain]. eapply sgoes_eq; [apply scontrol_goes; auto|].
      unfold printed. cbn. rewrite app_nil_r. reflexivity.
    - change (print_plain o line s (p :: q :: rest))
        with (then! s := print_control o false s p in print_plain o line s (q :: rest)).
      eapply sgoes_eq.
      + apply sgoes_bind with (t := text_of p) (u := printed line (q :: rest)).
        * eapply sgoes_eq; [apply (scontrol_goes false); auto|]. cbn. apply app_nil_r.
        * intros s' Hi'. apply IH; auto. discriminate.
      + unfold printed. cbn [map concat]. rewrite <- !app_assoc. reflexivity.
  Qed.

  Lemma smulti_goes line : forall args skip s, inv s -> Forall arg_ok args ->
    (skip < length args)%nat ->
    sgoes s (printed line (skipn skip args)) (print_multi o line skip s args).
  Proof.
    induction args as [|p rest IH]; intros skip s Hi Ha Hs; [cbn in Hs; lia|].
    inversion Ha as [|? ? Hp Hrest]; subst.
    destruct skip as [|k]; [|cbn [print_multi skipn length] in *; apply IH; auto; lia].
    cbn [skipn].
    assert (Hone : sgoes s (printed line (p :: rest))
              (match rest with
               | [] => print_control o line s p
               | _ :: _ => then! s0 := print_control o false s p in print_multi o line 0 s0 rest
               end)).
    { destruct rest as [|q rest].
      - eapply sgoes_eq; [apply scontrol_goes; auto|]. unfold printed. cbn. rewrite app_nil_r. reflexivity.
      - eapply sgoes_eq.
        + apply sgoes_bind with (t := text_of p) (u := printed line (q :: rest)).
          * eapply sgoes_eq; [apply (scontrol_goes false); auto|]. cbn. apply app_nil_r.
          * intros s' Hi'. apply (IH 0%nat); auto. cbn; lia.
        + unfold printed. cbn [map concat]. rewrite <- !app_assoc. reflexivity. }
    destruct p as [t|sz t|sz t|ws]; try exact Hone.
    cbn [print_multi]. destruct (multi_size sz rest) as [n total] eqn:Em.
    destruct (Nat.eqb n 0) eqn:En; [exact Hone|]. apply Nat.eqb_neq in En.
    destruct (multi_bound _ _ _ _ Hrest Em En) as [Hn Ht]. cbn [arg_ok] in Hp.
    set (last := Nat.eqb (length rest) n).
    set (size := (total + eol_size (last && line))%nat).
    set (text := t ++ partition_text n rest ++ eol (last && line)).
    assert (Hl : (length text <= size)%nat).
    { unfold text, size. rewrite !app_length, eol_length. lia. }
    assert (Hblock : sgoes s text (if const_fits (os_const o) size then
                     then! s := (if Nat.ltb size (os_room o s) then Fine s else os_prepare o s) in os_store o s text
                   else in_local size text (os_write o s text))).
    { rewrite Hconst. cbn [const_fits]. apply slocal_write; auto. }
    destruct last eqn:El.
    - apply Nat.eqb_eq in El. cbn [andb] in *. eapply sgoes_eq.
      + apply sgoes_bind with (u := []); [exact Hblock|]. intros s' Hi'. apply sgoes_fine. exact Hi'.
      + rewrite app_nil_r. unfold text, printed, partition_text. rewrite <- El, firstn_all.
        cbn [map concat text_of]. rewrite <- !app_assoc. reflexivity.
    - apply Nat.eqb_neq in El. cbn [andb] in *. eapply sgoes_eq.
      + apply sgoes_bind with (u := printed line (skipn n rest)); [exact Hblock|].
        intros s' Hi'. apply IH; auto. lia.
      + unfold text, printed, partition_text. cbn [eol]. rewrite app_nil_r.
        cbn [map concat text_of].
        rewrite <- (firstn_skipn n rest) at 3. rewrite map_app, concat_app. rewrite <- !app_assoc. reflexivity.
  Qed.

  Lemma sprint_goes opt line s args : inv s -> Forall arg_ok args ->
    sgoes s (printed line args) (print_buffered o opt line s args).
  Proof.
    intros Hi Ha. unfold print_buffered. destruct args as [|p rest].
    - destruct line; [apply Hput; auto|]. apply sgoes_fine. exact Hi.
    - destruct opt.
      + apply (smulti_goes line (p :: rest) 0%nat); auto. cbn; lia.
      + apply splain_goes; auto. discriminate.
  Qed.
End Generic.

(** ** Strings as streams *)
Section Str.
Variable T : strtype.
Hypothesis Hok : str_ok T.
Hypothesis Hgrow : st_aux T = false -> grows_exactly T.
Lemma max_chars_big : 2 ^ 62 - 1 <= max_chars T <= 2 ^ 64 - 1.
Proof.
  destruct Hok as [H _]. unfold max_chars. destruct H as [<-|[<-|[<-|[]]]]; vm_compute; split; discriminate.
Qed.
Definition sinv (s : sbuf) : Prop :=
  (length (sb_text s) <= sb_cap s)%nat /\
  (st_aux T = false -> Z.of_nat (sb_cap s) <= max_chars T /\ Z.of_nat (sb_cap s) <= 2 * Z.of_nat (length (sb_text s)) + 2 ^ 60).
Notation good := (sgoes sinv sb_text).
Lemma store_good s t : sinv s -> (length t <= sb_room s)%nat -> good s t (sb_store s t).
Proof.
  intros [H1 H2] Hl. unfold sb_room in Hl. unfold sb_store. replace (Nat.leb _ _) with true by (symmetry; apply Nat.leb_le; lia).
  left. eexists. split; [reflexivity|]. split; [|reflexivity]. split; cbn [sb_text sb_cap]; rewrite app_length; [lia|].
  intros E. specialize (H2 E). lia.
Qed.
Lemma reserve_fine s n : Z.of_nat n <= max_chars T ->
  exists s', sb_reserve T s n = Fine s' /\ sb_text s' = sb_text s /\ (n <= sb_cap s')%nat /\ (sb_cap s <= sb_cap s')%nat /\
    (st_aux T = false -> sb_cap s' = Nat.max (sb_cap s) n).
Proof.
  intros Hn. unfold sb_reserve. destruct (Nat.ltb_spec (sb_cap s) n).
  - replace (max_chars T <? Z.of_nat n) with false by (symmetry; apply Z.ltb_ge; lia). eexists. split; [reflexivity|]. cbn.
    destruct Hok as (_ & G & _). specialize (G (sb_cap s) n). repeat split; auto; try lia.
    intros E. destruct (Hgrow E) as [_ X]. rewrite X. lia.
  - exists s. repeat split; auto; lia.
Qed.
Lemma append_good s t : sinv s -> st_aux T = true -> good s t (sb_append T s t).
Proof.
  intros [H1 H2] Ha. unfold sb_append. pose proof max_chars_big as HM.
  destruct (Z_le_gt_dec (Z.of_nat (length (sb_text s) + length t)) (max_chars T)) as [G|G].
  - destruct (reserve_fine s (length (sb_text s) + length t) G) as (s' & -> & E & C & _). cbn [bindr].
    unfold sb_store. rewrite E. replace (Nat.leb _ _) with true by (symmetry; apply Nat.leb_le; lia).
    left. eexists. split; [reflexivity|]. split; [|reflexivity]. split; cbn [sb_text sb_cap]; [rewrite app_length; lia|congruence].
  - unfold sb_reserve. destruct (Nat.ltb_spec (sb_cap s) (length (sb_text s) + length t)) as [L|L].
    + replace (max_chars T <? _) with true by (symmetry; apply Z.ltb_lt; lia). rewrite Ha. cbn [bindr].
      right. split; [eauto|]. rewrite app_length. lia.
    + cbn [bindr]. apply store_good; [split; auto|]. unfold sb_room. lia.
Qed.
Lemma new_cap_spec cap : Z.of_nat cap <= max_chars T ->
  match new_cap T cap with
  | Some n => (cap < n)%nat /\ (n <= 2 * cap + 1)%nat /\ Z.of_nat n <= max_chars T
  | None => Z.of_nat cap = max_chars T
  end.
Proof.
  intros H. pose proof max_chars_big as HM. unfold new_cap. destruct (Nat.eqb_spec cap 0) as [->|Hne]; [lia|].
  destruct (Z.eqb_spec (max_chars T) (Z.of_nat cap)); [lia|].
  pose proof (Z.div_mod (max_chars T) 2 ltac:(lia)) as D. pose proof (Z.mod_pos_bound (max_chars T) 2 ltac:(lia)) as B.
  destruct (Z.leb_spec (max_chars T / 2) (Z.of_nat cap)).
  - split; [apply Nat2Z.inj_lt; rewrite Z2Nat.id; lia|]. split; [|rewrite Z2Nat.id; lia].
    apply Nat2Z.inj_le. rewrite Z2Nat.id by lia. lia.
  - lia.
Qed.
Lemma full_len s : sinv s -> sb_room s = 0%nat -> length (sb_text s) = sb_cap s.
Proof. intros [H _] E. unfold sb_room in E. lia. Qed.
Lemma put_good s ch : sinv s -> good s [ch] (sb_put T s ch).
Proof.
  intros Hi. unfold sb_put. destruct (Nat.eqb_spec (sb_room s) 0) as [E|E]; [|apply store_good; auto; cbn; lia].
  case_eq (st_aux T); intros Ea; [apply append_good; auto|]. pose proof max_chars_big as HM.
  pose proof (full_len s Hi E) as EL. destruct Hi as [H1 H2]. destruct (H2 Ea) as [H3 H4].
  pose proof (new_cap_spec (sb_cap s) H3) as N. destruct (new_cap T (sb_cap s)) as [n|].
  - destruct N as (N1 & N2 & N3). destruct (reserve_fine s n N3) as (s' & -> & E' & C1 & C2 & C3). cbn [bindr].
    specialize (C3 Ea). apply (sgoes_eq _ _ _ [ch] [ch]); [|reflexivity].
    unfold sb_store. rewrite E'. replace (Nat.leb _ _) with true by (symmetry; apply Nat.leb_le; cbn; lia).
    left. eexists. split; [reflexivity|]. split; [|reflexivity]. split; cbn [sb_text sb_cap]; rewrite app_length; cbn [length]; [lia|].
    intros _. rewrite C3. lia.
  - right. split; [eauto|]. rewrite app_length. cbn [length]. lia.
Qed.
Lemma write_good s t : sinv s -> good s t (sb_write T s t).
Proof.
  intros Hi. unfold sb_write. case_eq (st_aux T); intros Ea; [apply append_good; auto|].
  destruct (Nat.leb_spec (length t) (sb_room s)) as [L|L]; [apply store_good; auto|]. unfold sb_write_cold. pose proof max_chars_big as HM.
  destruct Hi as [H1 H2]. destruct (H2 Ea) as [H3 H4]. unfold sb_store at 1.
  assert (Lf : length (firstn (sb_room s) t) = sb_room s) by (rewrite firstn_length; lia).
  assert (R : (length (sb_text s) + sb_room s = sb_cap s)%nat) by (unfold sb_room; lia).
  rewrite Lf, R, Nat.leb_refl. cbn [bindr sb_cap sb_text].
  pose proof (new_cap_spec (sb_cap s) H3) as N. destruct (new_cap T (sb_cap s)) as [n|].
  - destruct N as (N1 & N2 & N3). assert (Ls : length (skipn (sb_room s) t) = (length t - sb_room s)%nat) by apply skipn_length.
    destruct (Z.ltb_spec (Z.of_nat (length (skipn (sb_room s) t)) + Z.of_nat (sb_cap s)) (2 ^ 64)) as [G|G].
    + set (m := (length (skipn (sb_room s) t) + sb_cap s)%nat) in *.
      set (k := if Nat.ltb n m then m else n).
      assert (Hk : k = Nat.max n m) by (unfold k; destruct (Nat.ltb_spec n m); lia).
      destruct (Z_le_gt_dec (Z.of_nat k) (max_chars T)) as [B|B].
      * destruct (reserve_fine (mk_sbuf (sb_text s ++ firstn (sb_room s) t) (sb_cap s)) k B) as (s' & -> & E' & C1 & C2 & C3).
        specialize (C3 Ea). cbn [sb_cap sb_text] in *. cbn [bindr]. unfold sb_store. rewrite E'.
        replace (Nat.leb _ _) with true by (symmetry; apply Nat.leb_le; rewrite app_length, Lf; lia).
        left. eexists. split; [reflexivity|]. cbn [sb_text sb_cap]. split; [|rewrite <- app_assoc, firstn_skipn; reflexivity].
        split; cbn [sb_text sb_cap]; rewrite <- app_assoc, firstn_skipn, app_length; [lia|]. intros _. lia.
      * unfold sb_reserve. cbn [sb_cap]. replace (Nat.ltb (sb_cap s) k) with true by (symmetry; apply Nat.ltb_lt; lia).
        replace (max_chars T <? Z.of_nat k) with true by (symmetry; apply Z.ltb_lt; lia). rewrite Ea. cbn [bindr].
        right. split; [eauto|]. rewrite app_length. lia.
    + right. split; [eauto|]. rewrite app_length. lia.
  - right. split; [eauto|]. rewrite app_length. lia.
Qed.
Lemma str_print_good opt line s args : sinv s -> Forall arg_ok args -> good s (printed line args) (print_buffered (str_stream T) opt line s args).
Proof.
  intros Hi Ha. apply sprint_goes; auto.
  - intros; apply store_good; auto.
  - intros; apply write_good; auto.
  - intros; apply put_good; auto.
Qed.
End Str.

(** ** concat *)
Lemma announced_reserve args : Forall carg_ok args -> Z.of_nat (reserve_total (args_of args) + dyn_size (args_of args)) <= announced args.
Proof.
  induction 1 as [|c l Hc _ IH]; [reflexivity|]. unfold args_of, announced, reserve_total, dyn_size in *. cbn [map fold_right].
  destruct (ca_arg c); lia.
Qed.
Lemma announced_text line args : Forall carg_ok args -> Z.of_nat (length (printed line (args_of args))) <= announced args + 1.
Proof.
  intros H. unfold printed. rewrite app_length. assert (L : (length (eol line) <= 1)%nat) by (destruct line; cbn; lia).
  assert (Z.of_nat (length (concat (map text_of (args_of args)))) <= announced args); [|lia]. clear L.
  induction H as [|c l Hc _ IH]; [reflexivity|]. unfold announced in *. cbn [map concat args_of fold_right] in *. unfold args_of in *. cbn [map concat]. rewrite app_length.
  unfold carg_ok in Hc. destruct (ca_arg c); cbn [text_of arg_ok] in *; lia.
Qed.
Lemma reserve_text_fits args : Forall carg_ok args -> forallb is_reserve args = true ->
  (length (concat (map text_of (args_of args))) <= reserve_total (args_of args))%nat.
Proof.
  induction 1 as [|c l Hc _ IH]; [intros; apply le_n|]. cbn [forallb]. intros E. apply andb_prop in E. destruct E as [E1 E2].
  specialize (IH E2). unfold args_of, reserve_total in *. cbn [map concat fold_right]. rewrite app_length. unfold carg_ok in Hc. unfold is_reserve in E1.
  destruct (ca_arg c); try discriminate. cbn [text_of arg_ok] in *. lia.
Qed.
Lemma plain_text_fits args : Forall carg_ok args -> forallb is_plain args = true ->
  (length (concat (map text_of (args_of args))) <= reserve_total (args_of args) + dyn_size (args_of args))%nat.
Proof.
  induction 1 as [|c l Hc _ IH]; [intros; apply Nat.le_0_l|]. cbn [forallb]. intros E. apply andb_prop in E. destruct E as [E1 E2].
  specialize (IH E2). unfold args_of, reserve_total, dyn_size in *. cbn [map concat fold_right]. rewrite app_length. unfold carg_ok in Hc. unfold is_plain, plain_arg in E1.
  destruct (ca_arg c); try discriminate; cbn [text_of arg_ok] in *; lia.
Qed.
Lemma define_fine s t : (length t <= sb_cap s)%nat -> sb_define s t = Fine (mk_sbuf t (sb_cap s)).
Proof. intros H. unfold sb_define, sb_store. cbn. apply Nat.leb_le in H. rewrite H. reflexivity. Qed.
Lemma cargs_ok args : Forall carg_ok args -> Forall arg_ok (args_of args).
Proof. induction 1 as [|c l H]; constructor; auto. Qed.
Section Concat.
Variable T : strtype.
Hypothesis Hok : str_ok T.
Hypothesis Hgrow : st_aux T = false -> grows_exactly T.
Lemma concat_ref_spec opt line args : args <> [] -> Forall carg_ok args -> precise_ok args -> announced args + 1 < 2 ^ 60 ->
  result (concat_ref T opt line (empty_str T) args) = Fine (printed line (args_of args)).
Proof.
  intros Hne Ha Hpr Hs. pose proof (max_chars_big T Hok) as HM. unfold concat_ref.
  pose proof (announced_reserve args Ha) as HR.
  assert (Le : length (eol line) = eol_size line) by (destruct line; reflexivity).
  assert (Le1 : (eol_size line <= 1)%nat) by (destruct line; cbn; lia).
  set (size := (reserve_total (args_of args) + eol_size line)%nat).
  change (concat (map text_of (args_of args)) ++ eol line) with (printed line (args_of args)).
  assert (Hdef : forall s n, Z.of_nat n <= max_chars T -> (length (printed line (args_of args)) <= n)%nat ->
     result (then! s := sb_reserve T s n in sb_define s (printed line (args_of args))) = Fine (printed line (args_of args))).
  { intros s n Hn Hl. destruct (reserve_fine T Hok Hgrow s n Hn) as (s' & -> & _ & C & _). cbn [bindr].
    rewrite define_fine by lia. reflexivity. }
  destruct (forallb is_plain args) eqn:Ep.
  - destruct (forallb is_reserve args) eqn:Er.
    + pose proof (reserve_text_fits args Ha Er) as HF.
      assert (Hl : (length (printed line (args_of args)) <= size)%nat) by (unfold printed, size; rewrite app_length; lia).
      assert (Hsz : Z.of_nat size <= max_chars T) by (unfold size; lia).
      destruct (st_sso T) as [sso|] eqn:Es; [|apply Hdef; auto].
      assert (Hc0 : (sso <= st_cap0 T)%nat) by (apply Hok; auto).
      destruct (Nat.ltb_spec sso size) as [L|L].
      * destruct args as [|[p [[n w]|]] [|q rest]]; try (apply Hdef; auto; fail).
        destruct (Hpr _ n w eq_refl eq_refl) as [-> ->]. cbn [ca_arg].
        unfold concat_precise. set (v := text_of p) in *. set (need := (length v + eol_size line)%nat).
        assert (Hneed : (need <= size)%nat).
        { unfold need, size. cbn [args_of map ca_arg concat] in HF. unfold v. rewrite app_nil_r in HF. unfold args_of. cbn [map ca_arg]. lia. }
        assert (X : exists s', (if Nat.ltb sso need then sb_reserve T (empty_str T) need else Fine (empty_str T)) = Fine s' /\ (need <= sb_cap s')%nat).
        { destruct (Nat.ltb_spec sso need).
          - destruct (reserve_fine T Hok Hgrow (empty_str T) need) as (s' & -> & _ & C & _); [lia|]. eauto.
          - eexists. split; [reflexivity|]. cbn. lia. }
        destruct X as (s' & -> & C). cbn [bindr]. rewrite Nat.leb_refl. rewrite define_fine by (unfold need in C; lia). cbn [bindr sb_text sb_cap].
        rewrite firstn_all. unfold sb_store. cbn [sb_text sb_cap]. rewrite Le.
        replace (Nat.leb _ _) with true by (symmetry; apply Nat.leb_le; unfold need in C; lia).
        cbn [result sb_text]. unfold printed. cbn [args_of map ca_arg concat]. rewrite app_nil_r. reflexivity.
      * rewrite define_fine by (cbn; lia). reflexivity.
    + pose proof (plain_text_fits args Ha Ep) as HF.
      replace (_ <? _) with true by (symmetry; apply Z.ltb_lt; unfold size; lia).
      apply Hdef; [unfold size; lia|]. unfold printed, size. rewrite app_length. lia.
  - assert (Hi : sinv T (empty_str T)).
    { split; cbn; [lia|]. intros E. destruct (Hgrow E) as [G _]. lia. }
    destruct (str_print_good T Hok Hgrow opt line (empty_str T) (args_of args) Hi (cargs_ok args Ha)) as [(s' & -> & _ & E)|[_ L]].
    + cbn [result]. rewrite E. reflexivity.
    + cbn [empty_str sb_text app] in L. pose proof (announced_text line args Ha). lia.
Qed.
End Concat.
Lemma buffer_ok size : In size [1; 2; 4] -> str_ok (concat_buffer size) /\ grows_exactly (concat_buffer size).
Proof.
  intros H. split.
  - split; [exact H|]. split; [intros; apply le_n|]. intros sso [= <-]. apply le_n.
  - split; [|reflexivity]. destruct H as [<-|[<-|[<-|[]]]]; vm_compute; discriminate.
Qed.
Lemma concat_spec T opt line args : str_ok T -> (st_aux T = false -> grows_exactly T) -> Forall carg_ok args -> precise_ok args -> announced args + 1 < 2 ^ 60 ->
  concat_impl T opt line args = Fine (printed line (args_of args)).
Proof.
  intros Hok Hg Ha Hpr Hs. destruct args as [|c rest]; [reflexivity|]. unfold concat_impl. set (args := c :: rest) in *.
  assert (Hne : args <> []) by discriminate.
  destruct (st_buffer T); [apply concat_ref_spec; auto|].
  assert (Rest : (if forallb is_reserve args
      then in_local (reserve_total (args_of args) + eol_size line) (concat (map text_of (args_of args)) ++ eol line)
            (Fine (concat (map text_of (args_of args)) ++ eol line))
      else result (concat_ref (concat_buffer (st_size T)) opt line (empty_str (concat_buffer (st_size T))) args)) = Fine (printed line (args_of args))).
  { destruct (forallb is_reserve args) eqn:Er.
    - pose proof (reserve_text_fits args Ha Er). unfold in_local. replace (Nat.leb _ _) with true; [reflexivity|].
      symmetry. apply Nat.leb_le. rewrite app_length. destruct line; cbn [eol eol_size length]; lia.
    - destruct (buffer_ok (st_size T)) as [B1 B2]; [apply Hok|]. apply concat_ref_spec; auto. }
  unfold args in *. destruct c as [[t|sz t|sz t|ws] pr]; try exact Rest. destruct rest; [|exact Rest]. destruct line; [exact Rest|].
  unfold printed. cbn. rewrite !app_nil_r. reflexivity.
Qed.
