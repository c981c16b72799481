(** The chunked scanner of ISO 8601 timestamps: any cutting of the text gives the same answer. *)
From Coq Require Import String.
From Coq Require Import List.
From Verif Require Import Base NumSpec NumFacts IntPrintModel IntPrintProofs IntScanModel ScanSpec
  IntScanProofs IntSseProofs TimeSpec TimeModel TimeTextSpec TimeTextModel TimeTextProofs TimeScanProofs TimeCtxModel TimeCtxProofs.
Import ListNotations.

Inductive cls (A : Type) := CPart (st : tstate A) | COk (v : A) (rest : list Z) | CBad | CUb.
Arguments CPart {A}. Arguments COk {A}. Arguments CBad {A}. Arguments CUb {A}.
Definition cls_of {A} (r : reply A) : cls A :=
  match r with
  | None => CUb
  | Some (st, pc_partial, _) => CPart st
  | Some (st, pc_ok, rest) => COk (t_val st) rest
  | Some _ => CBad
  end.
(** Equal but for a buffer that is not read again. *)
Definition steq {A} (a b : tstate A) : Prop :=
  t_phase a = t_phase b /\ t_int a = t_int b /\ (t_val a = t_val b \/ t_phase a = P_year) /\
  (t_buf a = t_buf b \/ t_phase a = P_after_subseconds_marker \/ t_phase a = P_year /\ t_int a = ph_overflow).
Definition agree {A} (x y : cls A) : Prop :=
  match x, y with
  | CPart a, CPart b => steq a b
  | COk v r, COk w q => v = w /\ r = q
  | CBad, CBad | CUb, CUb => True
  | _, _ => False
  end.
Lemma steq_refl {A} (a : tstate A) : steq a a. Proof. unfold steq. auto. Qed.
Lemma agree_refl {A} (x : cls A) : agree x x. Proof. destruct x; cbn; auto using steq_refl. Qed.
Lemma agree_trans {A} (x y z : cls A) : agree x y -> agree y z -> agree x z.
Proof.
  destruct x, y, z; cbn; try tauto.
  - unfold steq. intros (A1 & A2 & A3 & A4) (B1 & B2 & B3 & B4). rewrite A1, A2 in *. intuition congruence.
  - intros [-> ->] [-> ->]. auto.
Qed.
Lemma agree_sym {A} (x y : cls A) : agree x y -> agree y x.
Proof.
  destruct x, y; cbn; try tauto.
  - unfold steq. intros (A1 & A2 & A3 & A4). rewrite A1, A2 in *. intuition congruence.
  - intros [-> ->]. auto.
Qed.

Section ONE.
  Context (cw : Z) (sse : bool) (Hw : In cw char_widths).
  Notation feed := (iso_feed cw sse).
  Definition then_feed (x : cls civil) (s : list Z) : cls civil :=
    match x with CPart st => cls_of (feed st s) | COk v r => COk v (r ++ s) | y => y end.

  (** Nothing is read from an empty chunk. *)
  Definition idle (p : tphase) (k : istate -> list Z -> reply civil) : Prop :=
    forall st, t_phase st = p -> k st [] = Some (st, pc_partial, []) /\ forall s, feed st s = k st s.
  Lemma idle_token p tok k : (forall st s, t_phase st = p -> feed st s = token_phase tok k st s) -> idle p (token_phase tok k).
  Proof. intros H st E. split; [reflexivity|]. intros s. now apply H. Qed.
  Lemma idle_field p lo hi set k : (forall st s, t_phase st = p -> feed st s = field_phase cw lo hi set k st s) ->
    idle p (field_phase cw lo hi set k).
  Proof. intros H st E. split; [destruct st; reflexivity|]. intros s. now apply H. Qed.

  Ltac by_phase := let st := fresh in let s := fresh in let E := fresh in
    intros st s E; unfold iso_feed; rewrite E; reflexivity.
  Lemma idle_month : idle P_month (f_month cw sse). Proof. apply idle_field. by_phase. Qed.
  Lemma idle_day : idle P_day (f_day cw sse). Proof. apply idle_field. by_phase. Qed.
  Lemma idle_hours : idle P_hours (f_hours cw sse). Proof. apply idle_field. by_phase. Qed.
  Lemma idle_minutes : idle P_minutes (f_minutes cw sse). Proof. apply idle_field. by_phase. Qed.
  Lemma idle_seconds : idle P_seconds (f_seconds cw sse). Proof. apply idle_field. by_phase. Qed.
  Lemma idle_tz_hours : idle P_timezone_hours (f_tz_hours cw). Proof. apply idle_field. by_phase. Qed.
  Lemma idle_after_year : idle P_after_year (f_after_year cw sse). Proof. apply idle_token. by_phase. Qed.
  Lemma idle_after_month : idle P_after_month (f_after_month cw sse). Proof. apply idle_token. by_phase. Qed.
  Lemma idle_after_day : idle P_after_day (f_after_day cw sse). Proof. apply idle_token. by_phase. Qed.
  Lemma idle_after_hours : idle P_after_hours (f_after_hours cw sse). Proof. apply idle_token. by_phase. Qed.
  Lemma idle_after_minutes : idle P_after_minutes (f_after_minutes cw sse). Proof. apply idle_token. by_phase. Qed.
  Lemma idle_after_tz_hours : idle P_after_timezone_hours (f_after_tz_hours cw). Proof. apply idle_token. by_phase. Qed.
  Lemma idle_tz_minutes : idle P_timezone_minutes (f_tz_minutes cw).
  Proof. intros st E. split; [destruct st; reflexivity|]. revert st E. assert (H : forall st s, t_phase st = P_timezone_minutes -> feed st s = f_tz_minutes cw st s) by by_phase. intros. now apply H. Qed.
  Lemma idle_marker : idle P_timezone_marker (f_timezone_marker cw sse).
  Proof. intros st E. split; [reflexivity|]. assert (H : forall st s, t_phase st = P_timezone_marker -> feed st s = f_timezone_marker cw sse st s) by by_phase. intros. now apply H. Qed.
  Lemma idle_after_sub : idle P_after_subseconds_marker (f_after_subseconds cw).
  Proof. intros st E. split; [reflexivity|]. assert (H : forall st s, t_phase st = P_after_subseconds_marker -> feed st s = f_after_subseconds cw st s) by by_phase. intros. now apply H. Qed.
  Lemma idle_sub : idle P_subseconds (f_subseconds cw sse).
  Proof. intros st E. split; [reflexivity|]. assert (H : forall st s, t_phase st = P_subseconds -> feed st s = f_subseconds cw sse st s) by by_phase. intros. now apply H. Qed.

  (** One character, then the rest. *)
  Definition one (k : istate -> list Z -> reply civil) (st : istate) (c : Z) (s : list Z) : Prop :=
    agree (cls_of (k st (c :: s))) (then_feed (cls_of (k st [c])) s).
  Lemma after_idle p k st s : idle p k -> t_phase st = p -> agree (cls_of (k st s)) (then_feed (cls_of (k st [])) s).
  Proof. intros I E. destruct (I st E) as [-> F]. cbn [cls_of then_feed]. rewrite F. apply agree_refl. Qed.

  Lemma one_token p q tok k st c s : phase_next p = q -> idle q k -> t_phase st = p -> one (token_phase tok k) st c s.
  Proof.
    intros Q I E. unfold one, token_phase. destruct (c =? tok); [|cbn; auto].
    apply (after_idle q); [exact I|]. cbn [t_phase]. congruence.
  Qed.
  Lemma one_field p q lo hi set k st c s : phase_next p = q -> idle q k -> idle p (field_phase cw lo hi set k) ->
    t_phase st = p -> one (field_phase cw lo hi set k) st c s.
  Proof.
    intros Q I IP E. unfold one. unfold field_phase at 1 2. unfold two_phase. destruct (t_buf st) as [|b [|b' l]] eqn:EB.
    - destruct s as [|d s].
      + cbn [cls_of then_feed].
        destruct (IP (mk_ts [c] (t_phase st) (t_int st) (t_val st))) as [N F]; [exact E|]. rewrite F, N. apply agree_refl.
      + cbn [cls_of then_feed].
        destruct (IP (mk_ts [c] (t_phase st) (t_int st) (t_val st))) as [N F]; [exact E|]. rewrite F.
        unfold field_phase, two_phase. cbn [t_buf t_phase t_int t_val]. unfold scan_two.
        destruct (is_dec cw c); cbn [negb]; [|cbn; auto].
        destruct (is_dec cw d); cbn [negb]; [|cbn; auto].
        destruct (_ || _); [cbn; auto|apply agree_refl].
    - unfold scan_two. destruct (is_dec cw b); cbn [negb]; [|cbn; auto].
      destruct (is_dec cw c); cbn [negb]; [|cbn; auto].
      destruct (_ || _); [cbn; auto|]. apply (after_idle q); [exact I|]. cbn [t_phase]. congruence.
    - cbn; auto.
  Qed.
  Lemma one_tz_minutes st c s : t_phase st = P_timezone_minutes -> one (f_tz_minutes cw) st c s.
  Proof.
    intros E. unfold one. unfold f_tz_minutes at 1 2. unfold two_phase. destruct (t_buf st) as [|b [|b' l]] eqn:EB.
    - destruct s as [|d s]; cbn [cls_of then_feed];
        (destruct (idle_tz_minutes (mk_ts [c] (t_phase st) (t_int st) (t_val st))) as [N F]; [exact E|]; rewrite F).
      + rewrite N. apply agree_refl.
      + unfold f_tz_minutes, two_phase. cbn [t_buf t_phase t_int t_val]. unfold scan_two.
        destruct (is_dec cw c); cbn [negb]; [|cbn; auto].
        destruct (is_dec cw d); cbn [negb]; [|cbn; auto].
        destruct (_ <? _); [cbn; auto|apply agree_refl].
    - unfold scan_two. destruct (is_dec cw b); cbn [negb]; [|cbn; auto].
      destruct (is_dec cw c); cbn [negb]; [|cbn; auto].
      destruct (_ <? _); [cbn; auto|]. cbn. auto.
    - cbn; auto.
  Qed.
  Lemma one_marker point st c s :
    (c = 46 -> agree (cls_of (point st (c :: s))) (then_feed (cls_of (point st [c])) s)) -> one (f_marker cw point) st c s.
  Proof.
    intros HP. unfold one, f_marker. destruct (c =? 90); [cbn; auto|].
    destruct (c =? 43); [apply (after_idle P_timezone_hours); [apply idle_tz_hours|reflexivity]|].
    destruct (c =? 45); [apply (after_idle P_timezone_hours); [apply idle_tz_hours|reflexivity]|].
    destruct (Z.eqb_spec c 46); [auto|]. cbn; auto.
  Qed.
  Lemma one_after_sub st c s : one (f_after_subseconds cw) st c s.
  Proof. apply one_marker. intros _. cbn; auto. Qed.
  Lemma one_timezone_marker st c s : one (f_timezone_marker cw sse) st c s.
  Proof.
    apply one_marker. intros ->. cbn [skipn]. apply (after_idle P_subseconds); [apply idle_sub|reflexivity].
  Qed.

  (** The marker after the fraction does not read the buffer. *)
  Lemma after_sub_buf st st' s : t_val st = t_val st' -> t_int st = t_int st' -> t_phase st = P_after_subseconds_marker -> t_phase st' = P_after_subseconds_marker ->
    agree (cls_of (f_after_subseconds cw st s)) (cls_of (f_after_subseconds cw st' s)).
  Proof.
    intros EV EI EP EP'. unfold f_after_subseconds, f_marker. destruct s as [|c s].
    - cbn. unfold steq. rewrite EP, EP'. auto 8.
    - rewrite EV. destruct (c =? 90); [cbn; auto|]. destruct (c =? 43); [apply agree_refl|]. destruct (c =? 45); [apply agree_refl|].
      destruct (c =? 46); cbn; auto.
  Qed.

  Lemma one_sub st c s : t_phase st = P_subseconds -> Forall dec_char (t_buf st) -> units cw (c :: s) ->
    zlen (t_buf st ++ take_dec cw (c :: s)) <= 19 -> one (f_subseconds cw sse) st c s.
  Proof.
    intros E HB U L. unfold one. unfold f_subseconds at 1 2.
    assert (UB : units cw (t_buf st)) by (apply units_small; [exact Hw|]; eapply Forall_impl; [|exact HB]; unfold dec_char; intros; lia).
    assert (Uc : units cw [c]) by (constructor; [exact (Forall_inv U)|constructor]).
    rewrite frac_chunk_canon; auto; [|discriminate|now apply units_app].
    rewrite frac_chunk_canon; auto; [|discriminate|now apply units_app|].
    2:{ cbn [take_dec] in *. destruct (is_dec cw c); [|exact L]. rewrite zlen_app in *. rewrite zlen_cons in *.
        pose proof (zlen_nonneg (take_dec cw s)). change (zlen []) with 0. lia. }
    destruct (is_dec cw c) eqn:Ec.
    - unfold frac_canon at 2. cbn [take_dec drop_dec]. rewrite Ec. cbn [cls_of then_feed].
      set (st1 := mk_ts (t_buf st ++ [c]) (t_phase st) (t_int st) (t_val st)).
      destruct (idle_sub st1 E) as [N F]. rewrite F. rewrite frac_canon_cons by exact Ec.
      destruct s as [|d s].
      + rewrite N. unfold frac_canon. cbn [drop_dec take_dec]. rewrite app_nil_r. apply agree_refl.
      + unfold f_subseconds. rewrite frac_chunk_canon; auto.
        * change (t_buf st1) with (t_buf st ++ [c]). destruct (frac_canon cw (t_buf st ++ [c]) (d :: s)); try (cbn; auto; fail); try apply agree_refl.
          apply after_sub_buf; reflexivity.
        * discriminate.
        * cbn [t_buf st1]. rewrite <- app_assoc. apply units_app; [exact UB|]. exact U.
        * cbn [t_buf st1]. apply Forall_app. split; [exact HB|]. constructor; [|constructor].
          apply (is_dec_iff cw Hw); [exact (Forall_inv U)|exact Ec].
        * cbn [t_buf st1]. cbn [take_dec] in L. rewrite Ec in L. rewrite <- app_assoc. exact L.
    - unfold frac_canon. cbn [take_dec drop_dec]. rewrite Ec, app_nil_r. destruct (t_buf st) as [|b l] eqn:EB; [cbn; auto|].
      apply one_after_sub.
  Qed.
  Lemma one_wait_numbers st c s : t_phase st = P_waiting_for_numbers -> one (f_wait_numbers cw) st c s.
  Proof.
    intros E. unfold one. unfold f_wait_numbers at 1 2. rewrite !skip_digits_drop. cbn [drop_dec].
    destruct (is_dec cw c).
    - cbn [cls_of then_feed]. unfold iso_feed. rewrite E. unfold f_wait_numbers. rewrite skip_digits_drop. apply agree_refl.
    - apply one_after_sub.
  Qed.
  Lemma with_same (st : istate) : with_val st (set_sub (cv_sub (t_val st)) (t_val st)) = st.
  Proof. destruct st as [? ? ? []]. reflexivity. Qed.
  Lemma one_wait_five st c s : t_phase st = P_waiting_for_five -> one (f_wait_five cw) st c s.
  Proof.
    intros E. unfold one. unfold f_wait_five at 1 2. cbn [five_loop]. destruct (is_dec cw c) eqn:Ec; cbn [negb].
    - destruct (c =? 48); cbn [negb].
      + unfold f_wait_numbers at 3. cbn [skip_digits cls_of then_feed]. rewrite with_same. unfold iso_feed. rewrite E. unfold f_wait_five.
        apply agree_refl.
      + apply one_wait_numbers. reflexivity.
    - apply one_after_sub.
  Qed.

  Lemma cls_bad st c r : failing c -> cls_of (Some (st, c, r)) = @CBad civil.
  Proof. intros [A B]. destruct c; try reflexivity; contradiction. Qed.
  Lemma one_year st c s : t_phase st = P_year -> year_wf (t_int st) (t_buf st) -> units cw (c :: s) -> one (f_year cw sse) st c s.
  Proof.
    intros E WF U. unfold one. pose proof (year_one cw sse _ _ c s Hw WF U) as Y.
    pose proof (year_honest cw sse _ _ (c :: s) Hw WF U) as HX.
    assert (Uc : units cw [c]) by (constructor; [exact (Forall_inv U)|constructor]).
    pose proof (year_honest cw sse _ _ [c] Hw WF Uc) as HC.
    unfold f_year at 2. destruct (year_phase cw sse (t_int st) (t_buf st) [c]) as [[b ip|v r|e r]|] eqn:E1.
    - pose proof (year_wf_next cw sse _ _ _ _ _ Hw WF Uc E1) as WF1.
      pose proof (year_honest cw sse _ _ s Hw WF1 (Forall_inv_tail U)) as HY.
      cbn [ythen] in Y. cbn [cls_of then_feed iso_feed t_phase]. unfold f_year. cbn [t_int t_buf].
      set (x := year_phase cw sse (t_int st) (t_buf st) (c :: s)) in *. set (y := year_phase cw sse ip b s) in *. clearbody x y.
      destruct x as [[bx ix|vx rx|ex rx]|], y as [[by' iy|vy ry|ey ry]|]; cbn [ynorm honest] in *; try discriminate;
        try (destruct ix; discriminate); try (destruct iy; discriminate); try (destruct ex; discriminate); try (destruct ey; discriminate);
        try (destruct ix, ey; discriminate); try (destruct iy, ex; discriminate).
      + cbn. unfold steq. cbn. destruct ix, iy; try discriminate; first [injection Y; intros; subst; auto 6 | auto 8].
      + injection Y as -> ->. apply agree_refl.
      + rewrite !cls_bad by assumption. exact Logic.I.
      + exact Logic.I.
    - cbn [ythen ynorm] in Y. pose proof (year_done cw sse _ _ _ _ _ Hw WF Uc E1) as ->.
      assert (R : year_phase cw sse (t_int st) (t_buf st) (c :: s) = Some (YDone v (c :: s))).
      { destruct (year_phase cw sse (t_int st) (t_buf st) (c :: s)) as [[bx ix|vx rx|ex rx]|]; cbn [ynorm] in Y; try discriminate.
        - destruct ix; discriminate. - exact Y. - destruct ex; discriminate. }
      unfold f_year. rewrite R.
      change (one (f_after_year cw sse) (mk_ts [] P_after_year ph_space (set_year v civil0)) c s).
      apply (one_token P_after_year P_month); [reflexivity|apply idle_month|reflexivity].
    - cbn [ythen] in Y. unfold f_year. cbn [honest] in HC. rewrite (cls_bad _ e) by exact HC. cbn [then_feed].
      destruct (year_phase cw sse (t_int st) (t_buf st) (c :: s)) as [[bx ix|vx rx|ex rx]|]; cbn [ynorm honest] in *; try (destruct e; discriminate).
      + destruct ix, e; try discriminate; destruct HC; contradiction.
      + rewrite cls_bad by exact HX. exact Logic.I.
    - cbn [ythen ynorm] in Y. unfold f_year. destruct (year_phase cw sse (t_int st) (t_buf st) (c :: s)) as [[bx ix|vx rx|ex rx]|]; cbn [ynorm] in Y; try discriminate.
      + destruct ix; discriminate.
      + destruct ex; discriminate.
      + exact Logic.I.
  Qed.

  (** The states the scanner can be in between chunks. *)
  Definition okst (st : istate) : Prop :=
    match t_phase st with
    | P_year => year_wf (t_int st) (t_buf st)
    | P_subseconds => Forall dec_char (t_buf st)
    | P_timezone_marker => t_buf st = []
    | P_ok => False
    | _ => True
    end.
  Definition pending (st : istate) : list Z := match t_phase st with P_subseconds => t_buf st | _ => [] end.

  Lemma year_idle ip b : year_wf ip b -> ynorm (year_phase cw sse ip b []) = ynorm (Some (YPartial b ip)).
  Proof.
    intros WF. destruct ip; cbn [year_wf] in WF; try contradiction; try reflexivity.
    destruct WF as (neg & p & -> & Hp & Hne & L). cbn [year_phase]. rewrite year_digits_canon; auto.
    - unfold ydigits_canon. rewrite app_nil_r.
      assert (Hp' : Forall (fun c => is_dec cw c = true) p) by (eapply Forall_impl; [|exact Hp]; intros x; apply dec_is; exact Hw).
      rewrite <- (app_nil_r p) at 1. rewrite drop_app by exact Hp'. cbn [drop_dec].
      assert (T : take_dec cw p = p) by (rewrite <- (app_nil_r p) at 1; rewrite take_app by exact Hp'; apply app_nil_r).
      rewrite T. destruct (Z.ltb_spec (zlen (sgn neg ++ p)) 20); [reflexivity|lia].
    - constructor.
    - rewrite app_nil_r. exact Hne.
  Qed.
  Lemma idle_all st : okst st -> agree (cls_of (feed st [])) (CPart st).
  Proof.
    intros WF. unfold okst in WF. destruct (t_phase st) eqn:E; try contradiction;
    match goal with
    | H : t_phase st = P_year |- _ => idtac
    | H : t_phase st = P_waiting_for_five |- _ => idtac
    | H : t_phase st = P_waiting_for_numbers |- _ => idtac
    | _ => 
        let N := fresh in
        assert (N : feed st [] = Some (st, pc_partial, [])) by 
        first [ destruct (idle_month st E) as [N ->]; exact N | destruct (idle_day st E) as [N ->]; exact N
              | destruct (idle_hours st E) as [N ->]; exact N | destruct (idle_minutes st E) as [N ->]; exact N
              | destruct (idle_seconds st E) as [N ->]; exact N | destruct (idle_tz_hours st E) as [N ->]; exact N
              | destruct (idle_after_year st E) as [N ->]; exact N | destruct (idle_after_month st E) as [N ->]; exact N
              | destruct (idle_after_day st E) as [N ->]; exact N | destruct (idle_after_hours st E) as [N ->]; exact N
              | destruct (idle_after_minutes st E) as [N ->]; exact N | destruct (idle_after_tz_hours st E) as [N ->]; exact N
              | destruct (idle_tz_minutes st E) as [N ->]; exact N | destruct (idle_marker st E) as [N ->]; exact N
              | destruct (idle_after_sub st E) as [N ->]; exact N | destruct (idle_sub st E) as [N ->]; exact N ];
        rewrite N; apply agree_refl
    end.
    - unfold iso_feed. rewrite E. unfold f_year. pose proof (year_idle _ _ WF) as Y.
      destruct (year_phase cw sse (t_int st) (t_buf st) []) as [[b ip|v r|c r]|]; cbn [ynorm] in Y;
        try (destruct (t_int st); discriminate); try (destruct (t_int st), c; discriminate).
      cbn. unfold steq. cbn. rewrite E. destruct ip eqn:Ei, (t_int st) eqn:Et; try discriminate; first [injection Y; intros; subst; auto 8 | auto 8].
    - unfold iso_feed. rewrite E. unfold f_wait_five. cbn [five_loop]. rewrite with_same. apply agree_refl.
    - unfold iso_feed. rewrite E. apply agree_refl.
  Qed.

  Lemma one_all st c s : okst st -> units cw (c :: s) -> short_runs cw (pending st ++ c :: s) -> one feed st c s.
  Proof.
    intros WF U S. unfold one, okst, pending in *. 
    assert (G : forall k, (forall t, feed st t = k st t) -> one k st c s -> agree (cls_of (feed st (c :: s))) (then_feed (cls_of (feed st [c])) s)).
    { intros k Hk O. rewrite !Hk. exact O. }
    destruct (t_phase st) eqn:E; try contradiction.
    - apply (G (f_year cw sse)); [intros t; unfold iso_feed; now rewrite E|]. now apply one_year.
    - apply (G (f_after_year cw sse)); [intros t; unfold iso_feed; now rewrite E|]. apply (one_token P_after_year P_month); auto using idle_month.
    - apply (G (f_month cw sse)); [intros t; unfold iso_feed; now rewrite E|]. apply (one_field P_month P_after_month); auto; [apply idle_after_month|apply idle_month].
    - apply (G (f_after_month cw sse)); [intros t; unfold iso_feed; now rewrite E|]. apply (one_token P_after_month P_day); auto using idle_day.
    - apply (G (f_day cw sse)); [intros t; unfold iso_feed; now rewrite E|]. apply (one_field P_day P_after_day); auto; [apply idle_after_day|apply idle_day].
    - apply (G (f_after_day cw sse)); [intros t; unfold iso_feed; now rewrite E|]. apply (one_token P_after_day P_hours); auto using idle_hours.
    - apply (G (f_hours cw sse)); [intros t; unfold iso_feed; now rewrite E|]. apply (one_field P_hours P_after_hours); auto; [apply idle_after_hours|apply idle_hours].
    - apply (G (f_after_hours cw sse)); [intros t; unfold iso_feed; now rewrite E|]. apply (one_token P_after_hours P_minutes); auto using idle_minutes.
    - apply (G (f_minutes cw sse)); [intros t; unfold iso_feed; now rewrite E|]. apply (one_field P_minutes P_after_minutes); auto; [apply idle_after_minutes|apply idle_minutes].
    - apply (G (f_after_minutes cw sse)); [intros t; unfold iso_feed; now rewrite E|]. apply (one_token P_after_minutes P_seconds); auto using idle_seconds.
    - apply (G (f_seconds cw sse)); [intros t; unfold iso_feed; now rewrite E|]. apply (one_field P_seconds P_timezone_marker); auto; [apply idle_marker|apply idle_seconds].
    - apply (G (f_timezone_marker cw sse)); [intros t; unfold iso_feed; now rewrite E|]. apply one_timezone_marker.
    - apply (G (f_after_subseconds cw)); [intros t; unfold iso_feed; now rewrite E|]. apply one_after_sub.
    - apply (G (f_tz_hours cw)); [intros t; unfold iso_feed; now rewrite E|]. apply (one_field P_timezone_hours P_after_timezone_hours); auto; [apply idle_after_tz_hours|apply idle_tz_hours].
    - apply (G (f_after_tz_hours cw)); [intros t; unfold iso_feed; now rewrite E|]. apply (one_token P_after_timezone_hours P_timezone_minutes); auto using idle_tz_minutes.
    - apply (G (f_tz_minutes cw)); [intros t; unfold iso_feed; now rewrite E|]. now apply one_tz_minutes.
    - apply (G (f_subseconds cw sse)); [intros t; unfold iso_feed; now rewrite E|]. apply one_sub; auto.
      apply (S [] (t_buf st ++ take_dec cw (c :: s)) (drop_dec cw (c :: s))).
      + rewrite <- app_assoc, take_drop. reflexivity.
      + apply Forall_app. split; [|apply take_all]. eapply Forall_impl; [|exact WF]. intros x. now apply dec_is.
    - apply (G (f_wait_five cw)); [intros t; unfold iso_feed; now rewrite E|]. now apply one_wait_five.
    - apply (G (f_wait_numbers cw)); [intros t; unfold iso_feed; now rewrite E|]. now apply one_wait_numbers.
  Qed.

  Lemma okst_steq a b : steq a b -> okst a -> okst b.
  Proof.
    unfold steq, okst. intros (P & I & V & B). rewrite <- P. destruct (t_phase a); auto; rewrite <- ?I.
    - destruct B as [<- | [N | [_ ->]]]; [auto|discriminate|]. intros _. exact Logic.I.
    - destruct B as [<- | [N | [N _]]]; [auto|discriminate|discriminate].
    - destruct B as [<- | [N | [N _]]]; [auto|discriminate|discriminate].
  Qed.
  Lemma pending_steq a b : steq a b -> pending a = pending b.
  Proof.
    unfold steq, pending. intros (P & I & V & B). rewrite <- P. destruct (t_phase a); auto.
    destruct B as [<- | [N | [N _]]]; [auto|discriminate|discriminate].
  Qed.

  (** What a character leads to. *)
  Definition leads (st : istate) (c : Z) (x : cls civil) : Prop :=
    match x with CPart st' => okst st' /\ (pending st' = [] \/ pending st' = pending st ++ [c]) | _ => True end.
  Lemma leads_idle p k st c st' : idle p k -> t_phase st' = p -> okst st' -> pending st' = [] -> leads st c (cls_of (k st' [])).
  Proof. intros I E W Q. destruct (I st' E) as [-> _]. cbn. auto. Qed.
  Lemma leads_token p q tok k st c : phase_next p = q -> idle q k -> t_phase st = p -> okst (mk_ts (t_buf st) q (t_int st) (t_val st)) ->
    q <> P_subseconds -> leads st c (cls_of (token_phase tok k st [c])).
  Proof.
    intros Q I E W N. unfold token_phase. destruct (c =? tok); [|exact Logic.I]. rewrite E, Q.
    apply (leads_idle q); auto. unfold pending. cbn [t_phase]. destruct q; auto; contradiction.
  Qed.
  Lemma leads_field p q lo hi set k st c : phase_next p = q -> idle q k -> t_phase st = p ->
    (forall i v, okst (mk_ts [] q i v)) -> q <> P_subseconds -> (forall b i v, okst (mk_ts b p i v)) -> p <> P_subseconds ->
    leads st c (cls_of (field_phase cw lo hi set k st [c])).
  Proof.
    intros Q I E W N W' N'. unfold field_phase, two_phase. destruct (t_buf st) as [|b [|b' l]].
    - cbn [cls_of leads]. rewrite E. split; [apply W'|]. left. unfold pending. cbn [t_phase]. destruct p; auto; contradiction.
    - unfold scan_two. destruct (is_dec cw b); cbn [negb]; [|exact Logic.I]. destruct (is_dec cw c); cbn [negb]; [|exact Logic.I].
      destruct (_ || _); [exact Logic.I|]. rewrite E, Q. apply (leads_idle q); auto. unfold pending. cbn [t_phase]. destruct q; auto; contradiction.
    - exact Logic.I.
  Qed.
  Lemma leads_marker point st c : (c = 46 -> leads st c (cls_of (point st [c]))) -> leads st c (cls_of (f_marker cw point st [c])).
  Proof.
    intros H. unfold f_marker. destruct (c =? 90); [exact Logic.I|].
    destruct (c =? 43); [apply (leads_idle P_timezone_hours); auto using idle_tz_hours; exact Logic.I|].
    destruct (c =? 45); [apply (leads_idle P_timezone_hours); auto using idle_tz_hours; exact Logic.I|].
    destruct (Z.eqb_spec c 46); [auto|exact Logic.I].
  Qed.
  Lemma leads_after_sub st st' c : leads st c (cls_of (f_after_subseconds cw st' [c])).
  Proof.
    unfold f_after_subseconds, f_marker. destruct (c =? 90); [exact Logic.I|].
    destruct (c =? 43); [apply (leads_idle P_timezone_hours); auto using idle_tz_hours; exact Logic.I|].
    destruct (c =? 45); [apply (leads_idle P_timezone_hours); auto using idle_tz_hours; exact Logic.I|].
    destruct (c =? 46); exact Logic.I.
  Qed.
  Lemma leads_wait_numbers st st' c : t_phase st' = P_waiting_for_numbers -> leads st c (cls_of (f_wait_numbers cw st' [c])).
  Proof.
    intros E. unfold f_wait_numbers. rewrite skip_digits_drop. cbn [drop_dec]. destruct (is_dec cw c).
    - cbn. unfold okst, pending. rewrite E. auto.
    - apply leads_after_sub.
  Qed.
  Lemma next_ok st c : okst st -> units cw [c] -> leads st c (cls_of (feed st [c])).
  Proof.
    intros WF U. pose proof WF as WF0. unfold okst in WF. unfold iso_feed. destruct (t_phase st) eqn:E; try contradiction.
    - unfold f_year. pose proof (year_honest cw sse _ _ [c] Hw WF U) as HC.
      destruct (year_phase cw sse (t_int st) (t_buf st) [c]) as [[b ip|v r|e r]|] eqn:EY; cbn [honest] in HC.
      + cbn. split; [exact (year_wf_next cw sse _ _ _ _ _ Hw WF U EY)|auto].
      + pose proof (year_done cw sse _ _ _ _ _ Hw WF U EY) as ->.
        unfold f_after_year, token_phase. destruct (c =? 45); [|exact Logic.I]. apply (leads_idle P_month); [apply idle_month|reflexivity|exact Logic.I|reflexivity].
      + rewrite cls_bad by exact HC. exact Logic.I.
      + exact Logic.I.
    - apply (leads_token P_after_year P_month); auto using idle_month; try discriminate; try exact Logic.I.
    - apply (leads_field P_month P_after_month); auto using idle_after_month; try discriminate; intros; try exact Logic.I.
    - apply (leads_token P_after_month P_day); auto using idle_day; try discriminate; try exact Logic.I.
    - apply (leads_field P_day P_after_day); auto using idle_after_day; try discriminate; intros; try exact Logic.I.
    - apply (leads_token P_after_day P_hours); auto using idle_hours; try discriminate; try exact Logic.I.
    - apply (leads_field P_hours P_after_hours); auto using idle_after_hours; try discriminate; intros; try exact Logic.I.
    - apply (leads_token P_after_hours P_minutes); auto using idle_minutes; try discriminate; try exact Logic.I.
    - apply (leads_field P_minutes P_after_minutes); auto using idle_after_minutes; try discriminate; intros; try exact Logic.I.
    - apply (leads_token P_after_minutes P_seconds); auto using idle_seconds; try discriminate; try exact Logic.I.
    - apply (leads_field P_seconds P_timezone_marker); auto using idle_marker; try discriminate; intros; try exact Logic.I. reflexivity.
    - apply leads_marker. intros ->. cbn [skipn]. apply (leads_idle P_subseconds); auto using idle_sub.
      + unfold okst. cbn. rewrite WF. constructor.
    - apply leads_after_sub.
    - apply (leads_field P_timezone_hours P_after_timezone_hours); auto using idle_after_tz_hours; try discriminate; intros; try exact Logic.I.
    - apply (leads_token P_after_timezone_hours P_timezone_minutes); auto using idle_tz_minutes; try discriminate; try exact Logic.I.
    - unfold f_tz_minutes, two_phase. destruct (t_buf st) as [|b [|b' l]].
      + cbn. unfold okst, pending. cbn. rewrite E. auto.
      + unfold scan_two. destruct (is_dec cw b); cbn [negb]; [|exact Logic.I]. destruct (is_dec cw c); cbn [negb]; [|exact Logic.I].
        destruct (_ <? _); exact Logic.I.
      + exact Logic.I.
    - unfold f_subseconds. unfold fraction_chunk. rewrite skip_digits_drop, firstn_take. cbn [drop_dec take_dec].
      destruct (is_dec cw c) eqn:Ec.
      + change (wrap 8 (zlen [c])) with 1. destruct (_ <? 1) eqn:EL.
        * destruct (scan_fraction _ _ _ _) as [|? ?|[v r]]; try exact Logic.I. destruct (skipn _ [c]) as [|x more]; [exact Logic.I|].
          destruct (x <? 53); [cbn; auto|]. destruct (53 <? x); [cbn; auto|]. destruct (existsb _ more); cbn; auto.
        * cbn [cls_of leads]. change (firstn (Z.to_nat 1) [c]) with [c]. split.
          -- unfold okst. cbn [t_phase]. rewrite E. cbn [t_buf]. apply Forall_app. split; [exact WF|]. constructor; [|constructor].
             apply (is_dec_iff cw Hw); [exact (Forall_inv U)|exact Ec].
          -- unfold pending. cbn [t_phase t_buf]. rewrite E. auto.
      + assert (G : forall o : option fstep, (match o with Some (FKeep _) | Some (FWait _ _) => False | Some (FDone _ r) => r = [c] | _ => True end) ->
          leads st c (cls_of (match o with
             | None => None
             | Some (FDone v r) => f_after_subseconds cw (with_phase (with_val st (set_sub v (t_val st))) P_after_subseconds_marker) r
             | Some (FKeep b) => Some (mk_ts b (t_phase st) (t_int st) (t_val st), pc_partial, [])
             | Some (FWait five v) =>
                 Some (mk_ts [] (if five then P_waiting_for_five else P_waiting_for_numbers) (t_int st) (set_sub v (t_val st)), pc_partial, [])
             | Some (FBad r) => Some (st, pc_invalid, r) end))).
        { intros [[v r|b|five v|r]|] H; try contradiction; try exact Logic.I. subst r. apply leads_after_sub. }
        apply G. destruct (t_buf st) as [|b l].
        * destruct (scan_fraction _ _ _ _) as [|? ?|[v r]]; try exact Logic.I. destruct r; [reflexivity|].
          destruct (round_fraction _ _); cbn; auto.
        * destruct (_ <? _).
          -- destruct (scan_fraction _ _ _ _) as [|? ?|[v r]]; try exact Logic.I. destruct (round_fraction _ _); cbn; auto.
          -- destruct (scan_fraction _ _ _ _) as [|? ?|[v r]]; try exact Logic.I. reflexivity.
    - unfold f_wait_five. cbn [five_loop]. destruct (is_dec cw c) eqn:Ec; cbn [negb].
      + destruct (c =? 48); cbn [negb].
        * unfold f_wait_numbers. cbn [skip_digits cls_of leads]. rewrite with_same. split; [exact WF0|]. unfold pending. rewrite E. auto.
        * now apply leads_wait_numbers.
      + apply leads_after_sub.
    - now apply leads_wait_numbers.
  Qed.

  (** Character by character. *)
  Fixpoint crun (st : istate) (s : list Z) : cls civil :=
    match s with
    | [] => CPart st
    | c :: s' => match cls_of (feed st [c]) with CPart st' => crun st' s' | COk v r => COk v (r ++ s') | x => x end
    end.
  Lemma crun_app a : forall st b, crun st (a ++ b) = match crun st a with CPart st' => crun st' b | COk v r => COk v (r ++ b) | x => x end.
  Proof.
    induction a as [|c a IH]; intros st b; [reflexivity|]. cbn [app crun].
    destruct (cls_of (feed st [c])); auto. now rewrite app_assoc.
  Qed.
  Definition ready (st : istate) (s : list Z) : Prop := okst st /\ units cw s /\ short_runs cw (pending st ++ s).
  Lemma ready_next st c s st' : ready st (c :: s) -> cls_of (feed st [c]) = CPart st' -> ready st' s.
  Proof.
    intros (W & U & S) E. assert (Uc : units cw [c]) by (constructor; [exact (Forall_inv U)|constructor]).
    pose proof (next_ok st c W Uc) as L. rewrite E in L. destruct L as [W' P].
    split; [exact W'|]. split; [exact (Forall_inv_tail U)|]. destruct P as [-> | ->].
    - cbn [app]. apply (short_suffix cw (pending st ++ [c])). now rewrite <- app_assoc.
    - now rewrite <- app_assoc.
  Qed.
  Lemma crun_ready a : forall st b st', ready st (a ++ b) -> crun st a = CPart st' -> ready st' b.
  Proof.
    induction a as [|c a IH]; intros st b st' R; cbn [crun app] in *.
    - intros E. injection E as <-. exact R.
    - destruct (cls_of (feed st [c])) as [s1| | |] eqn:E; try discriminate. apply IH. now apply (ready_next st c).
  Qed.
  Lemma feed_crun s : forall st, ready st s -> agree (cls_of (feed st s)) (crun st s).
  Proof.
    induction s as [|c s IH]; intros st R.
    - apply idle_all. apply R.
    - pose proof R as (W & U & S). eapply agree_trans; [apply (one_all st c s W U S)|]. cbn [crun].
      destruct (cls_of (feed st [c])) as [s1|v r| |] eqn:E; cbn [then_feed]; try (cbn; auto; fail).
      apply IH. now apply (ready_next st c).
  Qed.
  Lemma year_val st v s : t_phase st = P_year -> agree (cls_of (feed st s)) (cls_of (feed (with_val st v) s)).
  Proof.
    intros E. unfold iso_feed. cbn [with_val t_phase]. rewrite E. unfold f_year. change (t_int (with_val st v)) with (t_int st). change (t_buf (with_val st v)) with (t_buf st).
    destruct (year_phase cw sse (t_int st) (t_buf st) s) as [[b ip|w r|e r]|]; apply agree_refl.
  Qed.
  Lemma feed_steq a b s : okst a -> units cw s -> steq a b -> agree (cls_of (feed a s)) (cls_of (feed b s)).
  Proof.
    intros W U (P & I & V & B). destruct (t_phase a) eqn:EP.
    2-20: destruct V as [V | V]; [|discriminate]; destruct B as [B | [B | [B _]]]; try discriminate;
      try (replace b with a by (destruct a, b; cbn in *; congruence); apply agree_refl).
    - eapply agree_trans; [apply (year_val a (t_val b)); exact EP|].
      destruct B as [B | [B | [_ B]]]; [|discriminate|].
      + assert (Q : with_val a (t_val b) = b) by (clear W U V; destruct a, b; unfold with_val; cbn in *; congruence). rewrite Q. apply agree_refl.
      + unfold iso_feed. cbn [with_val t_phase]. rewrite EP, <- P. unfold f_year. cbn [with_val t_int t_buf]. rewrite <- I, B.
        cbn [year_phase]. unfold year_overflow. rewrite skip_digits_drop. destruct (drop_dec cw s); [|exact Logic.I].
        cbn. unfold steq. cbn. auto 8.
    - destruct (idle_after_sub a EP) as [_ ->]. destruct (idle_after_sub b (eq_sym P)) as [_ ->]. now apply after_sub_buf.
  Qed.
  Lemma crun_steq s : forall a b, ready a s -> steq a b -> agree (crun a s) (crun b s).
  Proof.
    intros a b R Q. pose proof R as (W & U & S).
    assert (R' : ready b s).
    { split; [now apply (okst_steq a)|]. split; [exact U|]. now rewrite <- (pending_steq a b). }
    eapply agree_trans; [apply agree_sym, feed_crun; exact R|].
    eapply agree_trans; [apply feed_steq; [exact W|exact U|exact Q]|]. now apply feed_crun.
  Qed.

  (** The answer over all chunks is that over the characters one by one. *)
  Definition ends (x : cls civil) (r : option (scanned civil)) : Prop :=
    match x with
    | CPart _ => r = Some (NotRead pc_end_of_file)
    | COk v rest => r = Some (Read v rest)
    | CBad => exists c, r = Some (NotRead c) /\ failing c
    | CUb => r = None
    end.
  Lemma ends_agree x y r : agree x y -> ends x r -> ends y r.
  Proof. destruct x, y; cbn; try tauto. intros [-> ->]. auto. Qed.
  Lemma eof_partial st : okst st -> iso_eof st = pc_end_of_file.
  Proof. unfold okst, iso_eof. destruct (t_phase st); try reflexivity. contradiction. Qed.
  Lemma run_crun chunks : forall st, ready st (concat chunks) ->
    ends (crun st (concat chunks)) (run_chunks feed (fun st => Some (st, iso_eof st)) st chunks).
  Proof.
    induction chunks as [|s chunks IH]; intros st R; cbn [concat run_chunks].
    - cbn [crun ends]. rewrite (eof_partial st (proj1 R)). reflexivity.
    - cbn [concat] in R. pose proof R as (W & U & S). rewrite crun_app.
      assert (Rs : ready st s).
      { split; [exact W|]. apply Forall_app in U. split; [tauto|]. rewrite app_assoc in S. exact (short_prefix cw _ _ S). }
      pose proof (feed_crun s st Rs) as A. pose proof (crun_ready s st (concat chunks)) as CR.
      destruct (crun st s) as [s1|v r| |].
      + destruct (feed st s) as [[[st1 c] r1]|]; [|contradiction]. destruct c; try contradiction. cbn [cls_of agree] in A.
        specialize (CR _ R eq_refl). assert (R1 : ready st1 (concat chunks)).
        { destruct CR as (W1 & U1 & S1). assert (Q : steq s1 st1) by (apply (agree_sym (CPart st1) (CPart s1)); exact A).
          split; [now apply (okst_steq s1)|]. split; [exact U1|]. now rewrite <- (pending_steq s1). }
        eapply ends_agree; [apply crun_steq; [exact R1|exact A]|]. now apply IH.
      + destruct (feed st s) as [[[st1 c] r1]|]; [|contradiction]. destruct c; try contradiction. destruct A as [-> ->]. reflexivity.
      + destruct (feed st s) as [[[st1 c] r1]|]; [|contradiction]. destruct c; try contradiction; eexists; (split; [reflexivity|split; discriminate]).
      + destruct (feed st s) as [[[st1 c] r1]|]; [|reflexivity]. destruct c; contradiction.
  Qed.
  Lemma run_single chunks st : ready st (concat chunks) ->
    ends (cls_of (feed st (concat chunks))) (run_chunks feed (fun st => Some (st, iso_eof st)) st chunks).
  Proof.
    intros R. eapply ends_agree; [apply agree_sym, feed_crun; exact R|]. now apply run_crun.
  Qed.
End ONE.
