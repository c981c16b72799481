(** The chunked scanner of unix timestamps: the meaning of a state and a text to come. *)
From Coq Require Import String.
From Coq Require Import List.
From Verif Require Import Base NumSpec NumFacts IntPrintModel IntPrintProofs IntScanModel ScanSpec
  IntScanProofs TimeSpec TimeModel TimeTextSpec TimeTextModel TimeTextProofs TimeScanProofs TimeCtxModel TimeCtxProofs UnixCtxSpec UnixCtxModel.
Import ListNotations.

Section MEAN.
  Context (cw : Z) (sse : bool) (Hw : In cw char_widths).
  Notation tk := (take_dec cw). Notation dr := (drop_dec cw).
  Definition ans := option (stamp * list Z).

  (** The fraction: [ds] digits so far. *)
  Definition m_frac (v : Z) (ds rest : list Z) : ans :=
    match ds with [] => None | _ => Some (mk_stamp v (frac_val ds), rest) end.
  Definition m_marker (v : Z) (T : list Z) : ans :=
    match T with c :: T' => if c =? 46 then m_frac v (tk T') (dr T') else None | [] => None end.
  (** The significant digits [ds] after the sign, and what follows the number. *)
  Definition m_num (neg : bool) (ds rest : list Z) : ans :=
    if zlen (sgn neg ++ ds) <? 20 then
      if in_rangeb int64_ty (signed neg (value_of 10 (dval ds))) then m_marker (signed neg (value_of 10 (dval ds))) rest else None
    else None.
  Definition m_zeros (neg : bool) (T : list Z) : ans := m_num neg (tk (skip_zeros T)) (dr (skip_zeros T)).
  Definition m_zero (neg : bool) (T : list Z) : ans :=
    match T with c :: _ => if is_dec cw c then m_zeros neg T else None | [] => None end.
  Definition m_sign (T : list Z) : ans :=
    match T with c :: T' => if c =? 45 then m_zero true T' else m_zero false T | [] => None end.
  Definition m_space (T : list Z) : ans := m_sign (skip_space cw T).

  Definition mean (st : ustate) (T : list Z) : ans :=
    match t_phase st with
    | P_year =>
        match t_int st, t_buf st with
        | ph_space, _ => m_space T
        | ph_sign, _ => m_sign T
        | ph_zero, b => m_zero (match b with [] => false | _ => true end) T
        | ph_zero_skip, b => m_zeros (match b with [] => false | _ => true end) T
        | ph_digit, c :: b => if c =? 45 then m_num true (b ++ tk T) (dr T) else m_num false ((c :: b) ++ tk T) (dr T)
        | _, _ => None
        end
    | P_timezone_marker => m_marker (ts_sec (t_val st)) T
    | P_subseconds => m_frac (ts_sec (t_val st)) (t_buf st ++ tk T) (dr T)
    | _ => None
    end.

  Definition wf (st : ustate) : Prop :=
    match t_phase st with
    | P_year =>
        match t_int st with
        | ph_space | ph_sign => t_buf st = []
        | ph_zero | ph_zero_skip => exists neg, t_buf st = sgn neg
        | ph_digit => exists neg a, t_buf st = sgn neg ++ a /\ a <> [] /\ hd 48 a <> 48 /\ Forall dec_char a /\ zlen (t_buf st) < 20
        | ph_overflow => True
        | _ => False
        end
    | P_timezone_marker => t_buf st = []
    | P_subseconds => Forall dec_char (t_buf st)
    | _ => False
    end.
  (** The text read before that the fraction still needs. *)
  Definition pend (st : ustate) : list Z := match t_phase st with P_subseconds => 46 :: t_buf st | _ => [] end.

  Definition good (hist : list Z) (m : list Z -> ans) (s : list Z) (res : reply stamp) : Prop :=
    match res with
    | None => False
    | Some (st', pc_partial, r) => wf st' /\ (exists p, hist ++ s = p ++ pend st') /\ forall T, m (s ++ T) = mean st' T
    | Some (st', pc_ok, r) => forall T, m (s ++ T) = Some (t_val st', r ++ T)
    | Some (st', _, r) => forall T, m (s ++ T) = None
    end.

  Lemma drop_more s c r T : dr s = c :: r -> dr (s ++ T) = (c :: r) ++ T /\ tk (s ++ T) = tk s.
  Proof.
    intros E. pose proof (take_drop cw s) as TD. pose proof (take_all cw s) as TA. pose proof (drop_head cw s c r E) as N.
    rewrite <- TD, E. rewrite <- app_assoc. rewrite drop_app, take_app by exact TA. cbn [app drop_dec take_dec]. rewrite N.
    rewrite app_nil_r, take_app by exact TA. cbn [take_dec]. rewrite N, app_nil_r. auto.
  Qed.
  Lemma drop_all s T : dr s = [] -> dr (s ++ T) = dr T /\ tk (s ++ T) = s ++ tk T /\ tk s = s.
  Proof.
    intros E. pose proof (take_drop cw s) as TD. pose proof (take_all cw s) as TA. rewrite E, app_nil_r in TD.
    rewrite TD in TA. rewrite drop_app, take_app by exact TA. auto.
  Qed.
  Lemma short_frac p ds q : no_long_fraction (p ++ text "." ++ ds ++ q) -> Forall dec_char ds -> zlen ds <= 19.
  Proof. intros H Hd. apply (H p ds q eq_refl Hd). Qed.

  Lemma sub_good st s : t_phase st = P_subseconds -> wf st -> units cw s -> no_long_fraction (pend st ++ s) ->
    good (pend st) (mean st) s (u_subseconds cw sse st s).
  Proof.
    intros Hp W U NL. unfold wf in W. rewrite Hp in W. unfold u_subseconds, good.
    assert (M : forall T, mean st T = m_frac (ts_sec (t_val st)) (t_buf st ++ tk T) (dr T)) by (intros; unfold mean; now rewrite Hp).
    assert (P : pend st = 46 :: t_buf st) by (unfold pend; now rewrite Hp).
    assert (Ud : Forall dec_char (tk s)).
    { apply (decs cw Hw); [|apply take_all]. rewrite <- (take_drop cw s) in U. apply Forall_app in U. tauto. }
    assert (L : zlen (t_buf st ++ tk s) <= 19).
    { apply (short_frac [] _ (dr s)); [|apply Forall_app; auto]. rewrite P in NL. cbn [app text]. rewrite <- app_assoc, take_drop. exact NL. }
    assert (Ub : units cw (t_buf st)).
    { eapply Forall_impl; [|exact W]. intros x Hx. pose proof (cw_pow cw Hw). unfold dec_char in Hx. lia. }
    destruct s as [|c0 s0].
    { rewrite app_nil_r in L. unfold fraction_chunk. cbn [skip_digits length firstn Nat.sub]. change (zlen (@nil Z)) with 0. change (wrap 8 0) with 0.
      destruct (Z.ltb_spec (19 - zlen (t_buf st)) 0); [lia|]. cbn [Z.to_nat firstn]. rewrite app_nil_r.
      split; [unfold wf; cbn [t_phase t_buf]; rewrite Hp; exact W|]. split.
      - exists []. unfold pend. cbn [t_phase t_buf]. rewrite Hp. apply app_nil_r.
      - intros T. rewrite M. unfold mean. cbn [t_phase t_buf t_val app]. rewrite Hp. reflexivity. }
    rewrite frac_chunk_canon; auto; [|discriminate|apply Forall_app; auto]. set (s := c0 :: s0) in *. clearbody s. unfold frac_canon.
    destruct (dr s) as [|c r] eqn:ED.
    - destruct (drop_all s [] ED) as (_ & _ & TS). rewrite TS in *. split; [unfold wf; cbn [t_phase t_buf]; rewrite Hp; apply Forall_app; auto|]. split.
      + exists []. unfold pend. cbn [t_phase t_buf]. rewrite Hp. reflexivity.
      + intros T. rewrite M. unfold mean. cbn [t_phase t_buf t_val]. rewrite Hp. destruct (drop_all s T ED) as (-> & -> & _). now rewrite app_assoc.
    - destruct (t_buf st ++ tk s) as [|x l] eqn:EX.
      + intros T. rewrite M. destruct (drop_more s c r T ED) as (-> & ->). now rewrite EX.
      + intros T. rewrite M. destruct (drop_more s c r T ED) as (-> & ->). rewrite EX. reflexivity.
  Qed.

  Lemma marker_good hist st s : t_phase st = P_timezone_marker -> t_buf st = [] -> units cw s -> no_long_fraction s ->
    good hist (m_marker (ts_sec (t_val st))) s (u_marker cw sse st s).
  Proof.
    intros Hp Hb U NL. unfold u_marker. destruct s as [|c s].
    - split; [unfold wf; rewrite Hp; exact Hb|]. split; [exists hist; unfold pend; now rewrite Hp|]. intros T. unfold mean. rewrite Hp. reflexivity.
    - destruct (Z.eqb_spec c 46) as [->|N].
      + set (st1 := mk_ts (t_buf st) P_subseconds (t_int st) (t_val st)).
        assert (G : good (pend st1) (mean st1) s (u_subseconds cw sse st1 s)).
        { apply sub_good; [reflexivity|unfold wf; cbn [st1 t_phase t_buf]; rewrite Hb; constructor|exact (Forall_inv_tail U)|].
          unfold pend. cbn [st1 t_phase t_buf]. rewrite Hb. exact NL. }
        assert (M : forall T, m_marker (ts_sec (t_val st)) ((46 :: s) ++ T) = mean st1 (s ++ T)).
        { intros T. unfold mean. cbn [st1 t_phase t_buf t_val app m_marker Z.eqb]. rewrite Hb. reflexivity. }
        destruct (u_subseconds cw sse st1 s) as [[[st' e] r]|]; [|exact G].
        destruct e; cbn [good] in *.
        all: try (intros T; rewrite M; apply G).
        destruct G as (W & (p & E) & G). split; [exact W|]. split; [|intros T; rewrite M; apply G].
        exists (hist ++ p). rewrite <- app_assoc, <- E. unfold pend. cbn [st1 t_phase t_buf]. rewrite Hb. reflexivity.
      + intros T. cbn [app m_marker]. destruct (Z.eqb_spec c 46); [contradiction|reflexivity].
  Qed.

  (** ** The seconds *)
  Definition goody (m : list Z -> ans) (s : list Z) (y : option ystep) : Prop :=
    match y with
    | None => False
    | Some (YPartial b ip) => forall v, wf (mk_ts b P_year ip v) /\ forall T, m (s ++ T) = mean (mk_ts b P_year ip v) T
    | Some (YDone v r) => (exists p, s = p ++ r) /\ forall T, m (s ++ T) = m_marker v (r ++ T)
    | Some (YBad c r) => c <> pc_ok /\ c <> pc_partial /\ forall T, m (s ++ T) = None
    end.
  Lemma goody_ext m m' s y : (forall T, m (s ++ T) = m' (s ++ T)) -> goody m s y -> goody m' s y.
  Proof.
    intros E. destruct y as [[b ip|v r|c r]|]; cbn [goody]; intros H; [| | |exact H].
    - intros v. destruct (H v) as (A & B). split; [exact A|]. intros T. now rewrite <- E.
    - destruct H as (A & B). split; [exact A|]. intros T. now rewrite <- E.
    - destruct H as (A & B & C). split; [exact A|]. split; [exact B|]. intros T. now rewrite <- E.
  Qed.
  Lemma goody_shift m m' q s y : (forall T, m' ((q ++ s) ++ T) = m (s ++ T)) -> goody m s y -> goody m' (q ++ s) y.
  Proof.
    intros E. destruct y as [[b ip|v r|c r]|]; cbn [goody]; intros H; [| | |exact H].
    - intros v. destruct (H v) as (A & B). split; [exact A|]. intros T. now rewrite E.
    - destruct H as ((p & ->) & B). split; [exists (q ++ p); now rewrite app_assoc|]. intros T. now rewrite E.
    - destruct H as (A & B & C). split; [exact A|]. split; [exact B|]. intros T. now rewrite E.
  Qed.

  Lemma not_minus a x l : a = x :: l -> Forall dec_char a -> (x =? 45) = false.
  Proof. intros -> F. apply Forall_inv in F. unfold dec_char in F. apply Z.eqb_neq. lia. Qed.
  Lemma num_long neg ds rest : 20 <= zlen (sgn neg ++ ds) -> m_num neg ds rest = None.
  Proof. intros H. unfold m_num. destruct (Z.ltb_spec (zlen (sgn neg ++ ds)) 20); [lia|reflexivity]. Qed.

  Lemma digits_good neg a s : Forall dec_char a -> units cw s -> zlen (sgn neg ++ a) < 20 ->
    hd 48 (a ++ tk s) <> 48 ->
    goody (fun X => m_num neg (a ++ tk X) (dr X)) s (year_digits cw sse ph_digit (sgn neg ++ a) s).
  Proof.
    intros Ha U L H0. assert (Hne : a ++ tk s <> []) by (intros E; rewrite E in H0; cbn in H0; contradiction).
    pose proof (year_digits_canon cw sse neg a s Hw Ha U L Hne) as C. unfold ydigits_canon in C.
    assert (Ha' : Forall (fun c => is_dec cw c = true) a) by (eapply Forall_impl; [|exact Ha]; intros c; apply dec_is; exact Hw).
    rewrite take_app, drop_app in C by exact Ha'.
    assert (Hd : Forall dec_char (a ++ tk s)).
    { apply Forall_app. split; [exact Ha|]. apply (decs cw Hw); [|apply take_all]. rewrite <- (take_drop cw s) in U. apply Forall_app in U. tauto. }
    destruct (dr s) as [|c r] eqn:ED.
    - assert (TS : tk s = s) by (pose proof (take_drop cw s) as TD; rewrite ED, app_nil_r in TD; exact TD).
      destruct (Z.ltb_spec (zlen (sgn neg ++ a ++ tk s)) 20) as [K|K].
      + assert (Y : year_digits cw sse ph_digit (sgn neg ++ a) s = Some (YPartial (sgn neg ++ a ++ tk s) ph_digit)).
        { destruct (year_digits cw sse ph_digit (sgn neg ++ a) s) as [[b ip|v r|e r]|]; cbn [ynorm] in C; try discriminate.
          - destruct ip; cbn [ynorm] in C; try discriminate C. exact C.
          - destruct e; discriminate C. }
        rewrite Y. cbn [goody]. intros v. split.
        * unfold wf. cbn [t_phase t_int t_buf]. exists neg, (a ++ tk s). auto 10.
        * intros T. unfold mean. cbn [t_phase t_int t_buf]. destruct (drop_all s T ED) as (-> & -> & _). rewrite TS in *. rewrite app_assoc.
          destruct neg; cbn [sgn app].
          -- destruct (a ++ s) as [|x l] eqn:EX; [contradiction|]. rewrite Z.eqb_refl. reflexivity.
          -- destruct (a ++ s) as [|x l] eqn:EX; [contradiction|]. rewrite (not_minus _ _ _ eq_refl Hd). reflexivity.
      + assert (Y : exists b, year_digits cw sse ph_digit (sgn neg ++ a) s = Some (YPartial b ph_overflow)).
        { destruct (year_digits cw sse ph_digit (sgn neg ++ a) s) as [[b ip|v r|e r]|]; cbn [ynorm] in C; try discriminate.
          - destruct ip; cbn [ynorm] in C; try discriminate C. now exists b.
          - destruct e; discriminate C. }
        destruct Y as (b & ->). cbn [goody]. intros v. split; [exact I|]. intros T. destruct (drop_all s T ED) as (-> & -> & _).
        rewrite num_long; [unfold mean; cbn [t_phase t_int t_buf]; now destruct b|]. rewrite TS in *. rewrite !zlen_app in *. pose proof (zlen_nonneg (tk T)). lia.
    - assert (DM : forall T, dr (s ++ T) = (c :: r) ++ T /\ tk (s ++ T) = tk s) by (intros T; now apply drop_more).
      assert (Suf : exists p, s = p ++ c :: r) by (exists (tk s); rewrite <- ED; symmetry; apply take_drop).
      assert (YO : year_of neg (a ++ tk s) = if in_rangeb int64_ty (signed neg (value_of 10 (dval (a ++ tk s)))) then Some (signed neg (value_of 10 (dval (a ++ tk s)))) else None).
      { unfold year_of. destruct (a ++ tk s) as [|x [|y l]]; try reflexivity. cbn [hd] in H0. destruct (Z.eqb_spec x 48); [contradiction|reflexivity]. }
      assert (BAD : ynorm (year_digits cw sse ph_digit (sgn neg ++ a) s) = Some (YBad pc_invalid []) ->
        (forall T, m_num neg (a ++ tk (s ++ T)) (dr (s ++ T)) = None) -> goody (fun X => m_num neg (a ++ tk X) (dr X)) s (year_digits cw sse ph_digit (sgn neg ++ a) s)).
      { intros C' M. destruct (year_digits cw sse ph_digit (sgn neg ++ a) s) as [[b ip|v q|e q]|]; cbn [ynorm] in C'; try discriminate.
        - destruct ip; discriminate C'.
        - cbn [goody]. split; [intros ->; discriminate C'|]. split; [intros ->; discriminate C'|]. exact M. }
      destruct (Z.ltb_spec (zlen (sgn neg ++ a ++ tk s)) 20) as [K|K].
      + rewrite YO in C. destruct (in_rangeb int64_ty (signed neg (value_of 10 (dval (a ++ tk s))))) eqn:IR.
        * assert (Y : year_digits cw sse ph_digit (sgn neg ++ a) s = Some (YDone (signed neg (value_of 10 (dval (a ++ tk s)))) (c :: r))).
          { destruct (year_digits cw sse ph_digit (sgn neg ++ a) s) as [[b ip|v q|e q]|]; cbn [ynorm] in C; try discriminate.
            - destruct ip; discriminate C.
            - exact C.
            - destruct e; discriminate C. }
          rewrite Y. cbn [goody]. split; [exact Suf|]. intros T. destruct (DM T) as (-> & ->). unfold m_num. rewrite IR.
          destruct (Z.ltb_spec (zlen (sgn neg ++ a ++ tk s)) 20); [reflexivity|lia].
        * apply BAD; [exact C|]. intros T. destruct (DM T) as (-> & ->). unfold m_num. rewrite IR. now destruct (zlen (sgn neg ++ a ++ tk s) <? 20).
      + apply BAD; [exact C|]. intros T. destruct (DM T) as (-> & ->). now apply num_long.
  Qed.

  Lemma skip_zeros_more s T : skip_zeros (s ++ T) = match skip_zeros s with [] => skip_zeros T | z => z ++ T end.
  Proof. induction s as [|c s IH]; cbn [app skip_zeros]; [reflexivity|]. destruct (c =? 48); [exact IH|reflexivity]. Qed.
  Lemma skip_zeros_suffix s : exists p, s = p ++ skip_zeros s.
  Proof. induction s as [|c s (p & IH)]; cbn [skip_zeros]; [now exists []|]. destruct (c =? 48); [exists (c :: p); cbn [app]; now rewrite <- IH|now exists []]. Qed.
  Lemma skip_zeros_head s c r : skip_zeros s = c :: r -> c <> 48.
  Proof. induction s as [|x s IH]; cbn [skip_zeros]; [discriminate|]. destruct (Z.eqb_spec x 48); [exact IH|]. intros E. injection E as <- _. assumption. Qed.
  Lemma num_zero neg rest : m_num neg [] rest = m_marker 0 rest.
  Proof. unfold m_num. rewrite app_nil_r. destruct neg; reflexivity. Qed.
  Lemma zero_start c : is_dec cw c = true -> c = 48 \/ c <> 48. Proof. lia. Qed.

  Lemma zero_good (skipped : bool) neg s : units cw s -> (skipped = true -> s <> []) ->
    goody (if skipped then m_zeros neg else m_zero neg) s (secs_zero cw sse skipped (sgn neg) s).
  Proof.
    intros U Hs. destruct s as [|c s1].
    - destruct skipped; [now contradiction (Hs eq_refl)|]. cbn [secs_zero goody]. intros v. split.
      + unfold wf. cbn [t_phase t_int t_buf]. now exists neg.
      + intros T. unfold mean. cbn [t_phase t_int t_buf app]. now destruct neg.
    - cbn [secs_zero]. rewrite char_digit_dec. destruct (is_dec cw c) eqn:ED.
      + assert (M : forall T, (if skipped then m_zeros neg else m_zero neg) ((c :: s1) ++ T) = m_zeros neg ((c :: s1) ++ T)).
        { intros T. destruct skipped; [reflexivity|]. cbn [m_zero app]. now rewrite ED. }
        apply (goody_ext (m_zeros neg)); [intros T; symmetry; apply M|]. clear M.
        destruct (Z.eqb_spec c 48) as [->|N].
        * destruct (skip_zeros s1) as [|c1 s2] eqn:SZ.
          -- cbn [goody]. intros v. split; [unfold wf; cbn [t_phase t_int t_buf]; now exists neg|].
             intros T. unfold m_zeros, mean. cbn [t_phase t_int t_buf app skip_zeros Z.eqb]. rewrite skip_zeros_more, SZ. unfold m_zeros. now destruct neg.
          -- destruct (skip_zeros_suffix s1) as (p & Ep). rewrite SZ in Ep. subst s1.
             assert (MZ : forall T, m_zeros neg ((48 :: p ++ c1 :: s2) ++ T) = m_num neg (tk ((c1 :: s2) ++ T)) (dr ((c1 :: s2) ++ T))).
             { intros T. unfold m_zeros. change (skip_zeros ((48 :: p ++ c1 :: s2) ++ T)) with (skip_zeros ((p ++ c1 :: s2) ++ T)).
               rewrite skip_zeros_more, SZ. reflexivity. }
             change (48 :: p ++ c1 :: s2) with ((48 :: p) ++ (c1 :: s2)) in *.
             rewrite char_digit_dec. destruct (is_dec cw c1) eqn:ED1.
             ++ apply (goody_shift (fun X => m_num neg (tk X) (dr X))); [exact MZ|].
                pose proof (digits_good neg [] (c1 :: s2)) as G. rewrite app_nil_r in G. apply G.
                ** constructor.
                ** apply Forall_app in U. tauto.
                ** destruct neg; reflexivity.
                ** cbn [app take_dec]. rewrite ED1. cbn [hd]. now apply skip_zeros_head in SZ.
             ++ cbn [goody]. split; [now exists (48 :: p)|]. intros T. rewrite MZ. cbn [app take_dec drop_dec]. rewrite ED1. apply num_zero.
        * apply (goody_ext (fun X => m_num neg ([] ++ tk X) (dr X))).
          { intros T. unfold m_zeros. cbn [app skip_zeros]. destruct (Z.eqb_spec c 48); [contradiction|reflexivity]. }
          pose proof (digits_good neg [] (c :: s1)) as G. rewrite app_nil_r in G. apply G.
          -- constructor.
          -- exact U.
          -- destruct neg; reflexivity.
          -- cbn [app take_dec]. rewrite ED. exact N.
      + assert (N48 : c <> 48).
        { intros ->. change 48 with (48 + 0) in ED. rewrite is_dec_digit in ED; [discriminate|exact Hw|lia]. }
        destruct skipped; cbn [goody].
        * split; [now exists []|]. intros T. unfold m_zeros. cbn [app skip_zeros]. destruct (Z.eqb_spec c 48); [contradiction|]. cbn [take_dec drop_dec]. rewrite ED. apply num_zero.
        * split; [discriminate|]. split; [discriminate|]. intros T. cbn [app m_zero]. now rewrite ED.
  Qed.

  Lemma sign_good s : units cw s -> goody m_sign s (secs_sign cw sse [] s).
  Proof.
    intros U. destruct s as [|c s].
    - cbn [secs_sign goody]. intros v. split; [reflexivity|]. intros T. reflexivity.
    - cbn [secs_sign]. destruct (Z.eqb_spec c 45) as [->|N].
      + apply (goody_shift (m_zero true) _ [45]); [intros T; reflexivity|]. apply (zero_good false true); [exact (Forall_inv_tail U)|discriminate].
      + apply (goody_ext (m_zero false)); [|apply (zero_good false false); [exact U|discriminate]].
        intros T. cbn [app m_sign]. destruct (Z.eqb_spec c 45); [contradiction|reflexivity].
  Qed.

  Lemma skip_space_more s T : skip_space cw (s ++ T) = match skip_space cw s with [] => skip_space cw T | z => z ++ T end.
  Proof. induction s as [|c s IH]; cbn [app skip_space]; [reflexivity|]. destruct (is_c_space cw c); [exact IH|reflexivity]. Qed.

  Lemma phase_good st s : t_phase st = P_year -> wf st -> units cw s -> (t_int st = ph_zero_skip -> s <> []) ->
    goody (mean st) s (secs_phase cw sse (t_int st) (t_buf st) s).
  Proof.
    intros Hp W U Hz. unfold wf in W. rewrite Hp in W.
    destruct (t_int st) eqn:Hi; try contradiction; cbn [secs_phase].
    - (* space *) apply (goody_ext m_space); [intros T; unfold mean; rewrite Hp, Hi; reflexivity|]. rewrite W.
      destruct (skip_space cw s) as [|c r] eqn:SS.
      + cbn [goody]. intros v. split; [reflexivity|]. intros T. unfold mean. cbn [t_phase t_int t_buf]. unfold m_space. rewrite skip_space_more, SS. reflexivity.
      + destruct (skip_space_suffix cw s) as (p & Ep). rewrite SS in Ep. rewrite Ep. apply (goody_shift m_sign).
        * intros T. unfold m_space. rewrite <- Ep, skip_space_more, SS. reflexivity.
        * apply sign_good. rewrite Ep in U. apply Forall_app in U. tauto.
    - (* sign *) apply (goody_ext m_sign); [intros T; unfold mean; rewrite Hp, Hi; reflexivity|]. rewrite W. now apply sign_good.
    - (* zero *) destruct W as (neg & W). apply (goody_ext (m_zero neg)); [intros T; unfold mean; rewrite Hp, Hi, W; now destruct neg|]. rewrite W.
      apply (zero_good false neg); [exact U|discriminate].
    - (* zero_skip *) destruct W as (neg & W). apply (goody_ext (m_zeros neg)); [intros T; unfold mean; rewrite Hp, Hi, W; now destruct neg|]. rewrite W.
      apply (zero_good true neg); [exact U|auto].
    - (* digit *) destruct W as (neg & a & E & Hne & H0 & Ha & L). rewrite E in *.
      apply (goody_ext (fun X => m_num neg (a ++ tk X) (dr X))).
      + intros T. unfold mean. rewrite Hp, Hi, E. destruct neg; cbn [sgn app]; [rewrite Z.eqb_refl; reflexivity|].
        destruct a as [|x l]; [contradiction|]. rewrite (not_minus _ _ _ eq_refl Ha). reflexivity.
      + apply digits_good; auto. destruct a as [|x l]; [contradiction|]. exact H0.
    - (* overflow *) apply (goody_ext (fun _ => None)); [intros T; unfold mean; rewrite Hp, Hi; now destruct (t_buf st)|].
      unfold year_overflow. rewrite skip_digits_drop. destruct (dr s); cbn [goody].
      + intros v. split; [exact I|]. intros T. unfold mean. cbn [t_phase t_int t_buf]. now destruct (t_buf st).
      + split; [discriminate|]. split; [discriminate|]. reflexivity.
  Qed.

  (** ** A chunk, and all of them *)
  Lemma nlf_suffix a b : no_long_fraction (a ++ b) -> no_long_fraction b.
  Proof. intros H p d q -> Hd. apply (H (a ++ p) d q); [now rewrite <- app_assoc|exact Hd]. Qed.
  Lemma nlf_prefix a b : no_long_fraction (a ++ b) -> no_long_fraction a.
  Proof. intros H p d q -> Hd. apply (H p d (q ++ b)); [now rewrite <- !app_assoc|exact Hd]. Qed.

  Lemma feed_good st s : wf st -> units cw s -> (t_int st = ph_zero_skip -> s <> []) -> no_long_fraction (pend st ++ s) ->
    good (pend st) (mean st) s (unix_feed cw sse st s).
  Proof.
    intros W U Hz NL. unfold unix_feed. destruct (t_phase st) eqn:Hp; try (unfold wf in W; rewrite Hp in W; contradiction).
    - unfold u_seconds. pose proof (phase_good st s Hp W U Hz) as G. destruct (secs_phase cw sse (t_int st) (t_buf st) s) as [[b ip|v r|e r]|]; cbn [goody] in G.
      + destruct (G (t_val st)) as (A & B). cbn [good]. split; [exact A|]. split; [|exact B]. exists (pend st ++ s). unfold pend at 3. cbn [t_phase]. now rewrite app_nil_r.
      + destruct G as ((p & ->) & B). apply Forall_app in U as [_ U].
        assert (NR : no_long_fraction r) by (rewrite app_assoc in NL; now apply nlf_suffix in NL).
        pose proof (marker_good (pend st ++ p) (mk_ts [] P_timezone_marker ph_space (mk_stamp v (ts_sub (t_val st)))) r eq_refl eq_refl U NR) as M.
        cbn [t_val ts_sec] in M.
        destruct (u_marker cw sse (mk_ts [] P_timezone_marker ph_space (mk_stamp v (ts_sub (t_val st)))) r) as [[[st' e] q]|]; [|exact M].
        destruct e; cbn [good] in *.
        all: try (intros T; rewrite B; apply M).
        destruct M as (M1 & (p' & M2) & M3). split; [exact M1|]. split; [exists p'; now rewrite app_assoc|]. intros T. now rewrite B.
      + destruct G as (N1 & N2 & M). destruct e; cbn [good]; try exact M; congruence.
      + exact G.
    - assert (Hb : t_buf st = []) by (unfold wf in W; rewrite Hp in W; exact W).
      assert (P : pend st = []) by (unfold pend; now rewrite Hp).
      pose proof (marker_good (pend st) st s Hp Hb U) as G. rewrite P in *.
      assert (M : forall T, mean st T = m_marker (ts_sec (t_val st)) T) by (intros T; unfold mean; now rewrite Hp).
      specialize (G NL). destruct (u_marker cw sse st s) as [[[st' e] q]|]; [|exact G]. destruct e; cbn [good] in *.
      all: try (intros T; rewrite M; apply G).
      destruct G as (G1 & G2 & G3). split; [exact G1|]. split; [exact G2|]. intros T. now rewrite M.
    - now apply sub_good.
  Qed.

  Definition final (off : Z) (m : ans) (res : option (scanned stamp)) : Prop :=
    match m with
    | Some (t, rest) =>
        let v := ts_sec t - off in
        if (off =? 0) || ((- 2 ^ 63 <=? v) && (v <? 2 ^ 63)) then res = Some (Read (mk_stamp v (ts_sub t)) rest) else res = None
    | None => exists c, res = Some (NotRead c)
    end.
  Lemma from_epoch_final off st (r : list Z) :
    match from_epoch off st with
    | Some st' => final off (Some (t_val st, r)) (Some (Read (t_val st') r))
    | None => final off (Some (t_val st, r)) None
    end.
  Proof.
    unfold from_epoch, final. cbv zeta. destruct (Z.eqb_spec off 0) as [->|N]; cbn [orb].
    - rewrite Z.sub_0_r. now destruct (t_val st).
    - destruct ((- 2 ^ 63 <=? ts_sec (t_val st) - off) && (ts_sec (t_val st) - off <? 2 ^ 63)); reflexivity.
  Qed.

  Lemma eof_final off st : wf st -> no_long_fraction (pend st) ->
    final off (mean st []) (match stamp_eof cw sse off st with None => None | Some (st', c) => Some (match c with pc_ok => Read (t_val st') [] | _ => NotRead c end) end).
  Proof.
    intros W NL. unfold stamp_eof, unix_eof. destruct (t_phase st) eqn:Hp; try (unfold wf in W; rewrite Hp in W; contradiction).
    - assert (M : mean st [] = None); [|rewrite M; cbn [final]; now exists pc_end_of_file].
      unfold mean. rewrite Hp. unfold wf in W. rewrite Hp in W. destruct (t_int st); try contradiction; try reflexivity.
      + destruct W as (neg & ->). unfold m_zeros. cbn [skip_zeros take_dec drop_dec]. destruct neg; reflexivity.
      + destruct W as (neg & a & -> & _). cbn [take_dec drop_dec]. unfold m_num, m_marker.
        destruct (sgn neg ++ a) as [|x l]; [reflexivity|]. destruct (x =? 45); (destruct (_ <? 20); [|reflexivity]); destruct (in_rangeb _ _); reflexivity.
    - assert (M : mean st [] = None) by (unfold mean; now rewrite Hp). rewrite M. cbn [final]. now exists pc_end_of_file.
    - unfold mean. rewrite Hp. cbn [take_dec drop_dec]. rewrite app_nil_r. unfold wf in W. rewrite Hp in W.
      assert (L : zlen (t_buf st) <= 19).
      { apply (short_frac [] _ []); [|exact W]. cbn [app text]. rewrite app_nil_r. unfold pend in NL. rewrite Hp in NL. exact NL. }
      destruct (t_buf st) as [|x l] eqn:EB.
      + cbn [m_frac final]. destruct (scan_fraction cw sse false []) as [|e r|[v r]] eqn:SF; [|eexists; reflexivity|].
        * exfalso. vm_compute in SF. destruct sse; discriminate SF.
        * exfalso. vm_compute in SF. destruct sse; discriminate SF.
      + rewrite scan_fraction_digits; [|exact Hw|exact W|unfold zlen in *; cbn [length] in *; lia].
        cbn [m_frac]. set (f := frac_val (x :: l)). clearbody f. unfold with_sub at 1. cbn [t_phase].
        pose proof (from_epoch_final off (with_sub st f P_subseconds (x :: l)) []) as F. cbn [with_sub t_val] in F.
        unfold with_sub at 1. destruct (from_epoch off _) as [st'|]; cbn [option_map]; exact F.
  Qed.

  Lemma run_final off : forall chunks st, wf st -> units cw (concat chunks) -> no_long_fraction (pend st ++ concat chunks) ->
    (t_int st = ph_zero_skip -> hd [0] chunks <> []) -> Forall (fun s => s <> []) (tl chunks) ->
    final off (mean st (concat chunks)) (run_chunks (stamp_feed cw sse off) (stamp_eof cw sse off) st chunks).
  Proof.
    induction chunks as [|s more IH]; intros st W U NL Hz F.
    - cbn [concat run_chunks] in *. rewrite app_nil_r in NL. now apply eof_final.
    - cbn [concat run_chunks hd tl] in *. apply Forall_app in U as [Us Um].
      pose proof NL as NL1. rewrite app_assoc in NL1.
      pose proof (feed_good st s W Us Hz (nlf_prefix _ _ NL1)) as G. unfold stamp_feed.
      destruct (unix_feed cw sse st s) as [[[st' e] r]|]; [|contradiction]. destruct e; cbn [good] in G.
      all: try (rewrite G; cbn [final]; eexists; reflexivity).
      + rewrite G. pose proof (from_epoch_final off st' (r ++ concat more)) as FF. destruct (from_epoch off st') as [st2|]; cbn [option_map]; exact FF.
      + destruct G as (W' & (p & E) & M). rewrite M. apply IH; [exact W'|exact Um| | |].
        * rewrite E, <- app_assoc in NL1. now apply nlf_suffix in NL1.
        * intros _. destruct more as [|c more]; [discriminate|]. exact (Forall_inv F).
        * destruct more as [|c more]; [constructor|]. exact (Forall_inv_tail F).
  Qed.
End MEAN.
