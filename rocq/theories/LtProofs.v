(** What the directives of a time format print. *)
From Coq Require Import String.
From Coq Require Import List.
From Verif Require Import Base NumSpec NumFacts ScanSpec IntPrintModel IntPrintProofs IntPrintCorrect CharModel TimeSpec TimeModel TimeCalProofs TimeTextSpec
  TimeTextModel TimeTextProofs PropsTime LtSpec LtModel LtSizeProofs.

(** ** More fuel does not change a result *)
Lemma go_mono {A} (P P' : list Z -> option A) g ch r st : (forall f o, P f = Some o -> P' f = Some o) ->
  go (P g) ch r = Some st -> go (P' g) ch r = Some st.
Proof.
  intros H. unfold go. destruct (P g) as [o|] eqn:E; [|discriminate]. now rewrite (H _ _ E).
Qed.

Ltac walk := repeat match goal with
  | |- (if ?b then _ else _) = Some _ -> _ => destruct b
  | |- Some _ = Some _ -> _ => exact (fun h => h)
  | |- go (_ _) _ _ = Some _ -> _ => apply go_mono; assumption
  | |- ?x = Some _ -> ?x = Some _ => exact (fun h => h)
  end.

Lemma print_directive_mono t c P P' prev omit q st : (forall f o, P f = Some o -> P' f = Some o) ->
  print_directive t c P prev omit q = Some st -> print_directive t c P' prev omit q = Some st.
Proof.
  intros H. unfold print_directive. destruct q as [|ch r]; [discriminate|]. cbv zeta.
  walk. unfold print_E. destruct r as [|ch2 r2]; [exact (fun h => h)|]. walk.
  destruct (find_era _ _ _ _) as [e|]; [|exact (fun h => h)]. walk.
Qed.

Lemma size_directive_mono t c P P' seg q st : (forall f o, P f = Some o -> P' f = Some o) ->
  size_directive t c P seg q = Some st -> size_directive t c P' seg q = Some st.
Proof.
  intros H. unfold size_directive. destruct q as [|ch r]; [discriminate|]. cbv zeta.
  walk. unfold size_E. destruct r as [|ch2 r2]; [exact (fun h => h)|]. walk.
  destruct (find_era _ _ _ _) as [e|]; [|exact (fun h => h)]. walk.
Qed.

Lemma print_more n : forall t c prev f o, lt_print n t c prev f = Some o -> lt_print (S n) t c prev f = Some o.
Proof.
  induction n as [|n IH]; intros t c prev f o; [discriminate|].
  assert (U : forall k, lt_print (S k) t c prev f =
     match f with
      | [] => Some []
      | x :: r =>
          if negb (x =? 37) then opt_app (Some [x]) (lt_print k t c (Some x) r)
          else
            match r with
            | [] => Some [37]
            | y :: r1 =>
                let omit := y =? 45 in
                if omit && (zlen r1 =? 0) then Some [45]
                else
                  let q := if omit then r1 else r in
                  match print_directive t c (lt_print k t c None) prev omit q with
                  | None => None
                  | Some (Ends v) => Some v
                  | Some (Goes v l rest) => opt_app (Some v) (lt_print k t c (Some l) rest)
                  end
            end
      end) by reflexivity.
  rewrite (U n), (U (S n)). destruct f as [|x r]; [exact (fun h => h)|].
  destruct (negb (x =? 37)).
  - destruct (lt_print n t c (Some x) r) as [u|] eqn:E; [|discriminate]. now rewrite (IH _ _ _ _ _ E).
  - destruct r as [|y r1]; [exact (fun h => h)|]. cbv zeta.
    destruct (_ && _); [exact (fun h => h)|].
    destruct (print_directive t c (lt_print n t c None) prev (y =? 45) (if y =? 45 then r1 else y :: r1)) as [st|] eqn:E; [|discriminate].
    rewrite (print_directive_mono t c _ (lt_print (S n) t c None) prev (y =? 45) _ st (fun f o => IH t c None f o) E).
    destruct st as [v|v l rest]; [exact (fun h => h)|].
    destruct (lt_print n t c (Some l) rest) as [u|] eqn:E2; [|discriminate]. now rewrite (IH _ _ _ _ _ E2).
Qed.
Lemma print_mono n m t c prev f o : (n <= m)%nat -> lt_print n t c prev f = Some o -> lt_print m t c prev f = Some o.
Proof. induction 1 as [|m _ IH]; [exact (fun h => h)|]. intros E. apply print_more, IH, E. Qed.

Lemma size_more n : forall t c seg f o, lt_size n t c seg f = Some o -> lt_size (S n) t c seg f = Some o.
Proof.
  induction n as [|n IH]; intros t c seg f o; [discriminate|].
  assert (U : forall k, lt_size (S k) t c seg f =
     match f with
      | [] => Some 0
      | x :: r =>
          if negb (x =? 37) then option_map (Z.add 1) (lt_size k t c (seg + 1) r)
          else
            match r with
            | [] => Some 1
            | y :: r1 =>
                let omit := y =? 45 in
                if omit && (zlen r1 =? 0) then Some 2
                else
                  let q := if omit then r1 else r in
                  let extra := if omit then 1 else 0 in
                  match size_directive t c (lt_size k t c 0) (seg + 1 + extra) q with
                  | None => None
                  | Some (Ends v) => Some (extra + v)
                  | Some (Goes v _ rest) => option_map (Z.add (extra + v)) (lt_size k t c 0 rest)
                  end
            end
      end) by reflexivity.
  rewrite (U n), (U (S n)). destruct f as [|x r]; [exact (fun h => h)|].
  destruct (negb (x =? 37)).
  - destruct (lt_size n t c (seg + 1) r) as [u|] eqn:E; [|discriminate]. now rewrite (IH _ _ _ _ _ E).
  - destruct r as [|y r1]; [exact (fun h => h)|]. cbv zeta.
    destruct (_ && _); [exact (fun h => h)|].
    destruct (size_directive t c (lt_size n t c 0) (seg + 1 + (if y =? 45 then 1 else 0)) (if y =? 45 then r1 else y :: r1)) as [st|] eqn:E; [|discriminate].
    rewrite (size_directive_mono t c _ (lt_size (S n) t c 0) _ _ st (fun f o => IH t c 0 f o) E).
    destruct st as [v|v l rest]; [exact (fun h => h)|].
    destruct (lt_size n t c 0 rest) as [u|] eqn:E2; [|discriminate]. now rewrite (IH _ _ _ _ _ E2).
Qed.
Lemma size_mono n m t c seg f o : (n <= m)%nat -> lt_size n t c seg f = Some o -> lt_size m t c seg f = Some o.
Proof. induction 1 as [|m _ IH]; [exact (fun h => h)|]. intros E. apply size_more, IH, E. Qed.

(** ** Texts are determined by what they denote *)
Lemma numeral_print ty v o : In (iw ty) int_widths -> in_range ty v -> 0 <= v -> config_ok default_pflags ty -> is_numeral 10 false v o ->
  print_int default_pflags ty v = Some o.
Proof.
  intros Hw Hr H0 Hc N. destruct (print_int_correct default_pflags ty v Hw ltac:(cbn; lia) Hc Hr) as (num & E & M).
  rewrite E. cbn in M. unfold sign_text. cbn [pf_showpos pf_showbase default_pflags].
  destruct (Z.ltb_spec v 0); [lia|]. cbn [app]. f_equal. rewrite Z.abs_eq in M by lia.
  exact (numeral_unique 10 false v _ _ ltac:(lia) M N).
Qed.
Lemma num8 v o : 0 <= v < 256 -> is_numeral 10 false v o -> print_int default_pflags uint8_ty v = Some o.
Proof.
  intros H. apply numeral_print; [left; reflexivity|unfold in_range; cbn; lia|lia|unfold config_ok; vm_compute; auto].
Qed.
Lemma num64 v o : 0 <= v < 2 ^ 63 -> is_numeral 10 false v o -> print_int default_pflags int64_ty v = Some o.
Proof.
  intros H. apply numeral_print; [right; right; right; left; reflexivity|unfold in_range; cbn; lia|lia|unfold config_ok; vm_compute; discriminate].
Qed.

Lemma padded_unique n u t1 t2 : is_padded_numeral 10 false n u t1 -> is_padded_numeral 10 false n u t2 -> t1 = t2.
Proof.
  intros (ds & D1 & N1 & V1 & ->) (es & D2 & N2 & V2 & ->). f_equal.
  apply (digits_unique_len 10 ds es); auto; lia.
Qed.

Lemma year_print y o : - 2 ^ 63 <= y < 2 ^ 63 -> year_text y o -> print_year y = Some o.
Proof.
  intros H (num & -> & N). destruct (print_year_ok y H) as (txt & -> & (num' & -> & N')). do 2 f_equal.
  destruct (Z.abs y <? 10000).
  - exact (padded_unique _ _ _ _ N' N).
  - exact (numeral_unique 10 false _ _ _ ltac:(lia) N' N).
Qed.

Lemma zone_print tz o : - 2 ^ 31 <= tz < 2 ^ 31 -> tz <> 0 -> zone_text tz o -> print_timezone tz = Some o.
Proof.
  intros H N Z. destruct (print_timezone_ok tz H N) as (txt & -> & T). f_equal. revert Z T. unfold zone_text.
  destruct (Z.eqb_spec tz 0); [contradiction|]. cbv zeta. intros (h1 & H1 & ->) (h2 & H2 & ->).
  assert (h1 = h2) as ->; [|reflexivity]. destruct (_ <? 100); [congruence|].
  exact (numeral_unique 10 false _ _ _ ltac:(lia) H1 H2).
Qed.

(** ** Well-formed times *)

Lemma sane_ranges c : sane c -> 1 <= cv_year c < 2 ^ 63 /\ 1 <= cv_month c <= 12 /\ 1 <= cv_day c <= 31 /\
  0 <= cv_hours c < 24 /\ 0 <= cv_minutes c < 60 /\ 0 <= cv_seconds c < 60 /\ - 2 ^ 31 <= cv_tz c < 2 ^ 31.
Proof.
  intros ((Hy & _ & _ & _ & _ & _ & Htz) & (Hm & Hd) & (Hh & Hmi & Hs) & H1). cbn in Hm, Hd.
  pose proof (month_days_range (cv_year c) (cv_month c)). lia.
Qed.

Lemma sane_weekday c n : sane c -> day_number c n ->
  c_weekday (cv_year c) (cv_month c) (cv_day c) = weekday_of n /\
  weekday (cv_year c) (cv_month c) (cv_day c) = iso_weekday n.
Proof.
  intros Hc Hn. pose proof (sane_ranges c Hc) as (Hy & _). split.
  - exact (C45_c_weekday_partial (civil_date c) n Hy Hn).
  - exact (C45_weekday_partial (civil_date c) n Hy Hn).
Qed.

Lemma month_index c : sane c -> wrap 8 (cv_month c - 1) = cv_month c - 1.
Proof. intros Hc. pose proof (sane_ranges c Hc). unfold wrap. rewrite Z.mod_small; lia. Qed.

Lemma month_print c names : sane c -> print_month names (cv_month c) = Some (names (cv_month c - 1)).
Proof.
  intros Hc. unfold print_month. rewrite month_index by assumption. cbv zeta.
  pose proof (sane_ranges c Hc). destruct (Z.ltb_spec (cv_month c - 1) 12); [reflexivity|lia].
Qed.

Lemma lower_ok x : to_c_lower_ascii x = lower x \/ ~ 0 <= x < 2 ^ 32.
Proof.
  destruct (Z.le_gt_cases 0 x); [|right; lia]. destruct (Z.le_gt_cases (2 ^ 32) x); [right; lia|left].
  unfold to_c_lower_ascii, lower. cbv zeta.
  destruct (Z.leb_spec 65 x); cbn [andb].
  - replace ((x - 65) mod 2 ^ 32) with (x - 65) by (rewrite Z.mod_small; lia).
    destruct (Z.ltb_spec (x - 65) 26), (Z.leb_spec x 90); rewrite ?Z.mod_small by lia; lia.
  - replace ((x - 65) mod 2 ^ 32) with (x - 65 + 2 ^ 32).
    + destruct (Z.ltb_spec (x - 65 + 2 ^ 32) 26); [lia|reflexivity].
    + apply (Z.mod_unique _ _ (-1)); lia.
Qed.
Lemma lower_text_ok s : code_units_ok s -> lower_text s = map lower s.
Proof. unfold lower_text. intros H. apply map_ext_in. intros x Hx. apply (proj1 (Forall_forall _ _) H) in Hx. destruct (lower_ok x); tauto. Qed.

Lemma hour_print h : 0 <= h < 24 -> print_I h = Some (pad2 (hour12 h)).
Proof.
  intros H. unfold print_I, hour12. destruct (Z.eqb_spec h 0) as [-> |]; [reflexivity|].
  destruct (Z.leb_spec h 12).
  - rewrite two_digits_ok by lia. do 2 f_equal. destruct (Z.eqb_spec (h mod 12) 0) as [E|E]; lia.
  - destruct (Z.leb_spec h 24); [|lia]. unfold wrap. rewrite (Z.mod_small (h - 12)) by lia. rewrite two_digits_ok by lia.
    do 2 f_equal. destruct (Z.eqb_spec (h mod 12) 0) as [E|E]; lia.
Qed.
Lemma hour_ox h : 0 <= h < 24 -> (if h =? 0 then 12 else if 12 <? h then wrap 8 (h - 12) else h) = hour12 h.
Proof.
  intros H. unfold hour12. destruct (Z.eqb_spec h 0) as [-> |]; [reflexivity|].
  destruct (Z.ltb_spec 12 h).
  - unfold wrap. rewrite (Z.mod_small (h - 12)) by lia. destruct (Z.eqb_spec (h mod 12) 0) as [E|E]; lia.
  - destruct (Z.eqb_spec (h mod 12) 0) as [E|E]; lia.
Qed.

(** ** Eras *)
Lemma era_started_spec y0 m0 d0 y1 m1 d1 : era_started y0 m0 d0 y1 m1 d1 = true <-> not_after y0 m0 d0 y1 m1 d1.
Proof.
  unfold era_started, not_after. destruct (Z.ltb_spec y0 y1); [split; [left; lia|reflexivity]|].
  destruct (Z.eqb_spec y0 y1) as [-> |].
  - rewrite orb_true_iff, andb_true_iff, Z.ltb_lt, Z.eqb_eq, Z.leb_le. lia.
  - split; [discriminate|lia].
Qed.
Lemma not_after_trans a b c d e f g h i : not_after a b c d e f -> not_after d e f g h i -> not_after a b c g h i.
Proof. unfold not_after. lia. Qed.

Lemma plain_covers e y m d : plain_era e ->
  (era_covers e y m d <->
   (if er_dir e then era_started (er_sy e) (er_sm e) (er_sd e) y m d else era_started y m d (er_sy e) (er_sm e) (er_sd e)) = true /\
   (0 < er_special e \/ er_special e = 0 /\
    (if er_dir e then era_started y m d (er_ey e) (er_em e) (er_ed e) else era_started (er_ey e) (er_em e) (er_ed e) y m d) = true)).
Proof.
  unfold plain_era, era_covers. intros [[-> Hs]|[[-> [Hs Ho]]|[-> [Hs Ho]]]]; rewrite !era_started_spec.
  - destruct (Z.ltb_spec 0 (er_special e)); [|lia]. tauto.
  - rewrite Hs. cbn [Z.ltb Z.compare]. unfold not_after in *. lia.
  - rewrite Hs. cbn [Z.ltb Z.compare]. unfold not_after in *. lia.
Qed.

Lemma find_era_step e es y m d : plain_era e ->
  (era_covers e y m d -> find_era (e :: es) y m d = Some e) /\
  (~ era_covers e y m d -> find_era (e :: es) y m d = find_era es y m d).
Proof.
  intros Hp. pose proof (plain_covers e y m d Hp) as HC. cbn [find_era]. cbv zeta.
  destruct (if er_dir e then era_started (er_sy e) (er_sm e) (er_sd e) y m d else _) eqn:E1.
  - destruct (Z.ltb_spec 0 (er_special e)) as [L|L].
    + split; [reflexivity|]. intros N. exfalso. apply N, HC. auto.
    + destruct (Z.eqb_spec (er_special e) 0) as [Z0|Z0].
      * destruct (if er_dir e then era_started y m d (er_ey e) (er_em e) (er_ed e) else _) eqn:E2.
        -- split; [reflexivity|]. intros N. exfalso. apply N, HC. auto.
        -- split; [|reflexivity]. intros N. apply HC in N as (_ & [A|[_ A]]); [lia|discriminate].
      * exfalso. destruct Hp as [[_ ?]|[[_ [? _]]|[_ [? _]]]]; lia.
  - split; [|reflexivity]. intros N. apply HC in N as (A & _). discriminate.
Qed.

Lemma find_era_of es y m d e : Forall plain_era es -> era_of es y m d e -> find_era es y m d = Some e.
Proof.
  intros HF (a & b & -> & Hc & Ha). induction a as [|x a IH]; cbn [app] in *.
  - apply find_era_step; [exact (Forall_inv HF)|exact Hc].
  - rewrite (proj2 (find_era_step x (a ++ e :: b) y m d (Forall_inv HF)) (Forall_inv Ha)).
    apply IH; [exact (Forall_inv_tail HF)|exact (Forall_inv_tail Ha)].
Qed.
Lemma find_era_none es y m d : Forall plain_era es -> Forall (fun e => ~ era_covers e y m d) es -> find_era es y m d = None.
Proof.
  induction es as [|x es IH]; intros HF HN; [reflexivity|].
  rewrite (proj2 (find_era_step x es y m d (Forall_inv HF)) (Forall_inv HN)).
  apply IH; [exact (Forall_inv_tail HF)|exact (Forall_inv_tail HN)].
Qed.
Lemma era_year_ok e y m d : plain_era e -> era_covers e y m d -> era_year e y = y - (er_sy e - er_offset e).
Proof.
  unfold plain_era, era_covers, era_year, not_after. intros [[-> Hs]|[[-> [Hs Ho]]|[-> [Hs Ho]]]].
  - destruct (Z.ltb_spec 0 (er_special e)); lia.
  - rewrite Hs. cbn [Z.ltb Z.compare]. lia.
  - rewrite Hs. cbn [Z.ltb Z.compare]. lia.
Qed.

(** ** Directives *)

(** [s] prints [v], whatever follows. *)
Definition prints t c (s v : list Z) : Prop :=
  forall n prev rest, exists l, lt_print (S n) t c prev (s ++ rest) = opt_app (Some v) (lt_print n t c (Some l) rest).

Lemma plain_prints t c y s1 v : y <> 45 ->
  (forall P prev rest, print_directive t c P prev false ((y :: s1) ++ rest) = Some (Goes v (last s1 y) rest)) ->
  prints t c (37 :: y :: s1) v.
Proof.
  intros Hy H n prev rest. exists (last s1 y). cbn [app lt_print Z.eqb Pos.eqb negb].
  destruct (Z.eqb_spec y 45); [contradiction|]. cbv zeta. cbn [andb].
  change (y :: s1 ++ rest) with ((y :: s1) ++ rest). now rewrite H.
Qed.
Lemma omit_prints t c y s1 v :
  (forall P prev rest, print_directive t c P prev true ((y :: s1) ++ rest) = Some (Goes v (last s1 y) rest)) ->
  prints t c (37 :: 45 :: y :: s1) v.
Proof.
  intros H n prev rest. exists (last s1 y). cbn [app lt_print Z.eqb Pos.eqb negb]. cbv zeta.
  replace (zlen (y :: s1 ++ rest) =? 0) with false by (symmetry; apply Z.eqb_neq; unfold zlen; cbn [length]; lia).
  cbn [andb]. change (y :: s1 ++ rest) with ((y :: s1) ++ rest). now rewrite H.
Qed.

Lemma ampm_ok t c low : sane c -> code_units_ok (lt_am t) -> code_units_ok (lt_pm t) ->
  print_ampm t low (cv_hours c) = (if low then map lower else fun x => x) (if cv_hours c <? 12 then lt_am t else lt_pm t).
Proof.
  intros Hc HA HP. pose proof (sane_ranges c Hc) as (_ & _ & _ & Hh & _). unfold print_ampm.
  destruct (Z.ltb_spec (cv_hours c) 24); [|lia]. cbv zeta.
  destruct (Z.leb_spec 12 (cv_hours c)), (Z.ltb_spec (cv_hours c) 12); try lia; destruct low; try reflexivity; now apply lower_text_ok.
Qed.

Lemma chk64_ok x : - 2 ^ 63 <= x < 2 ^ 63 -> chk64 x = Some x.
Proof.
  intros H. unfold chk64. destruct (Z.leb_spec (- 2 ^ 63) x); [|lia]. destruct (Z.ltb_spec x (2 ^ 63)); [|lia]. reflexivity.
Qed.

Lemma nth_error_lt {A} (l : list A) n x : nth_error l n = Some x -> (n < length l)%nat.
Proof. intros H. apply nth_error_Some. congruence. Qed.

Lemma alt_ok t ty v o : 0 <= v < 2 ^ 63 -> nth_error (lt_alt t) (Z.to_nat v) = Some o -> alt_print t ty v = Some o.
Proof.
  intros Hv H. unfold alt_print. cbv zeta. unfold wrap. rewrite Z.mod_small by lia.
  pose proof (nth_error_lt _ _ _ H) as L. destruct (Z.ltb_spec v (zlen (lt_alt t))) as [|G]; [|unfold zlen in G; lia].
  f_equal. exact (nth_error_nth _ _ _ H).
Qed.

Lemma field_prints t c s v : sane c -> good_locale t -> field t c s v -> prints t c s v.
Proof.
  intros Hc (HE & HF & HA & HP) F. pose proof (sane_ranges c Hc) as (Hy & Hm & Hd & Hh & Hmi & Hs & Htz).
  assert (Hst : stored c) by (destruct Hc; assumption). assert (Hy' : - 2 ^ 63 <= cv_year c < 2 ^ 63) by lia.
  Ltac flat := match goal with |- prints _ _ ?s _ => let s' := eval vm_compute in s in change s with s' end.
  Ltac plain := flat; apply plain_prints; [discriminate|intros P prev rest; cbn [app print_directive Z.eqb Pos.eqb orb andb negb go last]; cbv zeta].
  Ltac omits := flat; apply omit_prints; intros P prev rest; cbn [app print_directive Z.eqb Pos.eqb orb andb negb go last]; cbv zeta.
  inversion F as [ | | |n Hn|n Hn|n Hn|n Hn| | | | | | |o N| |o N|o N|o L N|o N| |o N| | | | | | | |o Nz ZT|ZT|l x o HI HN|e He|e o He Hr N]; subst; clear F.
  - plain. reflexivity.
  - plain. reflexivity.
  - plain. reflexivity.
  - plain. now rewrite (proj1 (sane_weekday c n Hc Hn)).
  - plain. now rewrite (proj1 (sane_weekday c n Hc Hn)).
  - plain. now rewrite (proj1 (sane_weekday c n Hc Hn)).
  - plain. now rewrite (proj2 (sane_weekday c n Hc Hn)).
  - plain. now rewrite (month_print c _ Hc).
  - plain. now rewrite (month_print c _ Hc).
  - plain. now rewrite (month_print c _ Hc).
  - plain. unfold print_O. cbn [app Z.eqb Pos.eqb orb]. rewrite (month_index c Hc). cbv zeta.
    destruct (Z.ltb_spec 11 (cv_month c - 1)); [lia|reflexivity].
  - plain. rewrite two_digits_ok by lia. reflexivity.
  - plain. unfold two_digits_space. destruct (Z.leb_spec 100 (cv_day c)); [lia|].
    destruct (Z.ltb_spec (cv_day c) 10); [reflexivity|]. rewrite tb_pair10 by lia. reflexivity.
  - omits. rewrite (num8 (cv_day c) v ltac:(lia) N). reflexivity.
  - plain. rewrite two_digits_ok by lia. reflexivity.
  - omits. rewrite (num8 (cv_month c) v ltac:(lia) N). reflexivity.
  - plain. rewrite (year_print _ _ Hy' N). reflexivity.
  - plain. rewrite Z.quot_div_nonneg by lia. rewrite (num64 (cv_year c / 100) v ltac:(lia) N). reflexivity.
  - plain. rewrite (year_print _ _ Hy' N), !two_digits_ok by lia. cbn [opt_app go]. reflexivity.
  - plain. rewrite two_digits_ok by lia. reflexivity.
  - omits. rewrite (num8 (cv_hours c) v ltac:(lia) N). reflexivity.
  - plain. rewrite hour_print by lia. reflexivity.
  - plain. rewrite two_digits_ok by lia. reflexivity.
  - plain. rewrite two_digits_ok by lia. reflexivity.
  - plain. now rewrite (ampm_ok t c false Hc HA HP).
  - plain. now rewrite (ampm_ok t c true Hc HA HP).
  - plain. rewrite !two_digits_ok by lia. reflexivity.
  - plain. rewrite !two_digits_ok by lia. reflexivity.
  - plain. rewrite (zone_print _ _ Htz Nz ZT). reflexivity.
  - plain. rewrite ZT. reflexivity.
  - assert (HX : ox_common c l = Some x /\ 0 <= x < 2 ^ 63 /\ l <> 98 /\ l <> 104 /\ l <> 67 /\ l <> 80 /\ l <> 112).
    { pose proof (Z.mod_pos_bound (cv_year c) 100 ltac:(lia)).
      assert (0 <= hour12 (cv_hours c) <= 12).
      { unfold hour12. pose proof (Z.mod_pos_bound (cv_hours c) 12 ltac:(lia)). destruct (_ =? 0); lia. }
      cbn [In] in HI. repeat (destruct HI as [HI|HI]; [injection HI as <- <-; unfold ox_common; cbn [Z.eqb Pos.eqb orb]; split; [try reflexivity|lia]|]);
        [rewrite hour_ox by lia; reflexivity| |contradiction].
      destruct (Z.ltb_spec (cv_year c) 0); [lia|]. unfold wrap. rewrite (Z.mod_small (cv_year c) (2 ^ 64)) by lia.
      rewrite Z.mod_small by lia. reflexivity. }
    destruct HX as (HX & Hx & N1 & N2 & N3 & N4 & N5).
    plain. unfold print_O. cbn [app].
    destruct (Z.eqb_spec l 98); [contradiction|]. destruct (Z.eqb_spec l 104); [contradiction|].
    destruct (Z.eqb_spec l 67); [contradiction|]. destruct (Z.eqb_spec l 80); [contradiction|].
    destruct (Z.eqb_spec l 112); [contradiction|]. cbn [orb]. rewrite HX, (alt_ok t _ x v Hx HN). reflexivity.
  - plain. unfold print_E. cbn [app Z.eqb Pos.eqb orb]. rewrite (find_era_of _ _ _ _ _ HE He). reflexivity.
  - destruct He as (a & b & EL & Hcov & Ha).
    assert (Hin : In e (lt_eras t)) by (rewrite EL; apply in_or_app; right; left; reflexivity).
    pose proof (proj1 (Forall_forall _ _) HE e Hin) as Hp. destruct (proj1 (Forall_forall _ _) HF e Hin) as (F1 & F2).
    pose proof (era_year_ok e (cv_year c) _ _ Hp Hcov) as EY.
    plain. unfold print_E. cbn [app Z.eqb Pos.eqb orb].
    rewrite (find_era_of _ _ _ _ e HE) by (exists a, b; auto).
    rewrite (chk64_ok (er_sy e - er_offset e)) by lia. cbn [obind]. rewrite <- EY.
    rewrite chk64_ok by lia. rewrite (num64 _ v Hr N). reflexivity.
Qed.

Lemma nested_prints t c s g : sane c -> good_locale t -> nested t c s g ->
  forall n prev rest v, lt_print n t c None g = Some v ->
  exists l, lt_print (S n) t c prev (s ++ rest) = opt_app (Some v) (lt_print n t c (Some l) rest).
Proof.
  intros Hc (HE & _) N n prev rest v EG.
  inversion N as [ | | | |Hx|Hx|Hx|e He]; subst; clear N; eexists; cbn [text list_ascii_of_string map app lt_print Z.eqb Pos.eqb negb];
    cbn -[lt_print print_directive find_era]; cbn [print_directive Z.eqb Pos.eqb orb go print_E]; unfold print_E; cbn [Z.eqb Pos.eqb orb];
    try rewrite (find_era_of _ _ _ _ _ HE He); rewrite EG; cbn [go]; reflexivity.
Qed.

Lemma meant_prints t c f o : sane c -> good_locale t -> meant t c f o ->
  exists n, forall prev, lt_print n t c prev f = Some o.
Proof.
  intros Hc HG. induction 1 as [|x f o Hx _ [n IH]|s v f o Hf _ [n IH]|s g v f o Hn _ [n1 IH1] _ [n2 IH2]].
  - exists 1%nat. reflexivity.
  - exists (S n). intros prev. cbn [lt_print]. destruct (Z.eqb_spec x 37); [contradiction|]. cbn [negb]. now rewrite IH.
  - exists (S n). intros prev. destruct (field_prints t c s v Hc HG Hf n prev f) as (l & ->). now rewrite IH.
  - exists (S (n1 + n2)). intros prev.
    destruct (nested_prints t c s g Hc HG Hn (n1 + n2)%nat prev f v) as (l & ->).
    + apply (print_mono n1); [lia|apply IH1].
    + rewrite (print_mono n2 (n1 + n2) t c (Some l) f o) by (lia || apply IH2). reflexivity.
Qed.
