(** C118-C121: locale-dependent time formatting. *)
From Coq Require Import String.
From Coq Require Import List.
From Verif Require Import Base NumSpec NumFacts ScanSpec IntPrintModel TimeSpec TimeModel TimeCalProofs TimeTextSpec TimeTextModel TimeTextProofs
  IntPrintCorrect LtSpec LtModel LtSizeProofs LtProofs LtCalProofs.

Lemma flag_chosen t k f : flag_format t k f -> lt_chosen t k = f.
Proof. intros H. inversion H as [| | | | |N|N|N|N|N|N]; subst; cbn [lt_chosen]; try reflexivity; unfold or_else;
  destruct (lt_era_d_t_fmt t), (lt_era_d_fmt t), (lt_era_t_fmt t); congruence || reflexivity. Qed.

(** A locale and times for the examples. *)
Definition names (l : list (list Z)) : Z -> list Z := fun k => nth (Z.to_nat k) l [].
Definition sample_locale : lt_time := {|
  lt_abday := names [text "Sun"; text "Mon"; text "Tue"; text "Wed"; text "Thu"; text "Fri"; text "Sat"];
  lt_day := names [text "Sunday"; text "Monday"; text "Tuesday"; text "Wednesday"; text "Thursday"; text "Friday"; text "Saturday"];
  lt_abmon := names [text "Jan"; text "Feb"; text "Mar"; text "Apr"; text "May"; text "Jun"; text "Jul"; text "Aug"; text "Sep"; text "Oct"; text "Nov"; text "Dec"];
  lt_altmon := names [text "Jan"; text "Feb"; text "Mar"; text "Apr"; text "May"; text "Jun"; text "Jul"; text "Aug"; text "Sep"; text "Oct"; text "Nov"; text "Dec"];
  lt_mon := names [text "January"; text "February"; text "March"; text "April"; text "May"; text "June"; text "July"; text "August"; text "September"; text "October"; text "November"; text "December"];
  lt_d_t_fmt := text "%a %d %b %Y %r"; lt_d_fmt := text "%m/%d/%Y"; lt_t_fmt := text "%T"; lt_t_fmt_ampm := text "%I:%M:%S %p";
  lt_date_fmt := text "%A, %-d %B"; lt_am := text "AM"; lt_pm := text "PM";
  lt_eras := [mk_era true 2 2020 1 1 1 0 0 0 (text "Reiwa") (text "%EC %Ey"); mk_era true 1 2019 5 1 0 2019 12 31 (text "Reiwa") (text "%EC 1")];
  lt_era_d_fmt := text "%EY"; lt_era_d_t_fmt := []; lt_era_t_fmt := []; lt_alt := [];
  lt_ndays := 7; lt_first_day := 19971201; lt_first_week := 4 |}.
Definition with_formats (d_t d : list Z) (es : list lt_era) : lt_time := {|
  lt_abday := lt_abday sample_locale; lt_day := lt_day sample_locale; lt_abmon := lt_abmon sample_locale; lt_altmon := lt_altmon sample_locale;
  lt_mon := lt_mon sample_locale; lt_d_t_fmt := d_t; lt_d_fmt := d; lt_t_fmt := text "%T"; lt_t_fmt_ampm := text "%I:%M:%S %p";
  lt_date_fmt := []; lt_am := text "AM"; lt_pm := text "PM"; lt_eras := es; lt_era_d_fmt := []; lt_era_d_t_fmt := []; lt_era_t_fmt := [];
  lt_alt := []; lt_ndays := 7; lt_first_day := 19971201; lt_first_week := 4 |}.
Definition sample_time : civil := mk_civil 2024 2 29 15 4 5 0 3600.

(** The text is printed for every manipulator that stands for the format, with all sufficient fuels. *)
Definition formatted t c f o := forall k, flag_format t k f -> exists fuel, forall fuel', (fuel <= fuel')%nat -> lt_define fuel' t c k = Some o.
Definition list_is (a b : list Z) : bool := if list_eq_dec Z.eq_dec a b then true else false.
Definition absent (s f : list Z) : bool := forallb (fun k => negb (list_is (firstn (length s) (skipn k f)) s)) (seq 0 (S (length f))).
Lemma absent_ok s f : absent s f = true -> ~ occurs s f.
Proof.
  intros H (a & b & ->). unfold absent in H. rewrite forallb_forall in H. specialize (H (length a)). rewrite in_seq in H.
  rewrite app_length in H. specialize (H ltac:(lia)). rewrite skipn_app, skipn_all, Nat.sub_diag in H. cbn [skipn app] in H.
  rewrite firstn_app, firstn_all, Nat.sub_diag in H. cbn [firstn] in H. rewrite app_nil_r in H.
  unfold list_is in H. destruct (list_eq_dec Z.eq_dec s s); [discriminate|contradiction].
Qed.

Lemma sane_dec y m d h mi s tz : 1 <= y < 2 ^ 63 -> 1 <= m <= 12 -> 1 <= d <= month_days y m -> 0 <= h < 24 -> 0 <= mi < 60 -> 0 <= s < 60 ->
  - 2 ^ 31 <= tz < 2 ^ 31 -> sane (mk_civil y m d h mi s 0 tz).
Proof.
  intros. unfold sane, stored, valid_date, valid_time, civil_date. cbn [cv_year cv_month cv_day cv_hours cv_minutes cv_seconds cv_tz d_year d_month d_day].
  pose proof (month_days_range y m). lia.
Qed.
Lemma sample_sane : sane sample_time.
Proof. apply sane_dec; [lia|lia| |lia|lia|lia|lia]. vm_compute. split; discriminate. Qed.

(** ** C118: the text of a time fits in the size announced for it *)
Theorem C118_size_partial : forall t c k f fuel out, stored c -> measured_locale t -> flag_format t k f -> measured f ->
  lt_define fuel t c k = Some out ->
  (exists n, lt_reserve_size fuel t c k = Some n) /\
  forall fuel' n, lt_reserve_size fuel' t c k = Some n -> zlen out <= n.
Proof.
  intros t c k f fuel out Hc HL HF HM E. unfold lt_define, lt_reserve_size in *. rewrite (flag_chosen t k f HF) in *.
  destruct (print_fits fuel t c None 0 f out Hc HL HM ltac:(lia) E) as (n & En & L). split; [eauto|].
  intros fuel' n' En'. pose proof (size_mono fuel (Nat.max fuel fuel') t c 0 f n ltac:(lia) En) as A.
  pose proof (size_mono fuel' (Nat.max fuel fuel') t c 0 f n' ltac:(lia) En') as B. rewrite A in B. injection B as <-. exact L.
Qed.
Print Assumptions C118_size_partial.
Example C118_case : measured (lt_d_t_fmt sample_locale) /\ stored sample_time /\
  lt_define 60 sample_locale sample_time D_T_FMT = Some (text "Thu 29 Feb 2024 03:04:05 PM").
Proof.
  split; [|split; [apply sample_sane|vm_compute; reflexivity]].
  unfold measured. repeat split; apply absent_ok; vm_compute; reflexivity.
Qed.

(** %u is not known to the size function, which stops measuring there; the printer goes on. *)
Theorem C118_weekday_refuted : exists t c f out n, sane c /\ good_locale t /\ flag_format t D_FMT f /\
  lt_define 10 t c D_FMT = Some out /\ lt_reserve_size 10 t c D_FMT = Some n /\ n < zlen out.
Proof.
  exists (with_formats [] (text "%u%A") []), sample_time, (text "%u%A"), (text "4Thursday"), 4.
  split; [apply sample_sane|]. split; [|split; [constructor|]].
  - unfold good_locale. cbn. repeat constructor; cbn; lia.
  - vm_compute. auto.
Qed.
Print Assumptions C118_weekday_refuted.

(** %N is measured as twenty characters and then measuring goes on; the printer copies the rest. *)
Theorem C118_era_name_refuted : exists t c f out n, sane c /\ good_locale t /\ flag_format t D_FMT f /\
  lt_define 60 t c D_FMT = Some out /\ lt_reserve_size 60 t c D_FMT = Some n /\ n < zlen out.
Proof.
  exists (with_formats [] (text "%N%%%%%%%%%%%%%%%%%%%%%%%%%%%%%%%%%%%%%%%%") []), sample_time,
    (text "%N%%%%%%%%%%%%%%%%%%%%%%%%%%%%%%%%%%%%%%%%"), (text "%N%%%%%%%%%%%%%%%%%%%%%%%%%%%%%%%%%%%%%%%%"), 40.
  split; [apply sample_sane|]. split; [|split; [constructor|]].
  - unfold good_locale. cbn. repeat constructor; cbn; lia.
  - vm_compute. auto.
Qed.
Print Assumptions C118_era_name_refuted.

(** A format that refers to itself is never finished, neither measuring nor printing. *)
Theorem C118_endless_refuted : exists t, good_locale t /\ measured_locale t /\ forall c fuel,
  lt_reserve_size fuel t c D_T_FMT = None /\ lt_define fuel t c D_T_FMT = None.
Proof.
  exists (with_formats (text "%c") (text "%T") []). split; [|split].
  - unfold good_locale. cbn. repeat constructor; cbn; lia.
  - split; [cbn; lia|]. split; [|constructor].
    repeat constructor; apply absent_ok; vm_compute; reflexivity.
  - intros c fuel. unfold lt_reserve_size, lt_define. cbn [lt_chosen with_formats lt_d_t_fmt].
    assert (A : forall t, lt_d_t_fmt t = text "%c" -> forall n seg, lt_size n t c seg (text "%c") = None).
    { intros t Ht. induction n as [|n IH]; intros seg; [reflexivity|].
      change (text "%c") with [37; 99] in *. cbn [lt_size Z.eqb Pos.eqb negb]. cbn [andb]. cbv zeta.
      cbn [size_directive Z.eqb Pos.eqb orb]. rewrite Ht, IH. reflexivity. }
    assert (B : forall t, lt_d_t_fmt t = text "%c" -> forall n prev, lt_print n t c prev (text "%c") = None).
    { intros t Ht. induction n as [|n IH]; intros prev; [reflexivity|].
      change (text "%c") with [37; 99] in *. cbn [lt_print Z.eqb Pos.eqb negb]. cbn [andb]. cbv zeta.
      cbn [print_directive Z.eqb Pos.eqb orb]. cbv zeta. rewrite Ht, IH. reflexivity. }
    split; [apply A|apply B]; reflexivity.
Qed.
Print Assumptions C118_endless_refuted.

(** ** C119: the fields computed from the calendar *)

Lemma formatted_one t c s v : prints t c s v -> formatted t c s v.
Proof.
  intros H k HK. exists 2%nat. intros fuel' L. unfold lt_define. rewrite (flag_chosen t k s HK).
  destruct fuel' as [|[|n]]; [lia|lia|]. destruct (H (S n) None []) as (l & E). rewrite app_nil_r in E. rewrite E.
  cbn [lt_print opt_app]. now rewrite app_nil_r.
Qed.
Ltac one_field := match goal with |- formatted _ _ ?s _ => let s' := eval vm_compute in s in change s with s' end;
  apply formatted_one, plain_prints; [discriminate|intros P prev rest; cbn [app print_directive Z.eqb Pos.eqb orb andb negb last]; cbv zeta].

Lemma numeral_text ty v o : In (iw ty) int_widths -> config_ok default_pflags ty -> in_range ty v -> 0 <= v ->
  is_numeral 10 false v o -> print_int default_pflags ty v = Some o.
Proof. intros. apply numeral_print; assumption. Qed.

Theorem C119_day_of_year : forall t c k o, sane c -> year_day (civil_date c) k -> is_numeral 10 false k o ->
  formatted t c (text "%j") o.
Proof.
  intros t c k o Hc Hk N. one_field. destruct (doy_numeral c k Hc Hk) as (o' & E & N'). rewrite E. cbn [go].
  now rewrite (numeral_unique 10 false k o' o ltac:(lia) N' N).
Qed.
Print Assumptions C119_day_of_year.

Theorem C119_sunday_week : forall t c k o, sane c -> sunday_week (civil_date c) k -> is_numeral 10 false k o ->
  formatted t c (text "%U") o.
Proof.
  intros t c k o Hc Hk N. one_field. destruct (sunday_code c k Hc Hk) as (E & B). rewrite E.
  rewrite (numeral_text uint32_ty k o); [reflexivity|right; right; left; reflexivity|unfold config_ok; vm_compute; auto| |lia|exact N].
  unfold in_range. cbn. lia.
Qed.
Print Assumptions C119_sunday_week.

(** The first of January of the year of a time is the day number [n]. *)
Definition new_year (c : civil) (n : Z) : Prop := day_of n (mk_date (cv_year c) 1 1).
Lemma new_year_no c n : new_year c n -> n = year_start (cv_year c).
Proof. intros H. apply day_of_no in H. pose proof (day_of_no _ _ (first_day_no (cv_year c))). lia. Qed.

(** %W is right in the years that do not begin on a Monday. *)
Theorem C119_monday_week_partial : forall t c k n, sane c -> monday_week (civil_date c) k -> new_year c n -> weekday_of n <> 1 ->
  formatted t c (text "%W") (pad2 k).
Proof.
  intros t c k n Hc Hk Hn Nn. one_field. pose proof (week_code c Hc) as (E & _). rewrite E.
  pose proof (monday_code c k Hc Hk) as (K & B). apply new_year_no in Hn. subst n.
  assert (D : iso_weekday (year_start (cv_year c)) <> 1).
  { unfold iso_weekday. destruct (Z.eqb_spec (weekday_of (year_start (cv_year c))) 0); lia. }
  apply Z.eqb_neq in D. rewrite D in K. rewrite Z.add_0_r in K. rewrite <- K. rewrite two_digits_ok by lia. reflexivity.
Qed.
Print Assumptions C119_monday_week_partial.

Lemma dated y m d : valid_date (mk_date y m d) -> day_of (day_no (mk_date y m d)) (mk_date y m d).
Proof. intros V. apply day_of_iff. auto. Qed.
Ltac a_date := match goal with |- day_of ?n ?d => let n' := eval vm_compute in n in change n with n'; apply day_of_iff; split; [split; vm_compute; split; discriminate|vm_compute; reflexivity] end.
Ltac a_sane := apply sane_dec; try lia; vm_compute; split; discriminate.

(** 1 January 2018 is the first Monday of its year: week 1, printed 00. *)
Theorem C119_monday_week_refuted : exists t c k, sane c /\ monday_week (civil_date c) k /\ k = 1 /\
  formatted t c (text "%W") (pad2 0).
Proof.
  exists sample_locale, (mk_civil 2018 1 1 0 0 0 0 0), 1. split; [a_sane|]. split.
  { exists 17532, 17532. split; [a_date|]. split; [a_date|reflexivity]. }
  split; [reflexivity|]. one_field. reflexivity.
Qed.
Print Assumptions C119_monday_week_refuted.

(** %V: right for the days whose week belongs to their own year or to the next one, except 31 December
    of a leap year that begins on a Sunday; of the days whose week belongs to the year before, right in
    the years that begin on a Friday, and after a leap year on a Sunday. *)
Theorem C119_iso_week_partial : forall t c y w n, sane c -> iso_week (civil_date c) y w -> new_year c n ->
  (y < cv_year c -> weekday_of n = 5 \/ (weekday_of n = 0 /\ leap (cv_year c - 1) = true)) ->
  ~ (leap (cv_year c) = true /\ weekday_of n = 0 /\ cv_month c = 12 /\ cv_day c = 31) ->
  formatted t c (text "%V") (pad2 w).
Proof.
  intros t c y w n Hc Hw Hn HP HL. one_field. apply new_year_no in Hn. subst n.
  assert (D : forall j, 1 <= j <= 6 -> (first_weekday (cv_year c) = j <-> weekday_of (year_start (cv_year c)) = j)).
  { intros j Hj. unfold first_weekday, iso_weekday, weekday_of. pose proof (Z.mod_pos_bound (year_start (cv_year c) + 4) 7 ltac:(lia)). destruct (Z.eqb_spec ((year_start (cv_year c) + 4) mod 7) 0); lia. }
  assert (D0 : first_weekday (cv_year c) = 7 <-> weekday_of (year_start (cv_year c)) = 0).
  { unfold first_weekday, iso_weekday, weekday_of. pose proof (Z.mod_pos_bound (year_start (cv_year c) + 4) 7 ltac:(lia)). destruct (Z.eqb_spec ((year_start (cv_year c) + 4) mod 7) 0); lia. }
  rewrite (print_V_ok c y w Hc Hw).
  - reflexivity.
  - rewrite D0, (D 5) by lia. exact HP.
  - rewrite D0. exact HL.
Qed.
Print Assumptions C119_iso_week_partial.
Theorem C119_iso_week_refuted :
  (exists t c, sane c /\ iso_week (civil_date c) 2010 52 /\ civil_date c = mk_date 2011 1 1 /\ formatted t c (text "%V") (pad2 53)) /\
  (exists t c, sane c /\ iso_week (civil_date c) 2004 53 /\ civil_date c = mk_date 2005 1 1 /\ formatted t c (text "%V") (pad2 52)) /\
  (exists t c, sane c /\ iso_week (civil_date c) 2013 1 /\ civil_date c = mk_date 2012 12 31 /\ formatted t c (text "%V") (pad2 53)).
Proof.
  split; [|split]; exists sample_locale.
  - exists (mk_civil 2011 1 1 0 0 0 0 0). split; [a_sane|]. split; [|split; [reflexivity|one_field; reflexivity]].
    exists (day_no (mk_date 2011 1 1)), (mk_date 2010 12 30), 364. split; [a_date|]. split; [a_date|]. split; [reflexivity|]. split; [|reflexivity].
    exists (day_no (mk_date 2010 12 30)), (day_no (mk_date 2010 1 1)). split; [a_date|]. split; [a_date|reflexivity].
  - exists (mk_civil 2005 1 1 0 0 0 0 0). split; [a_sane|]. split; [|split; [reflexivity|one_field; reflexivity]].
    exists (day_no (mk_date 2005 1 1)), (mk_date 2004 12 30), 365. split; [a_date|]. split; [a_date|]. split; [reflexivity|]. split; [|reflexivity].
    exists (day_no (mk_date 2004 12 30)), (day_no (mk_date 2004 1 1)). split; [a_date|]. split; [a_date|reflexivity].
  - exists (mk_civil 2012 12 31 0 0 0 0 0). split; [a_sane|]. split; [|split; [reflexivity|one_field; reflexivity]].
    exists (day_no (mk_date 2012 12 31)), (mk_date 2013 1 3), 3. split; [a_date|]. split; [a_date|]. split; [reflexivity|]. split; [|reflexivity].
    exists (day_no (mk_date 2013 1 3)), (day_no (mk_date 2013 1 1)). split; [a_date|]. split; [a_date|reflexivity].
Qed.
Print Assumptions C119_iso_week_refuted.

(** %G and %g: the year of the week (in full both times), except 31 December of a leap year that begins
    on a Sunday. *)
Theorem C119_week_year_partial : forall t c y w n o s, sane c -> cv_year c < 2 ^ 63 - 1 -> iso_week (civil_date c) y w -> new_year c n ->
  ~ (leap (cv_year c) = true /\ weekday_of n = 0 /\ cv_month c = 12 /\ cv_day c = 31) ->
  s = text "%G" \/ s = text "%g" -> year_text y o -> formatted t c s o.
Proof.
  intros t c y w n o s Hc Hm Hw Hn HL HS Ho. apply new_year_no in Hn. subst n.
  assert (D0 : first_weekday (cv_year c) = 7 <-> weekday_of (year_start (cv_year c)) = 0).
  { unfold first_weekday, iso_weekday, weekday_of. pose proof (Z.mod_pos_bound (year_start (cv_year c) + 4) 7 ltac:(lia)). destruct (Z.eqb_spec ((year_start (cv_year c) + 4) mod 7) 0); lia. }
  rewrite <- D0 in HL. pose proof (week_year_ok c y w Hc Hm Hw HL) as E.
  pose proof (sane_ranges c Hc) as (Hy & _). pose proof Hc as (_ & V & _).
  pose proof (iso_week_spec _ y w V Hw) as S0. cbv zeta in S0. cbn [civil_date d_year] in S0.
  destruct HS as [-> | ->]; one_field; rewrite E; cbn [obind]; (rewrite (year_print y o); [reflexivity|lia|exact Ho]).
Qed.
Print Assumptions C119_week_year_partial.
Theorem C119_week_year_refuted : exists t c, sane c /\ iso_week (civil_date c) 2013 1 /\ civil_date c = mk_date 2012 12 31 /\
  formatted t c (text "%G") (text "2012").
Proof.
  exists sample_locale, (mk_civil 2012 12 31 0 0 0 0 0). split; [a_sane|]. split; [|split; [reflexivity|one_field; reflexivity]].
  exists (day_no (mk_date 2012 12 31)), (mk_date 2013 1 3), 3. split; [a_date|]. split; [a_date|]. split; [reflexivity|]. split; [|reflexivity].
  exists (day_no (mk_date 2013 1 3)), (day_no (mk_date 2013 1 1)). split; [a_date|]. split; [a_date|reflexivity].
Qed.
Print Assumptions C119_week_year_refuted.

(** %v with the week description of ISO 8601 (seven days, from Monday 1 December 1997, four days in the first week):
    right for the days whose week does not belong to the year before. *)
Theorem C119_locale_week_partial : forall t c y w, sane c -> cv_year c < 2 ^ 50 -> iso_week (civil_date c) y w ->
  lt_ndays t = 7 -> lt_first_day t = 19971201 -> lt_first_week t = 4 -> cv_year c <= y ->
  formatted t c (text "%v") (pad2 w).
Proof.
  intros t c y w Hc H50 Hw H7 Hf H4 Hy. one_field. now rewrite (print_v_ok t c y w Hc H50 Hw H7 Hf H4 Hy).
Qed.
Print Assumptions C119_locale_week_partial.
Theorem C119_locale_week_refuted : exists t c, sane c /\ iso_week (civil_date c) 2009 53 /\ civil_date c = mk_date 2010 1 2 /\
  lt_ndays t = 7 /\ lt_first_day t = 19971201 /\ lt_first_week t = 4 /\ formatted t c (text "%v") (pad2 52).
Proof.
  exists sample_locale, (mk_civil 2010 1 2 0 0 0 0 0). split; [a_sane|]. split; [|repeat (split; [reflexivity|])].
  - exists (day_no (mk_date 2010 1 2)), (mk_date 2009 12 31), 365. split; [a_date|]. split; [a_date|]. split; [reflexivity|]. split; [|reflexivity].
    exists (day_no (mk_date 2009 12 31)), (day_no (mk_date 2009 1 1)). split; [a_date|]. split; [a_date|reflexivity].
  - one_field. reflexivity.
Qed.
Print Assumptions C119_locale_week_refuted.

(** The hypotheses are met: 29 February 2024 is day 60, in week 9 of 2024 (both ways), week 8 from Sundays. *)
Example C119_case : sane sample_time /\ year_day (civil_date sample_time) 60 /\ sunday_week (civil_date sample_time) 8 /\
  iso_week (civil_date sample_time) 2024 9 /\ new_year sample_time 19723 /\ weekday_of 19723 = 1.
Proof.
  split; [apply sample_sane|]. split; [|split; [|split; [|split]]].
  - exists (day_no (mk_date 2024 2 29)), (day_no (mk_date 2024 1 1)). split; [a_date|]. split; [a_date|reflexivity].
  - exists (day_no (mk_date 2024 2 29)), (day_no (mk_date 2024 1 1)). split; [a_date|]. split; [a_date|vm_compute; reflexivity].
  - exists (day_no (mk_date 2024 2 29)), (mk_date 2024 2 29), 60. split; [a_date|]. split; [a_date|]. split; [reflexivity|]. split; [|reflexivity].
    exists (day_no (mk_date 2024 2 29)), (day_no (mk_date 2024 1 1)). split; [a_date|]. split; [a_date|reflexivity].
  - unfold new_year. a_date.
  - reflexivity.
Qed.
Example C119_case_monday : exists c, sane c /\ monday_week (civil_date c) 9 /\ new_year c 20089 /\ weekday_of 20089 = 3.
Proof.
  exists (mk_civil 2025 3 3 0 0 0 0 0). split; [a_sane|]. split; [|split; [unfold new_year; a_date|reflexivity]].
  exists (day_no (mk_date 2025 3 3)), (day_no (mk_date 2025 1 1)). split; [a_date|]. split; [a_date|vm_compute; reflexivity].
Qed.

(** ** C120: what a format prints *)
Theorem C120_meaning : forall t c f o, sane c -> good_locale t -> meant t c f o -> formatted t c f o.
Proof.
  intros t c f o Hc HG M k HK. destruct (meant_prints t c f o Hc HG M) as (n & E). exists n. intros fuel' L.
  unfold lt_define. rewrite (flag_chosen t k f HK). exact (print_mono n fuel' t c None f o L (E None)).
Qed.
Print Assumptions C120_meaning.
(** A manipulator prints at most one text. *)
Theorem C120_one_text : forall t c k n1 n2 o1 o2, lt_define n1 t c k = Some o1 -> lt_define n2 t c k = Some o2 -> o1 = o2.
Proof.
  intros t c k n1 n2 o1 o2 E1 E2. unfold lt_define in *.
  apply (print_mono n1 (Nat.max n1 n2)) in E1; [|lia]. apply (print_mono n2 (Nat.max n1 n2)) in E2; [|lia]. congruence.
Qed.
Print Assumptions C120_one_text.
Example C120_case : good_locale sample_locale /\
  meant sample_locale sample_time (lt_date_fmt sample_locale) (text "Thursday, 29 February").
Proof.
  split.
  { unfold good_locale. split; [|split].
    - constructor; [left; cbn; lia|]. constructor; [|constructor]. right. left. unfold not_after. cbn. lia.
    - repeat constructor; cbn; lia.
    - split; repeat constructor; lia. }
  assert (D : day_number sample_time 19782) by (unfold day_number; cbn [civil_date sample_time cv_year cv_month cv_day]; a_date).
  apply (m_field _ _ (text "%A") (text "Thursday") (text ", %-d %B") (text ", 29 February")).
  { exact (f_A sample_locale sample_time 19782 D). }
  apply (m_char _ _ 44); [discriminate|]. apply (m_char _ _ 32); [discriminate|].
  apply (m_field _ _ (text "%-d") (text "29") (text " %B") (text " February")).
  { apply f_dd. cbn [sample_time cv_day]. destruct (print_int_correct default_pflags uint8_ty 29) as (num & E & N);
      [left; reflexivity|cbn; lia|unfold config_ok; vm_compute; auto|unfold in_range; cbn; lia|].
    vm_compute in E. injection E as <-. exact N. }
  apply (m_char _ _ 32); [discriminate|].
  apply (m_field _ _ (text "%B") (text "February") [] []).
  { exact (f_B sample_locale sample_time). }
  constructor.
Qed.
(** Directives that do not print what strftime prints: %y prints the year in full, %D its four digits, %l and %k
    pad with a zero, and "%-" at the end of a format loses its '%'. *)
Theorem C120_strftime_refuted : exists t c, sane c /\ good_locale t /\ civil_date c = mk_date 2024 2 9 /\ cv_hours c = 5 /\
  formatted t c (text "%y") (text "2024") /\ formatted t c (text "%D") (text "02/09/2024") /\
  formatted t c (text "%l") (text "05") /\ formatted t c (text "%k") (text "05") /\ formatted t c (text "x%-") (text "x-").
Proof.
  exists (with_formats [] [] []), (mk_civil 2024 2 9 5 0 0 0 0). split; [a_sane|].
  split; [unfold good_locale; cbn; repeat constructor; cbn; lia|]. split; [reflexivity|]. split; [reflexivity|].
  split; [one_field; reflexivity|]. split; [one_field; reflexivity|]. split; [one_field; reflexivity|]. split; [one_field; reflexivity|].
  intros k HK. exists 2%nat. intros fuel' L. unfold lt_define. rewrite (flag_chosen _ _ _ HK). destruct fuel' as [|[|n]]; [lia|lia|]. reflexivity.
Qed.
Print Assumptions C120_strftime_refuted.

(** ** C121: eras *)
Theorem C121_era_partial : forall t c, sane c -> Forall plain_era (lt_eras t) ->
  (forall e, era_of (lt_eras t) (cv_year c) (cv_month c) (cv_day c) e -> formatted t c (text "%EC") (er_name e)) /\
  (Forall (fun e => ~ era_covers e (cv_year c) (cv_month c) (cv_day c)) (lt_eras t) ->
     formatted t c (text "%EC") [] /\ formatted t c (text "%Ey") [] /\ formatted t c (text "%EY") []).
Proof.
  intros t c Hc HP. split.
  - intros e He. one_field. unfold print_E. cbn [Z.eqb Pos.eqb orb]. now rewrite (find_era_of _ _ _ _ _ HP He).
  - intros HN. pose proof (find_era_none _ _ _ _ HP HN) as E.
    split; [|split]; one_field; unfold print_E; cbn [Z.eqb Pos.eqb orb]; now rewrite E.
Qed.
Print Assumptions C121_era_partial.
Theorem C121_era_year_partial : forall t c e o, sane c -> Forall plain_era (lt_eras t) -> Forall era_fits (lt_eras t) ->
  era_of (lt_eras t) (cv_year c) (cv_month c) (cv_day c) e ->
  0 <= era_year e (cv_year c) < 2 ^ 63 -> is_numeral 10 false (era_year e (cv_year c)) o -> formatted t c (text "%Ey") o.
Proof.
  intros t c e o Hc HP HF He Hr N. one_field. unfold print_E. cbn [Z.eqb Pos.eqb orb]. rewrite (find_era_of _ _ _ _ _ HP He).
  pose proof He as (a & b & EL & HC & _). assert (HI : In e (lt_eras t)) by (rewrite EL; apply in_or_app; right; left; reflexivity).
  rewrite Forall_forall in HF, HP. pose proof (HF e HI) as F. unfold era_fits in F.
  pose proof (era_year_ok e _ _ _ (HP e HI) HC) as Y. cbn [obind]. rewrite chk64_ok by lia. cbn [obind].
  rewrite chk64_ok by lia. rewrite <- Y. rewrite (num64 _ o Hr N). reflexivity.
Qed.
Print Assumptions C121_era_year_partial.
Theorem C121_era_format_partial : forall t c e o, sane c -> good_locale t ->
  era_of (lt_eras t) (cv_year c) (cv_month c) (cv_day c) e -> meant t c (er_format e) o -> formatted t c (text "%EY") o.
Proof.
  intros t c e o Hc HG He M. apply C120_meaning; [assumption|assumption|].
  replace o with (o ++ []) by apply app_nil_r.
  apply (m_nested t c (text "%EY") (er_format e) o [] []); [constructor; assumption|assumption|constructor].
Qed.
Print Assumptions C121_era_format_partial.
Example C121_case : Forall plain_era (lt_eras sample_locale) /\ Forall era_fits (lt_eras sample_locale) /\
  era_of (lt_eras sample_locale) 2024 2 29 (mk_era true 2 2020 1 1 1 0 0 0 (text "Reiwa") (text "%EC %Ey")) /\
  era_of (lt_eras sample_locale) 2019 7 1 (mk_era true 1 2019 5 1 0 2019 12 31 (text "Reiwa") (text "%EC 1")) /\
  Forall (fun e => ~ era_covers e 2018 1 1) (lt_eras sample_locale) /\
  era_year (mk_era true 2 2020 1 1 1 0 0 0 (text "Reiwa") (text "%EC %Ey")) 2024 = 6.
Proof.
  split; [|split; [|split; [|split; [|split]]]].
  - constructor; [left; cbn; lia|]. constructor; [|constructor]. right. left. unfold not_after. cbn. lia.
  - repeat constructor; cbn; lia.
  - eexists [], _. split; [reflexivity|]. split; [|constructor]. unfold era_covers, not_after. cbn. lia.
  - eexists [_], _. split; [reflexivity|]. split; [|constructor; [|constructor]]; unfold era_covers, not_after; cbn; lia.
  - repeat constructor; unfold era_covers, not_after; cbn; lia.
  - reflexivity.
Qed.
(** An era without end in the past ("-*") is never found, and stops the search before an era that covers the day. *)
Theorem C121_past_era_refuted : exists t c e e2, sane c /\ lt_eras t = [e; e2] /\
  era_of (lt_eras t) 600 1 1 e /\ er_name e = text "BC" /\ civil_date c = mk_date 600 1 1 /\
  formatted t c (text "%EC") [] /\ er_special e2 = 0 /\ er_dir e2 = true /\ era_covers e2 600 1 1 /\ er_name e2 = text "AD".
Proof.
  pose (e := mk_era false 1 700 12 31 (-1) 0 0 0 (text "BC") []).
  pose (e2 := mk_era true 1 1 1 1 0 1000 1 1 (text "AD") []).
  exists (with_formats [] [] [e; e2]), (mk_civil 600 1 1 0 0 0 0 0), e, e2.
  split; [a_sane|]. split; [reflexivity|]. split.
  { exists [], [e2]. split; [reflexivity|]. split; [|constructor]. unfold era_covers, not_after. cbn. lia. }
  split; [reflexivity|]. split; [reflexivity|]. split; [one_field; reflexivity|]. split; [reflexivity|]. split; [reflexivity|].
  split; [unfold era_covers, not_after; cbn; lia|reflexivity].
Qed.
Print Assumptions C121_past_era_refuted.
