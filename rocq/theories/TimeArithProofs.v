(** Timestamp arithmetic against exact values. *)
From Verif Require Import Base Outcome TimeSpec TimeModel TimeCalProofs.

Lemma sps : subseconds_per_second = 10000000000000000000.
Proof. reflexivity. Qed.
Lemma per_sps : per_second = 10000000000000000000.
Proof. reflexivity. Qed.
Lemma p63 : 2 ^ 63 = 9223372036854775808. Proof. reflexivity. Qed.
Lemma p64 : 2 ^ 64 = 18446744073709551616. Proof. reflexivity. Qed.
Lemma p128 : 2 ^ 128 = 340282366920938463463374607431768211456. Proof. reflexivity. Qed.

Lemma to_signed64 x : to_signed 64 x = if x mod 18446744073709551616 <? 9223372036854775808 then x mod 18446744073709551616 else x mod 18446744073709551616 - 18446744073709551616.
Proof. reflexivity. Qed.
Lemma wrap64 x : wrap 64 x = x mod 18446744073709551616. Proof. reflexivity. Qed.
Lemma wrap128 x : wrap 128 x = x mod 340282366920938463463374607431768211456. Proof. reflexivity. Qed.

Ltac prep := unfold valid_stamp, stamp_value in *; rewrite ?p63, ?p64, ?p128, ?sps, ?per_sps in *.

Theorem cmp_correct a b : valid_stamp a -> valid_stamp b ->
  stamp_cmp a b = (stamp_value a ?= stamp_value b).
Proof.
  destruct a as [s f], b as [t g]. unfold stamp_cmp. prep. cbn [ts_sec ts_sub]. intros [H1 H2] [H3 H4].
  symmetry. destruct (Z.compare_spec s t) as [->|L|L].
  - destruct (Z.ltb_spec t 0).
    + destruct (Z.compare_spec g f); [apply Z.compare_eq_iff|apply Z.compare_lt_iff|apply Z.compare_gt_iff]; lia.
    + destruct (Z.compare_spec f g); [apply Z.compare_eq_iff|apply Z.compare_lt_iff|apply Z.compare_gt_iff]; lia.
  - destruct (Z.ltb_spec s 0), (Z.ltb_spec t 0); apply Z.compare_lt_iff; lia.
  - destruct (Z.ltb_spec s 0), (Z.ltb_spec t 0); apply Z.compare_gt_iff; lia.
Qed.

Theorem eqb_correct a b : valid_stamp a -> valid_stamp b ->
  stamp_eqb a b = true <-> stamp_value a = stamp_value b.
Proof.
  destruct a as [s f], b as [t g]. unfold stamp_eqb. prep. cbn [ts_sec ts_sub]. intros [H1 H2] [H3 H4].
  rewrite andb_true_iff, !Z.eqb_eq. split; [intros [-> ->]; reflexivity|].
  destruct (Z.ltb_spec s 0), (Z.ltb_spec t 0); lia.
Qed.

(** Which values a timestamp can hold. *)
Lemma representable_iff v : representable v <->
  (v <= - per_second \/ 0 <= v) /\ - (2 ^ 63 + 1) * per_second < v < 2 ^ 63 * per_second.
Proof.
  unfold representable. prep. split.
  - intros ([s f] & H & <-). cbn [ts_sec ts_sub] in *. destruct (Z.ltb_spec s 0); lia.
  - intros [[H|H] B].
    + exists (mk_stamp (- (- v / 10000000000000000000)) (- v mod 10000000000000000000)). cbn [ts_sec ts_sub].
      destruct (Z.ltb_spec (- (- v / 10000000000000000000)) 0); lia.
    + exists (mk_stamp (v / 10000000000000000000) (v mod 10000000000000000000)). cbn [ts_sec ts_sub].
      destruct (Z.ltb_spec (v / 10000000000000000000) 0); lia.
Qed.

Lemma neg_correct a : valid_stamp a -> representable (- stamp_value a) ->
  valid_stamp (stamp_neg a) /\ stamp_value (stamp_neg a) = - stamp_value a.
Proof.
  intros H R. apply representable_iff in R. destruct a as [s f]. unfold stamp_neg.
  rewrite to_signed64, wrap64. prep. cbn [ts_sec ts_sub] in *.
  destruct (Z.ltb_spec s 0); 
  (destruct (Z.ltb_spec ((0 - s mod 18446744073709551616) mod 18446744073709551616) 9223372036854775808);
   [destruct (Z.ltb_spec ((0 - s mod 18446744073709551616) mod 18446744073709551616) 0)
   |destruct (Z.ltb_spec ((0 - s mod 18446744073709551616) mod 18446744073709551616 - 18446744073709551616) 0)]; lia).
Qed.

(** Magnitude addition on (seconds, subseconds) pairs. *)
Lemma add_impl_spec s f t g : 0 <= f < per_second -> 0 <= g < per_second -> 0 <= s -> 0 <= t ->
  add_impl (s, f) (t, g) =
  if f + g <? per_second then (wrap 64 (s + t), f + g)
  else (wrap 64 (s + t + 1), if f + g <? 2 ^ 64 then f + g - per_second else f + g - 2 ^ 64).
Proof.
  intros Hf Hg Hs Ht. unfold add_impl, add_carry64. cbn [fst snd]. prep. rewrite ?Z.add_0_r.
  rewrite !wrap64.
  destruct (Z.ltb_spec (f + g) 10000000000000000000).
  - rewrite (Z.mod_small (f + g)) by lia.
    destruct (Z.leb_spec 10000000000000000000 (f + g)); [lia|].
    destruct (Z.leb_spec 18446744073709551616 (f + g)); [lia|]. now rewrite Z.add_0_r.
  - destruct (Z.ltb_spec (f + g) 18446744073709551616).
    + rewrite (Z.mod_small (f + g)) by lia.
      destruct (Z.leb_spec 10000000000000000000 (f + g)); [|lia].
      f_equal. apply Z.mod_small. lia.
    + replace ((f + g) mod 18446744073709551616) with (f + g - 18446744073709551616) by lia.
      destruct (Z.leb_spec 10000000000000000000 (f + g - 18446744073709551616)); [lia|].
      destruct (Z.leb_spec 18446744073709551616 (f + g)); [|lia]. reflexivity.
Qed.

Lemma sub_impl_spec s f t g : 0 <= f < per_second -> 0 <= g < per_second -> 0 <= t <= s -> s < 2 ^ 64 ->
  (t < s \/ g <= f) ->
  sub_impl (s, f) (t, g) =
  if g <=? f then (s - t, f - g) else (s - t - 1, f - g + per_second).
Proof.
  intros Hf Hg Hs Hb O. unfold sub_impl, sub_borrow64. cbn [fst snd]. prep. rewrite ?Z.sub_0_r. rewrite !wrap64.
  destruct (Z.leb_spec g f).
  - destruct (Z.ltb_spec (f - g) 0); [lia|]. rewrite Z.sub_0_r. f_equal; apply Z.mod_small; lia.
  - destruct (Z.ltb_spec (f - g) 0); [|lia]. f_equal; [apply Z.mod_small; lia|].
    rewrite Zplus_mod_idemp_l. apply Z.mod_small. lia.
Qed.

Lemma to_signed_pos x : 0 <= x < 2 ^ 63 -> to_signed 64 x = x.
Proof. rewrite p63, to_signed64. intros H. destruct (Z.ltb_spec (x mod 18446744073709551616) 9223372036854775808); lia. Qed.
Lemma to_signed_neg x : 0 <= x <= 2 ^ 63 -> to_signed 64 (0 - x) = - x.
Proof. rewrite p63, to_signed64. intros H. destruct (Z.ltb_spec ((0 - x) mod 18446744073709551616) 9223372036854775808); lia. Qed.

(** What is lost when the two subsecond parts of same-sign operands add up past 2^64. *)
Definition subsecond_loss (a b : stamp) : Z :=
  if Bool.eqb (ts_sec a <? 0) (ts_sec b <? 0) && (2 ^ 64 <=? ts_sub a + ts_sub b)
  then (if ts_sec a <? 0 then -1 else 1) * (2 ^ 64 - per_second) else 0.

Theorem add_exact a b : valid_stamp a -> valid_stamp b ->
  representable (stamp_value a + stamp_value b) ->
  valid_stamp (stamp_add a b) /\
  stamp_value (stamp_add a b) = stamp_value a + stamp_value b - subsecond_loss a b.
Proof.
  intros Va Vb R. apply representable_iff in R.
  destruct a as [s f], b as [t g]. unfold stamp_add, subsecond_loss.
  unfold valid_stamp, stamp_value in *. cbn [ts_sec ts_sub] in *.
  destruct Va as [Hs Hf], Vb as [Ht Hg].
  assert (W : forall x, - 2 ^ 63 <= x < 0 -> wrap 64 (0 - wrap 64 x) = - x).
  { intros x Hx. rewrite !wrap64. rewrite p63 in Hx. lia. }
  assert (W' : forall x, 0 <= x < 2 ^ 63 -> wrap 64 x = x).
  { intros x Hx. rewrite wrap64. rewrite p63 in Hx. lia. }
  destruct (Z.ltb_spec s 0) as [Ls|Ls], (Z.ltb_spec t 0) as [Lt|Lt]; rewrite ?W, ?W' by lia; cbn [Bool.eqb andb fst snd].
  - rewrite add_impl_spec by lia. rewrite p63, p64, per_sps in *.
    destruct (Z.ltb_spec (f + g) 10000000000000000000); cbn [fst snd ts_sec ts_sub].
    + rewrite wrap64, Z.mod_small, to_signed_neg by (rewrite ?p63; lia).
      destruct (Z.leb_spec 18446744073709551616 (f + g)); [lia|].
      destruct (Z.ltb_spec (- (- s + - t)) 0); lia.
    + rewrite wrap64, Z.mod_small, to_signed_neg by (rewrite ?p63; lia).
      destruct (Z.leb_spec 18446744073709551616 (f + g)), (Z.ltb_spec (f + g) 18446744073709551616); try lia;
      destruct (Z.ltb_spec (- (- s + - t + 1)) 0); lia.
  - rewrite Z.sub_0_r. rewrite p63, per_sps in *.
    destruct (Z.ltb_spec (- s) t) as [L1|L1]; cbn [orb].
    + rewrite sub_impl_spec by (rewrite ?p64, ?per_sps; lia). rewrite per_sps.
      destruct (Z.leb_spec f g); cbn [fst snd ts_sec ts_sub]; rewrite to_signed_pos by (rewrite p63; lia);
        match goal with |- context [if ?x <? 0 then _ else _] => destruct (Z.ltb_spec x 0); lia end.
    + destruct (Z.eqb_spec (- s) t) as [E1|E1]; cbn [andb].
      * destruct (Z.ltb_spec f g) as [L2|L2].
        -- rewrite sub_impl_spec by (rewrite ?p64, ?per_sps; lia). rewrite per_sps.
           destruct (Z.leb_spec f g); cbn [fst snd ts_sec ts_sub]; rewrite to_signed_pos by (rewrite p63; lia);
           match goal with |- context [if ?x <? 0 then _ else _] => destruct (Z.ltb_spec x 0); lia end.
        -- rewrite sub_impl_spec by (rewrite ?p64, ?per_sps; lia). rewrite per_sps.
           destruct (Z.leb_spec g f); cbn [fst snd ts_sec ts_sub]; rewrite to_signed_neg by (rewrite p63; lia);
           match goal with |- context [if ?x <? 0 then _ else _] => destruct (Z.ltb_spec x 0); lia end.
      * rewrite sub_impl_spec by (rewrite ?p64, ?per_sps; lia). rewrite per_sps.
        destruct (Z.leb_spec g f); cbn [fst snd ts_sec ts_sub]; rewrite to_signed_neg by (rewrite p63; lia);
        match goal with |- context [if ?x <? 0 then _ else _] => destruct (Z.ltb_spec x 0); lia end.
  - rewrite Z.sub_0_r. rewrite p63, per_sps in *.
    destruct (Z.ltb_spec s (- t)) as [L1|L1]; cbn [orb].
    + rewrite sub_impl_spec by (rewrite ?p64, ?per_sps; lia). rewrite per_sps.
      destruct (Z.leb_spec f g); cbn [fst snd ts_sec ts_sub]; rewrite to_signed_neg by (rewrite p63; lia);
        match goal with |- context [if ?x <? 0 then _ else _] => destruct (Z.ltb_spec x 0); lia end.
    + destruct (Z.eqb_spec s (- t)) as [E1|E1]; cbn [andb].
      * destruct (Z.ltb_spec f g) as [L2|L2].
        -- rewrite sub_impl_spec by (rewrite ?p64, ?per_sps; lia). rewrite per_sps.
           destruct (Z.leb_spec f g); cbn [fst snd ts_sec ts_sub]; rewrite to_signed_neg by (rewrite p63; lia);
           match goal with |- context [if ?x <? 0 then _ else _] => destruct (Z.ltb_spec x 0); lia end.
        -- rewrite sub_impl_spec by (rewrite ?p64, ?per_sps; lia). rewrite per_sps.
           destruct (Z.leb_spec g f); cbn [fst snd ts_sec ts_sub]; rewrite to_signed_pos by (rewrite p63; lia);
           match goal with |- context [if ?x <? 0 then _ else _] => destruct (Z.ltb_spec x 0); lia end.
      * rewrite sub_impl_spec by (rewrite ?p64, ?per_sps; lia). rewrite per_sps.
        destruct (Z.leb_spec g f); cbn [fst snd ts_sec ts_sub]; rewrite to_signed_pos by (rewrite p63; lia);
        match goal with |- context [if ?x <? 0 then _ else _] => destruct (Z.ltb_spec x 0); lia end.
  - rewrite add_impl_spec by lia. rewrite p63, p64, per_sps in *.
    destruct (Z.ltb_spec (f + g) 10000000000000000000); cbn [fst snd ts_sec ts_sub].
    + rewrite wrap64, Z.mod_small, to_signed_pos by (rewrite ?p63; lia).
      destruct (Z.leb_spec 18446744073709551616 (f + g)); [lia|].
      destruct (Z.ltb_spec (s + t) 0); lia.
    + rewrite wrap64, Z.mod_small, to_signed_pos by (rewrite ?p63; lia).
      destruct (Z.leb_spec 18446744073709551616 (f + g)), (Z.ltb_spec (f + g) 18446744073709551616); try lia;
      destruct (Z.ltb_spec (s + t + 1) 0); lia.
Qed.

(** ** Division *)
Lemma odd_land q : (Z.land q 1 =? 1) = negb (Z.even q).
Proof.
  rewrite <- Z.negb_odd. rewrite negb_involutive. change 1 with (Z.ones 1) at 1.
  rewrite Z.land_ones by lia. change (2 ^ 1) with 2.
  rewrite Zmod_odd. destruct (Z.odd q); reflexivity.
Qed.

Definition signum (a : stamp) : Z := if ts_sec a <? 0 then -1 else 1.

(** The quotient magnitude the code picks. *)
Definition div_mag (n d : Z) : Z :=
  if d / 2 <? n mod d then n / d + 1
  else if d / 2 =? n mod d then (if Z.even (n / d) then n / d else n / d + 1) else n / d.

Lemma div_spec a d : valid_stamp a -> 1 <= d < 2 ^ 64 ->
  let q := signum a * div_mag (Z.abs (stamp_value a)) d in
  representable q ->
  exists t, stamp_div a d = Done t /\ valid_stamp t /\ stamp_value t = q.
Proof.
  intros V D q R. apply representable_iff in R. subst q. unfold stamp_div, signum in *.
  destruct a as [s f]. unfold valid_stamp, stamp_value in *. cbn [ts_sec ts_sub] in *.
  destruct V as [Hs Hf].
  destruct (Z.eqb_spec d 0) as [|_]; [lia|].
  rewrite (Z.shiftr_div_pow2 d 1) by lia. change (2 ^ 1) with 2.
  set (m := if s <? 0 then wrap 64 (0 - wrap 64 s) else wrap 64 s).
  assert (Em : m = Z.abs s).
  { unfold m. rewrite !wrap64. rewrite p63 in Hs. destruct (Z.ltb_spec s 0); lia. }
  clearbody m. subst m.
  set (n := Z.abs (if s <? 0 then s * per_second - f else s * per_second + f)) in *.
  assert (En : n = Z.abs s * per_second + f).
  { unfold n. rewrite per_sps in *. destruct (Z.ltb_spec s 0); lia. }
  clearbody n. rewrite per_sps, p63 in *.
  rewrite !wrap128. rewrite sps.
  rewrite (Z.mod_small (Z.abs s * 10000000000000000000)) by lia. rewrite <- En.
  rewrite (Z.mod_small n) by lia.
  assert (Hn : 0 <= n < 92233720368547758090000000000000000000) by lia.
  assert (Hq : 0 <= n / d <= n) by (split; [apply Z.div_pos; lia|apply Z.div_le_upper_bound; nia]).
  assert (Hr : 0 <= n mod d < d) by (apply Z.mod_pos_bound; lia).
  rewrite (wrap64 (n mod d)), (Z.mod_small (n mod d)) by (rewrite p64 in D; lia).
  rewrite odd_land.
  set (Q := div_mag n d) in *.
  match goal with |- context [Done (mk_stamp (to_signed 64 (if _ then wrap 64 (0 - wrap 64 (?x / _)) else _)) _)] =>
    assert (EQ : x = Q) end.
  { unfold Q, div_mag. rewrite (Z.mod_small (n / d + 1)) by lia.
    destruct (d / 2 <? n mod d); [reflexivity|]. destruct (d / 2 =? n mod d); [|reflexivity].
    destruct (Z.even _); reflexivity. }
  rewrite EQ. assert (HQ : 0 <= Q <= n + 1).
  { unfold Q, div_mag. destruct (d / 2 <? n mod d); [lia|]. destruct (d / 2 =? n mod d); [|lia]. destruct (Z.even _); lia. }
  clearbody Q. clear EQ.
  eexists. split; [reflexivity|]. cbn [ts_sec ts_sub].
  assert (B : 0 <= Q / 10000000000000000000 <= 9223372036854775808 /\ 0 <= Q mod 10000000000000000000 < 10000000000000000000) by (destruct (Z.ltb_spec s 0); lia).
  rewrite (wrap64 (Q mod _)), (Z.mod_small (Q mod _)) by lia.
  destruct (Z.ltb_spec s 0).
  - rewrite !wrap64. rewrite (Z.mod_small (Q / _)) by lia.
    assert (E : to_signed 64 ((0 - Q / 10000000000000000000) mod 18446744073709551616) = - (Q / 10000000000000000000)).
    { rewrite to_signed64. rewrite Z.mod_mod by lia. rewrite <- to_signed64. apply to_signed_neg. rewrite p63. lia. }
    rewrite E. destruct (Z.ltb_spec (- (Q / 10000000000000000000)) 0); lia.
  - rewrite !wrap64. rewrite (Z.mod_small (Q / _)) by lia.
    assert (Q / 10000000000000000000 < 9223372036854775808) by lia.
    rewrite to_signed_pos by (rewrite p63; lia).
    destruct (Z.ltb_spec (Q / 10000000000000000000) 0); lia.
Qed.

Lemma div_mag_bound n d : 0 <= n -> 1 <= d -> 2 * Z.abs (n - div_mag n d * d) <= d + 1.
Proof.
  intros Hn Hd. unfold div_mag.
  assert (E : n = d * (n / d) + n mod d) by (apply Z.div_mod; lia).
  assert (B : 0 <= n mod d < d) by (apply Z.mod_pos_bound; lia).
  set (q := n / d) in *. set (r := n mod d) in *. clearbody q r.
  assert (H2 : d = 2 * (d / 2) + d mod 2) by (apply Z.div_mod; lia).
  assert (B2 : 0 <= d mod 2 < 2) by (apply Z.mod_pos_bound; lia).
  set (h := d / 2) in *. set (p := d mod 2) in *. clearbody h p.
  destruct (Z.ltb_spec h r).
  - replace (n - (q + 1) * d) with (r - d) by lia. lia.
  - destruct (Z.eqb_spec h r).
    + destruct (Z.even q); [replace (n - q * d) with r by lia|replace (n - (q + 1) * d) with (r - d) by lia]; lia.
    + replace (n - q * d) with r by lia. lia.
Qed.

Lemma div_mag_even n d : 0 <= n -> 1 <= d -> Z.even d = true -> rounds_to_even n d (div_mag n d).
Proof.
  intros Hn Hd Ev. unfold div_mag, rounds_to_even.
  assert (E : n = d * (n / d) + n mod d) by (apply Z.div_mod; lia).
  assert (B : 0 <= n mod d < d) by (apply Z.mod_pos_bound; lia).
  set (q := n / d) in *. set (r := n mod d) in *. clearbody q r.
  apply Z.even_spec in Ev. destruct Ev as [h ->].
  rewrite (Z.mul_comm 2 h), Z.div_mul by lia. rewrite (Z.mul_comm h 2).
  destruct (Z.ltb_spec h r).
  - replace (n - (q + 1) * (2 * h)) with (r - 2 * h) by lia. lia.
  - destruct (Z.eqb_spec h r).
    + destruct (Z.even q) eqn:Eq.
      * replace (n - q * (2 * h)) with r by lia. right. split; [lia|assumption].
      * replace (n - (q + 1) * (2 * h)) with (r - 2 * h) by lia. right. split; [lia|].
        rewrite Z.even_add, Eq. reflexivity.
    + replace (n - q * (2 * h)) with r by lia. lia.
Qed.

Lemma signum_abs a : valid_stamp a -> stamp_value a = signum a * Z.abs (stamp_value a).
Proof.
  destruct a as [s f]. unfold signum. prep. cbn [ts_sec ts_sub]. intros H.
  destruct (Z.ltb_spec s 0); lia.
Qed.
Lemma signum_cases a : signum a = 1 \/ signum a = -1.
Proof. unfold signum. destruct (_ <? _); auto. Qed.
Lemma rounds_opp n d q : rounds_to_even n d q -> rounds_to_even (- n) d (- q).
Proof.
  unfold rounds_to_even. replace (- n - - q * d) with (- (n - q * d)) by lia. rewrite Z.abs_opp, Z.even_opp. auto.
Qed.
Lemma rounds_unique n d p q : 0 < d -> rounds_to_even n d p -> rounds_to_even n d q -> p = q.
Proof.
  intros Hd H1 H2. unfold rounds_to_even in *.
  destruct (Z.eq_dec p q) as [|N]; [assumption|exfalso].
  assert (A : Z.abs (p - q) = 1).
  { assert (Z.abs (p * d - q * d) <= d) by (destruct H1 as [H1|[H1 _]], H2 as [H2|[H2 _]]; lia).
    replace (p * d - q * d) with ((p - q) * d) in H by ring. rewrite Z.abs_mul, (Z.abs_eq d) in H by lia. nia. }
  assert (P : Z.even p = negb (Z.even q)).
  { assert (C : p = q + 1 \/ p = q + -1) by lia. destruct C as [-> | ->]; rewrite Z.even_add; cbn; destruct (Z.even q); reflexivity. }
  assert (K : p = q + 1 \/ p = q - 1) by lia.
  destruct H1 as [H1|[H1 E1]], H2 as [H2|[H2 E2]]; try (rewrite E1, E2 in P; discriminate);
    clear P A; destruct K as [-> | ->]; rewrite ?Z.mul_add_distr_r, ?Z.mul_sub_distr_r in *; generalize dependent (q * d); intros; lia.
Qed.

Theorem div_even a d q : valid_stamp a -> 1 <= d < 2 ^ 64 -> Z.even d = true ->
  rounds_to_even (stamp_value a) d q -> representable q ->
  exists t, stamp_div a d = Done t /\ valid_stamp t /\ stamp_value t = q.
Proof.
  intros V D E R Q. pose proof (div_mag_even (Z.abs (stamp_value a)) d ltac:(lia) ltac:(lia) E) as M.
  assert (S : rounds_to_even (stamp_value a) d (signum a * div_mag (Z.abs (stamp_value a)) d)).
  { rewrite (signum_abs a V) at 1. destruct (signum_cases a) as [-> | ->].
    - now rewrite !Z.mul_1_l.
    - replace (-1 * Z.abs (stamp_value a)) with (- Z.abs (stamp_value a)) by lia.
      replace (-1 * div_mag (Z.abs (stamp_value a)) d) with (- div_mag (Z.abs (stamp_value a)) d) by lia.
      now apply rounds_opp. }
  assert (D0 : 0 < d) by lia. pose proof (rounds_unique _ _ _ _ D0 R S) as U. rewrite U in *.
  apply div_spec; assumption.
Qed.

Theorem div_any a d : valid_stamp a -> 1 <= d < 2 ^ 64 ->
  exists q, 2 * Z.abs (stamp_value a - q * d) <= d + 1 /\
  (representable q -> exists t, stamp_div a d = Done t /\ valid_stamp t /\ stamp_value t = q).
Proof.
  intros V D. exists (signum a * div_mag (Z.abs (stamp_value a)) d). split.
  - pose proof (div_mag_bound (Z.abs (stamp_value a)) d ltac:(lia) ltac:(lia)).
    rewrite (signum_abs a V) at 1. generalize dependent (Z.abs (stamp_value a)). intros n Hn.
    destruct (signum_cases a) as [-> | ->].
    + rewrite !Z.mul_1_l. exact Hn.
    + replace (-1 * n - -1 * div_mag n d * d) with (- (n - div_mag n d * d)) by ring. now rewrite Z.abs_opp.
  - intros R. now apply div_spec.
Qed.
