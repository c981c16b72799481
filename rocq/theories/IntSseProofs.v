(** The SSE4.1 decimal path agrees with the scalar one. *)
From Verif Require Import Base NumSpec NumFacts IntPrintModel IntPrintProofs IntInjProofs ScanSpec IntScanModel IntScanProofs.

Definition bytes (s : list Z) : Prop := Forall (fun c => 0 <= c < 256) s.

Lemma sse_is_digit_spec c : 0 <= c < 256 -> sse_is_digit c = true <-> 48 <= c < 58.
Proof.
  intros Hc. unfold sse_is_digit, to_signed. change (2 ^ (8 - 1)) with 128. change (2 ^ 8) with 256.
  destruct (wrap8_sub c 176 Hc ltac:(lia)) as [[A ->]|[A ->]].
  - destruct (Z.ltb_spec (c - 176) 128); rewrite Z.ltb_lt; lia.
  - destruct (Z.ltb_spec (c - 176 + 256) 128); rewrite Z.ltb_lt; lia.
Qed.

Lemma denotes10 c d : denotes 10 c d -> c = 48 + d /\ 0 <= d < 10.
Proof. intros H. pose proof (denotes_cases 10 c d ltac:(lia) H). lia. Qed.

Lemma countr_digits n cs ds rest : digit_string 10 cs ds -> bytes rest -> no_digit_first 10 rest ->
  countr_one (map sse_is_digit (firstn n (cs ++ rest))) = Z.min (Z.of_nat n) (zlen cs).
Proof.
  intros H Hb Hn. revert n. induction H as [|c d cs ds Hd _ IH]; intros n.
  - cbn [app]. rewrite zlen_nil. destruct n as [|n]; [simpl; lia|]. destruct rest as [|c rest]; [simpl; lia|].
    cbn [firstn map countr_one]. inversion Hb; subst. destruct (sse_is_digit c) eqn:E; [|lia].
    apply sse_is_digit_spec in E; [|assumption]. exfalso. apply Hn. apply is_digit_small; lia.
  - destruct n as [|n]; [simpl; pose proof (zlen_nonneg (c :: cs)); lia|].
    cbn [app firstn map countr_one]. apply denotes10 in Hd as [-> Hd].
    replace (sse_is_digit (48 + d)) with true by (symmetry; apply sse_is_digit_spec; lia).
    rewrite IH, zlen_cons. lia.
Qed.

Lemma list16 (l : list Z) : length l = 16%nat -> exists a0 a1 a2 a3 a4 a5 a6 a7 a8 a9 a10 a11 a12 a13 a14 a15,
  l = [a0;a1;a2;a3;a4;a5;a6;a7;a8;a9;a10;a11;a12;a13;a14;a15].
Proof.
  intros H. do 16 (destruct l as [|? l]; [discriminate H|]). destruct l; [|discriminate H].
  do 16 eexists. reflexivity.
Qed.

Definition sse_reduce (l : list Z) : Z :=
  let l := pairs madd10000 (map packus (pairs madd100 (pairs maddubs10 l))) in
  wrap 64 (wrap 64 (wrap 32 (znth l 0) * 100000000) + wrap 32 (znth l 1)).

Lemma clamp_id lo hi x : lo <= x <= hi -> clamp lo hi x = x. Proof. unfold clamp. lia. Qed.

Lemma to_signed_small w x : 0 < w -> 0 <= x < 2 ^ (w - 1) -> to_signed w x = x.
Proof. apply to_signed_id. Qed.

Lemma sse_reduce_spec l : length l = 16%nat -> digits_ok 10 l -> sse_reduce l = value_of 10 l.
Proof.
  intros Hl Hok. destruct (list16 l Hl) as (a0&a1&a2&a3&a4&a5&a6&a7&a8&a9&a10&a11&a12&a13&a14&a15&->).
  unfold digits_ok in Hok. repeat (apply Forall_cons_iff in Hok as [? Hok]).
  assert (M1 : forall a b, 0 <= a < 10 -> 0 <= b < 10 -> maddubs10 a b = a * 10 + b)
    by (intros; unfold maddubs10; apply clamp_id; lia).
  assert (M2 : forall a b, 0 <= a < 100 -> 0 <= b < 100 -> madd100 a b = a * 100 + b).
  { intros. unfold madd100. rewrite !(to_signed_small 16) by (try change (2 ^ (16 - 1)) with 32768; lia).
    apply to_signed_small; [lia|]. change (2 ^ (32 - 1)) with 2147483648. lia. }
  assert (M3 : forall a b, 0 <= a < 10000 -> 0 <= b < 10000 -> madd10000 a b = a * 10000 + b).
  { intros. unfold madd10000. rewrite !(to_signed_small 16) by (try change (2 ^ (16 - 1)) with 32768; lia).
    apply to_signed_small; [lia|]. change (2 ^ (32 - 1)) with 2147483648. lia. }
  assert (P : forall a, 0 <= a < 10000 -> packus a = a) by (intros; unfold packus; apply clamp_id; lia).
  unfold sse_reduce. cbn [pairs map].
  rewrite !M1 by lia. rewrite !M2 by lia. rewrite !P by lia. rewrite !M3 by lia.
  unfold znth. cbn [nth Z.to_nat]. change (Pos.to_nat 1) with 1%nat. cbn [nth].
  rewrite !(wrap_small 32) by (change (2 ^ 32) with 4294967296; lia).
  set (lo := (((a0 * 10 + a1) * 100 + (a2 * 10 + a3)) * 10000 + ((a4 * 10 + a5) * 100 + (a6 * 10 + a7)))).
  set (hi := (((a8 * 10 + a9) * 100 + (a10 * 10 + a11)) * 10000 + ((a12 * 10 + a13) * 100 + (a14 * 10 + a15)))).
  assert (0 <= lo < 100000000) by (unfold lo; lia). assert (0 <= hi < 100000000) by (unfold hi; lia).
  rewrite (wrap_small 64 (lo * 100000000)) by (change (2 ^ 64) with 18446744073709551616; lia).
  rewrite (wrap_small 64) by (change (2 ^ 64) with 18446744073709551616; lia).
  unfold lo, hi, value_of. cbn [fold_left]. ring.
Qed.

Lemma znth_map_chunk chunk i : 0 <= i < zlen chunk ->
  znth (map (fun c => wrap 8 (c - 48)) chunk) i = wrap 8 (znth chunk i - 48).
Proof.
  intros Hi. unfold znth, zlen in *. rewrite nth_indep with (d' := wrap 8 (0 - 48)) by (rewrite map_length; lia).
  rewrite (map_nth (fun c => wrap 8 (c - 48))). reflexivity.
Qed.

Lemma shuffle_spec (k : nat) ds l : length ds = k -> (k <= 16)%nat -> length l = 16%nat -> firstn k l = ds ->
  shuffle_right (Z.of_nat k) l = repeat 0 (16 - k) ++ ds.
Proof.
  intros Hk Hle Hl Hf. apply nth_ext with 0 0.
  - unfold shuffle_right. rewrite map_length, zseq_length, app_length, repeat_length. change (Z.to_nat 16) with 16%nat. lia.
  - intros i Hi. unfold shuffle_right in *. rewrite map_length, zseq_length in Hi. change (Z.to_nat 16) with 16%nat in Hi.
    rewrite nth_indep with (d' := (fun i => if Z.of_nat k + i <? 16 then 0 else znth l (Z.of_nat k + i - 16)) 0)
      by (rewrite map_length, zseq_length; exact Hi).
    rewrite (map_nth (fun i => if Z.of_nat k + i <? 16 then 0 else znth l (Z.of_nat k + i - 16))).
    assert (Ei : nth i (zseq 16) 0 = Z.of_nat i).
    { apply nth_error_nth with (d := 0). replace i with (Z.to_nat (Z.of_nat i)) at 1 by lia. apply nth_error_zseq. lia. }
    rewrite Ei. destruct (Z.ltb_spec (Z.of_nat k + Z.of_nat i) 16).
    + rewrite app_nth1 by (rewrite repeat_length; lia). rewrite nth_repeat. reflexivity.
    + rewrite app_nth2 by (rewrite repeat_length; lia). rewrite repeat_length. unfold znth.
      replace (Z.to_nat (Z.of_nat k + Z.of_nat i - 16)) with (i - (16 - k))%nat by lia.
      rewrite <- Hf.
      assert (Hlt : (i - (16 - k) < k)%nat) by lia.
      rewrite <- (firstn_skipn k l) at 1. rewrite app_nth1 by (rewrite firstn_length; lia). reflexivity.
Qed.

Lemma value_of_zeros base n ds : value_of base (repeat 0 n ++ ds) = value_of base ds.
Proof. induction n as [|n IH]; cbn [repeat app]; [reflexivity|]. rewrite value_of_cons, IH. lia. Qed.

Lemma map_digits cs ds : digit_string 10 cs ds -> map (fun c => wrap 8 (c - 48)) cs = ds.
Proof.
  intros H. induction H as [|c d cs ds Hd _ IH]; [reflexivity|]. cbn [map]. rewrite IH. f_equal.
  apply denotes10 in Hd as [-> Hd]. rewrite wrap_small; [lia|]. change (2 ^ 8) with 256. lia.
Qed.

Lemma sse_eval_eq digits chunk : sse_eval digits chunk = sse_reduce (shuffle_right digits (map (fun c => wrap 8 (c - 48)) chunk)).
Proof. unfold sse_eval, sse_reduce. cbv zeta. reflexivity. Qed.

(** [k] leading digits of the 16 byte chunk evaluate to their value. *)
Lemma sse_eval_spec chunk cs ds : length chunk = 16%nat -> (length cs <= 16)%nat -> firstn (length cs) chunk = cs ->
  digit_string 10 cs ds -> sse_eval (zlen cs) chunk = value_of 10 ds.
Proof.
  intros Hc Hle Hf H. pose proof (Forall2_length _ _ _ H) as Hl.
  rewrite sse_eval_eq. change (zlen cs) with (Z.of_nat (length cs)).
  rewrite (shuffle_spec (length cs) ds).
  - rewrite sse_reduce_spec.
    + apply value_of_zeros.
    + rewrite app_length, repeat_length. lia.
    + apply Forall_app; split; [|apply (digit_string_ok 10 cs); exact H].
      apply Forall_forall. intros x Hx. apply repeat_spec in Hx. lia.
  - congruence.
  - lia.
  - rewrite map_length. exact Hc.
  - rewrite firstn_map, Hf. apply map_digits. exact H.
Qed.

Lemma detect_length_spec cs ds rest : digit_string 10 cs ds -> bytes rest -> no_digit_first 10 rest ->
  16 <= zlen (cs ++ rest) -> detect_length (cs ++ rest) = Some (Z.min 16 (zlen cs)).
Proof.
  intros H Hb Hn Hl. unfold detect_length, load16. fold (zlen (cs ++ rest)).
  destruct (Z.leb_spec 16 (zlen (cs ++ rest))); [|lia]. cbn [option_map].
  rewrite (countr_digits 16 cs ds rest); auto.
Qed.

Lemma detect_length_total s : 16 <= zlen s -> exists n, detect_length s = Some n.
Proof.
  intros Hl. unfold detect_length, load16. fold (zlen s). destruct (Z.leb_spec 16 (zlen s)); [|lia]. eexists; reflexivity.
Qed.

Lemma zlen_zskip n s : 0 <= n <= zlen s -> zlen (zskip n s) = zlen s - n.
Proof. intros. unfold zlen, zskip in *. rewrite skipn_length. lia. Qed.

Lemma sse_skip_loop_total fuel buffer : forall it, 16 <= it <= zlen buffer -> zlen buffer - it < Z.of_nat fuel ->
  exists n, sse_skip_loop fuel buffer it = Some n.
Proof.
  induction fuel as [|f IH]; intros it Hi Hf; [lia|]. cbn [sse_skip_loop]. fold (zlen buffer).
  destruct (Z.leb_spec 16 (zlen buffer - it)).
  - destruct (detect_length_total (zskip it buffer)) as [n ->]; [rewrite zlen_zskip; lia|].
    destruct (negb (n =? 16)); [eexists; reflexivity|]. apply IH; lia.
  - destruct (Z.eqb_spec (zlen buffer) it); [eexists; reflexivity|]. destruct (Z.ltb_spec (zlen buffer) it); [lia|].
    destruct (detect_length_total (zskip (zlen buffer - 16) buffer)) as [m ->]; [rewrite zlen_zskip; lia|]. eexists; reflexivity.
Qed.

Lemma sse_skip_total buffer : 16 <= zlen buffer -> exists n, sse_skip_long_overflow_digits buffer = Some n.
Proof. intros H. apply sse_skip_loop_total; unfold zlen in *; lia. Qed.

Lemma znth_app1 cs rest i : 0 <= i < zlen cs -> znth (cs ++ rest) i = znth cs i.
Proof. intros. unfold znth, zlen in *. apply app_nth1. lia. Qed.

Lemma digit_znth cs ds i : digit_string 10 cs ds -> 0 <= i < zlen cs -> znth cs i - 48 = znth ds i.
Proof.
  intros H. revert i. induction H as [|c d cs ds Hd _ IH]; intros i Hi; [unfold zlen in Hi; cbn [length Z.of_nat] in Hi; lia|].
  rewrite zlen_cons in Hi. unfold znth in *. destruct (Z.eq_dec i 0) as [->|Hn].
  - cbn. apply denotes10 in Hd as [-> _]. lia.
  - specialize (IH (i - 1) ltac:(lia)). replace (Z.to_nat i) with (S (Z.to_nat (i - 1))) by lia. cbn [nth]. exact IH.
Qed.

Lemma firstn_app_exact {A} n (l r : list A) : (n <= length l)%nat -> firstn n (l ++ r) = firstn n l.
Proof. intros. rewrite firstn_app. replace (n - length l)%nat with 0%nat by lia. rewrite firstn_O, app_nil_r. reflexivity. Qed.

Lemma list_take4 (l : list Z) : length l = 4%nat -> l = [znth l 0; znth l 1; znth l 2; znth l 3].
Proof. intros H. do 4 (destruct l as [|? l]; [discriminate|]). destruct l; [reflexivity|discriminate]. Qed.

Lemma digit_string_split k cs ds : digit_string 10 cs ds -> (k <= length cs)%nat ->
  exists c1 c2 d1 d2, cs = c1 ++ c2 /\ ds = d1 ++ d2 /\ length c1 = k /\ length d1 = k
    /\ digit_string 10 c1 d1 /\ digit_string 10 c2 d2.
Proof.
  intros H Hk. destruct (Forall2_split_l _ k _ _ H) as [A B].
  pose proof (Forall2_length _ _ _ H) as Hl.
  exists (firstn k cs), (skipn k cs), (firstn k ds), (skipn k ds).
  rewrite !firstn_skipn, !firstn_length. repeat split; try assumption; lia.
Qed.

(** The SSE parser on [cs ++ rest] when [cs] is the maximal digit run: answer for 64-bit targets. *)
Definition sse_expect (less64 : bool) (v n : Z) (r : option (Z * parse_code * Z)) : Prop :=
  if n <=? 15 then r = Some (n, pc_ok, v)
  else if less64 then exists k, r = Some (k, pc_overflow, 0)
  else if n <=? 31 then r = if v <? 2 ^ 64 then Some (n, pc_ok, v) else Some (n, pc_overflow, 0)
  else exists k, r = Some (k, pc_overflow, 0).

Lemma sse_parse_spec less64 cs ds rest : digit_string 10 cs ds -> cs <> [] -> bytes rest -> no_digit_first 10 rest ->
  no_leading_zero ds -> 32 <= zlen (cs ++ rest) ->
  sse_expect less64 (value_of 10 ds) (zlen cs) (sse_parse less64 (cs ++ rest)).
Proof.
  intros H Hne Hb Hn Hlead Hl. pose proof (Forall2_length _ _ _ H) as Hlen.
  pose proof (digit_string_ok _ _ _ H) as Hok.
  pose proof (value_of_bound 10 ds ltac:(lia) Hok) as Hv.
  unfold sse_parse, load16. fold (zlen (cs ++ rest)).
  destruct (Z.leb_spec 16 (zlen (cs ++ rest))); [|lia].
  rewrite (countr_digits 16 cs ds rest) by assumption. change (Z.of_nat 16) with 16.
  assert (Hpos : 1 <= zlen cs) by (unfold zlen; destruct cs; [contradiction|cbn [length]; lia]).
  destruct (Z.eqb_spec (Z.min 16 (zlen cs)) 0); [lia|].
  unfold sse_expect.
  assert (Hchunk : length (firstn 16 (cs ++ rest)) = 16%nat).
  { rewrite firstn_length. unfold zlen in *. lia. }
  destruct (Z.leb_spec (zlen cs) 15) as [H15|H15].
  { rewrite Z.min_r by lia. destruct (Z.eqb_spec (zlen cs) 16); [lia|].
    rewrite (sse_eval_spec _ cs ds); auto.
    - unfold zlen in *; lia.
    - rewrite firstn_firstn. rewrite Nat.min_l by (unfold zlen in *; lia).
      rewrite firstn_app_exact by lia. apply firstn_all. }
  rewrite Z.min_l by lia. rewrite Z.eqb_refl.
  assert (Hsk : zlen (zskip 16 (cs ++ rest)) = zlen (cs ++ rest) - 16) by (apply zlen_zskip; lia).
  destruct less64.
  { destruct (sse_skip_total (zskip 16 (cs ++ rest))) as [k ->]; [lia|]. eexists; reflexivity. }
  destruct (digit_string_split 16 cs ds H ltac:(unfold zlen in *; lia)) as (c1 & c2 & d1 & d2 & Ec & Ed & L1 & L1d & H1 & H2).
  assert (Esk : zskip 16 (cs ++ rest) = c2 ++ rest).
  { rewrite Ec, <- app_assoc. unfold zskip. change (Z.to_nat 16) with 16%nat. rewrite <- L1. rewrite skipn_app, skipn_all, Nat.sub_diag. reflexivity. }
  assert (Hz1 : zlen c1 = 16) by (unfold zlen; rewrite L1; reflexivity).
  assert (Hzc : zlen cs = 16 + zlen c2) by (rewrite Ec, zlen_app; lia).
  assert (Eres : sse_eval 16 (firstn 16 (cs ++ rest)) = value_of 10 d1).
  { rewrite <- Hz1. apply sse_eval_spec; auto; [lia|].
    rewrite L1. rewrite firstn_firstn. cbn [Nat.min]. rewrite Ec, <- app_assoc. rewrite <- L1 at 1.
    rewrite firstn_app_exact by lia. apply firstn_all. }
  rewrite Eres, Esk.
  rewrite (detect_length_spec c2 d2 rest) by (auto; rewrite <- Esk, Hsk; lia).
  pose proof (digit_string_ok _ _ _ H1) as Hok1. pose proof (value_of_bound 10 d1 ltac:(lia) Hok1) as Hv1.
  assert (Hd1 : Z.of_nat (length d1) = 16) by (rewrite L1d; reflexivity). rewrite Hd1 in Hv1.
  change (10 ^ 16) with 10000000000000000 in Hv1.
  assert (Hval : value_of 10 ds = value_of 10 d1 * 10 ^ zlen d2 + value_of 10 d2) by (rewrite Ed; apply value_of_app).
  pose proof (Forall2_length _ _ _ H2) as Hl2.
  assert (Hz2 : zlen c2 = zlen d2) by (unfold zlen; lia).
  assert (Hb16 : forall i, 0 <= i < zlen c2 -> znth (cs ++ rest) (16 + i) - 48 = znth d2 i).
  { intros i Hi. rewrite <- (digit_znth c2 d2 i H2 Hi). f_equal. rewrite Ec, <- app_assoc. unfold znth.
    rewrite app_nth2 by (rewrite L1; lia). rewrite L1. replace (Z.to_nat (16 + i) - 16)%nat with (Z.to_nat i) by lia.
    apply app_nth1. unfold zlen in Hi. lia. }
  pose proof (digit_string_ok _ _ _ H2) as Hok2.
  change (2 ^ 64) with 18446744073709551616.
  destruct (Z.leb_spec (zlen cs) 31) as [H31|H31].
  2:{ rewrite Z.min_l by lia. cbn [Z.eqb Pos.eqb].
      destruct (sse_skip_total (c2 ++ rest)) as [k ->]; [rewrite <- Esk, Hsk; lia|]. eexists; reflexivity. }
  rewrite Z.min_r by lia.
  assert (W : forall x, 0 <= x < 18446744073709551616 -> wrap 64 x = x) by (intros; apply wrap_small; change (2 ^ 64) with 18446744073709551616; lia).
  assert (Hd : forall i, 0 <= i < zlen c2 -> 0 <= znth d2 i < 10).
  { intros i Hi. unfold znth. unfold digits_ok in Hok2. rewrite Forall_forall in Hok2. apply Hok2, nth_In. unfold zlen in *. lia. }
  destruct (Z.eqb_spec (zlen c2) 3) as [E3|N3].
  { pose proof (Hb16 0 ltac:(lia)) as B0. pose proof (Hb16 1 ltac:(lia)) as B1. pose proof (Hb16 2 ltac:(lia)) as B2.
    change (16 + 0) with 16 in B0. change (16 + 1) with 17 in B1. change (16 + 2) with 18 in B2. rewrite B0, B1, B2.
    pose proof (Hd 0 ltac:(lia)). pose proof (Hd 1 ltac:(lia)). pose proof (Hd 2 ltac:(lia)).
    rewrite Hval. replace (zlen d2) with 3 by lia. change (10 ^ 3) with 1000.
    assert (Ev : value_of 10 d2 = znth d2 0 * 100 + znth d2 1 * 10 + znth d2 2).
    { destruct d2 as [|x [|y [|z [|? ?]]]]; try (unfold zlen in *; cbn [length] in *; lia).
      unfold value_of; cbn [fold_left]. change (znth [x; y; z] 0) with x. change (znth [x; y; z] 1) with y. change (znth [x; y; z] 2) with z. lia. }
    rewrite Ev. rewrite (W (value_of 10 d1 * 1000)) by lia. rewrite W by lia.
    match goal with |- context [?a <? ?b] => destruct (Z.ltb_spec a b); [|lia] end.
    replace (zlen cs) with 19 by lia. reflexivity. }
  destruct (Z.eqb_spec (zlen c2) 2) as [E2|N2].
  { pose proof (Hb16 0 ltac:(lia)) as B0. pose proof (Hb16 1 ltac:(lia)) as B1.
    change (16 + 0) with 16 in B0. change (16 + 1) with 17 in B1. rewrite B0, B1.
    pose proof (Hd 0 ltac:(lia)). pose proof (Hd 1 ltac:(lia)).
    rewrite Hval. replace (zlen d2) with 2 by lia. change (10 ^ 2) with 100.
    assert (Ev : value_of 10 d2 = znth d2 0 * 10 + znth d2 1).
    { destruct d2 as [|x [|y [|? ?]]]; try (unfold zlen in *; cbn [length] in *; lia).
      unfold value_of; cbn [fold_left]. change (znth [x; y] 0) with x. change (znth [x; y] 1) with y. lia. }
    rewrite Ev. rewrite (W (value_of 10 d1 * 100)) by lia. rewrite W by lia.
    match goal with |- context [?a <? ?b] => destruct (Z.ltb_spec a b); [|lia] end.
    replace (zlen cs) with 18 by lia. reflexivity. }
  destruct (Z.eqb_spec (zlen c2) 1) as [E1|N1].
  { pose proof (Hb16 0 ltac:(lia)) as B0. change (16 + 0) with 16 in B0. rewrite B0. pose proof (Hd 0 ltac:(lia)).
    rewrite Hval. replace (zlen d2) with 1 by lia. change (10 ^ 1) with 10.
    assert (Ev : value_of 10 d2 = znth d2 0).
    { destruct d2 as [|x [|? ?]]; try (unfold zlen in *; cbn [length] in *; lia).
      unfold value_of; cbn [fold_left]. change (znth [x] 0) with x. lia. }
    rewrite Ev. rewrite (W (value_of 10 d1 * 10)) by lia. rewrite W by lia.
    match goal with |- context [?a <? ?b] => destruct (Z.ltb_spec a b); [|lia] end.
    replace (zlen cs) with 17 by lia. reflexivity. }
  destruct (Z.eqb_spec (zlen c2) 0) as [E0|N0].
  { rewrite Hval. replace (zlen d2) with 0 by lia. change (10 ^ 0) with 1.
    destruct d2 as [|? ?]; [|unfold zlen in *; cbn [length] in *; lia]. change (value_of 10 []) with 0.
    rewrite Z.mul_1_r, Z.add_0_r.
    match goal with |- context [?a <? ?b] => destruct (Z.ltb_spec a b); [|lia] end.
    replace (zlen cs) with 16 by lia. reflexivity. }
  destruct (Z.eqb_spec (zlen c2) 4) as [E4|N4].
  { pose proof (Hb16 0 ltac:(lia)) as B0. pose proof (Hb16 1 ltac:(lia)) as B1. pose proof (Hb16 2 ltac:(lia)) as B2.
    pose proof (Hb16 3 ltac:(lia)) as B3.
    change (16 + 0) with 16 in B0. change (16 + 1) with 17 in B1. change (16 + 2) with 18 in B2. change (16 + 3) with 19 in B3.
    rewrite B0, B1, B2, B3.
    pose proof (Hd 0 ltac:(lia)). pose proof (Hd 1 ltac:(lia)). pose proof (Hd 2 ltac:(lia)). pose proof (Hd 3 ltac:(lia)).
    rewrite Hval. replace (zlen d2) with 4 by lia. change (10 ^ 4) with 10000.
    assert (Ev : value_of 10 d2 = znth d2 0 * 1000 + znth d2 1 * 100 + znth d2 2 * 10 + znth d2 3).
    { destruct d2 as [|x [|y [|z [|t [|? ?]]]]]; try (unfold zlen in *; cbn [length] in *; lia).
      unfold value_of; cbn [fold_left]. change (znth [x; y; z; t] 0) with x. change (znth [x; y; z; t] 1) with y.
      change (znth [x; y; z; t] 2) with z. change (znth [x; y; z; t] 3) with t. lia. }
    rewrite Ev. set (p := znth d2 0 * 1000 + znth d2 1 * 100 + znth d2 2 * 10 + znth d2 3).
    assert (0 <= p < 10000) by (unfold p; lia). clearbody p.
    change ((18446744073709551616 - 1) / 10000) with 1844674407370955.
    change ((18446744073709551616 - 1) mod 10000) with 1615.
    replace (zlen cs) with 20 by lia.
    destruct (Z.ltb_spec 1844674407370955 (value_of 10 d1)).
    { match goal with |- context [?a <? ?b] => destruct (Z.ltb_spec a b); [lia|] end. reflexivity. }
    destruct (Z.eqb_spec (value_of 10 d1) 1844674407370955) as [E|E]; cbn [andb].
    - destruct (Z.ltb_spec 1615 p).
      + match goal with |- context [?a <? ?b] => destruct (Z.ltb_spec a b); [lia|] end. reflexivity.
      + rewrite (W (value_of 10 d1 * 10000)) by lia. rewrite W by lia.
        match goal with |- context [?a <? ?b] => destruct (Z.ltb_spec a b); [|lia] end. reflexivity.
    - rewrite (W (value_of 10 d1 * 10000)) by lia. rewrite W by lia.
      match goal with |- context [?a <? ?b] => destruct (Z.ltb_spec a b); [|lia] end. reflexivity. }
  destruct (Z.eqb_spec (zlen c2) 16) as [E16|N16]; [lia|].
  assert (Hbig : 10 ^ 20 <= value_of 10 ds).
  { eapply Z.le_trans; [|apply value_lower_bound; auto; [lia|unfold zlen in *; lia]].
    apply Z.pow_le_mono_r; [lia|]. assert (zlen ds = zlen cs) by (unfold zlen; lia). pose proof (zlen_nonneg c2). lia. }
  change (10 ^ 20) with 100000000000000000000 in Hbig.
  match goal with |- context [?a <? ?b] => destruct (Z.ltb_spec a b); [lia|] end.
  do 3 f_equal. lia.
Qed.

(** ** The whole scanner, vector path included *)

(** [r] is the required outcome [o]; the position is also the required one when the scan is ok or
    when [exact] holds. *)
Definition same_result (exact : Prop) (r o : pres) : Prop :=
  p_code r = p_code o /\ p_val r = p_val o /\ (p_code o = pc_ok \/ exact -> p_used r = p_used o).

Lemma same_result_refl e r : same_result e r r. Proof. repeat split. Qed.

(** Longest digit run for which the vector path reports the position exactly even on overflow. *)
Definition sse_exact (cfg : scfg) (s : list Z) (n : Z) : Prop :=
  no_sse cfg s \/ n <= (if iw (sc_ty cfg) <? 64 then 15 else 31).

Lemma outcome_code ty v u1 u2 : p_code (outcome ty v u1) = p_code (outcome ty v u2) /\ p_val (outcome ty v u1) = p_val (outcome ty v u2).
Proof. unfold outcome. destruct (in_rangeb ty v); split; reflexivity. Qed.

Lemma scan_digits_part_gen cfg sign used0 cs ds rest : good_cfg cfg -> (isigned (sc_ty cfg) = false -> sign = false) ->
  digit_string (sc_base cfg) cs ds -> (ds = [] \/ no_leading_zero ds) -> (ds = [] -> no_sse cfg rest) ->
  (sc_cw cfg = 8 -> bytes rest) ->
  safe_first (sc_base cfg) (sc_cw cfg) rest -> no_digit_first (sc_base cfg) rest ->
  exists r, scan_digits_part cfg sign used0 (cs ++ rest) = Some r /\
    same_result (sse_exact cfg (cs ++ rest) (zlen cs)) r
      (outcome (sc_ty cfg) (signed_value sign (value_of (sc_base cfg) ds)) (used0 + zlen cs)).
Proof.
  intros Hcfg Hsg H Hlead Hemp Hby Hs Hn.
  destruct (sc_sse cfg && (sc_base cfg =? 10) && (sc_cw cfg =? 8) && (iw (sc_ty cfg) <=? 64) && (32 <=? zlen (cs ++ rest))) eqn:E.
  2:{ eexists. split; [apply scan_digits_part_spec; eauto|apply same_result_refl]. }
  pose proof E as E'. unfold scan_digits_part. rewrite E.
  repeat (apply andb_true_iff in E as [E ?]).
  repeat match goal with H : (_ =? _) = true |- _ => apply Z.eqb_eq in H | H : (_ <=? _) = true |- _ => apply Z.leb_le in H end.
  match goal with H : sc_base cfg = 10 |- _ => rewrite H in * end.
  assert (Hne : cs <> []).
  { intros ->. inversion H; subst ds. specialize (Hemp eq_refl). unfold no_sse in Hemp. cbn [app] in E'. rewrite <- H3 in E' at 1. congruence. }
  assert (Hnl : no_leading_zero ds).
  { destruct Hlead as [->|]; [|assumption]. inversion H; subst; contradiction. }
  pose proof (sse_parse_spec (iw (sc_ty cfg) <? 64) cs ds rest H Hne (Hby ltac:(assumption)) Hn Hnl ltac:(assumption)) as P.
  pose proof Hcfg as (_ & _ & Hw).
  pose proof (digit_string_ok _ _ _ H) as Hok. pose proof (value_of_bound 10 ds ltac:(lia) Hok) as Hv.
  assert (Elen : Z.of_nat (length ds) = zlen cs) by (unfold zlen; rewrite <- (Forall2_length _ _ _ H); reflexivity).
  unfold sse_expect in P. set (v := value_of 10 ds) in *.
  assert (Hovf : forall k, 2 ^ iw (sc_ty cfg) <= v -> (sse_exact cfg (cs ++ rest) (zlen cs) -> k = zlen cs) ->
     same_result (sse_exact cfg (cs ++ rest) (zlen cs)) (mk_pres pc_overflow (used0 + k) None)
       (outcome (sc_ty cfg) (signed_value sign v) (used0 + zlen cs))).
  { intros k Hk Hpos. rewrite outcome_overflow by auto. split; [reflexivity|]. split; [reflexivity|]. cbn [p_code p_used]. intros [X|X]; [discriminate X|]. rewrite (Hpos X). reflexivity. }
  assert (Hnoex : 15 < zlen cs -> iw (sc_ty cfg) < 64 \/ 31 < zlen cs -> sse_exact cfg (cs ++ rest) (zlen cs) -> False).
  { intros A B [C|C]; [unfold no_sse in C; match goal with H : sc_base cfg = 10 |- _ => rewrite H in C end; congruence|].
    destruct (Z.ltb_spec (iw (sc_ty cfg)) 64); lia. }
  assert (Hlow : forall n, 2 <= zlen cs -> 0 <= n <= zlen cs - 1 -> 10 ^ n <= v).
  { intros n A B. eapply Z.le_trans; [|apply value_lower_bound; auto; [lia|unfold zlen in *; lia]].
    apply Z.pow_le_mono_r; [lia|]. unfold zlen in *. lia. }
  assert (Hfin : v < 2 ^ iw (sc_ty cfg) -> finish_of (sc_ty cfg) sign v (used0 + zlen cs) = outcome (sc_ty cfg) (signed_value sign v) (used0 + zlen cs)).
  { intros. apply finish_spec; auto. lia. }
  destruct (Z.leb_spec (zlen cs) 15) as [H15|H15].
  { rewrite P. cbn [parse_code_eqb negb]. destruct (Z.ltb_spec (iw (sc_ty cfg)) 64) as [L|L]; cbn [andb].
    - destruct (Z.ltb_spec (2 ^ iw (sc_ty cfg) - 1) v).
      + eexists. split; [reflexivity|]. apply Hovf; [lia|auto].
      + eexists. split; [reflexivity|]. change (same_result (sse_exact cfg (cs ++ rest) (zlen cs)) (finish_of (sc_ty cfg) sign v (used0 + zlen cs))
          (outcome (sc_ty cfg) (signed_value sign v) (used0 + zlen cs))). rewrite Hfin by lia. apply same_result_refl.
    - eexists. split; [reflexivity|]. change (same_result (sse_exact cfg (cs ++ rest) (zlen cs)) (finish_of (sc_ty cfg) sign v (used0 + zlen cs))
          (outcome (sc_ty cfg) (signed_value sign v) (used0 + zlen cs))). rewrite Hfin; [apply same_result_refl|].
      replace (iw (sc_ty cfg)) with 64 by lia. rewrite Elen in Hv.
      assert (10 ^ zlen cs <= 10 ^ 15) by (apply Z.pow_le_mono_r; lia).
      change (10 ^ 15) with 1000000000000000 in *. change (2 ^ 64) with 18446744073709551616. lia. }
  destruct (Z.ltb_spec (iw (sc_ty cfg)) 64) as [L|L].
  { destruct P as [k ->]. cbn [parse_code_eqb negb]. eexists. split; [reflexivity|]. apply Hovf.
    - eapply Z.le_trans; [|apply (Hlow 15); lia]. apply Z.le_trans with (2 ^ 32); [|vm_compute; discriminate].
      apply Z.pow_le_mono_r; [lia|]. apply width_cases in Hw. lia.
    - intros X. exfalso. apply (Hnoex ltac:(lia) ltac:(lia) X). }
  assert (E64 : iw (sc_ty cfg) = 64) by lia. rewrite E64 in Hovf, Hfin.
  destruct (Z.leb_spec (zlen cs) 31).
  - destruct (Z.ltb_spec v (2 ^ 64)); rewrite P; cbn [parse_code_eqb negb].
    + cbn [andb]. eexists. split; [reflexivity|].
      change (same_result (sse_exact cfg (cs ++ rest) (zlen cs)) (finish_of (sc_ty cfg) sign v (used0 + zlen cs))
          (outcome (sc_ty cfg) (signed_value sign v) (used0 + zlen cs))). rewrite Hfin by lia. apply same_result_refl.
    + eexists. split; [reflexivity|]. apply Hovf; [lia|auto].
  - destruct P as [k ->]. cbn [parse_code_eqb negb]. eexists. split; [reflexivity|]. apply Hovf.
    + eapply Z.le_trans; [|apply (Hlow 20); lia]. vm_compute; discriminate.
    + intros X. exfalso. apply (Hnoex ltac:(lia) ltac:(lia) X).
Qed.

Lemma sse_exact_mono cfg s s' n n' : sse_exact cfg s n -> zlen s' <= zlen s -> n' <= n -> sse_exact cfg s' n'.
Proof. intros [A|A] Hs Hn; [left; eapply no_sse_shorter; eauto|right; lia]. Qed.

Lemma same_result_mono (e e' : Prop) r o : (e' -> e) -> same_result e r o -> same_result e' r o.
Proof. intros H (A & B & C). repeat split; auto. intros [D|D]; auto. Qed.

Lemma scan_zero_part_gen cfg sign used0 cs ds rest : good_cfg cfg -> (isigned (sc_ty cfg) = false -> sign = false) ->
  (sc_skipzero cfg = true -> value_of (sc_base cfg) ds = 0 -> no_sse cfg rest) -> (sc_cw cfg = 8 -> bytes rest) ->
  digit_string (sc_base cfg) cs ds -> ds <> [] -> (sc_skipzero cfg = false -> no_leading_zero ds) ->
  safe_first (sc_base cfg) (sc_cw cfg) rest -> no_digit_first (sc_base cfg) rest ->
  exists r, scan_zero_part cfg sign used0 (cs ++ rest) = Some r /\
    same_result (sse_exact cfg (cs ++ rest) (zlen cs)) r
      (outcome (sc_ty cfg) (signed_value sign (value_of (sc_base cfg) ds)) (used0 + zlen cs)).
Proof.
  intros Hcfg Hsg Hsse Hby H Hne Hlead Hs Hn. pose proof Hcfg as (Hb & Hcw & Hw).
  destruct H as [|c d cs ds Hd Hds]; [contradiction|]. cbn [app]. unfold scan_zero_part.
  rewrite (char_digit_some _ _ c d) by auto.
  assert (Hall : digit_string (sc_base cfg) (c :: cs) (d :: ds)) by (constructor; assumption).
  pose proof (denotes_zero (sc_base cfg) c Hb d Hd) as Hz.
  destruct (Z.eqb_spec c 48) as [E|E].
  - assert (d = 0) by tauto. subst d.
    destruct (sc_skipzero cfg) eqn:Esk.
    + destruct (skip_zeros_digits (sc_base cfg) cs ds rest Hb Hds Hn) as (cs' & E1 & E2 & E3).
      rewrite E1.
      assert (Hv : value_of (sc_base cfg) (0 :: ds) = value_of (sc_base cfg) (strip_zeros ds))
        by (rewrite strip_zeros_value, value_of_cons; lia).
      rewrite Hv in *.
      destruct (cs' ++ rest) as [|x xs] eqn:Ecat.
      * eexists. split; [reflexivity|]. apply app_eq_nil in Ecat as [-> ->]. inversion E2 as [H0 H1|]. unfold value_of at 1; cbn [fold_left].
        rewrite zero_in_range by assumption. rewrite app_nil_r. apply same_result_refl.
      * rewrite <- Ecat.
        destruct (scan_digits_part_gen cfg sign (used0 + (zlen (c :: cs ++ rest) - zlen (cs' ++ rest))) cs' (strip_zeros ds) rest) as (r & R1 & R2); auto.
        -- apply strip_zeros_lead.
        -- intros Es. apply Hsse; [reflexivity|]. rewrite Es. reflexivity.
        -- exists r. split; [exact R1|].
           replace (used0 + (zlen (c :: cs ++ rest) - zlen (cs' ++ rest)) + zlen cs') with (used0 + zlen (c :: cs)) in R2
             by (rewrite !zlen_cons, !zlen_app; lia).
           eapply same_result_mono; [|exact R2]. intros X.
           eapply sse_exact_mono; [exact X| |]; rewrite !zlen_cons, ?zlen_app; lia.
    + specialize (Hlead eq_refl). destruct ds as [|d2 ds]; [|simpl in Hlead; lia].
      inversion Hds; subst cs. cbn [app].
      change (value_of (sc_base cfg) [0]) with 0. rewrite zero_in_range by assumption.
      destruct rest as [|c1 rest]; [eexists; split; [reflexivity|apply same_result_refl]|].
      simpl in Hs, Hn. rewrite char_digit_none by auto. eexists; split; [reflexivity|apply same_result_refl].
  - change (c :: cs ++ rest) with ((c :: cs) ++ rest). apply scan_digits_part_gen; auto; [|discriminate].
    right. destruct ds; simpl; auto. tauto.
Qed.

Lemma scan_none_space_gen cfg used0 sign cs ds rest : good_cfg cfg -> (isigned (sc_ty cfg) = false -> sign = false) ->
  (sc_skipzero cfg = true -> value_of (sc_base cfg) ds = 0 -> no_sse cfg rest) -> (sc_cw cfg = 8 -> bytes rest) ->
  digit_string (sc_base cfg) cs ds -> ds <> [] -> (sc_skipzero cfg = false -> no_leading_zero ds) ->
  safe_first (sc_base cfg) (sc_cw cfg) rest -> no_digit_first (sc_base cfg) rest ->
  exists r, scan_none_space cfg false used0 (sign_chars sign ++ cs ++ rest) = Some r /\
    same_result (sse_exact cfg (cs ++ rest) (zlen cs)) r
      (outcome (sc_ty cfg) (signed_value sign (value_of (sc_base cfg) ds)) (used0 + zlen (sign_chars sign) + zlen cs)).
Proof.
  intros Hcfg Hsg Hsse Hby H Hne Hlead Hs Hn. unfold scan_none_space.
  destruct (isigned (sc_ty cfg)) eqn:Es.
  - destruct sign; cbn [sign_chars app].
    + rewrite Z.eqb_refl. cbn [andb]. apply (scan_zero_part_gen cfg true _ cs ds rest); auto. rewrite Es; discriminate.
    + pose proof (scan_zero_part_gen cfg false used0 cs ds rest Hcfg ltac:(auto) Hsse Hby H Hne Hlead Hs Hn) as Z0.
      rewrite zlen_nil, Z.add_0_r.
      destruct H as [|c d cs ds Hd Hds]; [contradiction|]. cbn [app] in *.
      destruct (Z.eqb_spec c 45) as [->|]; [exfalso; eapply minus_not_digit; [|exact Hd]; apply Hcfg|].
      cbn [andb]. exact Z0.
  - rewrite (Hsg eq_refl). cbn [sign_chars app]. rewrite zlen_nil, Z.add_0_r. apply scan_zero_part_gen; auto.
Qed.

Lemma scan_int_gen cfg ws sign cs ds rest : good_cfg cfg -> sc_shbase cfg = false ->
  (isigned (sc_ty cfg) = false -> sign = false) ->
  (sc_skipzero cfg = true -> value_of (sc_base cfg) ds = 0 -> no_sse cfg rest) -> (sc_cw cfg = 8 -> bytes rest) ->
  Forall c_space ws -> (sc_noskipws cfg = true -> ws = []) ->
  digit_string (sc_base cfg) cs ds -> ds <> [] -> (sc_skipzero cfg = false -> no_leading_zero ds) ->
  safe_first (sc_base cfg) (sc_cw cfg) rest -> no_digit_first (sc_base cfg) rest ->
  exists r, scan_int cfg (ws ++ sign_chars sign ++ cs ++ rest) = Some r /\
    same_result (sse_exact cfg (cs ++ rest) (zlen cs)) r
      (outcome (sc_ty cfg) (signed_value sign (value_of (sc_base cfg) ds)) (zlen ws + zlen (sign_chars sign) + zlen cs)).
Proof.
  intros Hcfg Hsh Hsg Hsse Hby Hws Hnows H Hne Hlead Hs Hn. unfold scan_int. rewrite Hsh. cbn [andb].
  rewrite andb_false_r.
  set (body := sign_chars sign ++ cs ++ rest).
  assert (Hbody : exists c b, body = c :: b /\ 0 <= c < 2 ^ sc_cw cfg /\ ~ c_space c).
  { pose proof Hcfg as (Hb & Hcw & _). pose proof (cw_pow _ Hcw). unfold body. destruct sign; cbn [sign_chars app].
    - exists 45, (cs ++ rest). repeat split; try lia. unfold c_space; simpl; lia.
    - destruct H as [|c d cs ds Hd Hds]; [contradiction|]. cbn [app]. exists c, (cs ++ rest). repeat split.
      + pose proof (denotes_cases _ _ _ Hb Hd). lia.
      + pose proof (denotes_cases _ _ _ Hb Hd). lia.
      + eapply digit_not_space; eauto. }
  destruct Hbody as (c & b & Eb & Hc & Hnsp).
  assert (Es1 : (if sc_noskipws cfg then ws ++ body else skip_space (sc_cw cfg) (ws ++ body)) = body).
  { destruct (sc_noskipws cfg); [rewrite Hnows by reflexivity; reflexivity|].
    apply skip_space_spec; [apply Hcfg|exact Hws|]. rewrite Eb. auto. }
  rewrite Es1.
  assert (Hgoal : exists r, scan_none_space cfg false (zlen (ws ++ body) - zlen body) body = Some r /\
    same_result (sse_exact cfg (cs ++ rest) (zlen cs)) r
      (outcome (sc_ty cfg) (signed_value sign (value_of (sc_base cfg) ds)) (zlen ws + zlen (sign_chars sign) + zlen cs))).
  { replace (zlen ws + zlen (sign_chars sign) + zlen cs) with (zlen (ws ++ body) - zlen body + zlen (sign_chars sign) + zlen cs)
      by (rewrite !zlen_app; lia).
    apply scan_none_space_gen; auto. }
  destruct (sc_noskipws cfg); [exact Hgoal|]. destruct body; [discriminate|exact Hgoal].
Qed.

(** ** Vector and scalar scans of arbitrary texts *)

Definition with_sse (b : bool) (cfg : scfg) : scfg :=
  mk_scfg (sc_base cfg) (sc_noskipws cfg) (sc_shbase cfg) (sc_skipzero cfg) (sc_ty cfg) (sc_cw cfg) b.

Lemma is_digit10 c : is_digit_of 10 c <-> 48 <= c < 58.
Proof.
  split; [intros [d H]; apply denotes10 in H; lia|]. intros. apply is_digit_small; lia.
Qed.

Lemma digit_split s : exists cs ds rest, s = cs ++ rest /\ digit_string 10 cs ds /\ no_digit_first 10 rest.
Proof.
  induction s as [|c s IH].
  - exists [], [], []. repeat split. constructor.
  - destruct (Z_le_dec 48 c); [destruct (Z_lt_dec c 58)|].
    + destruct IH as (cs & ds & rest & -> & H & Hn). exists (c :: cs), ((c - 48) :: ds), rest. repeat split; auto.
      constructor; auto. replace c with (48 + (c - 48)) at 1 by lia. apply denotes_small; lia.
    + exists [], [], (c :: s). repeat split; [constructor|]. simpl. rewrite is_digit10. lia.
    + exists [], [], (c :: s). repeat split; [constructor|]. simpl. rewrite is_digit10. lia.
Qed.

Lemma bytes_app a b : bytes (a ++ b) <-> bytes a /\ bytes b. Proof. apply Forall_app. Qed.

Lemma safe10 cfg s : sc_cw cfg = 8 -> bytes s -> safe_first 10 (sc_cw cfg) s.
Proof. intros -> H. destruct s; simpl; auto. inversion H; subst. split; [change (2 ^ 8) with 256; assumption|lia]. Qed.

(** Two results that agree except possibly on the position reported with an overflow. *)
Definition agree (a b : option pres) : Prop :=
  exists ra rb, a = Some ra /\ b = Some rb /\ p_code ra = p_code rb /\ p_val ra = p_val rb
    /\ (p_code rb <> pc_overflow -> p_used ra = p_used rb).

Lemma agree_refl r : agree (Some r) (Some r). Proof. exists r, r. repeat split. Qed.

Lemma scan_int_agree cfg s : good_cfg cfg -> sc_base cfg = 10 -> sc_cw cfg = 8 -> sc_skipzero cfg = false -> bytes s ->
  agree (scan_int (with_sse true cfg) s) (scan_int (with_sse false cfg) s).
Proof.
  intros Hcfg Hb10 Hcw8 Hsk Hby.
  assert (D : forall sign used c s1, bytes (c :: s1) -> 48 <= c < 58 -> c <> 48 -> (isigned (sc_ty cfg) = false -> sign = false) ->
     agree (scan_digits_part (with_sse true cfg) sign used (c :: s1)) (scan_digits_part (with_sse false cfg) sign used (c :: s1))).
  { intros sign used c s1 Hbs Hc Hc48 Hsg. destruct (digit_split (c :: s1)) as (cs & ds & rest & E & Hds & Hn).
    rewrite E in *. apply bytes_app in Hbs as [_ Hbr].
    assert (Hne : exists d ds', ds = d :: ds' /\ d <> 0).
    { destruct Hds as [|c' d cs' ds' Hd Hds']. { cbn [app] in E. rewrite <- E in Hn. simpl in Hn. rewrite is_digit10 in Hn. lia. }
      cbn [app] in E. injection E as <- _. exists d, ds'. split; [reflexivity|]. apply denotes10 in Hd. lia. }
    destruct Hne as (d & ds' & -> & Hd0).
    assert (Hnl : no_leading_zero (d :: ds')) by (destruct ds'; simpl; auto).
    assert (G : forall b, exists r, scan_digits_part (with_sse b cfg) sign used (cs ++ rest) = Some r /\
      same_result (sse_exact (with_sse b cfg) (cs ++ rest) (zlen cs)) r
      (outcome (sc_ty cfg) (signed_value sign (value_of (sc_base cfg) (d :: ds'))) (used + zlen cs))).
    { intros b. apply (scan_digits_part_gen (with_sse b cfg) sign used cs (d :: ds') rest); cbn [with_sse sc_base sc_cw sc_ty sc_sse]; rewrite ?Hb10; auto; try discriminate.
      replace (sc_cw cfg) with (sc_cw (with_sse b cfg)) by reflexivity. apply safe10; auto. }
    destruct (G true) as (rt & -> & (T1 & T2 & T3)). destruct (G false) as (rf & -> & (F1 & F2 & F3)).
    exists rt, rf. split; [reflexivity|]. split; [reflexivity|]. split; [congruence|]. split; [congruence|]. intros Hno.
    assert (Hok : p_code (outcome (sc_ty cfg) (signed_value sign (value_of (sc_base cfg) (d :: ds'))) (used + zlen cs)) = pc_ok).
    { rewrite F1 in Hno. unfold outcome in *. destruct (in_rangeb _ _); cbn in *; congruence. }
    rewrite T3, F3 by (left; exact Hok). reflexivity. }
  assert (D2 : forall sign used, scan_digits_part (with_sse true cfg) sign used [] = scan_digits_part (with_sse false cfg) sign used []).
  { intros. unfold scan_digits_part. cbn [with_sse sc_base sc_sse sc_cw sc_ty zlen length Z.of_nat]. rewrite !andb_false_r. reflexivity. }
  assert (Hcd : forall c, 0 <= c < 256 -> char_digit 10 8 c = Some (if (48 <=? c) && (c <? 58) then Some (c - 48) else None)).
  { intros c Hc. destruct (Z.leb_spec 48 c), (Z.ltb_spec c 58); cbn [andb].
    1: { apply (char_digit_some 10 8 c); [lia|simpl; auto|]. replace c with (48 + (c - 48)) at 1 by lia. apply denotes_small; lia. }
    all: apply (char_digit_none 10 8); [lia|simpl; auto|split; [change (2 ^ 8) with 256; lia|lia]|rewrite is_digit10; lia]. }
  assert (Z0 : forall sign used t, bytes t -> (isigned (sc_ty cfg) = false -> sign = false) ->
     agree (scan_zero_part (with_sse true cfg) sign used t) (scan_zero_part (with_sse false cfg) sign used t)).
  { intros sign used t Ht Hsg. unfold scan_zero_part. cbn [with_sse sc_base sc_cw sc_skipzero]. rewrite Hb10, Hcw8, Hsk.
    destruct t as [|c t]. { fold (with_sse true cfg) (with_sse false cfg). rewrite D2. unfold scan_digits_part. cbn [with_sse sc_base sc_sse sc_cw sc_ty zlen length Z.of_nat]. rewrite !andb_false_r. cbn [scan_scalar].
      unfold scan_scalar. destruct (first_phase _ _ _ _ [] 0) as [[? [|? ?]]|] eqn:F; try (destruct (Z.to_nat _) in F; discriminate); cbn; apply agree_refl. }
    inversion Ht as [|? ? Hc Ht']; subst. rewrite Hcd by assumption.
    destruct ((48 <=? c) && (c <? 58)) eqn:Ed; [|apply agree_refl].
    apply andb_true_iff in Ed as [E1 E2]. apply Z.leb_le in E1. apply Z.ltb_lt in E2.
    destruct (Z.eqb_spec c 48).
    - destruct t as [|c1 t]; [apply agree_refl|]. inversion Ht' as [|? ? Hc1 _]; subst. rewrite Hcd by assumption.
      destruct ((48 <=? c1) && (c1 <? 58)); apply agree_refl.
    - apply D; auto. }
  assert (N0 : forall used t, bytes t -> agree (scan_none_space (with_sse true cfg) false used t) (scan_none_space (with_sse false cfg) false used t)).
  { intros used t Ht. unfold scan_none_space. cbn [with_sse sc_ty sc_base]. destruct (isigned (sc_ty cfg)) eqn:Es.
    - destruct t as [|c t]; [apply agree_refl|]. cbn [andb]. inversion Ht; subst. destruct (c =? 45); apply Z0; auto; congruence.
    - apply Z0; auto. }
  unfold scan_int. cbn [with_sse sc_noskipws sc_shbase sc_base sc_ty sc_cw]. rewrite Hb10. cbn [Z.eqb Pos.eqb negb]. rewrite !andb_false_r. cbn [andb].
  assert (Hss : bytes (skip_space (sc_cw cfg) s)).
  { clear - Hby. induction s as [|c s IH]; [constructor|]. cbn [skip_space]. inversion Hby; subst. destruct (is_c_space (sc_cw cfg) c); auto. }
  destruct (sc_noskipws cfg); [apply N0; exact Hby|].
  destruct (skip_space (sc_cw cfg) s) as [|c t] eqn:Et; [apply agree_refl|]. apply N0. exact Hss.
Qed.
