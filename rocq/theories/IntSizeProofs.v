(** Declared sizes of integer output. *)
From Coq Require Import String Ascii NArith.
From Verif Require Import Base NumSpec NumFacts IntPrintModel IntPrintProofs JeaiiiProofs IntPrintCorrect.
Ltac Zify.zify_post_hook ::= idtac.


Lemma is_numeral_length base upper u num len : 1 < base -> 0 <= u -> is_numeral base upper u num ->
  digit_count base u len -> zlen num = len.
Proof.
  intros Hb Hu H D. pose proof (digit_count_numeral base upper u len Hb Hu D) as N.
  rewrite (numeral_unique base upper u num _ Hb H N). unfold zlen. rewrite map_length, digs_length. destruct D; lia.
Qed.

Lemma digit_count_mono base a b la lb : 1 < base -> 0 <= a <= b -> digit_count base a la -> digit_count base b lb -> la <= lb.
Proof.
  intros Hb Hab (A1 & A2 & A3) (B1 & B2 & B3). destruct A3 as [->|A3]; [lia|].
  apply Z.le_ngt. intros H. assert (base ^ lb <= base ^ (la - 1)) by (apply Z.pow_le_mono_r; lia). lia.
Qed.

Lemma digit_count_lt base u n len : 1 < base -> 1 <= n -> u < base ^ n -> digit_count base u len -> len <= n.
Proof.
  intros Hb Hn Hu (A1 & A2 & A3). destruct A3 as [->|A3]; [lia|].
  apply Z.le_ngt. intros H. assert (base ^ n <= base ^ (len - 1)) by (apply Z.pow_le_mono_r; lia). lia.
Qed.

Lemma base_prefix_length base up : 2 <= base <= 36 -> zlen (base_prefix base up) = show_base_size base.
Proof.
  intros Hb.
  assert (H : forallb (fun b => (b <? 2) || (zlen (base_prefix b up) =? show_base_size b)) (zseq 37) = true)
    by (destruct up; vm_compute; reflexivity).
  rewrite forallb_forall in H. specialize (H base).
  assert (I : In base (zseq 37)).
  { unfold zseq. apply in_map_iff. exists (Z.to_nat base). split; [lia|]. apply in_seq. lia. }
  specialize (H I). destruct (Z.ltb_spec base 2); [lia|]. cbn [orb] in H. apply Z.eqb_eq, H.
Qed.

Lemma sign_text_length sp t : zlen (sign_text sp t) = if (t <? 0) || sp then 1 else 0.
Proof. unfold sign_text. destruct (t <? 0), sp; reflexivity. Qed.

(** The reserve is enough unless |t| is INT_MIN's magnitude and a power of the base. *)
Lemma reserve_enough fl ty t out : In (iw ty) int_widths -> 2 <= pf_base fl <= 36 -> config_ok fl ty ->
  in_range ty t -> (isigned ty = true -> pf_full fl = false) ->
  (Z.abs t <= int_max ty \/ forall k, 0 <= k -> Z.abs t <> pf_base fl ^ k) ->
  print_int fl ty t = Some out -> zlen out <= reserved_size fl ty.
Proof.
  intros Hw Hb Hc Ht Hfull Hmin Hout.
  destruct (print_int_correct fl ty t Hw Hb Hc Ht) as (num & E & N). rewrite E in Hout. injection Hout as <-.
  unfold zlen. rewrite !app_length, !Nat2Z.inj_add.
  fold (zlen (sign_text (pf_showpos fl) t)). fold (zlen num). rewrite sign_text_length.
  set (bp := length (if pf_showbase fl then _ else _)).
  assert (Hbp : Z.of_nat bp = if pf_showbase fl then show_base_size (pf_base fl) else 0).
  { unfold bp. destruct (pf_showbase fl); [|reflexivity]. apply base_prefix_length; assumption. }
  rewrite Hbp. clear Hbp bp.
  assert (Hn : zlen num <= cal_max_int_size ty (pf_base fl)).
  { pose proof (cal_max_int_size_spec ty (pf_base fl) Hw ltac:(lia)) as D.
    assert (H0 : 0 <= Z.abs t) by lia.
    destruct (pf_full fl) eqn:Ef.
    - destruct (isigned ty) eqn:Es; [discriminate (Hfull eq_refl)|].
      destruct N as (ds & _ & L & _ & ->). unfold zlen. rewrite map_length, L.
      replace (mk_int (iw ty) false) with ty; [lia|]. destruct ty as [wt st]; simpl in *; rewrite Es; reflexivity.
    - destruct (magnitude_spec ty t Hw Ht) as [_ Hm].
      pose proof (chars_len_spec (iw ty) (pf_base fl) (Z.abs t) Hw Hb Hm) as L.
      rewrite (is_numeral_length (pf_base fl) (pf_upper fl) (Z.abs t) num _ ltac:(lia) H0 N L).
      destruct D as (D1 & D2 & D3).
      apply (digit_count_lt (pf_base fl) (Z.abs t)); auto; try lia.
      destruct Hmin as [Hmin|Hmin]; [lia|].
      specialize (Hmin (cal_max_int_size ty (pf_base fl)) ltac:(lia)).
      assert (Z.abs t <= int_max ty + 1).
      { unfold in_range, int_min, int_max in *. destruct (isigned ty); lia. }
      lia. }
  unfold reserved_size. unfold in_range, int_min in Ht.
  destruct (isigned ty) eqn:Es, (pf_showpos fl), (Z.ltb_spec t 0); cbn [negb andb orb]; lia.
Qed.

(** Base 10 is always enough (2^(w-1) is not a power of ten). *)
Lemma pow2_not_pow10 a k : 1 <= a -> 0 <= k -> 2 ^ a <> 10 ^ k.
Proof.
  intros Ha Hk E. destruct (Z.eq_dec k 0) as [->|Hk0].
  - rewrite Z.pow_0_r in E. assert (2 ^ 1 <= 2 ^ a) by (apply Z.pow_le_mono_r; lia). lia.
  - assert (D : (5 | 2 ^ a)).
    { rewrite E. exists (2 * 10 ^ (k - 1)). replace k with (Z.succ (k - 1)) at 1 by lia. rewrite Z.pow_succ_r by lia. lia. }
    assert (P : forall n : nat, ~ (5 | 2 ^ Z.of_nat n)).
    { induction n as [|n IH]; intros [q Hq].
      - simpl in Hq. lia.
      - rewrite Nat2Z.inj_succ, Z.pow_succ_r in Hq by lia. apply IH.
        exists (3 * q - 2 ^ Z.of_nat n). lia. }
    apply (P (Z.to_nat a)). rewrite Z2Nat.id by lia. exact D.
Qed.

Lemma reserve_enough_dec fl ty t out : In (iw ty) int_widths -> pf_base fl = 10 ->
  in_range ty t -> (isigned ty = true -> pf_full fl = false) ->
  print_int fl ty t = Some out -> zlen out <= reserved_size fl ty.
Proof.
  intros Hw Hb Ht Hf. apply reserve_enough; auto; [lia|intros _; left; assumption|].
  destruct (Z.eq_dec (Z.abs t) (2 ^ (iw ty - 1))) as [E|N].
  - right. intros k Hk. rewrite E, Hb. apply pow2_not_pow10; [|assumption]. apply width_cases in Hw; lia.
  - left. unfold in_range, int_min, int_max in *. destruct (isigned ty); lia.
Qed.

(** ** Precise sizes *)

(** Text laid down by consecutive, gap-free, non-overlapping writes starting at [off]. *)
Fixpoint layout (off : Z) (ws : list (Z * list Z)) : option (list Z) :=
  match ws with
  | [] => Some []
  | (o, s) :: ws' => if o =? off then opt_app (Some s) (layout (off + zlen s) ws') else None
  end.
Definition layout_of (ws : writes) : option (list Z) := match ws with Some l => layout 0 l | None => None end.

Lemma layout_app off a b ta tb : layout off a = Some ta -> layout (off + zlen ta) b = Some tb ->
  layout off (a ++ b) = Some (ta ++ tb).
Proof.
  revert off ta. induction a as [|[o s] a IH]; intros off ta Ha Hb; cbn [layout app] in *.
  - injection Ha as <-. unfold zlen in Hb. cbn [length Z.of_nat] in Hb. rewrite Z.add_0_r in Hb. exact Hb.
  - destruct (o =? off); [|discriminate]. destruct (layout (off + zlen s) a) as [t|] eqn:E; [|discriminate].
    cbn [opt_app] in Ha. injection Ha as <-.
    rewrite (IH _ _ E); [cbn [opt_app]; rewrite app_assoc; reflexivity|].
    replace (off + zlen s + zlen t) with (off + zlen (s ++ t)); [exact Hb|]. unfold zlen. rewrite app_length. lia.
Qed.

Definition wtext (off : Z) (n len : Z) (ws : writes) : Prop :=
  exists l, ws = Some l /\ layout off l = Some (map (digit_char false) (digs 10 (Z.to_nat len) n)).

Lemma wtext_one off n len s : s = Some (map (digit_char false) (digs 10 (Z.to_nat len) n)) -> wtext off n len (w_one off s).
Proof.
  intros ->. eexists. split; [reflexivity|]. cbn [layout]. rewrite Z.eqb_refl. cbn [opt_app]. rewrite app_nil_r. reflexivity.
Qed.

Lemma wtext_app off n l m ws s : 0 <= l -> wtext off (n / 10 ^ Z.of_nat m) l ws ->
  s = Some (map (digit_char false) (digs 10 m n)) ->
  wtext off n (l + Z.of_nat m) (w_app ws (w_one (off + l) s)).
Proof.
  intros Hl (a & -> & La) ->. eexists. split; [reflexivity|].
  erewrite layout_app; [| exact La |].
  - rewrite <- map_app. do 2 f_equal.
    replace (Z.to_nat (l + Z.of_nat m)) with (Z.to_nat l + m)%nat by lia. rewrite digs_app by lia. reflexivity.
  - unfold zlen. rewrite map_length, digs_length, Z2Nat.id by lia. cbn [layout]. rewrite Z.eqb_refl.
    cbn [opt_app]. rewrite app_nil_r. reflexivity.
Qed.

Lemma wtext_assoc off n len a b c : wtext off n len (w_app (w_app a b) c) -> wtext off n len (w_app a (w_app b c)).
Proof.
  destruct a, b, c; cbn [w_app]; try (intros (? & H & _); discriminate H).
  intros (x & H & L). injection H as <-. exists (l ++ l0 ++ l1). rewrite <- app_assoc in L. split; [reflexivity|exact L].
Qed.

Lemma jeaiii_hash9_spec u len : 0 <= u < 2 ^ 32 -> digit_count 10 u len ->
  jeaiii_hash9 u len = Some (map (digit_char false) (digs 10 (Z.to_nat len) u)).
Proof.
  intros Hu D. assert (Hl : len <= 10) by (apply (digit_count_lt 10 u 10 len); try lia; exact D).
  destruct D as (D1 & D2 & D3). unfold jeaiii_hash9.
  destruct (Z.leb_spec 1 len); [|lia]. destruct (Z.leb_spec len 9); cbn [andb].
  - rewrite jeaiii_c_spec; try lia; replace (len - 1 + 1) with len by lia; auto; lia.
  - assert (len = 10) by lia. subst len. rewrite jeaiii_c_spec; try lia. reflexivity.
Qed.

Lemma digit_count_div n m len : 0 <= m -> digit_count 10 n len -> 1 <= n / 10 ^ m -> digit_count 10 (n / 10 ^ m) (len - m).
Proof.
  intros Hm (A & B & C) Hq. assert (Hp : 0 < 10 ^ m) by (apply Z.pow_pos_nonneg; lia).
  assert (Hn : 10 ^ m <= n).
  { apply Z.le_ngt. intros H. destruct (Z.le_gt_cases 0 n); [rewrite Z.div_small in Hq by lia; lia|].
    assert (n / 10 ^ m < 0) by (apply Z.div_lt_upper_bound; lia). lia. }
  assert (Hml : m < len).
  { apply Z.nle_gt. intros H. assert (10 ^ len <= 10 ^ m) by (apply Z.pow_le_mono_r; lia). lia. }
  repeat split; [lia| |].
  - apply Z.div_lt_upper_bound; [lia|]. rewrite <- Z.pow_add_r by lia. replace (m + (len - m)) with len by lia. exact B.
  - destruct (Z.eq_dec (len - m) 1) as [|N]; [left; assumption|right]. destruct C as [->|C]; [lia|].
    apply Z.div_le_lower_bound; [lia|]. rewrite <- Z.pow_add_r by lia. replace (m + (len - m - 1)) with (len - 1) by lia. exact C.
Qed.

Lemma jeaiii_main_len64_spec off n len : 0 <= n < 2 ^ 64 -> digit_count 10 n len ->
  wtext off n len (jeaiii_main_len64 off n len).
Proof.
  intros Hn D. unfold jeaiii_main_len64.
  assert (Hl : len <= 20) by (apply (digit_count_lt 10 n 20 len); try lia; exact D).
  change (2 ^ 64) with 18446744073709551616 in Hn.
  assert (Hh : wrap 32 (n / 2 ^ 32) = n / 2 ^ 32).
  { apply wrap_mod_small. change (2 ^ 32) with 4294967296. split; [apply Z.div_pos; lia|].
    apply Z.div_lt_upper_bound; lia. }
  rewrite Hh. destruct (Z.eqb_spec (n / 2 ^ 32) 0) as [E|E].
  { change (2 ^ 32) with 4294967296 in *.
    assert (n < 4294967296) by (pose proof (Z.div_mod n 4294967296 ltac:(lia)); pose proof (Z.mod_pos_bound n 4294967296 ltac:(lia)); lia).
    rewrite wrap_mod_small by (change (2 ^ 32) with 4294967296; lia).
    apply wtext_one. apply jeaiii_hash9_spec; [change (2 ^ 32) with 4294967296; lia|exact D]. }
  assert (Hbig : 4294967296 <= n).
  { destruct (Z.le_gt_cases 4294967296 n); [assumption|]. exfalso. apply E.
    apply Z.div_small. change (2 ^ 32) with 4294967296. lia. }
  assert (Ha : 4 <= n / 1000000000 < 18446744074).
  { split; [apply Z.div_le_lower_bound; lia|apply Z.div_lt_upper_bound; lia]. }
  assert (Da : digit_count 10 (n / 1000000000) (len - 9)) by (apply (digit_count_div n 9); [lia|exact D|change (10 ^ 9) with 1000000000; lia]).
  destruct (Z.eqb_spec (n / 1000000000) (wrap 32 (n / 1000000000))) as [Ea|Ea]; cbn [negb].
  - assert (L9 : wrap 32 (len - 9) = len - 9).
    { apply wrap_mod_small. destruct Da as (Da1 & _). change (2 ^ 32) with 4294967296. lia. }
    rewrite L9. rewrite <- Ea. replace len with ((len - 9) + Z.of_nat 9) at 1 by lia.
    apply wtext_app; [destruct Da; lia| |apply jeaiii_c8_mod].
    change (10 ^ Z.of_nat 9) with 1000000000. apply wtext_one. apply jeaiii_hash9_spec; [|exact Da].
    rewrite Ea. unfold wrap. apply Z.mod_pos_bound. lia.
  - set (a := n / 1000000000) in *.
    assert (Hbig2 : 4294967296 <= a).
    { destruct (Z.le_gt_cases 4294967296 a); [assumption|]. exfalso. apply Ea. symmetry. apply wrap_mod_small.
      change (2 ^ 32) with 4294967296. lia. }
    assert (Hv : 4 <= a / 1000000000 <= 18).
    { split; [apply Z.div_le_lower_bound; lia|]. apply Z.lt_succ_r. apply Z.div_lt_upper_bound; lia. }
    assert (Dv : digit_count 10 (a / 1000000000) (len - 9 - 9)) by (apply (digit_count_div a 9); [lia|exact Da|change (10 ^ 9) with 1000000000; lia]).
    rewrite wrap_mod_small by (change (2 ^ 32) with 4294967296; lia).
    set (v := a / 1000000000) in *.
    assert (Ek : (if v <? 10 then 1 else 2) = len - 9 - 9).
    { destruct (Z.ltb_spec v 10).
      - apply (digit_count_unique 10 v); try lia; [|exact Dv]. repeat split; simpl; lia.
      - apply (digit_count_unique 10 v); try lia; [|exact Dv]. repeat split; simpl; lia. }
    rewrite Ek. apply wtext_assoc.
    replace (off + (len - 9 - 9) + 9) with (off + (len - 9 - 9 + Z.of_nat 9)) by lia.
    replace len with (((len - 9 - 9) + Z.of_nat 9) + Z.of_nat 9) at 1 by lia.
    apply wtext_app; [destruct Dv; lia| |apply jeaiii_c8_mod].
    change (10 ^ Z.of_nat 9) with 1000000000. fold a.
    apply wtext_app; [destruct Dv; lia| |apply jeaiii_c8_mod].
    change (10 ^ Z.of_nat 9) with 1000000000. fold v. apply wtext_one. rewrite <- Ek.
    destruct (Z.ltb_spec v 10); [apply jeaiii_c_spec; lia|apply jeaiii_w_spec; lia].
Qed.

Lemma jeaiii_main_len128_spec off n len : 0 <= n < 2 ^ 128 -> digit_count 10 n len ->
  wtext off n len (jeaiii_main_len128 off n len).
Proof.
  intros Hn D. unfold jeaiii_main_len128.
  assert (Hl : len <= 39) by (apply (digit_count_lt 10 n 39 len); try lia; exact D).
  change (2 ^ 128) with 340282366920938463463374607431768211456 in Hn.
  assert (Hh : wrap 64 (n / 2 ^ 64) = n / 2 ^ 64).
  { apply wrap_mod_small. change (2 ^ 64) with 18446744073709551616. split; [apply Z.div_pos; lia|].
    apply Z.div_lt_upper_bound; lia. }
  rewrite Hh. destruct (Z.eqb_spec (n / 2 ^ 64) 0) as [E|E].
  { change (2 ^ 64) with 18446744073709551616 in *.
    assert (n < 18446744073709551616) by (pose proof (Z.div_mod n 18446744073709551616 ltac:(lia)); pose proof (Z.mod_pos_bound n 18446744073709551616 ltac:(lia)); lia).
    rewrite wrap_mod_small by (change (2 ^ 64) with 18446744073709551616; lia).
    apply jeaiii_main_len64_spec; [change (2 ^ 64) with 18446744073709551616; lia|exact D]. }
  assert (Hbig : 18446744073709551616 <= n).
  { destruct (Z.le_gt_cases 18446744073709551616 n); [assumption|]. exfalso. apply E.
    apply Z.div_small. change (2 ^ 64) with 18446744073709551616. lia. }
  set (dv := 10000000000000000000) in *.
  assert (Ha : 1 <= n / dv < 34028236692093846347).
  { unfold dv. split; [apply Z.div_le_lower_bound; lia|apply Z.div_lt_upper_bound; lia]. }
  assert (Da : digit_count 10 (n / dv) (len - 19)) by (apply (digit_count_div n 19); [lia|exact D|change (10 ^ 19) with dv; lia]).
  destruct (Z.eqb_spec (n / dv) (wrap 64 (n / dv))) as [Ea|Ea]; cbn [negb].
  - assert (L9 : wrap 32 (len - 19) = len - 19).
    { apply wrap_mod_small. destruct Da as (Da1 & _). change (2 ^ 32) with 4294967296. lia. }
    rewrite L9. rewrite <- Ea. replace len with ((len - 19) + Z.of_nat 19) at 1 by lia.
    apply wtext_app; [destruct Da; lia| |apply jeaiii_main64_rec_mod].
    change (10 ^ Z.of_nat 19) with dv. apply jeaiii_main_len64_spec; [|exact Da].
    rewrite Ea. unfold wrap. apply Z.mod_pos_bound. lia.
  - set (a := n / dv) in *.
    assert (Hbig2 : 18446744073709551616 <= a).
    { destruct (Z.le_gt_cases 18446744073709551616 a); [assumption|]. exfalso. apply Ea. symmetry. apply wrap_mod_small.
      change (2 ^ 64) with 18446744073709551616. lia. }
    assert (Hv : 1 <= a / dv <= 3).
    { unfold dv. split; [apply Z.div_le_lower_bound; lia|]. apply Z.lt_succ_r. apply Z.div_lt_upper_bound; lia. }
    assert (Dv : digit_count 10 (a / dv) (len - 19 - 19)) by (apply (digit_count_div a 19); [lia|exact Da|change (10 ^ 19) with dv; lia]).
    rewrite wrap_mod_small by (change (2 ^ 32) with 4294967296; lia).
    set (v := a / dv) in *.
    assert (Ek : 1 = len - 19 - 19).
    { apply (digit_count_unique 10 v); try lia; [|exact Dv]. repeat split; simpl; lia. }
    apply wtext_assoc.
    replace (off + 1 + 19) with (off + (1 + Z.of_nat 19)) by lia.
    replace len with ((1 + Z.of_nat 19) + Z.of_nat 19) by lia.
    apply wtext_app; [lia| |apply jeaiii_main64_rec_mod].
    change (10 ^ Z.of_nat 19) with dv. fold a.
    apply wtext_app; [lia| |apply jeaiii_main64_rec_mod].
    change (10 ^ Z.of_nat 19) with dv. fold v. apply wtext_one. apply jeaiii_c_spec; lia.
Qed.

Lemma jeaiii_main_len_spec w off n len : In w int_widths -> 0 <= n < 2 ^ w -> digit_count 10 n len ->
  wtext off n len (jeaiii_main_len w off n len).
Proof.
  intros Hw Hn D. unfold jeaiii_main_len.
  destruct (Z.eqb_spec w 128) as [->|]; [apply jeaiii_main_len128_spec; assumption|].
  destruct (Z.eqb_spec w 64) as [->|]; [apply jeaiii_main_len64_spec; assumption|].
  assert (n < 2 ^ 32).
  { eapply Z.lt_le_trans; [apply Hn|]. apply Z.pow_le_mono_r; [lia|]. apply width_cases in Hw; lia. }
  rewrite wrap_mod_small by lia. apply wtext_one. apply jeaiii_hash9_spec; [lia|exact D].
Qed.

(** Precise size: right whenever neither [full] nor (showpos with a negative value). *)
Lemma precise_size_spec fl ty t out : In (iw ty) int_widths -> 2 <= pf_base fl <= 36 -> config_ok fl ty ->
  in_range ty t -> pf_full fl = false -> (pf_showpos fl = true -> 0 <= t) ->
  print_int fl ty t = Some out -> precise_size fl ty t = zlen out.
Proof.
  intros Hw Hb Hc Ht Hf Hsp Hout.
  destruct (print_int_correct fl ty t Hw Hb Hc Ht) as (num & E & N). rewrite E in Hout. injection Hout as <-.
  rewrite Hf in N. destruct (magnitude_spec ty t Hw Ht) as [Em Hm].
  pose proof (chars_len_spec (iw ty) (pf_base fl) (Z.abs t) Hw Hb Hm) as L.
  pose proof (is_numeral_length (pf_base fl) (pf_upper fl) (Z.abs t) num _ ltac:(lia) ltac:(lia) N L) as Ln.
  unfold precise_size, precise_cache_size. rewrite Hf, Em.
  unfold zlen in *. rewrite !app_length, !Nat2Z.inj_add. rewrite Ln.
  pose proof (sign_text_length (pf_showpos fl) t) as Sl. unfold zlen in Sl. rewrite Sl.
  set (bp := length (if pf_showbase fl then _ else _)).
  assert (Hbp : Z.of_nat bp = if pf_showbase fl then show_base_size (pf_base fl) else 0).
  { unfold bp. destruct (pf_showbase fl); [|reflexivity]. apply base_prefix_length; assumption. }
  rewrite Hbp. unfold in_range, int_min in Ht.
  destruct (isigned ty), (pf_showpos fl), (pf_showbase fl), (Z.ltb_spec t 0); cbn [andb orb] in *; try lia;
    specialize (Hsp eq_refl); lia.
Qed.

(** Precise printing writes exactly that text, when base 10 carries no sign character. *)
Lemma print_precise_spec fl ty t : In (iw ty) int_widths -> 2 <= pf_base fl <= 36 -> config_ok fl ty ->
  in_range ty t -> pf_full fl = false -> (pf_showpos fl = true -> 0 <= t) ->
  (pf_base fl = 10 -> pf_showpos fl = false /\ 0 <= t) ->
  layout_of (print_precise fl ty (precise_size fl ty t) t) = print_int fl ty t.
Proof.
  intros Hw Hb Hc Ht Hf Hsp H10.
  destruct (magnitude_spec ty t Hw Ht) as [Em Hm].
  pose proof (chars_len_spec (iw ty) (pf_base fl) (Z.abs t) Hw Hb Hm) as L.
  unfold print_precise, print_int. rewrite Em.
  destruct (Z.eqb_spec (pf_base fl) 10) as [E10|N10].
  - destruct (H10 E10) as [Hs0 Ht0]. rewrite E10. cbn [Z.eqb Pos.eqb negb andb]. rewrite andb_false_r, app_nil_r.
    rewrite (sign_part_spec ty) by assumption. unfold sign_text. rewrite Hs0.
    destruct (Z.ltb_spec t 0); [lia|]. cbn [length Z.of_nat].
    assert (Hps : precise_size fl ty t = chars_len (iw ty) 10 (Z.abs t)).
    { unfold precise_size, precise_cache_size. rewrite Hf, Hs0, E10, Em.
      destruct (Z.ltb_spec t 0); [lia|]. rewrite andb_false_r. destruct (pf_showbase fl); reflexivity. }
    rewrite Hps. rewrite E10 in L.
    assert (Lb : chars_len (iw ty) 10 (Z.abs t) <= 200).
    { apply (digit_count_lt 10 (Z.abs t)); try lia; [|exact L].
      eapply Z.lt_le_trans; [apply Hm|]. transitivity (2 ^ 128); [apply Z.pow_le_mono_r; [lia|apply width_cases in Hw; lia]|vm_compute; discriminate]. }
    rewrite wrap_mod_small by (destruct L; change (2 ^ 32) with 4294967296; lia).
    destruct (jeaiii_main_len_spec (iw ty) 0 (Z.abs t) _ Hw Hm L) as (ws & -> & Lw).
    cbn [w_app layout_of layout app]. rewrite Z.eqb_refl. change (zlen (@nil Z)) with 0. rewrite Z.add_0_r, Lw.
    unfold withfull_main_impl. rewrite Hf. cbn [Z.eqb Pos.eqb].
    destruct (jeaiii_main_spec (iw ty) (Z.abs t) Hw Hm) as (len & D & ->).
    rewrite (digit_count_unique 10 (Z.abs t) len _ ltac:(lia) ltac:(lia) D L). reflexivity.
  - cbn [negb]. rewrite andb_true_r. unfold withfull_main_impl. rewrite Hf.
    destruct (Z.eqb_spec (pf_base fl) 10); [contradiction|].
    set (pre := sign_part _ _ _ ++ _).
    set (up := if pf_base fl <=? 10 then false else pf_upper fl).
    assert (Hcond : iw ty = 128 -> base128_ok (pf_base fl) /\ up = false).
    { intros E. destruct (Hc E) as [|[B U]]; [contradiction|]. split; [exact B|]. unfold up.
      destruct (Z.leb_spec (pf_base fl) 10); [reflexivity|]. apply U. destruct B as [|[|]]; lia. }
    assert (Hup : pf_base fl <= 10 -> up = false).
    { intros. unfold up. destruct (Z.leb_spec (pf_base fl) 10); [reflexivity|lia]. }
    pose proof L as (L1 & L2 & L3).
    pose proof (main_impl_spec (iw ty) (pf_base fl) up (Z.abs t) (chars_len (iw ty) (pf_base fl) (Z.abs t)) Hw Hb Hcond Hup ltac:(lia) Hm L2) as M.
    assert (Hps : precise_size fl ty t - zlen pre = chars_len (iw ty) (pf_base fl) (Z.abs t)).
    { assert (Hout : print_int fl ty t = Some (pre ++ map (digit_char up) (digs (pf_base fl) (Z.to_nat (chars_len (iw ty) (pf_base fl) (Z.abs t))) (Z.abs t)))).
      { unfold print_int. rewrite Em. unfold withfull_main_impl. rewrite Hf.
        destruct (Z.eqb_spec (pf_base fl) 10); [contradiction|]. fold up. rewrite M. cbn [opt_app].
        unfold pre. cbn [negb]. rewrite andb_true_r. reflexivity. }
      rewrite (precise_size_spec fl ty t _ Hw Hb Hc Ht Hf Hsp Hout).
      unfold zlen. rewrite app_length, map_length, digs_length. lia. }
    destruct (negb (isigned ty) && negb (pf_showbase fl) && negb (pf_showpos fl)) eqn:Eb.
    + apply andb_true_iff in Eb as [Eb Es]. apply andb_true_iff in Eb as [Eu Eb].
      apply negb_true_iff in Eu, Eb, Es.
      assert (Hpre : pre = []).
      { unfold pre. rewrite (sign_part_spec ty) by assumption. unfold sign_text. rewrite Es, Eb.
        unfold in_range, int_min in Ht. rewrite Eu in Ht. destruct (Z.ltb_spec t 0); [lia|reflexivity]. }
      rewrite Hpre in Hps. change (zlen (@nil Z)) with 0 in Hps. rewrite Z.sub_0_r in Hps. rewrite Hps, M.
      cbn [w_one option_map layout_of layout]. rewrite Z.eqb_refl. cbn [opt_app]. rewrite app_nil_r, Hpre. reflexivity.
    + change (Z.of_nat (length pre)) with (zlen pre). rewrite Hps, M.
      cbn [w_one w_app option_map layout_of layout app]. rewrite Z.eqb_refl. rewrite Z.add_0_l.
      rewrite Z.eqb_refl. cbn [opt_app]. rewrite app_nil_r. reflexivity.
Qed.

(** ** Witnesses against the full English claims *)
Definition i64 := mk_int 64 true.
Definition u64 := mk_int 64 false.
Definition i32 := mk_int 32 true.

Lemma reserve_refuted : exists fl ty t out, In (iw ty) int_widths /\ 2 <= pf_base fl <= 36 /\ in_range ty t
  /\ print_int fl ty t = Some out /\ reserved_size fl ty < zlen out.
Proof.
  exists (mk_pflags 2 false false false false false), i32, (-2147483648).
  eexists. split; [|split; [|split; [|split; [vm_compute; reflexivity|]]]];
    [simpl; tauto|split; vm_compute; discriminate|split; vm_compute; discriminate|vm_compute; reflexivity].
Qed.

Lemma precise_refuted : exists out, print_int default_pflags i64 (-5) = Some out
  /\ out = text "-5" /\ precise_size default_pflags i64 (-5) = 2
  /\ layout_of (print_precise default_pflags i64 2 (-5)) = Some (text "-05").
Proof. eexists. vm_compute. repeat split. Qed.

Lemma precise_full_refuted : exists out, print_int (mk_pflags 10 false false false false true) u64 7 = Some out
  /\ zlen out = 20 /\ precise_size (mk_pflags 10 false false false false true) u64 7 = 0.
Proof. eexists. vm_compute. repeat split. Qed.

(** 128-bit bases outside 2, 4, 10, 16: wrong digits; uppercase hexadecimal comes out lowercase. *)
Lemma upper_hex_128_refuted :
  print_int (mk_pflags 16 false false false true false) (mk_int 128 false) 255 = Some (text "ff").
Proof. vm_compute. reflexivity. Qed.
