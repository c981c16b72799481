(** C39: multi-word arithmetic is exact; and timestamp division in builds without __int128 (C25).

    The specification is plain integer arithmetic.  A word is [0 <= x < 2^w]; the double word
    (low, high) denotes [high * 2^w + low]. *)
From Verif Require Import Base Outcome TimeSpec TimeModel IntrinModel IntrinProofs IntrinDivProofs IntrinDiv2Proofs IntrinDiv3Proofs.

Definition word (w x : Z) : Prop := 0 <= x < 2 ^ w.

(** ** Add with carry, subtract with borrow: the pair (result, carry) satisfies the exact equation. *)
Theorem C39_addc : forall w a b c s k, 1 <= w -> word w a -> word w b ->
  (addc w a b c = (s, k) \/ addc_builtin w a b c = (s, k) \/ add_carry w c a b = (s, k)) ->
  word w s /\ s + Z.b2z k * 2 ^ w = a + b + Z.b2z c.
Proof.
  unfold word. intros w a b c s k Hw Ha Hb H. rewrite addc_ok, addc_builtin_ok, add_carry_ok in H by assumption.
  assert (E : sum_with_carry w a b c = (s, k)) by tauto. unfold sum_with_carry in E. injection E as E1 E2. rewrite sum_wrap in E1 by assumption.
  pose proof (b2z_range c). subst s k. split_ifs; cbn [Z.b2z]; lia.
Qed.
Print Assumptions C39_addc.
Theorem C39_subc : forall w a b c s k, 1 <= w -> word w a -> word w b ->
  (subc w a b c = (s, k) \/ subc_builtin w a b c = (s, k) \/ sub_borrow w c a b = (s, k)) ->
  word w s /\ s - Z.b2z k * 2 ^ w = a - b - Z.b2z c.
Proof.
  unfold word. intros w a b c s k Hw Ha Hb H. rewrite subc_ok, subc_builtin_ok, sub_borrow_ok in H by assumption.
  assert (E : diff_with_borrow w a b c = (s, k)) by tauto. unfold diff_with_borrow in E. injection E as E1 E2. rewrite diff_wrap in E1 by assumption.
  pose proof (b2z_range c). subst s k. split_ifs; cbn [Z.b2z]; lia.
Qed.
Print Assumptions C39_subc.
Example C39_carry_case : addc 64 (2 ^ 64 - 1) (2 ^ 64 - 1) true = (2 ^ 64 - 1, true) /\ subc 64 0 (2 ^ 64 - 1) true = (0, true) /\
  add_carry 32 true (2 ^ 32 - 1) 0 = (0, true) /\ sub_borrow 32 true 0 0 = (2 ^ 32 - 1, true).
Proof. vm_compute. auto. Qed.
(** The two-halves variant for 32-bit MSVC: addition is exact, subtraction is not. *)
Theorem C39_addc_msvc32 : forall a b c s k, word 64 a -> word 64 b -> addc_msvc32 a b c = (s, k) ->
  word 64 s /\ s + Z.b2z k * 2 ^ 64 = a + b + Z.b2z c.
Proof.
  intros a b c s k Ha Hb H. rewrite addc_msvc32_ok in H by assumption. apply (C39_addc 64 a b c); [lia|assumption|assumption|].
  left. rewrite addc_ok; [exact H|lia|exact Ha|exact Hb].
Qed.
Print Assumptions C39_addc_msvc32.
Theorem C39_subc_msvc32_refuted : exists a b s k, word 64 a /\ word 64 b /\ subc_msvc32 a b false = (s, k) /\
  s - Z.b2z k * 2 ^ 64 <> a - b.
Proof. exists (2 ^ 32), 0, 0, false. repeat split; vm_compute; congruence. Qed.
Print Assumptions C39_subc_msvc32_refuted.

(** ** Widening multiplication. *)
Theorem C39_umul : forall a b low high, word 64 a -> word 64 b -> umul_least_64_emulated a b = (low, high) ->
  word 64 low /\ word 64 high /\ high * 2 ^ 64 + low = a * b /\ umul_least64_high_emulated a b = high.
Proof.
  intros a b low high Ha Hb E. destruct (umul_parts a b Ha Hb) as [El [Eh Ee]]. rewrite E in El, Eh. cbn [fst snd] in El, Eh.
  pose proof (Z.div_mod (a * b) (2 ^ 64) ltac:(lia)) as D. pose proof (Z.mod_pos_bound (a * b) (2 ^ 64) ltac:(lia)) as R.
  rewrite <- El, <- Eh in *. unfold word in *. split; [exact R|]. split; [rewrite p64 in *; nia|]. split; [lia|exact Ee].
Qed.
Print Assumptions C39_umul.
Theorem C39_umul32 : forall a b low high, word 32 a -> word 32 b -> umul_least_32 a b = (low, high) ->
  word 32 low /\ word 32 high /\ high * 2 ^ 32 + low = a * b /\ umulh_least_32 a b = high.
Proof.
  intros a b low high Ha Hb E. rewrite umul32_ok in E by assumption. injection E as El Eh. rewrite umulh32_ok by assumption.
  pose proof (Z.div_mod (a * b) (2 ^ 32) ltac:(lia)) as D. pose proof (Z.mod_pos_bound (a * b) (2 ^ 32) ltac:(lia)) as R.
  subst low high. unfold word in *. split; [exact R|].
  split; [split; [apply Z.div_pos; lia|apply Z.div_lt_upper_bound; [lia|]]; rewrite p32 in *; nia|]. split; [lia|reflexivity].
Qed.
Print Assumptions C39_umul32.
Theorem C39_pack : forall a low high, word 64 a -> word 32 low -> word 32 high ->
  (unpack_ul64 a = (low, high) <-> pack_ul64 low high = a) /\ pack_ul64 low high = high * 2 ^ 32 + low.
Proof.
  intros a low high Ha Hl Hh. rewrite pack_ok, unpack_ok by assumption. split; [|reflexivity]. split.
  - intros E. injection E as E1 E2. pose proof (Z.div_mod a (2 ^ 32) ltac:(lia)). lia.
  - intros <-. destruct (double_parts 32 low high Hl) as [E1 E2]. unfold double in *. rewrite E1, E2. reflexivity.
Qed.
Print Assumptions C39_pack.
Example C39_umul_case : umul_least_64_emulated (2 ^ 64 - 1) (2 ^ 64 - 1) = (1, 2 ^ 64 - 2).
Proof. vm_compute. reflexivity. Qed.

(** ** Double-word division: fast_io::intrinsics::udivmod, every even word width, every non-zero divisor. *)
Theorem C39_udivmod : forall w nlow nhigh dlow dhigh, 2 <= w -> Z.even w = true ->
  word w nlow -> word w nhigh -> word w dlow -> word w dhigh -> (dlow <> 0 \/ dhigh <> 0) ->
  exists qlow qhigh rlow rhigh, udivmod w nlow nhigh dlow dhigh = Done (qlow, qhigh, rlow, rhigh) /\
    word w qlow /\ word w qhigh /\ word w rlow /\ word w rhigh /\
    let n := nhigh * 2 ^ w + nlow in let d := dhigh * 2 ^ w + dlow in
    let q := qhigh * 2 ^ w + qlow in let r := rhigh * 2 ^ w + rlow in
    n = q * d + r /\ 0 <= r < d.
Proof.
  unfold word. intros w n0 n1 d0 d1 Hw Hev N0 N1 D0 D1 Hnz. cbv zeta.
  apply Z.even_spec in Hev. destruct Hev as [h ->].
  assert (P : 0 < 2 ^ (2 * h)) by (apply pow_pos; lia).
  assert (HD : 0 < double (2 * h) d0 d1) by (unfold double; destruct Hnz; nia).
  rewrite udivmod_ok by (assumption || lia). unfold quotient_words.
  change (n1 * 2 ^ (2 * h) + n0) with (double (2 * h) n0 n1). change (d1 * 2 ^ (2 * h) + d0) with (double (2 * h) d0 d1).
  pose proof (double_range (2 * h) n0 n1 ltac:(lia) N0 N1) as RN. pose proof (double_range (2 * h) d0 d1 ltac:(lia) D0 D1) as RD.
  set (n := double _ n0 n1) in *. set (d := double _ d0 d1) in *. clearbody n d.
  assert (HQ : 0 <= n / d < 2 ^ (2 * (2 * h))).
  { split; [apply Z.div_pos; lia|]. apply Z.le_lt_trans with n; [apply Z.div_le_upper_bound; nia|lia]. }
  pose proof (Z.mod_pos_bound n d HD) as HR. rewrite (pow2w (2 * h)) in * by lia.
  eexists _, _, _, _. split; [reflexivity|].
  split; [apply Z.mod_pos_bound; exact P|]. split; [split; [apply Z.div_pos; lia|apply Z.div_lt_upper_bound; lia]|].
  split; [apply Z.mod_pos_bound; exact P|]. split; [split; [apply Z.div_pos; lia|apply Z.div_lt_upper_bound; lia]|].
  pose proof (Z.div_mod (n / d) (2 ^ (2 * h)) ltac:(lia)) as E1. pose proof (Z.div_mod (n mod d) (2 ^ (2 * h)) ltac:(lia)) as E2.
  replace (n / d / 2 ^ (2 * h) * 2 ^ (2 * h) + (n / d) mod 2 ^ (2 * h)) with (n / d) by lia.
  replace (n mod d / 2 ^ (2 * h) * 2 ^ (2 * h) + (n mod d) mod 2 ^ (2 * h)) with (n mod d) by lia.
  pose proof (Z.div_mod n d ltac:(lia)). lia.
Qed.
Print Assumptions C39_udivmod.
(** The two-by-one word step it is built on. *)
Theorem C39_udivmod_small : forall w u1 u0 v, 2 <= w -> Z.even w = true -> word w u0 -> word w v -> 0 <= u1 < v ->
  exists q r, udivbigbysmall w u1 u0 v = Done (q, r) /\ word w q /\ u1 * 2 ^ w + u0 = q * v + r /\ 0 <= r < v.
Proof.
  unfold word. intros w u1 u0 v Hw Hev H0 Hv H1. apply Z.even_spec in Hev. destruct Hev as [h ->].
  rewrite udivbigbysmall_ok by lia. eexists _, _. split; [reflexivity|].
  pose proof (Z.div_mod (u1 * 2 ^ (2 * h) + u0) v ltac:(lia)). pose proof (Z.mod_pos_bound (u1 * 2 ^ (2 * h) + u0) v ltac:(lia)).
  split; [|lia]. split; [apply Z.div_pos; nia|apply Z.div_lt_upper_bound; nia].
Qed.
Print Assumptions C39_udivmod_small.
Example C39_udivmod_case :
  udivmod 64 28336801124887889 26473593 3 61 = Done (433993, 0, 28336801123585910, 20) /\
  udivmod 64 7 (2 ^ 64 - 1) (2 ^ 64 - 1) 0 = Done (0, 1, 7, 0) /\
  udivmod 64 0 (2 ^ 63) (2 ^ 63 + 1) 0 = Done (2 ^ 64 - 2, 0, 2, 0).
Proof. vm_compute. auto. Qed.

(** fast_io::details::intrinsics::udivmod, the one the library itself calls: right for a one-word
    divisor not above half the word range (or a one-word dividend), wrong above it, wrong for a
    two-word divisor, and wrong for powers of two in a build without __builtin_ctzll. *)
Theorem C39_details_udivmod_partial : forall w nlow nhigh d, 2 <= w < 2 ^ 31 -> word w nlow -> word w nhigh -> word w d ->
  d <> 0 -> (nhigh = 0 \/ d <= 2 ^ (w - 1)) ->
  exists qlow qhigh r, dudivmod true w nlow nhigh d 0 = Done (qlow, qhigh, r, 0) /\
    word w qlow /\ word w qhigh /\ nhigh * 2 ^ w + nlow = (qhigh * 2 ^ w + qlow) * d + r /\ 0 <= r < d.
Proof.
  unfold word. intros w n0 n1 d Hw N0 N1 Hd Hnz Hc.
  rewrite dudivmod_ok by (assumption || lia). unfold quotient_words.
  change (n1 * 2 ^ w + n0) with (double w n0 n1). pose proof (double_range w n0 n1 ltac:(lia) N0 N1) as RN.
  assert (P : 0 < 2 ^ w) by (apply pow_pos; lia).
  set (n := double w n0 n1) in *. clearbody n. pose proof (Z.mod_pos_bound n d ltac:(lia)) as HR.
  rewrite (Z.mod_small (n mod d) (2 ^ w)), (Z.div_small (n mod d) (2 ^ w)) by lia.
  assert (HQ : 0 <= n / d < 2 ^ w * 2 ^ w).
  { split; [apply Z.div_pos; lia|]. rewrite pow2w in RN by lia. apply Z.le_lt_trans with n; [apply Z.div_le_upper_bound; nia|lia]. }
  eexists _, _, _. split; [reflexivity|].
  split; [apply Z.mod_pos_bound; exact P|]. split; [split; [apply Z.div_pos; lia|apply Z.div_lt_upper_bound; lia]|].
  pose proof (Z.div_mod (n / d) (2 ^ w) ltac:(lia)) as E1.
  replace (n / d / 2 ^ w * 2 ^ w + (n / d) mod 2 ^ w) with (n / d) by lia.
  pose proof (Z.div_mod n d ltac:(lia)). lia.
Qed.
Print Assumptions C39_details_udivmod_partial.
Example C39_details_udivmod_case : dudivmod true 64 5 (2 ^ 64 - 1) (2 ^ 63 - 1) 0 = Done (2, 2, 7, 0) /\
  dudivmod true 64 5 (2 ^ 64 - 1) (2 ^ 63) 0 = Done (2 ^ 64 - 2, 1, 5, 0) /\ dudivmod true 64 5 1 10 0 = Done (1844674407370955162, 0, 1, 0).
Proof. vm_compute. auto. Qed.
Theorem C39_details_udivmod_refuted :
  (* 2^65 + 3 by 2^63 + 1 *)
  (exists q r, dudivmod true 64 3 2 (2 ^ 63 + 1) 0 = Done (q, 0, r, 0) /\ 2 ^ 65 + 3 <> q * (2 ^ 63 + 1) + r) /\
  (* a two-word divisor *)
  (exists q r0 r1, dudivmod true 64 28336801124887889 26473593 3 61 = Done (q, 0, r0, r1) /\
     26473593 * 2 ^ 64 + 28336801124887889 <> q * (61 * 2 ^ 64 + 3) + (r1 * 2 ^ 64 + r0)) /\
  (* 2^64 by 2 where the leading zeros are counted instead of the trailing ones *)
  (exists q, dudivmod false 64 0 1 2 0 = Done (q, 0, 0, 0) /\ 2 ^ 64 <> q * 2).
Proof.
  split; [|split].
  - exists 0, 9223372036854775811. split; vm_compute; congruence.
  - exists 530189, 28336801123839314, 25949306. split; vm_compute; congruence.
  - exists 4. split; vm_compute; congruence.
Qed.
Print Assumptions C39_details_udivmod_refuted.

(** ** Checked sizes: the exact sum (product) or the process stops. *)
Theorem C39_checked_sum : forall bd w size args, Forall (word w) (size :: args) ->
  add_or_overflow_die_chain bd w size args =
    (if fold_right Z.add 0 (size :: args) <? 2 ^ w then Done (fold_right Z.add 0 (size :: args)) else Terminated).
Proof. intros. apply add_chain_ok. assumption. Qed.
Print Assumptions C39_checked_sum.
Theorem C39_checked_product_partial : forall bd w a b, word w a -> word w b -> bd = die_builtin \/ (bd = die_msvc /\ b <> 0) ->
  mul_or_overflow_die bd w a b = (if a * b <? 2 ^ w then Done (a * b) else Terminated).
Proof. intros. apply mul_die_ok; assumption. Qed.
Print Assumptions C39_checked_product_partial.
Theorem C39_checked_product_refuted : mul_or_overflow_die die_fallback 64 6 7 = Done 13 /\
  mul_or_overflow_die die_msvc 64 6 0 = Undefined.
Proof. vm_compute. auto. Qed.
Print Assumptions C39_checked_product_refuted.
(** A chain of products is exact too, as long as no factor is zero (a zero factor cannot undo an
    overflow the chain has already stopped at). *)
Lemma product_pos l : Forall (fun x => 1 <= x) l -> 1 <= fold_right Z.mul 1 l.
Proof. induction 1; cbn [fold_right]; nia. Qed.
Theorem C39_checked_product_chain_partial : forall bd w size args, bd <> die_fallback ->
  Forall (word w) (size :: args) -> Forall (fun x => 1 <= x) (size :: args) ->
  mul_or_overflow_die_chain bd w size args =
    (if fold_right Z.mul 1 (size :: args) <? 2 ^ w then Done (fold_right Z.mul 1 (size :: args)) else Terminated).
Proof.
  intros bd w size args Hbd. revert size. induction args as [|a args IH]; intros size Hw Hp;
    inversion Hw as [|? ? W1 W2]; inversion Hp as [|? ? P1 P2]; subst; cbn [mul_or_overflow_die_chain].
  - cbn [fold_right]. rewrite Z.mul_1_r. unfold word in W1. destruct (Z.ltb_spec size (2 ^ w)); [reflexivity|lia].
  - rewrite (IH a W2 P2). change (fold_right Z.mul 1 (size :: a :: args)) with (size * fold_right Z.mul 1 (a :: args)).
    pose proof (product_pos _ P2) as PP. set (p := fold_right Z.mul 1 (a :: args)) in *. clearbody p.
    destruct (Z.ltb_spec p (2 ^ w)); cbn [obind].
    + apply mul_die_ok; [exact W1|lia|]. destruct bd; [right; split; [reflexivity|lia]|left; reflexivity|congruence].
    + destruct (Z.ltb_spec (size * p) (2 ^ w)); [nia|reflexivity].
Qed.
Print Assumptions C39_checked_product_chain_partial.
Theorem C39_allocation_size : forall bd w sz n, 1 <= sz < 2 ^ w -> word w n ->
  cal_allocation_size_or_die bd w sz n = (if n * sz <? 2 ^ w then Done (n * sz) else Terminated).
Proof. intros. apply cal_ok; [lia|assumption]. Qed.
Print Assumptions C39_allocation_size.
(** Signed subtraction reports exactly the unrepresentable differences and never overflows itself. *)
Theorem C39_sub_underflow : forall w a b, 1 <= w ->
  - 2 ^ (w - 1) <= a < 2 ^ (w - 1) -> - 2 ^ (w - 1) <= b < 2 ^ (w - 1) ->
  exists r, sub_underflow w a b = Done r /\
    (r = Some (a - b) /\ - 2 ^ (w - 1) <= a - b < 2 ^ (w - 1) \/ r = None /\ ~ (- 2 ^ (w - 1) <= a - b < 2 ^ (w - 1))).
Proof.
  intros w a b Hw Ha Hb. rewrite sub_underflow_ok by assumption. eexists. split; [reflexivity|].
  split_ifs; [left|right|right|right]; (split; [reflexivity|lia]).
Qed.
Print Assumptions C39_sub_underflow.
Example C39_checked_case : add_or_overflow_die_chain die_fallback 64 1 [2; 3; 4] = Done 10 /\
  add_or_overflow_die_chain die_builtin 64 (2 ^ 64 - 1) [0; 1] = Terminated /\
  mul_or_overflow_die_chain die_builtin 64 (2 ^ 62) [2; 2] = Terminated /\ cal_allocation_size_or_die die_msvc 64 4 (2 ^ 61) = Done (2 ^ 63) /\
  sub_underflow 32 (- 2 ^ 31) 1 = Done None /\ sub_underflow 32 (-1) (- 2 ^ 31) = Done (Some (2 ^ 31 - 1)).
Proof. vm_compute. auto 10. Qed.

(** ** C25: dividing a timestamp in a build without __int128 (MSVC, 32-bit targets). *)
Theorem C25_divide_no_int128_partial : forall a d, valid_stamp a -> 1 <= d <= 2 ^ 63 -> Z.abs (stamp_value a) < (2 ^ 64 - 1) * d ->
  stamp_div_no128 true a d = stamp_div a d.
Proof. exact stamp_div_no128_ok. Qed.
Print Assumptions C25_divide_no_int128_partial.
Example C25_divide_no_int128_case : let a := mk_stamp (-3) 7 in valid_stamp a /\ Z.abs (stamp_value a) < (2 ^ 64 - 1) * 2 /\
  stamp_div_no128 true a 2 = Done (mk_stamp (-1) 5000000000000000004).
Proof. cbv zeta. split; [split; vm_compute; split; congruence|split; vm_compute; reflexivity]. Qed.
(** Four seconds divided by two are three seconds; ten seconds by two are 21 units of 10^-19 s when
    the leading zeros are counted instead of the trailing ones. *)
Theorem C25_divide_no_int128_refuted : valid_stamp (mk_stamp 4 0) /\ stamp_div (mk_stamp 4 0) 2 = Done (mk_stamp 2 0) /\
  stamp_div_no128 true (mk_stamp 4 0) 2 = Done (mk_stamp 3 0) /\
  stamp_div_no128 false (mk_stamp 10 0) 2 = Done (mk_stamp 0 21).
Proof. split; [split; vm_compute; split; congruence|]. vm_compute. auto. Qed.
Print Assumptions C25_divide_no_int128_refuted.
