(** Multi-word arithmetic: carries, products, checked sizes. *)
From Verif Require Import Base Outcome TimeSpec TimeModel IntrinModel Leb128Proofs.

Lemma wrap_eq w x k : 0 <= x + k * 2 ^ w < 2 ^ w -> wrap w x = x + k * 2 ^ w.
Proof.
  intros H. unfold wrap. rewrite <- (Z_mod_plus_full x k (2 ^ w)). apply Z.mod_small. exact H.
Qed.
Lemma wrap_range w x : 0 <= w -> 0 <= wrap w x < 2 ^ w.
Proof. intros. apply Z.mod_pos_bound. apply Z.pow_pos_nonneg; lia. Qed.
Lemma pow_pos w : 0 <= w -> 0 < 2 ^ w.
Proof. intros. apply Z.pow_pos_nonneg; lia. Qed.

Lemma wrap_add w a b : 0 <= a < 2 ^ w -> 0 <= b <= 2 ^ w ->
  wrap w (a + b) = if a + b <? 2 ^ w then a + b else a + b - 2 ^ w.
Proof.
  intros Ha Hb. destruct (Z.ltb_spec (a + b) (2 ^ w)).
  - rewrite (wrap_eq w _ 0); lia.
  - rewrite (wrap_eq w _ (-1)); lia.
Qed.
Lemma wrap_sub w a b : 0 <= a < 2 ^ w -> 0 <= b <= 2 ^ w ->
  wrap w (a - b) = if b <=? a then a - b else a - b + 2 ^ w.
Proof.
  intros Ha Hb. destruct (Z.leb_spec b a).
  - rewrite (wrap_eq w _ 0); lia.
  - rewrite (wrap_eq w _ 1); lia.
Qed.
Lemma b2z_range c : 0 <= Z.b2z c <= 1.
Proof. destruct c; cbn; lia. Qed.

Ltac split_ifs := repeat match goal with
  | |- context [Z.ltb ?x ?y] => destruct (Z.ltb_spec x y)
  | |- context [Z.leb ?x ?y] => destruct (Z.leb_spec x y)
  end; cbn [orb andb negb].
Ltac fin := try (f_equal; lia); try lia.

Lemma two_le w : 1 <= w -> 2 <= 2 ^ w.
Proof. intros. change 2 with (2 ^ 1) at 1. apply Z.pow_le_mono_r; lia. Qed.

(** The exact meaning of a carrying addition and a borrowing subtraction. *)
Definition sum_with_carry w a b (cin : bool) : Z * bool :=
  ((a + b + Z.b2z cin) mod 2 ^ w, 2 ^ w <=? a + b + Z.b2z cin).
Definition diff_with_borrow w a b (bin : bool) : Z * bool :=
  ((a - b - Z.b2z bin) mod 2 ^ w, a - b - Z.b2z bin <? 0).

Lemma sum_wrap w a b c : 0 <= a < 2 ^ w -> 0 <= b < 2 ^ w ->
  (a + b + Z.b2z c) mod 2 ^ w = if a + b + Z.b2z c <? 2 ^ w then a + b + Z.b2z c else a + b + Z.b2z c - 2 ^ w.
Proof.
  intros. pose proof (b2z_range c). replace (a + b + Z.b2z c) with (a + (b + Z.b2z c)) by lia.
  apply wrap_add; lia.
Qed.
Lemma diff_wrap w a b c : 0 <= a < 2 ^ w -> 0 <= b < 2 ^ w ->
  (a - b - Z.b2z c) mod 2 ^ w = if a - b - Z.b2z c <? 0 then a - b - Z.b2z c + 2 ^ w else a - b - Z.b2z c.
Proof.
  intros. pose proof (b2z_range c). replace (a - b - Z.b2z c) with (a - (b + Z.b2z c)) by lia.
  pose proof (wrap_sub w a (b + Z.b2z c)) as E. unfold wrap in E. rewrite E by lia. split_ifs; lia.
Qed.

Section carry.
  Variable w : Z.
  Hypothesis Hw : 1 <= w.
  Variables a b : Z.
  Hypothesis Ha : 0 <= a < 2 ^ w.
  Hypothesis Hb : 0 <= b < 2 ^ w.

  Lemma addc_ok c : addc w a b c = sum_with_carry w a b c.
  Proof.
    unfold addc, sum_with_carry. rewrite sum_wrap by assumption. pose proof (two_le w Hw).
    rewrite (wrap_add w a b) by lia.
    destruct c; cbn [Z.b2z]; destruct (Z.ltb_spec (a + b) (2 ^ w)); rewrite wrap_add by lia; split_ifs; fin.
  Qed.
  Lemma addc_builtin_ok c : addc_builtin w a b c = sum_with_carry w a b c.
  Proof.
    unfold addc_builtin, builtin_add_overflow, sum_with_carry. rewrite sum_wrap by assumption. pose proof (two_le w Hw).
    rewrite (wrap_add w a b) by lia.
    destruct c; cbn [Z.b2z]; destruct (Z.ltb_spec (a + b) (2 ^ w)); rewrite wrap_add by lia; split_ifs; fin.
  Qed.
  Lemma subc_ok c : subc w a b c = diff_with_borrow w a b c.
  Proof.
    unfold subc, diff_with_borrow. rewrite diff_wrap by assumption. pose proof (two_le w Hw).
    rewrite (wrap_sub w a b) by lia.
    destruct c; cbn [Z.b2z]; destruct (Z.leb_spec b a); rewrite wrap_sub by lia; split_ifs; fin.
  Qed.
  Lemma subc_builtin_ok c : subc_builtin w a b c = diff_with_borrow w a b c.
  Proof.
    unfold subc_builtin, builtin_sub_overflow, diff_with_borrow. rewrite diff_wrap by assumption. pose proof (two_le w Hw).
    rewrite (wrap_sub w a b) by lia.
    destruct c; cbn [Z.b2z]; destruct (Z.leb_spec b a); rewrite wrap_sub by lia; split_ifs; fin.
  Qed.
  Lemma add_carry_ok c : add_carry w c a b = sum_with_carry w a b c.
  Proof.
    unfold add_carry, sum_with_carry. rewrite sum_wrap by assumption. pose proof (two_le w Hw).
    replace (Z.b2z c + a) with (a + Z.b2z c) by lia.
    pose proof (b2z_range c). rewrite (wrap_add w a (Z.b2z c)) by lia.
    destruct c; cbn [Z.b2z] in *; destruct (Z.ltb_spec (a + 0) (2 ^ w)), (Z.ltb_spec (a + 1) (2 ^ w)); rewrite wrap_add by lia; split_ifs; fin.
  Qed.
  Lemma sub_borrow_ok c : sub_borrow w c a b = diff_with_borrow w a b c.
  Proof.
    unfold sub_borrow, diff_with_borrow. rewrite diff_wrap by assumption. pose proof (two_le w Hw).
    pose proof (b2z_range c). rewrite (wrap_sub w a (Z.b2z c)) by lia.
    destruct (Z.leb_spec (Z.b2z c) a); rewrite wrap_sub by lia; split_ifs; fin.
  Qed.
End carry.

Lemma lor_pack a b n : 0 <= n -> 0 <= b < 2 ^ n -> Z.lor (a * 2 ^ n) b = a * 2 ^ n + b.
Proof. intros. rewrite Z.lor_comm, lor_add by assumption. lia. Qed.

(** 32-bit halves. *)
Lemma p32 : 2 ^ 32 = 4294967296. Proof. reflexivity. Qed.
Lemma p64 : 2 ^ 64 = 18446744073709551616. Proof. reflexivity. Qed.
Lemma pack_ok low high : 0 <= low < 2 ^ 32 -> 0 <= high < 2 ^ 32 -> pack_ul64 low high = high * 2 ^ 32 + low.
Proof.
  intros Hl Hh. unfold pack_ul64. rewrite Z.shiftl_mul_pow2 by lia. rewrite (wrap_eq 64 _ 0) by (rewrite p32, p64 in *; lia).
  rewrite Z.mul_0_l, Z.add_0_r. apply lor_pack; lia.
Qed.
Lemma unpack_ok a : 0 <= a < 2 ^ 64 -> unpack_ul64 a = (a mod 2 ^ 32, a / 2 ^ 32).
Proof.
  intros Ha. unfold unpack_ul64. rewrite Z.shiftr_div_pow2 by lia. f_equal. apply Z.mod_small.
  rewrite p32, p64 in *. split; [apply Z.div_pos; lia|apply Z.div_lt_upper_bound; lia].
Qed.

Lemma addc_msvc32_ok a b c : 0 <= a < 2 ^ 64 -> 0 <= b < 2 ^ 64 -> addc_msvc32 a b c = sum_with_carry 64 a b c.
Proof.
  intros Ha Hb. unfold addc_msvc32. pose proof (unpack_ok a Ha) as Ea. pose proof (unpack_ok b Hb) as Eb.
  apply (f_equal snd) in Ea, Eb. cbn [snd unpack_ul64] in Ea, Eb. rewrite Ea, Eb. clear Ea Eb.
  change (wrap 32 a) with (a mod 2 ^ 32). change (wrap 32 b) with (b mod 2 ^ 32).
  pose proof (Z.div_mod a (2 ^ 32) ltac:(lia)) as Da. pose proof (Z.mod_pos_bound a (2 ^ 32) ltac:(lia)) as Ma.
  pose proof (Z.div_mod b (2 ^ 32) ltac:(lia)) as Db. pose proof (Z.mod_pos_bound b (2 ^ 32) ltac:(lia)) as Mb.
  set (a0 := a mod 2 ^ 32) in *. set (a1 := a / 2 ^ 32) in *. set (b0 := b mod 2 ^ 32) in *. set (b1 := b / 2 ^ 32) in *.
  clearbody a0 a1 b0 b1. rewrite p32, p64 in *.
  unfold msvc_addcarry, sum_with_carry. rewrite sum_wrap by (rewrite ?p64; lia).
  pose proof (sum_wrap 32 a0 b0 c ltac:(rewrite p32; lia) ltac:(rewrite p32; lia)) as E0. unfold wrap. rewrite E0. clear E0.
  pose proof (fun t => sum_wrap 32 a1 b1 t ltac:(rewrite p32; lia) ltac:(rewrite p32; lia)) as E1. rewrite E1. clear E1.
  rewrite p32, p64 in *.
  pose proof (b2z_range c). generalize dependent (Z.b2z c). intros c' Hc. clear c.
  destruct (Z.leb_spec 4294967296 (a0 + b0 + c')); cbn [Z.b2z].
  all: match goal with |- (Z.lor (Z.shiftl ?h 32 mod _) ?l, _) = _ => assert (Hh : 0 <= h < 2 ^ 32) by (rewrite p32; split_ifs; cbn [Z.b2z]; lia);
    assert (Hl : 0 <= l < 2 ^ 32) by (rewrite p32; split_ifs; cbn [Z.b2z]; lia);
    pose proof (pack_ok l h Hl Hh) as Ep; unfold pack_ul64, wrap in Ep; rewrite p64 in Ep; rewrite Ep; clear Ep Hh Hl end.
  all: rewrite p32; split_ifs; fin.
Qed.

(** ** Products. *)
Lemma umul32_ok a b : 0 <= a < 2 ^ 32 -> 0 <= b < 2 ^ 32 ->
  umul_least_32 a b = (a * b mod 2 ^ 32, a * b / 2 ^ 32).
Proof.
  intros Ha Hb. unfold umul_least_32.
  assert (H : 0 <= a * b < 2 ^ 64) by (rewrite p32, p64 in *; nia).
  rewrite (wrap_eq 64 _ 0) by lia. rewrite Z.mul_0_l, Z.add_0_r. exact (unpack_ok _ H).
Qed.
Lemma umulh32_ok a b : 0 <= a < 2 ^ 32 -> 0 <= b < 2 ^ 32 -> umulh_least_32 a b = a * b / 2 ^ 32.
Proof. intros Ha Hb. exact (f_equal snd (umul32_ok a b Ha Hb)). Qed.

Lemma umul_parts a b : 0 <= a < 2 ^ 64 -> 0 <= b < 2 ^ 64 ->
  fst (umul_least_64_emulated a b) = a * b mod 2 ^ 64 /\ snd (umul_least_64_emulated a b) = a * b / 2 ^ 64 /\
  umul_least64_high_emulated a b = a * b / 2 ^ 64.
Proof.
  intros Ha Hb. unfold umul_least_64_emulated, umul_least64_high_emulated.
  rewrite (unpack_ok a Ha), (unpack_ok b Hb).
  pose proof (Z.div_mod a (2 ^ 32) ltac:(lia)) as Da. pose proof (Z.mod_pos_bound a (2 ^ 32) ltac:(lia)) as Ma.
  pose proof (Z.div_mod b (2 ^ 32) ltac:(lia)) as Db. pose proof (Z.mod_pos_bound b (2 ^ 32) ltac:(lia)) as Mb.
  assert (Ha1 : 0 <= a / 2 ^ 32 < 2 ^ 32) by (rewrite p32, p64 in *; lia).
  assert (Hb1 : 0 <= b / 2 ^ 32 < 2 ^ 32) by (rewrite p32, p64 in *; lia).
  set (a0 := a mod 2 ^ 32) in *. set (a1 := a / 2 ^ 32) in *. set (b0 := b mod 2 ^ 32) in *. set (b1 := b / 2 ^ 32) in *.
  clearbody a0 a1 b0 b1.
  assert (Hi : forall x y, 0 <= x < 2 ^ 32 -> 0 <= y < 2 ^ 32 -> exists l h, umul_least_32 x y = (l, h) /\ x * y = h * 2 ^ 32 + l /\ 0 <= l < 2 ^ 32 /\ 0 <= h < 2 ^ 32 - 1).
  { intros x y Hx Hy. exists (x * y mod 2 ^ 32), (x * y / 2 ^ 32). split; [apply umul32_ok; assumption|].
    pose proof (Z.div_mod (x * y) (2 ^ 32) ltac:(lia)). pose proof (Z.mod_pos_bound (x * y) (2 ^ 32) ltac:(lia)).
    rewrite p32 in *. split; [lia|]. split; [lia|]. assert (0 <= x * y <= 4294967295 * 4294967295) by nia. lia. }
  destruct (Hi a0 b0 Ma Mb) as [c0 [c1 [-> [E00 [R0 R1]]]]].
  destruct (Hi a0 b1 Ma Hb1) as [d0 [d1 [-> [E01 [R2 R3]]]]].
  destruct (Hi a1 b0 Ha1 Mb) as [e0 [e1 [-> [E10 [R4 R5]]]]].
  destruct (Hi a1 b1 Ha1 Hb1) as [c2 [c3 [-> [E11 [R6 R7]]]]]. clear Hi.
  assert (Hs : forall x y (c : bool), 0 <= x < 2 ^ 32 -> 0 <= y < 2 ^ 32 -> exists s k, add_carry 32 c x y = (s, k) /\ x + y + Z.b2z c = Z.b2z k * 2 ^ 32 + s /\ 0 <= s < 2 ^ 32).
  { intros x y c Hx Hy. rewrite add_carry_ok by (auto; lia). unfold sum_with_carry. eexists _, _. split; [reflexivity|].
    rewrite sum_wrap by assumption. pose proof (b2z_range c). rewrite p32 in *. split_ifs; cbn [Z.b2z]; lia. }
  destruct (Hs c1 d0 false) as [f1 [k1 [-> [S1 T1]]]]; [lia..|].
  destruct (Hs d1 c2 k1) as [f2 [k2 [-> [S2 T2]]]]; [lia..|].
  destruct (Hs 0 c3 k2) as [f3 [k3 [-> [S3 T3]]]]; [lia..|].
  destruct (Hs f1 e0 false) as [g1 [k4 [-> [S4 T4]]]]; [lia..|].
  destruct (Hs e1 f2 k4) as [g2 [k5 [-> [S5 T5]]]]; [lia..|].
  destruct (Hs 0 f3 k5) as [g3 [k6 [-> [S6 T6]]]]; [lia..|]. clear Hs.
  cbn [fst snd]. rewrite !pack_ok by lia. cbn [Z.b2z] in S1, S4.
  assert (Hp : a * b = a1 * b1 * 2 ^ 64 + (a0 * b1 + a1 * b0) * 2 ^ 32 + a0 * b0).
  { rewrite Da, Db, p32, p64. ring. }
  rewrite E00, E01, E10, E11 in Hp. rewrite p32, p64 in *.
  assert (Hb2 : 0 <= a * b < 18446744073709551616 * 18446744073709551616) by nia.
  pose proof (b2z_range k1); pose proof (b2z_range k2); pose proof (b2z_range k3); pose proof (b2z_range k4); pose proof (b2z_range k5); pose proof (b2z_range k6).
  generalize dependent (Z.b2z k1). generalize dependent (Z.b2z k2). generalize dependent (Z.b2z k3).
  generalize dependent (Z.b2z k4). generalize dependent (Z.b2z k5). generalize dependent (Z.b2z k6). generalize dependent (a * b).
  clear - R0 R1 R2 R3 R4 R5 R6 R7 T1 T2 T3 T4 T5 T6. intros p. intros.
  assert (E : p = 18446744073709551616 * (g3 * 4294967296 + g2) + (g1 * 4294967296 + c0)) by lia.
  assert (U1 : p / 18446744073709551616 = g3 * 4294967296 + g2) by (symmetry; apply (Z.div_unique_pos _ _ _ (g1 * 4294967296 + c0)); lia).
  assert (U2 : p mod 18446744073709551616 = g1 * 4294967296 + c0) by (symmetry; apply (Z.mod_unique_pos _ _ (g3 * 4294967296 + g2)); lia).
  rewrite U1, U2. auto.
Qed.

(** ** Checked sizes. *)
Definition exact_or_die (w x : Z) : outcome Z := if x <? 2 ^ w then Done x else Terminated.
Lemma add_die_ok bd w a b : 0 <= a < 2 ^ w -> 0 <= b < 2 ^ w -> add_or_overflow_die bd w a b = exact_or_die w (a + b).
Proof.
  intros Ha Hb. unfold add_or_overflow_die, builtin_add_overflow, exact_or_die.
  destruct bd; rewrite wrap_add by lia; split_ifs; try lia; reflexivity.
Qed.
Lemma mul_die_ok bd w a b : 0 <= a < 2 ^ w -> 0 <= b < 2 ^ w -> bd = die_builtin \/ (bd = die_msvc /\ b <> 0) ->
  mul_or_overflow_die bd w a b = exact_or_die w (a * b).
Proof.
  intros Ha Hb H. unfold mul_or_overflow_die, builtin_mul_overflow, exact_or_die.
  assert (0 <= a * b) by nia.
  destruct H as [->|[-> H]].
  - split_ifs; try lia; [|reflexivity]. rewrite (wrap_eq w _ 0) by lia. f_equal; lia.
  - destruct (Z.eqb_spec b 0); [lia|].
    destruct (Z.ltb_spec ((2 ^ w - 1) / b) a) as [L|L], (Z.ltb_spec (a * b) (2 ^ w)) as [L'|L']; try reflexivity.
    + exfalso. assert (2 ^ w - 1 < b * a); [|lia]. pose proof (Z.mul_succ_div_gt (2 ^ w - 1) b ltac:(lia)).
      pose proof (Z.mul_le_mono_nonneg_l (Z.succ ((2 ^ w - 1) / b)) a b ltac:(lia) ltac:(lia)). lia.
    + f_equal. rewrite (wrap_eq w _ 0) by lia. lia.
    + exfalso. pose proof (Z.mul_div_le (2 ^ w - 1) b ltac:(lia)).
      pose proof (Z.mul_le_mono_nonneg_l a ((2 ^ w - 1) / b) b ltac:(lia) ltac:(lia)). lia.
Qed.
Lemma cal_ok bd w sz n : 0 < sz < 2 ^ w -> 0 <= n < 2 ^ w ->
  cal_allocation_size_or_die bd w sz n = exact_or_die w (n * sz).
Proof.
  intros Hs Hn. pose proof (mul_die_ok die_msvc w n sz Hn ltac:(lia) ltac:(right; split; [reflexivity|lia])) as E.
  pose proof (mul_die_ok die_builtin w n sz Hn ltac:(lia) ltac:(left; reflexivity)) as E2.
  unfold mul_or_overflow_die in E, E2. destruct (Z.eqb_spec sz 0); [lia|]. destruct bd; assumption.
Qed.
Definition total (l : list Z) : Z := fold_right Z.add 0 l.
Definition product (l : list Z) : Z := fold_right Z.mul 1 l.
Lemma total_nonneg w l : Forall (fun x => 0 <= x < 2 ^ w) l -> 0 <= total l.
Proof. induction 1; cbn [total fold_right] in *; [lia|]. unfold total in IHForall. lia. Qed.
Lemma add_chain_ok bd w args : forall size, Forall (fun x => 0 <= x < 2 ^ w) (size :: args) ->
  add_or_overflow_die_chain bd w size args = exact_or_die w (total (size :: args)).
Proof.
  induction args as [|a args IH]; intros size H; inversion H as [|? ? H1 H2]; subst.
  - cbn [add_or_overflow_die_chain]. unfold exact_or_die. cbn [total fold_right]. replace (size + 0) with size by lia. destruct (Z.ltb_spec size (2 ^ w)); [reflexivity|lia].
  - cbn [add_or_overflow_die_chain]. rewrite (IH a H2). pose proof (total_nonneg w _ H2) as P. unfold exact_or_die at 1.
    change (total (size :: a :: args)) with (size + total (a :: args)). destruct (Z.ltb_spec (total (a :: args)) (2 ^ w)) as [L|L].
    + cbn [obind]. apply add_die_ok; [exact H1|lia].
    + cbn [obind]. unfold exact_or_die. destruct (Z.ltb_spec (size + total (a :: args)) (2 ^ w)); [lia|reflexivity].
Qed.

Lemma sub_underflow_ok w a b : 1 <= w -> - 2 ^ (w - 1) <= a < 2 ^ (w - 1) -> - 2 ^ (w - 1) <= b < 2 ^ (w - 1) ->
  sub_underflow w a b = Done (if (- 2 ^ (w - 1) <=? a - b) && (a - b <? 2 ^ (w - 1)) then Some (a - b) else None).
Proof.
  intros Hw Ha Hb. unfold sub_underflow, signed_result.
  destruct (Z.ltb_spec 0 b); split_ifs; try lia; cbn [obind]; split_ifs; try lia; cbn [obind]; split_ifs; try lia; try reflexivity.
Qed.
