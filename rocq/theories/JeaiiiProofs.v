(** Correctness of the multiply-shift decimal printer (jeaiii_method.h). *)
From Coq Require Import String Ascii NArith.
From Verif Require Import Base NumSpec NumFacts IntPrintModel IntPrintProofs.

(** [t] is a 32.32 fixed point approximation of u / 10^m, good enough to read off all digits. *)
Definition fix_ok (t u m : Z) : Prop := 0 <= u /\ u * 2 ^ 32 <= t * 10 ^ m < (u + 1) * 2 ^ 32.

Ltac Zify.zify_post_hook ::= Z.div_mod_to_equations.

Lemma jeaiii_a_fix m u : 1 <= m <= 8 -> 0 <= u < 10 ^ (m + 2) -> u < 2 ^ 32 ->
  (10 ^ (m + 1) <= u \/ m = 7) -> fix_ok (jeaiii_a m u) u m.
Proof.
  intros Hm Hu Hu32 Hlow. unfold fix_ok, jeaiii_a, jeaiii_const, wrap. split; [lia|].
  assert (m = 1 \/ m = 2 \/ m = 3 \/ m = 4 \/ m = 5 \/ m = 6 \/ m = 7 \/ m = 8) as Hc by lia.
  destruct Hc as [-> |[-> |[-> |[-> |[-> |[-> |[-> | ->]]]]]]];
  match goal with |- context [jeaiii_v ?n] => let v := eval vm_compute in (jeaiii_v n) in change (jeaiii_v n) with v end;
  match goal with |- context [2 ^ ?e / 10 ^ ?n + 1 + ?a - ?b] =>
    let v := eval vm_compute in (2 ^ e / 10 ^ n + 1 + a - b) in change (2 ^ e / 10 ^ n + 1 + a - b) with v end;
  match goal with |- context [?a / 6 * 4] => let v := eval vm_compute in (a / 6 * 4) in change (a / 6 * 4) with v end;
  match goal with H : 0 <= u < 10 ^ ?e |- _ => let v := eval vm_compute in (10 ^ e) in change (10 ^ e) with v in H end;
  match goal with H : 10 ^ ?e <= u \/ _ |- _ => let v := eval vm_compute in (10 ^ e) in change (10 ^ e) with v in H end;
  repeat match goal with |- context [2 ^ ?e] => let v := eval vm_compute in (2 ^ e) in change (2 ^ e) with v end;
  repeat match goal with |- context [10 ^ ?e] => let v := eval vm_compute in (10 ^ e) in change (10 ^ e) with v end;
  change (2 ^ 32) with 4294967296 in Hu32;
  match goal with |- context [(?c * u) mod ?M] => rewrite (Z.mod_small (c * u) M) by lia end;
  match goal with |- context [(?x) mod 18446744073709551616] => rewrite (Z.mod_small x) by lia end;
  lia.
Qed.

Lemma fix_ok_head t u m : 0 <= m -> fix_ok t u m -> 0 <= t /\ t / 2 ^ 32 = u / 10 ^ m.
Proof.
  intros Hm (H0 & H1 & H2). assert (Hp : 0 < 10 ^ m) by (apply Z.pow_pos_nonneg; lia).
  change (2 ^ 32) with 4294967296 in *. set (P := 10 ^ m) in *. split; [nia|]. clearbody P.
  pose proof (Z.div_mod u P ltac:(lia)). pose proof (Z.mod_pos_bound u P ltac:(lia)).
  set (q := u / P) in *. set (r := u mod P) in *. clearbody q r. symmetry.
  apply Z.div_unique with (t - 4294967296 * q); [|lia]. left. nia.
Qed.

Lemma fix_ok_tail t u m : 0 <= m -> fix_ok t u m -> fix_ok (t mod 2 ^ 32) (u mod 10 ^ m) m.
Proof.
  intros Hm H. destruct (fix_ok_head t u m Hm H) as [Ht Hq]. destruct H as (H0 & H1 & H2).
  assert (Hp : 0 < 10 ^ m) by (apply Z.pow_pos_nonneg; lia).
  unfold fix_ok.
  set (P := 10 ^ m) in *. clearbody P. change (2 ^ 32) with 4294967296 in *.
  pose proof (Z.div_mod u P ltac:(lia)) as E1. pose proof (Z.mod_pos_bound u P ltac:(lia)) as E2.
  pose proof (Z.div_mod t 4294967296 ltac:(lia)) as E3.
  rewrite Hq in E3. set (q := u / P) in *. set (r := u mod P) in *.
  set (s := t mod 4294967296) in *. clearbody q r s.
  split; [lia|]. subst u t. split; nia.
Qed.

Lemma wrap_mod_small w x : 0 <= x < 2 ^ w -> wrap w x = x.
Proof. intros; unfold wrap; apply Z.mod_small; assumption. Qed.

Lemma map_digit10 upper ds : digits_ok 10 ds -> map (digit_char upper) ds = map (digit_char false) ds.
Proof.
  intros H. induction H; simpl; [reflexivity|]. rewrite IHForall. f_equal. apply digit_char_base10. lia.
Qed.

Lemma jeaiii_w_spec u : 0 <= u < 100 -> jeaiii_w u = Some (map (digit_char false) (digs 10 2 u)).
Proof.
  intros Hu. unfold jeaiii_w. rewrite tb_pair_spec by lia. f_equal. cbn [digs app map].
  rewrite (Z.mod_small (u / 10)) by lia. reflexivity.
Qed.

Lemma char_literal_add0_spec u : 0 <= u < 10 ->
  option_map (fun c => [c]) (char_literal_add0 u) = Some (map (digit_char false) (digs 10 1 u)).
Proof.
  intros Hu. unfold char_literal_add0.
  destruct (Z.leb_spec 0 u); [|lia]. destruct (Z.ltb_spec u 10); [|lia]. cbn [andb option_map digs app map].
  rewrite Z.mod_small by lia. rewrite digit_char_small by lia. reflexivity.
Qed.

Lemma jeaiii_chain_spec k odd : forall t u, fix_ok t u (2 * Z.of_nat k + (if odd : bool then 1 else 0)) ->
  jeaiii_chain k odd t = Some (map (digit_char false) (digs 10 (2 * k + (if odd then 1 else 0)) u)).
Proof.
  induction k as [|k IH]; intros t u H.
  - cbn [jeaiii_chain]. change (2 * 0)%nat with 0%nat. destruct odd; [|reflexivity].
    change (2 * Z.of_nat 0 + 1) with 1 in H. change (0 + 1)%nat with 1%nat.
    pose proof (fix_ok_tail t u 1 ltac:(lia) H) as T. unfold jeaiii_s.
    assert (F : fix_ok (10 * (t mod 2 ^ 32)) (u mod 10) 0).
    { destruct T as (T0 & T1). split; [change (10 ^ 1) with 10 in *; lia|].
      change (10 ^ 1) with 10 in *. rewrite Z.pow_0_r.
      set (a := t mod 2 ^ 32) in *. set (b := u mod 10) in *. clearbody a b. lia. }
    pose proof (fix_ok_head _ _ 0 ltac:(lia) F) as [_ Hd]. rewrite Z.pow_0_r, Z.div_1_r in Hd.
    change (wrap 32 t) with (t mod 2 ^ 32).
    rewrite wrap_mod_small by (change (2 ^ 64) with 18446744073709551616; change (2 ^ 32) with 4294967296; lia).
    rewrite Hd. rewrite char_literal_add0_spec by lia. do 2 f_equal.
    cbn [digs app]. rewrite Z.mod_mod by lia. reflexivity.
  - cbn [jeaiii_chain]. set (o := if odd then 1 else 0) in *.
    set (r := 2 * Z.of_nat k + o).
    assert (Hr : 0 <= r) by (unfold r, o; destruct odd; lia).
    replace (2 * Z.of_nat (S k) + o) with (r + 2) in H by (unfold r; lia).
    pose proof (fix_ok_tail t u (r + 2) ltac:(lia) H) as T.
    unfold jeaiii_d. change (wrap 32 t) with (t mod 2 ^ 32).
    rewrite wrap_mod_small by (change (2 ^ 64) with 18446744073709551616; change (2 ^ 32) with 4294967296; lia).
    assert (F : fix_ok (100 * (t mod 2 ^ 32)) (u mod 10 ^ (r + 2)) r).
    { destruct T as (T0 & T1). split; [lia|]. rewrite (Z.pow_add_r 10 r 2) in T1 by lia.
      rewrite (Z.pow_add_r 10 r 2) by lia. change (10 ^ 2) with 100 in *.
      set (a := t mod 2 ^ 32) in *. set (b := u mod (10 ^ r * 100)) in *. set (P := 10 ^ r) in *. clearbody a b P. lia. }
    pose proof (fix_ok_head _ _ _ Hr F) as [_ Hd]. rewrite Hd.
    assert (Hp : 0 < 10 ^ r) by (apply Z.pow_pos_nonneg; lia).
    rewrite jeaiii_w_spec.
    2:{ rewrite (Z.pow_add_r 10 r 2) by lia. change (10 ^ 2) with 100.
        pose proof (Z.mod_pos_bound u (10 ^ r * 100) ltac:(lia)).
        split; [apply Z.div_pos; lia|apply Z.div_lt_upper_bound; lia]. }
    rewrite (IH _ _ F). cbn [opt_app]. f_equal. rewrite <- map_app. f_equal.
    set (n := (2 * k + (if odd then 1 else 0))%nat).
    assert (Hn : r = Z.of_nat n) by (unfold r, n, o; destruct odd; lia).
    replace (2 * S k + (if odd then 1 else 0))%nat with (2 + n)%nat by (unfold n; lia).
    rewrite digs_app by lia. rewrite <- Hn.
    replace (r + 2) with (Z.of_nat (2 + n)) by lia. rewrite (digs_mod_ge 10 n) by lia.
    f_equal. rewrite <- (digs_mod 10 2 (u / 10 ^ r)) by lia. f_equal.
    rewrite Nat2Z.inj_add, <- Hn. change (Z.of_nat 2) with 2. change (10 ^ 2) with 100.
    rewrite Z.pow_add_r by lia. change (10 ^ 2) with 100.
    rewrite (Z.mul_comm 100). rewrite Z.rem_mul_r by lia.
    rewrite (Z.mul_comm (10 ^ r)), Z.div_add by lia.
    rewrite (Z.div_small (u mod 10 ^ r)) by (apply Z.mod_pos_bound; lia). lia.
Qed.

Lemma jeaiii_c_spec n u : 0 <= n <= 9 -> 0 <= u < 10 ^ (n + 1) -> u < 2 ^ 32 ->
  (10 ^ n <= u \/ n <= 1 \/ n = 8) ->
  jeaiii_c n u = Some (map (digit_char false) (digs 10 (Z.to_nat (n + 1)) u)).
Proof.
  intros Hn Hu H32 Hlow. unfold jeaiii_c.
  destruct (Z.eqb_spec n 0) as [->|N0]; [apply char_literal_add0_spec; exact Hu|].
  destruct (Z.eqb_spec n 1) as [->|N1]; [apply jeaiii_w_spec; exact Hu|].
  set (m := n - 1).
  assert (Hm : 1 <= m <= 8) by lia.
  pose proof (jeaiii_a_fix m u Hm) as F. specialize (F ltac:(replace (m + 2) with (n + 1) by lia; lia) H32).
  specialize (F ltac:(replace (m + 1) with n by lia; lia)).
  pose proof (fix_ok_head _ _ m ltac:(lia) F) as [_ Hd].
  assert (Hp : 0 < 10 ^ m) by (apply Z.pow_pos_nonneg; lia).
  assert (Hq : 0 <= u / 10 ^ m < 100).
  { split; [apply Z.div_pos; lia|apply Z.div_lt_upper_bound; [lia|]].
    replace (n + 1) with (m + 2) in Hu by lia. rewrite Z.pow_add_r in Hu by lia.
    change (10 ^ 2) with 100 in Hu. lia. }
  rewrite Hd, jeaiii_w_spec by lia.
  assert (Em : m = 2 * Z.of_nat (Z.to_nat (m / 2)) + (if Z.odd m then 1 else 0)).
  { pose proof (Z.div_mod m 2 ltac:(lia)). rewrite Zmod_odd in H. rewrite Z2Nat.id by lia. lia. }
  rewrite Em in F at 2. rewrite (jeaiii_chain_spec _ _ _ _ F). cbn [opt_app]. f_equal.
  rewrite <- map_app. f_equal.
  replace (Z.to_nat (n + 1)) with (2 + (2 * Z.to_nat (m / 2) + (if Z.odd m then 1 else 0)))%nat.
  2:{ destruct (Z.odd m); lia. }
  rewrite (digs_app 10 2) by lia. do 3 f_equal.
  rewrite Em at 1. f_equal. destruct (Z.odd m); lia.
Qed.

Lemma jeaiii_tree_gen fuel : forall left right u, 0 <= left <= right -> right - left + 1 <= Z.of_nat fuel ->
  0 <= u < 10 ^ (right + 1) -> (left = 0 \/ 10 ^ left <= u) ->
  exists n, left <= n <= right /\ digit_count 10 u (n + 1) /\ jeaiii_tree fuel left right u = jeaiii_c n u.
Proof.
  induction fuel as [|f IH]; intros left right u Hlr Hf Hu Hl; [lia|]. cbn [jeaiii_tree].
  assert (D : forall n, 0 <= n -> u < 10 ^ (n + 1) -> (n = 0 \/ 10 ^ n <= u) -> digit_count 10 u (n + 1)).
  { intros n H0 H1 H2. unfold digit_count. repeat split; try lia.
    replace (n + 1 - 1) with n by lia. lia. }
  destruct (Z.eqb_spec left right) as [->|N1].
  { exists right. split; [lia|]. split; [apply D; lia|reflexivity]. }
  destruct (Z.eqb_spec (left + 1) right) as [E|N2].
  { destruct (Z.ltb_spec u (10 ^ right)).
    - exists left. split; [lia|]. split; [|reflexivity]. apply D; [lia|rewrite E; lia|lia].
    - exists right. split; [lia|]. split; [|reflexivity]. apply D; lia. }
  destruct (Z.eqb_spec (left + 2) right) as [E|N3].
  { destruct (Z.ltb_spec u (10 ^ (left + 1))).
    - exists left. split; [lia|]. split; [|reflexivity]. apply D; lia.
    - destruct (IH (left + 1) right u) as (n & Hn & Dn & ->); try lia. exists n. repeat split; try lia; apply Dn. }
  destruct (Z.eqb_spec left 0) as [E|N4].
  { destruct (Z.ltb_spec u 100).
    - destruct (IH 0 1 u) as (n & Hn & Dn & ->); try lia. exists n. repeat split; try lia; apply Dn.
    - destruct (IH 2 right u) as (n & Hn & Dn & ->); try lia. exists n. repeat split; try lia; apply Dn. }
  assert (Hm : left < (left + right) / 2 < right) by lia.
  set (mid := (left + right) / 2) in *. clearbody mid.
  destruct (Z.ltb_spec u (10 ^ (mid + 1))).
  - destruct (IH left mid u) as (n & Hn & Dn & ->); try lia. exists n. repeat split; try lia; apply Dn.
  - destruct (IH (mid + 1) right u) as (n & Hn & Dn & ->); try lia. exists n. repeat split; try lia; apply Dn.
Qed.

Lemma jeaiii_tree_spec u : 0 <= u < 2 ^ 32 ->
  exists len, digit_count 10 u len /\ jeaiii_tree 10 0 9 u = Some (map (digit_char false) (digs 10 (Z.to_nat len) u)).
Proof.
  intros Hu.
  destruct (jeaiii_tree_gen 10 0 9 u) as (n & Hn & D & ->); try lia.
  exists (n + 1). split; [exact D|].
  destruct D as (D0 & D1 & D2). replace (n + 1 - 1) with n in * by lia.
  apply jeaiii_c_spec; lia.
Qed.
