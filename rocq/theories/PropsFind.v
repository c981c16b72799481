From Verif Require Import Base CharModel CharSpec PropsChar FindModel FindSpec FindProofs FindMuslProofs.
Open Scope Z_scope.

(** * C54: the searches for a character return the first match *)

(** The builds that exist: vectors of 16, 32 or 64 bytes or none; size_t of 4 or 8 bytes. *)
Definition build_ok (c : fcfg) : Prop :=
  char_width (f_w c) /\ (f_simd c = 0 \/ f_simd c = 16 \/ f_simd c = 32 \/ f_simd c = 64)%nat /\
  (f_word c = 4 \/ f_word c = 8)%nat.

Lemma build_simd : forall c, build_ok c -> f_simd c <> 0%nat -> (16 <= f_simd c)%nat.
Proof. unfold build_ok. intros; lia. Qed.

Lemma find_constant_is_loop : forall c findnot ch s,
  build_ok c -> code_unit (f_w c) ch -> text (f_w c) s -> zero_test_ok c ->
  (findnot = true -> f_simd c = 0%nat -> f_big c = false) ->
  find_constant c findnot ch s = skip_while (pass_char findnot ch) s.
Proof.
  intros c findnot ch s Hc Hch Ht Hz Hbig. unfold find_constant.
  destruct Hc as (Hw & Hs & Hword).
  apply small_first_ok. intros k Hk. set (s' := skipn k s).
  assert (Ht' : text (f_w c) s').
  { unfold text in *. rewrite Forall_forall in *. intros y Hy. apply Ht.
    rewrite <- (firstn_skipn k s). apply in_or_app. right. exact Hy. }
  clearbody s'. unfold find_constant_cold.
  destruct ((f_memchr c && negb findnot) && ((f_w c =? 8) || (f_w c =? 32))) eqn:E.
  - apply andb_prop in E. destruct E as [E _]. apply andb_prop in E. destruct E as [_ E].
    apply negb_true_iff in E. subst findnot. reflexivity.
  - destruct (Nat.eqb (f_simd c) 0) eqn:E0; cbn [negb].
    + apply Nat.eqb_eq in E0. destruct (f_w c =? 8) eqn:E8; [|reflexivity].
      apply Z.eqb_eq in E8. unfold text, code_unit in *. rewrite E8 in *.
      apply find_musl_ok; [lia|exact Hch|exact Ht'|]. intros F. apply Hbig; assumption.
    + apply Nat.eqb_neq in E0.
      apply skip_while_resume; apply find_simd_constant_passes; try assumption; lia.
Qed.

(** Looking for a character (find_lf, the separators of the http parser, ...) or for the first
    character that differs from it (the end of a run of zeros). *)
Theorem C54_find_char : forall c findnot ch s,
  build_ok c -> code_unit (f_w c) ch -> text (f_w c) s ->
  (f_simd c = 64%nat -> f_ptestm c = false) ->
  (findnot = true -> f_simd c = 0%nat -> f_big c = false) ->
  first_at (fun x => if findnot then x <> ch else x = ch) s (find_constant c findnot ch s).
Proof.
  intros c findnot ch s Hc Hch Ht Hz Hbig.
  rewrite find_constant_is_loop; try assumption.
  - apply skip_while_first. apply Forall_forall. intros x _. unfold pass_char. destruct findnot.
    + rewrite Z.eqb_neq. reflexivity.
    + rewrite negb_false_iff, Z.eqb_eq. reflexivity.
  - unfold zero_test_ok. destruct (Nat.eq_dec (f_simd c) 64); auto.
Qed.
Print Assumptions C54_find_char.

(** With the hosted memchr, line feeds are found in any build for one-byte and four-byte types. *)
Theorem C54_find_lf_memchr : forall c s, f_memchr c = true -> f_w c = 8 \/ f_w c = 32 ->
  first_at (fun x => x = 10) s (find_lf c s).
Proof.
  intros c s Hm Hw. unfold find_lf, find_constant.
  rewrite small_first_ok.
  - apply skip_while_first. apply Forall_forall. intros x _. unfold pass_char.
    rewrite negb_false_iff, Z.eqb_eq. reflexivity.
  - intros k Hk. unfold find_constant_cold. rewrite Hm.
    replace ((f_w c =? 8) || (f_w c =? 32)) with true by (destruct Hw as [E|E]; rewrite E; reflexivity).
    reflexivity.
Qed.
Print Assumptions C54_find_lf_memchr.

Lemma find_space_is_loop : forall c html findnot s,
  build_ok c -> text (f_w c) s -> zero_test_ok c ->
  (findnot = true -> f_simd c = 0%nat \/ Forall (plain_char (f_w c)) s) ->
  find_space c html findnot s = skip_while (pass_space (f_w c) html findnot) s.
Proof.
  intros c html findnot s Hc Ht Hz Hp. unfold find_space.
  destruct Hc as (Hw & Hs & Hword).
  apply small_first_ok. intros k Hk.
  assert (Sub : forall P : Z -> Prop, Forall P s -> Forall P (skipn k s)).
  { intros P H. rewrite Forall_forall in *. intros y Hy. apply H.
    rewrite <- (firstn_skipn k s). apply in_or_app. right. exact Hy. }
  assert (Ht' := Sub _ Ht).
  assert (Hp' : findnot = true -> f_simd c = 0%nat \/ Forall (plain_char (f_w c)) (skipn k s)).
  { intros F. destruct (Hp F) as [A|A]; [left; exact A|right; apply Sub; exact A]. }
  set (s' := skipn k s) in *. clearbody s'. unfold find_space_cold.
  destruct (Nat.eqb (f_simd c) 0) eqn:E0; [reflexivity|].
  apply Nat.eqb_neq in E0.
  apply skip_while_resume; apply find_space_simd_passes; try assumption; try lia;
    intros F; destruct (Hp' F); [contradiction|assumption|contradiction|assumption].
Qed.

Lemma pass_space_first : forall w (html findnot : bool) s, char_width w -> text w s ->
  first_at (fun x : Z => if findnot then ~ space_class html x else space_class html x) s
    (skip_while (pass_space w html findnot) s).
Proof.
  intros w html findnot s Hw Ht. apply skip_while_first.
  unfold text in Ht. rewrite Forall_forall in *. intros x Hx.
  apply pass_space_spec; [exact Hw|apply Ht; exact Hx].
Qed.

(** find_c_space, find_html_whitespace: the first whitespace character of any text. *)
Theorem C54_find_space : forall c html s,
  build_ok c -> text (f_w c) s -> (f_simd c = 64%nat -> f_ptestm c = false) ->
  first_at (space_class html) s (find_space c html false s).
Proof.
  intros c html s Hc Ht Hz. rewrite find_space_is_loop; try assumption.
  - exact (pass_space_first (f_w c) html false s (proj1 Hc) Ht).
  - unfold zero_test_ok. destruct (Nat.eq_dec (f_simd c) 64); auto.
  - discriminate.
Qed.
Print Assumptions C54_find_space.

(** find_none_c_space, find_none_html_whitespace: the first character that is not whitespace --
    in builds without vector instructions; or when the text has no control characters below '\t' and no
    code units of the upper half of the type from 2^(w-1)+9 on (0x89 for char); or when a character other
    than whitespace is among the first [f_simd c] characters. *)
Theorem C54_find_none_space_partial : forall c html s,
  build_ok c -> text (f_w c) s ->
  (f_simd c = 0%nat \/
   (f_simd c = 64%nat -> f_ptestm c = false) /\ Forall (fun x => 9 <= x < 2 ^ (f_w c - 1) + 9) s \/
   exists j, (j < f_simd c)%nat /\ (j < length s)%nat /\ ~ space_class html (nth j s 0)) ->
  first_at (fun x => ~ space_class html x) s (find_space c html true s).
Proof.
  intros c html s Hc Ht H.
  assert (F := pass_space_first (f_w c) html true s (proj1 Hc) Ht). cbn iota in F.
  destruct H as [H|[[Hz H]|[j (Hj1 & Hj2 & Hj3)]]].
  - rewrite find_space_is_loop; try assumption.
    + left. lia.
    + intros _. left. exact H.
  - rewrite find_space_is_loop; try assumption.
    + unfold zero_test_ok. destruct (Nat.eq_dec (f_simd c) 64); auto.
    + intros _. right. exact H.
  - unfold find_space. rewrite small_first_decides; [exact F|apply build_simd; [exact Hc|lia]|].
    destruct F as (F1 & F2 & F3).
    assert (skip_while (pass_space (f_w c) html true) s <= j)%nat; [|lia].
    destruct (Nat.le_gt_cases (skip_while (pass_space (f_w c) html true) s) j) as [K|K]; [exact K|].
    exfalso. exact (F2 j K Hj3).
Qed.
Print Assumptions C54_find_none_space_partial.

(** In general the vector code of find_none_c_space takes other characters for whitespace: after sixteen
    spaces, the eight letters U+00E9 (UTF-8 C3 A9) are skipped as a block.  (The shift by 0x80 that turns
    an unsigned comparison into a signed one is applied, but the comparison is unsigned.) *)
Definition sse2_char : fcfg := mk_fcfg 8 16 false true 8 false.
Definition spaces_then_accents : list Z := repeat 32 16 ++ concat (repeat [195; 169] 8) ++ [10].
Theorem C54_find_none_space_refuted :
  exists c s, build_ok c /\ text (f_w c) s /\ f_ptestm c = false /\
    ~ first_at (fun x => ~ C_space x) s (find_none_c_space c s) /\
    find_none_c_space c s = length s.
Proof.
  exists sse2_char, spaces_then_accents.
  split; [unfold build_ok, char_width, sse2_char; cbn; lia|].
  split; [unfold text, code_unit, spaces_then_accents; cbn; repeat constructor; lia|].
  split; [reflexivity|].
  assert (E : find_none_c_space sse2_char spaces_then_accents = 33%nat) by (vm_compute; reflexivity).
  split; [|exact E].
  rewrite E. intros (_ & F & _). apply (F 16%nat); [lia|].
  change (nth 16 spaces_then_accents 0) with 195. unfold C_space. lia.
Qed.
Print Assumptions C54_find_none_space_refuted.

(** Built by GCC for AVX512BW, the test for a vector of zeros is inverted: the vectors that contain the
    character are the ones passed over.  Of 16-bit text with a line feed at position 70 (memchr is
    not used for it), find_lf finds none; in char text, 64 zeros and then 64 ones, the
    ones are skipped as if they were zeros (the routine that the integer scanner uses to skip leading zeros). *)
Definition avx512_char16 : fcfg := mk_fcfg 16 64 true true 8 false.
Definition avx512_char : fcfg := mk_fcfg 8 64 true true 8 false.
Definition lf_at_70 : list Z := repeat 97 70 ++ [10] ++ repeat 97 30.
Definition zeros_ones : list Z := repeat 48 64 ++ repeat 49 64.
Theorem C54_avx512bw_refuted :
  (exists c s, build_ok c /\ text (f_w c) s /\ f_w c = 16 /\ nth 70 s 0 = 10 /\
     find_lf c s = length s /\ ~ first_at (fun x => x = 10) s (find_lf c s)) /\
  (exists c s, build_ok c /\ text (f_w c) s /\ f_w c = 8 /\ nth 64 s 0 = 49 /\
     find_none_zero c s = length s /\ ~ first_at (fun x => x <> 48) s (find_none_zero c s)).
Proof.
  split.
  - exists avx512_char16, lf_at_70.
    split; [unfold build_ok, char_width, avx512_char16; cbn; lia|].
    split; [unfold text, code_unit, lf_at_70; cbn; repeat constructor; lia|].
    assert (E : find_lf avx512_char16 lf_at_70 = 101%nat) by (vm_compute; reflexivity).
    split; [reflexivity|]. split; [reflexivity|]. split; [exact E|].
    rewrite E. intros (_ & F & _). apply (F 70%nat); [lia|reflexivity].
  - exists avx512_char, zeros_ones.
    split; [unfold build_ok, char_width, avx512_char; cbn; lia|].
    split; [unfold text, code_unit, zeros_ones; cbn; repeat constructor; lia|].
    assert (E : find_none_zero avx512_char zeros_ones = 128%nat) by (vm_compute; reflexivity).
    split; [reflexivity|]. split; [reflexivity|]. split; [exact E|].
    rewrite E. intros (_ & F & _). apply (F 64%nat); [lia|]. cbn. lia.
Qed.
Print Assumptions C54_avx512bw_refuted.

(** On a big-endian machine without vector instructions the borrow of the word trick reaches the first
    character: the search for the end of a run of zeros passes over "10000000". *)
Definition big_endian_char : fcfg := mk_fcfg 8 0 false true 8 true.
Theorem C54_big_endian_refuted :
  exists c s, build_ok c /\ text (f_w c) s /\ f_big c = true /\ nth 0 s 0 = 49 /\
    find_none_zero c s = length s /\ ~ first_at (fun x => x <> 48) s (find_none_zero c s).
Proof.
  exists big_endian_char, ([49] ++ repeat 48 7).
  split; [unfold build_ok, char_width, big_endian_char; cbn; lia|].
  split; [unfold text, code_unit; cbn; repeat constructor; lia|].
  assert (E : find_none_zero big_endian_char ([49] ++ repeat 48 7) = 8%nat) by (vm_compute; reflexivity).
  split; [reflexivity|]. split; [reflexivity|]. split; [exact E|].
  rewrite E. intros (_ & F & _). apply (F 0%nat); [lia|]. cbn. lia.
Qed.
Print Assumptions C54_big_endian_refuted.

(** The integer scanner's routine that skips leading zeros is the one modelled in IntScanModel. *)
Theorem C54_leading_zeros : forall c s, build_ok c -> text (f_w c) s ->
  (f_simd c = 64%nat -> f_ptestm c = false) -> (f_simd c = 0%nat -> f_big c = false) ->
  exists zeros, s = zeros ++ skipn (find_none_zero c s) s /\ Forall (fun x => x = 48) zeros /\
    (forall x rest, skipn (find_none_zero c s) s = x :: rest -> x <> 48).
Proof.
  intros c s Hc Ht Hz Hb.
  assert (Hch : code_unit (f_w c) 48).
  { unfold code_unit. assert (2 ^ 8 <= 2 ^ f_w c); [|change (2 ^ 8) with 256 in *; lia].
    apply Z.pow_le_mono_r; [lia|]. destruct Hc as [Hw _]. unfold char_width in Hw. lia. }
  destruct (C54_find_char c true 48 s Hc Hch Ht Hz (fun _ => Hb)) as (F1 & F2 & F3).
  fold (find_none_zero c s) in *. set (k := find_none_zero c s) in *. clearbody k.
  exists (firstn k s). split; [symmetry; apply firstn_skipn|]. split.
  - apply Forall_forall. intros x Hx. apply (In_nth _ _ 0) in Hx. destruct Hx as [j [Hj E]].
    rewrite firstn_length in Hj. specialize (F2 j ltac:(lia)).
    rewrite <- (firstn_skipn k s) in F2. rewrite app_nth1 in F2 by (rewrite firstn_length; lia).
    rewrite E in F2. lia.
  - intros x rest E.
    assert (L : (k < length s)%nat).
    { assert (length (skipn k s) = S (length rest)) by (rewrite E; reflexivity).
      rewrite skipn_length in H. lia. }
    specialize (F3 L). rewrite <- (firstn_skipn k s), E in F3.
    rewrite app_nth2 in F3 by (rewrite firstn_length; lia).
    rewrite firstn_length in F3. replace (k - Nat.min k (length s))%nat with 0%nat in F3 by lia. exact F3.
Qed.
Print Assumptions C54_leading_zeros.

Example C54_example :
  build_ok sse2_char /\ text 8 (repeat 32 40 ++ [195; 169; 10]) /\
  find_lf sse2_char (repeat 97 50 ++ [10; 97]) = 50%nat /\
  find_lf (mk_fcfg 8 0 false false 8 true) (repeat 97 50 ++ [10; 97]) = 50%nat /\
  find_none_c_space sse2_char (repeat 32 40 ++ [97; 32]) = 40%nat /\
  find_c_space sse2_char (repeat 200 40 ++ [9; 32]) = 40%nat.
Proof.
  unfold build_ok, char_width, text, code_unit.
  repeat split; try (vm_compute; reflexivity); try (cbn; lia); try (cbn; repeat constructor; lia).
Qed.
