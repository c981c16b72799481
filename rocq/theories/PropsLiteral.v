(** Printing arrays of characters and strings that end with a NUL (include/fast_io_core_impl/integers/pointer.h). *)
From Verif Require Import Base Outcome LiteralModel.
Local Open Scope Z_scope.

(** A text without the character NUL. *)
Definition no_nul (t : list Z) : Prop := ~ In 0 t.

(** * Supporting lemmas *)
Lemma zlen_app {A} (a b : list A) : zlen (a ++ b) = zlen a + zlen b.
Proof. unfold zlen. rewrite app_length. lia. Qed.
Lemma zlen_nonneg {A} (a : list A) : 0 <= zlen a.
Proof. unfold zlen. lia. Qed.
Lemma scatter_prefix a r : scatter (a ++ r) (zlen a) = Done a.
Proof.
  unfold scatter. rewrite zlen_app. pose proof (zlen_nonneg a). pose proof (zlen_nonneg r).
  destruct (Z.leb_spec 0 (zlen a)); [|lia]. destruct (Z.leb_spec (zlen a) (zlen a + zlen r)); [|lia]. cbn [andb].
  replace (Z.to_nat (zlen a)) with (length a) by (unfold zlen; lia).
  rewrite firstn_app, Nat.sub_diag, firstn_all. cbn [firstn]. rewrite app_nil_r. reflexivity.
Qed.
Lemma cstr_len_loop_nul a r n : no_nul a -> cstr_len_loop (a ++ 0 :: r) n = Done (n + zlen a).
Proof.
  revert n. induction a as [|c a IH]; intros n H; cbn [app cstr_len_loop].
  - change (zlen []) with 0. rewrite Z.eqb_refl. f_equal; lia.
  - destruct (Z.eqb_spec c 0) as [E|_]; [exfalso; apply H; left; exact E|].
    rewrite IH by (intros K; apply H; right; exact K). unfold zlen. cbn [length]. f_equal. lia.
Qed.
Lemma cstr_len_loop_none m n : no_nul m -> cstr_len_loop m n = Undefined.
Proof.
  revert n. induction m as [|c m IH]; intros n H; cbn [cstr_len_loop]; [reflexivity|].
  destruct (Z.eqb_spec c 0) as [E|_]; [exfalso; apply H; left; exact E|]. apply IH. intros K; apply H; right; exact K.
Qed.
Lemma cstr_nlen_loop_nul a r n maxn : no_nul a -> n + zlen a < maxn -> cstr_nlen_loop (a ++ 0 :: r) maxn n = Done (n + zlen a).
Proof.
  revert n. induction a as [|c a IH]; intros n H L; cbn [app cstr_nlen_loop].
  - change (zlen []) with 0 in *. destruct (Z.eqb_spec n maxn); [lia|]. rewrite Z.eqb_refl. f_equal. lia.
  - assert (K : zlen (c :: a) = 1 + zlen a) by (unfold zlen; cbn [length]; lia). pose proof (zlen_nonneg a).
    destruct (Z.eqb_spec n maxn); [lia|].
    destruct (Z.eqb_spec c 0) as [E|_]; [exfalso; apply H; left; exact E|].
    rewrite IH; [f_equal; lia|intros J; apply H; right; exact J|lia].
Qed.
Lemma cstr_nlen_loop_full a r n : no_nul a -> cstr_nlen_loop (a ++ r) (n + zlen a) n = Done (n + zlen a).
Proof.
  revert n. induction a as [|c a IH]; intros n H.
  - change (zlen []) with 0. destruct r; cbn [app cstr_nlen_loop]; destruct (Z.eqb_spec n (n + 0)); try lia; f_equal; lia.
  - assert (K : zlen (c :: a) = 1 + zlen a) by (unfold zlen; cbn [length]; lia). pose proof (zlen_nonneg a).
    cbn [app cstr_nlen_loop]. destruct (Z.eqb_spec n (n + zlen (c :: a))); [lia|].
    destruct (Z.eqb_spec c 0) as [E|_]; [exfalso; apply H; left; exact E|].
    rewrite K. replace (n + (1 + zlen a)) with (n + 1 + zlen a) by lia.
    apply IH. intros J; apply H; right; exact J.
Qed.

(** * C156: os_c_str prints the characters before the first NUL *)

(** And it reads nothing after the NUL: what is there, if anything, makes no difference. With a limit it prints no more
    than that many characters, and reads nothing after them. Without a NUL and a limit it reads outside the memory. *)
Theorem C156_os_c_str : forall t after limit, no_nul t ->
  print_os_c_str (t ++ [0] ++ after) = Done t /\
  (zlen t < limit -> print_os_c_str_n (t ++ [0] ++ after) limit = Done t) /\
  print_os_c_str_n (t ++ after) (zlen t) = Done t /\
  print_os_c_str_range (t ++ [0] ++ after) = Done t /\ print_os_c_str_range t = Done t /\
  print_os_c_str_carr (t ++ [0] ++ after) = Done t /\
  print_os_c_str t = Undefined.
Proof.
  intros t after limit H.
  assert (B : forall l, zlen t < l -> print_os_c_str_n (t ++ [0] ++ after) l = Done t).
  { intros l L. unfold print_os_c_str_n, cstr_nlen. cbn [app]. rewrite cstr_nlen_loop_nul by (try assumption; lia).
    cbn [obind]. rewrite Z.add_0_l. apply scatter_prefix. }
  assert (F : forall r, print_os_c_str_n (t ++ r) (zlen t) = Done t).
  { intros r. unfold print_os_c_str_n, cstr_nlen. pose proof (cstr_nlen_loop_full t r 0 H) as E. rewrite Z.add_0_l in E.
    rewrite E. cbn [obind]. apply scatter_prefix. }
  pose proof (zlen_nonneg after).
  split; [|split; [|split; [|split; [|split; [|split]]]]].
  - unfold print_os_c_str, cstr_len. cbn [app]. rewrite cstr_len_loop_nul by assumption. cbn [obind]. rewrite Z.add_0_l. apply scatter_prefix.
  - apply B.
  - apply F.
  - apply B. rewrite !zlen_app. change (zlen [0]) with 1. lia.
  - unfold print_os_c_str_range. rewrite <- (app_nil_r t) at 1. apply F.
  - unfold print_os_c_str_carr. destruct (Z.eq_dec (zlen after) 0) as [Z0|Z0].
    + replace (zlen (t ++ [0] ++ after) - 1) with (zlen t); [apply F|]. rewrite !zlen_app. change (zlen [0]) with 1. lia.
    + apply B. rewrite !zlen_app. change (zlen [0]) with 1. lia.
  - unfold print_os_c_str, cstr_len. rewrite cstr_len_loop_none by assumption. reflexivity.
Qed.
Print Assumptions C156_os_c_str.

(** "ab" followed by a NUL and "cd" *)
Example C156_example :
  no_nul [97; 98] /\ print_os_c_str [97; 98; 0; 99; 100] = Done [97; 98] /\ print_os_c_str_n [97; 98; 0; 99; 100] 1 = Done [97] /\
  print_os_c_str_range [97; 98; 0; 99; 100] = Done [97; 98].
Proof. repeat split. intros [H|[H|[]]]; discriminate. Qed.

(** * C157: a string literal prints as its text *)

(** A literal is an array of its characters and a NUL. All of its characters are printed, NULs among them too, and
    small_scatter prints the same. *)
Theorem C157_literal : forall w t, Forall (fun c => 0 <= c < 2 ^ w) t ->
  print_array w true (t ++ [0]) = Some (Done t) /\ print_small_scatter w true (t ++ [0]) = Some (Done t).
Proof.
  intros w t H. unfold print_array, print_small_scatter, print_small_scatter_t.
  assert (L : zlen (t ++ [0]) = zlen t + 1) by (rewrite zlen_app; reflexivity).
  rewrite L. pose proof (zlen_nonneg t).
  destruct (Z.eqb_spec (zlen t + 1) 0); [lia|].
  destruct (Z.eqb_spec (zlen t + 1) 2) as [E|E].
  - destruct t as [|c [|d t]]; [discriminate E| |exfalso; unfold zlen in E; cbn [length] in E; lia].
    cbn [app head_of obind]. inversion H as [|c' t' Hc Ht]; subst. unfold print_chvw, wrap. rewrite Z.mod_small by assumption. auto.
  - replace (zlen t + 1 - 1) with (zlen t) by lia. rewrite scatter_prefix. split; [reflexivity|].
    destruct (Z.ltb_spec (zlen t + 1) 65); [|reflexivity]. destruct (Z.leb_spec (zlen t) 64); [reflexivity|lia].
Qed.
Print Assumptions C157_literal.

Example C157_example :
  print_array 8 true [97; 0; 98; 0] = Some (Done [97; 0; 98]) /\ print_array 8 true [0] = Some (Done []) /\
  print_array 8 true [233; 0] = Some (Done [233]) /\ print_small_scatter 8 true (repeat 97 100 ++ [0]) = Some (Done (repeat 97 100)).
Proof. repeat split. Qed.

(** * C158: an array of constant characters prints as its characters *)

(** The last cell of the array is taken for a NUL, whatever it is. *)
Theorem C158_array_partial : forall w t last, Forall (fun c => 0 <= c < 2 ^ w) t ->
  print_array w true (t ++ [last]) = Some (Done t) /\ print_small_scatter w true (t ++ [last]) = Some (Done t) /\
  (no_nul t -> print_os_c_str_carr (t ++ [last]) = Done t).
Proof.
  intros w t last H. split; [|split].
  - unfold print_array.
    assert (L : zlen (t ++ [last]) = zlen t + 1) by (rewrite zlen_app; reflexivity).
    rewrite L. pose proof (zlen_nonneg t).
    destruct (Z.eqb_spec (zlen t + 1) 0); [lia|].
    destruct (Z.eqb_spec (zlen t + 1) 2) as [E|E].
    + destruct t as [|c [|d t]]; [discriminate E| |exfalso; unfold zlen in E; cbn [length] in E; lia].
      cbn [app head_of obind]. inversion H as [|c' t' Hc Ht]; subst. unfold print_chvw, wrap. rewrite Z.mod_small by assumption. auto.
    + replace (zlen t + 1 - 1) with (zlen t) by lia. rewrite scatter_prefix. reflexivity.
  - unfold print_small_scatter, print_small_scatter_t.
    assert (L : zlen (t ++ [last]) = zlen t + 1) by (rewrite zlen_app; reflexivity).
    rewrite L. pose proof (zlen_nonneg t).
    destruct (Z.eqb_spec (zlen t + 1) 0); [lia|].
    destruct (Z.eqb_spec (zlen t + 1) 2) as [E|E].
    + destruct t as [|c [|d t]]; [discriminate E| |exfalso; unfold zlen in E; cbn [length] in E; lia].
      cbn [app head_of obind]. inversion H as [|c' t' Hc Ht]; subst. unfold print_chvw, wrap. rewrite Z.mod_small by assumption. auto.
    + replace (zlen t + 1 - 1) with (zlen t) by lia. rewrite scatter_prefix.
      destruct (Z.ltb_spec (zlen t + 1) 65); [|reflexivity]. destruct (Z.leb_spec (zlen t) 64); [reflexivity|lia].
  - intros N. unfold print_os_c_str_carr. rewrite zlen_app. change (zlen [last]) with 1. replace (zlen t + 1 - 1) with (zlen t) by lia.
    apply (C156_os_c_str t [last] 0 N).
Qed.
Print Assumptions C158_array_partial.

(** So {'a','b','c'} prints as ab, and {'a'} as nothing. *)
Theorem C158_array_refuted :
  print_array 8 true [97; 98; 99] = Some (Done [97; 98]) /\ print_small_scatter 8 true [97; 98; 99] = Some (Done [97; 98]) /\
  print_os_c_str_carr [97; 98; 99] = Done [97; 98] /\ print_array 8 true [97] = Some (Done []).
Proof. repeat split. Qed.
Print Assumptions C158_array_refuted.

(** * C159: a literal of another character type is rejected, or prints its characters *)

(** It is rejected unless it has exactly one character; one character is printed when the stream's type has its value. *)
Theorem C159_other_type_partial : forall w t, 
  (zlen t <> 1 -> print_array w false (t ++ [0]) = None /\ print_small_scatter w false (t ++ [0]) = None) /\
  (forall c, 0 <= c < 2 ^ w ->
     print_array w false [c; 0] = Some (Done [c]) /\ print_small_scatter w false [c; 0] = Some (Done [c]) /\ print_chvw w c = [c]).
Proof.
  intros w t. split.
  - intros H. unfold print_array, print_small_scatter.
    assert (L : zlen (t ++ [0]) = zlen t + 1) by (rewrite zlen_app; reflexivity).
    rewrite L. destruct (zlen t + 1 =? 0); [auto|]. destruct (Z.eqb_spec (zlen t + 1) 2); [lia|]. auto.
  - intros c Hc. unfold print_array, print_small_scatter. change (zlen [c; 0]) with 2. cbn [Z.eqb Pos.eqb head_of obind].
    unfold print_chvw, wrap. rewrite Z.mod_small by assumption. auto.
Qed.
Print Assumptions C159_other_type_partial.

(** One character that the stream's type cannot represent is cut: U"€" prints the byte 0xAC, and as chvw too. *)
Theorem C159_other_type_refuted :
  print_array 8 false [8364; 0] = Some (Done [172]) /\ print_small_scatter 8 false [8364; 0] = Some (Done [172]) /\ print_chvw 8 8364 = [172].
Proof. repeat split. Qed.
Print Assumptions C159_other_type_refuted.
