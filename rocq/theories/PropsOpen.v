(** C79, C80, C81: open modes, C open-mode strings, permissions.  Specification in OpenSpec. *)
From Coq Require Import String List Ascii.
From Verif Require Import Base OpenModel OpenSpec.
Import ListNotations.
Open Scope Z_scope.

Lemma land_om : forall m b, 0 <= b -> Z.land m (om b) = if Z.testbit m b then om b else 0.
Proof.
  intros m b Hb. unfold om. apply Z.bits_inj'. intros n Hn. rewrite Z.land_spec, Z.pow2_bits_eqb by exact Hb.
  destruct (Z.eqb_spec b n) as [<- | Hne].
  - rewrite andb_true_r. destruct (Z.testbit m b); [rewrite Z.pow2_bits_true by exact Hb; reflexivity | now rewrite Z.bits_0].
  - rewrite andb_false_r. destruct (Z.testbit m b); [rewrite Z.pow2_bits_false by exact Hne; reflexivity | now rewrite Z.bits_0].
Qed.
Lemma has_bit : forall m b, 0 <= b -> has m b = Z.testbit m b.
Proof.
  intros m b Hb. unfold has. rewrite land_om by exact Hb. destruct (Z.testbit m b); [| reflexivity].
  assert (0 < om b) by (unfold om; apply Z.pow_pos_nonneg; lia). destruct (Z.eqb_spec (om b) 0); [lia | reflexivity].
Qed.
Lemma set_if_bit : forall c f m n, Z.testbit (set_if c f m) n = Z.testbit m n || (c && Z.testbit f n).
Proof. intros [] f m n; unfold set_if; [apply Z.lor_spec | now rewrite orb_false_r]. Qed.

(** The access part of the flags: the last switch of the function. *)
Definition access_part (i o a : bool) : Z :=
  match i, o, a with
  | true, false, false => 0
  | false, true, false => 577
  | false, _, true => 1089
  | true, true, false => 2
  | true, _, true => 1090
  | false, false, false => 0
  end.
Lemma calculate_bit : forall m n,
  Z.testbit (calculate_posix_open_mode m) n =
  (negb (Z.testbit m 9) && Z.testbit O_NOFOLLOW n) || (negb (Z.testbit m 12) && Z.testbit O_CLOEXEC n) || (Z.testbit m 4 && Z.testbit O_CREAT n)
  || (Z.testbit m 8 && Z.testbit O_EXCL n) || (Z.testbit m 31 && Z.testbit O_TRUNC n) || (Z.testbit m 5 && Z.testbit O_DIRECT n)
  || (Z.testbit m 27 && Z.testbit O_SYNC n) || (Z.testbit m 15 && Z.testbit O_NOCTTY n) || (Z.testbit m 22 && Z.testbit O_PATH n)
  || (Z.testbit m 13 && Z.testbit O_NOATIME n) || (Z.testbit m 14 && Z.testbit O_NONBLOCK n) || (Z.testbit m 29 && Z.testbit O_TMPFILE n)
  || (Z.testbit m 6 && Z.testbit O_DIRECTORY n) || Z.testbit (access_part (Z.testbit m 11) (Z.testbit m 21) (Z.testbit m 0)) n.
Proof.
  intros m n. unfold calculate_posix_open_mode. cbv zeta.
  rewrite !has_bit by (vm_compute; discriminate).
  rewrite !Z.land_lor_distr_r, !land_om by (vm_compute; discriminate).
  assert (Hbase : forall f : bool, Z.testbit (if f then 0 else O_NOFOLLOW) n = negb f && Z.testbit O_NOFOLLOW n)
    by (intros []; [apply Z.bits_0 | reflexivity]).
  change b_in with 11. change b_out with 21. change b_app with 0.
  set (base := set_if (Z.testbit m b_directory) _ _).
  transitivity (Z.testbit base n || Z.testbit (access_part (Z.testbit m 11) (Z.testbit m 21) (Z.testbit m 0)) n).
  - destruct (Z.testbit m 11), (Z.testbit m 21), (Z.testbit m 0); cbn [access_part]; rewrite <- Z.lor_spec;
      change (om 11) with 2048; change (om 21) with 2097152; change (om 0) with 1; cbn [Z.lor Z.eqb Pos.lor Pos.eqb orb]; rewrite ?Z.lor_0_r; reflexivity.
  - f_equal. unfold base. rewrite !set_if_bit, Hbase. reflexivity.
Qed.

(** C79.  A mode says to open for reading, writing or appending (and possibly to truncate or to insist on a new file) as the table in
    the sources lays down; none of creat, directory, path, temporary.  Then the open call does what the table says, with the file
    at the path present or not; a symbolic link is refused unless the mode has follow, and then the file behind it is opened.
    Only out|in|trunc is excluded. *)
Definition in_table (m : Z) : option row :=
  if Z.testbit m 4 || Z.testbit m 6 || Z.testbit m 22 || Z.testbit m 29 then None
  else table (Z.testbit m 11) (Z.testbit m 21) (Z.testbit m 0) (Z.testbit m 31) (Z.testbit m 8).
Definition node_of (file : option (list Z)) : node := match file with None => Missing | Some c => File c end.
Definition in_out_trunc (m : Z) : bool := Z.testbit m 11 && Z.testbit m 21 && Z.testbit m 31.

Lemma access_bits : forall f, access_rights f =
  mk_rights (negb (Z.testbit f 0 && negb (Z.testbit f 1))) (Z.testbit f 0 || Z.testbit f 1) (Z.testbit f 10).
Proof.
  intro f. unfold access_rights, flag. 
  assert (H0 : Z.testbit f 0 = Z.odd f) by apply Z.bit0_odd.
  assert (H1 : Z.testbit f 1 = Z.odd (f / 2)) by (rewrite Z.testbit_odd, Z.shiftr_div_pow2 by lia; reflexivity).
  rewrite H0, H1. rewrite !Zodd_mod in *. 
  assert (Hm : f mod 4 = f mod 2 + 2 * ((f / 2) mod 2)) by (change 4 with (2 * 2); rewrite Z.rem_mul_r by lia; reflexivity).
  rewrite Hm.
  assert (A : f mod 2 = 0 \/ f mod 2 = 1) by (pose proof (Z.mod_pos_bound f 2); lia).
  assert (B : (f / 2) mod 2 = 0 \/ (f / 2) mod 2 = 1) by (pose proof (Z.mod_pos_bound (f / 2) 2); lia).
  destruct A as [-> | ->], B as [-> | ->]; reflexivity.
Qed.

Theorem C79_posix_partial : forall m r file,
  in_table m = Some r -> in_out_trunc m = false ->
  open2 (calculate_posix_open_mode m) (node_of file) = obeys r file
  /\ open2 (calculate_posix_open_mode m) (Link (node_of file)) =
     (if Z.testbit m 9 && match there r with Error => false | _ => true end then obeys r file else Refused).
Proof.
  intros m r file. unfold in_table, in_out_trunc.
  destruct (Z.testbit m 4 || Z.testbit m 6 || Z.testbit m 22 || Z.testbit m 29) eqn:Eo; [discriminate |].
  apply orb_false_elim in Eo. destruct Eo as [Eo E29]. apply orb_false_elim in Eo. destruct Eo as [Eo E22]. apply orb_false_elim in Eo. destruct Eo as [E4 E6].
  intros Ht Hx.
  destruct file as [c |]; cbn [open2 node_of]; rewrite access_bits; unfold flag; rewrite !calculate_bit, E4, E6, E22, E29;
    set (k5 := Z.testbit m 5); set (k9 := Z.testbit m 9); set (k12 := Z.testbit m 12); set (k13 := Z.testbit m 13); set (k14 := Z.testbit m 14);
    set (k15 := Z.testbit m 15); set (k27 := Z.testbit m 27); clearbody k5 k9 k12 k13 k14 k15 k27; clear E4 E6 E22 E29;
    destruct (Z.testbit m 11), (Z.testbit m 21), (Z.testbit m 0), (Z.testbit m 31), (Z.testbit m 8); try discriminate; injection Ht as <-;
    cbn; rewrite ?andb_false_r; cbn; destruct k9; split; reflexivity.
Qed.
Print Assumptions C79_posix_partial.

(** out|in|trunc, with or without excl: an existing file loses its contents - even with excl, where the table (and C's "w+x") says the
    call must fail - and a missing one is not created. *)
Theorem C79_update_trunc_refuted :
  exists m r, in_table m = Some r /\ there r = Error
    /\ obeys r None = Opened [] (row_rights r)
    /\ forall c, obeys r (Some c) = Refused
    /\ open2 (calculate_posix_open_mode m) (File c) = Opened [] (row_rights r)
    /\ open2 (calculate_posix_open_mode m) Missing = Refused.
Proof.
  exists (om b_in + om b_out + om b_trunc + om b_excl). eexists. repeat split; try reflexivity; vm_compute; reflexivity.
Qed.
Print Assumptions C79_update_trunc_refuted.

(** The remaining flags, for every mode whatsoever: each is exactly the named attribute; nothing else in the mode matters. *)
Theorem C79_attributes : forall m,
  let flags := calculate_posix_open_mode m in
  Z.testbit flags 19 = negb (Z.testbit m 12)              (* closed on exec unless inherit *)
  /\ Z.testbit flags 17 = negb (Z.testbit m 9)            (* no link followed unless follow *)
  /\ Z.testbit flags 11 = Z.testbit m 14                  (* non-blocking: no_block *)
  /\ Z.testbit flags 14 = Z.testbit m 5                   (* direct *)
  /\ Z.testbit flags 8 = Z.testbit m 15                   (* no_ctty *)
  /\ Z.testbit flags 18 = Z.testbit m 13                  (* no_atime *)
  /\ Z.testbit flags 21 = Z.testbit m 22                  (* path *)
  /\ Z.testbit flags 20 = Z.testbit m 27 /\ Z.testbit flags 12 = Z.testbit m 27   (* sync: both bits *)
  /\ Z.testbit flags 22 = Z.testbit m 29                  (* a nameless temporary file *)
  /\ Z.testbit flags 16 = (Z.testbit m 6 || Z.testbit m 29)   (* directory; O_TMPFILE contains it *)
  /\ Z.testbit flags 7 = Z.testbit m 8.                   (* excl *)
Proof.
  intros m flags. unfold flags. rewrite !calculate_bit.
  assert (H : forall n, n <> 0 -> n <> 1 -> n <> 6 -> n <> 9 -> n <> 10 -> forall i o a, Z.testbit (access_part i o a) n = false).
  { intros n N0 N1 N6 N9 N10 i o a. destruct (Z.ltb_spec n 0) as [Hn | Hn]; [apply Z.testbit_neg_r; exact Hn |].
    destruct (Z.ltb_spec n 11) as [Hs | Hs].
    - assert (n = 2 \/ n = 3 \/ n = 4 \/ n = 5 \/ n = 7 \/ n = 8) as [-> | [-> | [-> | [-> | [-> | ->]]]]] by lia; destruct i, o, a; reflexivity.
    - apply Z.bits_above_log2; [destruct i, o, a; vm_compute; discriminate |]. apply Z.le_lt_trans with 10; [destruct i, o, a; vm_compute; discriminate | lia]. }
  rewrite !H by lia.
  set (k4 := Z.testbit m 4). set (k5 := Z.testbit m 5). set (k6 := Z.testbit m 6). set (k8 := Z.testbit m 8). set (k9 := Z.testbit m 9).
  set (k12 := Z.testbit m 12). set (k13 := Z.testbit m 13). set (k14 := Z.testbit m 14). set (k15 := Z.testbit m 15). set (k22 := Z.testbit m 22).
  set (k27 := Z.testbit m 27). set (k29 := Z.testbit m 29). set (k31 := Z.testbit m 31).
  clearbody k4 k5 k6 k8 k9 k12 k13 k14 k15 k22 k27 k29 k31. clear H flags.
  cbn. rewrite ?andb_false_r, ?andb_true_r, ?orb_false_r. cbn [orb].
  repeat split; try reflexivity; try apply orb_comm.
Qed.
Print Assumptions C79_attributes.

Example C79_hypotheses_hold :
  in_table (om b_out + om b_follow) = Some (mk_row Destroy true (mk_rights false true false)) /\ in_out_trunc (om b_out + om b_follow) = false
  /\ open2 (calculate_posix_open_mode (om b_out + om b_follow)) (Link (File [1; 2])) = Opened [] (mk_rights false true false)
  /\ open2 (calculate_posix_open_mode (om b_app + om b_in + om b_excl)) Missing = Opened [] (mk_rights true true true).
Proof. repeat split; vm_compute; reflexivity. Qed.

(** C80.  The C mode string of a mode: fopen does with it what the table says, 'b' is there exactly when text is not in the mode; a
    combination outside the table gives the empty string (a directory alone gives "r"). *)
Definition mode_bits (m : Z) : option row := table (Z.testbit m 11) (Z.testbit m 21) (Z.testbit m 0) (Z.testbit m 31) (Z.testbit m 8).
Definition nothing_asked (m : Z) : bool :=
  negb (Z.testbit m 11 || Z.testbit m 21 || Z.testbit m 0 || Z.testbit m 31 || Z.testbit m 8 || Z.testbit m 30).
Theorem C80_c_mode : forall m,
  match mode_bits m with
  | Some r => fopen_row (to_c_mode m) = Some r /\ mentions "b" (to_c_mode m) = negb (Z.testbit m 30)
  | None => to_c_mode m = if nothing_asked m && Z.testbit m 6 then "r"%string else ""%string
  end.
Proof.
  intro m. unfold mode_bits, nothing_asked, to_c_mode, c_supported.
  rewrite !Z.land_lor_distr_r, !land_om, has_bit by (vm_compute; discriminate).
  change b_text with 30. change b_excl with 8. change b_out with 21. change b_app with 0. change b_in with 11. change b_trunc with 31. change b_directory with 6.
  destruct (Z.testbit m 11), (Z.testbit m 21), (Z.testbit m 0), (Z.testbit m 31), (Z.testbit m 8), (Z.testbit m 30); cbn [table negb orb andb];
    vm_compute; try reflexivity; try (split; reflexivity).
Qed.
Print Assumptions C80_c_mode.

(** The stream that C's fdopen makes on the descriptor asks for exactly the rights the descriptor has, whatever else is in the mode. *)
Theorem C80_rights_agree : forall m r, mode_bits m = Some r ->
  exists q, fopen_row (to_c_mode m) = Some q /\ row_rights q = access_rights (calculate_posix_open_mode m).
Proof.
  intros m r H. pose proof (C80_c_mode m) as C. rewrite H in C. destruct C as [C _]. exists r. split; [exact C |].
  rewrite access_bits, !calculate_bit. unfold mode_bits in H.
  set (k4 := Z.testbit m 4). set (k5 := Z.testbit m 5). set (k6 := Z.testbit m 6). set (k9 := Z.testbit m 9).
  set (k12 := Z.testbit m 12). set (k13 := Z.testbit m 13). set (k14 := Z.testbit m 14). set (k15 := Z.testbit m 15). set (k22 := Z.testbit m 22).
  set (k27 := Z.testbit m 27). set (k29 := Z.testbit m 29).
  clearbody k4 k5 k6 k9 k12 k13 k14 k15 k22 k27 k29. clear C.
  destruct (Z.testbit m 11), (Z.testbit m 21), (Z.testbit m 0), (Z.testbit m 31), (Z.testbit m 8); try discriminate; injection H as <-;
    cbn; rewrite ?andb_false_r; reflexivity.
Qed.
Print Assumptions C80_rights_agree.

Example C80_hypotheses_hold :
  mode_bits (om b_out + om b_in + om b_trunc + om b_excl) = Some (mk_row Error true (mk_rights true true false))
  /\ to_c_mode (om b_out + om b_in + om b_trunc + om b_excl) = "w+xb"%string /\ to_c_mode (om b_in + om b_trunc) = ""%string.
Proof. repeat split; vm_compute; reflexivity. Qed.

(** C81.  Permissions print as nine characters, read write execute for owner, group and others: the letter when the bit is set, '-' when
    not; nothing else in the value shows, and what is printed determines the nine bits. *)
Definition perm_letter (k : nat) : Z := match Nat.modulo k 3 with O => 114 | S O => 119 | _ => 120 end.
Theorem C81_perms : forall p,
  Z.of_nat (length (print_perms p)) = perms_reserve_size
  /\ (forall k, (k < 9)%nat -> nth k (print_perms p) 0 = if Z.testbit p (8 - Z.of_nat k) then perm_letter k else 45)
  /\ (forall q, print_perms p = print_perms q -> Z.land p 511 = Z.land q 511).
Proof.
  assert (G : forall f p b, 0 <= b -> perm_check f p (2 ^ b) = if Z.testbit p b then f else 45).
  { intros f p b Hb. unfold perm_check. change (2 ^ b) with (om b). rewrite land_om by exact Hb. destruct (Z.testbit p b); [| reflexivity].
    assert (0 < om b) by (unfold om; apply Z.pow_pos_nonneg; lia). destruct (Z.eqb_spec (om b) 0); [lia | reflexivity]. }
  assert (P : forall p k, (k < 9)%nat -> nth k (print_perms p) 0 = if Z.testbit p (8 - Z.of_nat k) then perm_letter k else 45).
  { intros p k Hk. 
    assert (k = 0 \/ k = 1 \/ k = 2 \/ k = 3 \/ k = 4 \/ k = 5 \/ k = 6 \/ k = 7 \/ k = 8)%nat as D by lia.
    destruct D as [-> | [-> | [-> | [-> | [-> | [-> | [-> | [-> | ->]]]]]]]];
      [exact (G 114 p 8 ltac:(lia)) | exact (G 119 p 7 ltac:(lia)) | exact (G 120 p 6 ltac:(lia)) | exact (G 114 p 5 ltac:(lia))
      | exact (G 119 p 4 ltac:(lia)) | exact (G 120 p 3 ltac:(lia)) | exact (G 114 p 2 ltac:(lia)) | exact (G 119 p 1 ltac:(lia))
      | exact (G 120 p 0 ltac:(lia))]. }
  intro p. split; [reflexivity |]. split; [apply P |].
  intros q E. apply Z.bits_inj'. intros n Hn. rewrite !Z.land_spec. change 511 with (Z.ones 9).
  destruct (Z.ltb_spec n 9) as [Hl | Hl]; [| now rewrite (Z.ones_spec_high 9 n) by lia; rewrite !andb_false_r].
  rewrite Z.ones_spec_low, !andb_true_r by lia.
  pose proof (f_equal (fun l => nth (Z.to_nat (8 - n)) l 0) E) as H. cbv beta in H. rewrite !P in H by lia.
  replace (8 - Z.of_nat (Z.to_nat (8 - n))) with n in H by lia.
  assert (L : perm_letter (Z.to_nat (8 - n)) <> 45) by (unfold perm_letter; destruct (Nat.modulo _ 3) as [| [| ?]]; discriminate).
  destruct (Z.testbit p n), (Z.testbit q n); try reflexivity; congruence.
Qed.
Print Assumptions C81_perms.
Example C81_example : print_perms 420 = [114; 119; 45; 114; 45; 45; 114; 45; 45].
Proof. reflexivity. Qed.
