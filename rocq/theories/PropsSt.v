(** C122-C124: the status of files. *)
From Coq Require Import String.
From Coq Require Import List.
From Verif Require Import Base NumSpec NumFacts IntPrintModel IntPrintCorrect IntSizeProofs TimeSpec TimeTextSpec TimeTextModel TimeTextProofs
  TimeCalProofs ClockSpec ClockModel PropsClock StSpec StModel.

(** ** C122: the texts *)
Lemma perm_check ch p n : 0 <= n -> print_perm_per_check ch p (2 ^ n) = [if Z.testbit p n then ch else 45].
Proof.
  intros Hn. unfold print_perm_per_check. destruct (Z.testbit p n) eqn:T.
  - destruct (Z.eqb_spec (Z.land p (2 ^ n)) 0) as [E|]; [|reflexivity]. exfalso.
    pose proof (f_equal (fun x => Z.testbit x n) E) as E'. cbv beta in E'.
    rewrite Z.land_spec, Z.pow2_bits_true, Z.bits_0, T in E' by assumption. discriminate.
  - replace (Z.land p (2 ^ n)) with 0; [reflexivity|]. symmetry. apply Z.bits_inj'. intros k Hk.
    rewrite Z.land_spec, Z.bits_0, Z.pow2_bits_eqb by assumption. destruct (Z.eqb_spec n k) as [<-|]; [rewrite T; reflexivity|apply andb_false_r].
Qed.
Theorem C122_permissions : forall p, 0 <= p -> is_mode_text p (print_perms p) /\ zlen (print_perms p) <= perms_reserve_size.
Proof.
  intros p Hp. unfold print_perms.
  change owner_read with (2 ^ 8). change owner_write with (2 ^ 7). change owner_exec with (2 ^ 6).
  change group_read with (2 ^ 5). change group_write with (2 ^ 4). change group_exec with (2 ^ 3).
  change others_read with (2 ^ 2). change others_write with (2 ^ 1). change others_exec with (2 ^ 0).
  rewrite !perm_check by lia. cbn [app]. split; [|apply Z.leb_le; reflexivity]. split; [reflexivity|].
  intros i Hi. do 9 (destruct i as [|i]; [reflexivity|]). lia.
Qed.
Print Assumptions C122_permissions.

Theorem C122_kind : (forall k, print_file_type (kind_code k) = kind_name k) /\
  (forall k k', kind_name k = kind_name k' -> k = k') /\
  forall f, zlen (print_file_type f) <= file_type_reserve_size.
Proof.
  split; [intros []; reflexivity|]. split; [intros [] []; intros H; try reflexivity; discriminate H|].
  intros f. unfold print_file_type. repeat match goal with |- context [if ?b then _ else _] => destruct b end; vm_compute; discriminate.
Qed.
Print Assumptions C122_kind.

Lemma uintmax_ok v : is_u64 v -> exists t, print_uintmax v = Some t /\ is_numeral 10 false v t /\ zlen t <= 20.
Proof.
  intros H. unfold is_u64 in H.
  assert (W : In (iw uintmax_ty) int_widths) by (right; right; right; left; reflexivity).
  assert (R : in_range uintmax_ty v) by (unfold in_range; cbn; lia).
  assert (K : config_ok default_pflags uintmax_ty) by (unfold config_ok; vm_compute; discriminate).
  destruct (print_int_correct default_pflags uintmax_ty v W ltac:(cbn; lia) K R) as (num & E & M).
  unfold sign_text in E. cbn [pf_showpos pf_showbase default_pflags] in E. destruct (Z.ltb_spec v 0); [lia|]. cbn [app] in E.
  exists num. unfold print_uintmax. split; [exact E|]. cbn in M. rewrite Z.abs_eq in M by lia. split; [exact M|].
  apply (reserve_enough_dec default_pflags uintmax_ty v num W eq_refl R); [discriminate|exact E].
Qed.
Lemma stamp_text_ok t : valid_stamp t -> exists x, print_stamp t = Some x /\ unix_text t x /\ zlen x <= 40.
Proof.
  intros H. destruct (print_stamp_ok t H) as (x & E & T). exists x. split; [exact E|]. split; [exact T|].
  exact (unix_text_size t x H T).
Qed.

Lemma zl_app (a b : list Z) : zlen (a ++ b) = zlen a + zlen b.
Proof. unfold zlen. rewrite app_length. lia. Qed.
Lemma lines_eq fs o o' : lines_of fs o' -> o' = o -> lines_of fs o.
Proof. now intros H <-. Qed.
Theorem C122_status : forall s, status_ok s ->
  exists o, print_status s = Some o /\ status_text s o /\ zlen o <= status_reserve_size.
Proof.
  intros s (HN & HP & HT). unfold print_status.
  repeat match goal with H : Forall is_u64 (?v :: _) |- _ =>
    let Hv := fresh in pose proof (Forall_inv H) as Hv; cbv beta in Hv; apply Forall_inv_tail in H;
    let t := fresh "t" in let E := fresh "E" in let N := fresh "N" in let L := fresh "L" in
    destruct (uintmax_ok v Hv) as (t & E & N & L); rewrite E end.
  repeat match goal with H : Forall valid_stamp (?v :: _) |- _ =>
    let Hv := fresh in pose proof (Forall_inv H) as Hv; cbv beta in Hv; apply Forall_inv_tail in H;
    let t := fresh "x" in let E := fresh "E" in let N := fresh "N" in let L := fresh "L" in
    destruct (stamp_text_ok v Hv) as (t & E & N & L); rewrite E end.
  cbn [opt_app]. eexists. split; [reflexivity|].
  destruct (C122_permissions (s_perm s) ltac:(lia)) as (MP & LP).
  destruct C122_kind as (KN & _ & KL). specialize (KL (kind_code (s_type s))).
  split.
  - eapply lines_eq.
    + unfold status_text, status_fields. do 16 (eapply line_more; [first [eassumption | exact MP | exact (KN _)]|]). apply line_last. eassumption.
    + reflexivity.
  - rewrite !zl_app. change perms_reserve_size with 9 in LP. change file_type_reserve_size with 20 in KL.
    change status_reserve_size with (11 * 20 + 104 + 9 + 20 + 4 * 40).
    repeat match goal with |- context [zlen ?l] => match l with | _ :: _ => idtac | text _ => idtac end; let n := eval vm_compute in (zlen l) in change (zlen l) with n end.
    lia.
Qed.
Print Assumptions C122_status.
Definition sample_status : file_status := mk_status 2053 131 33188 KRegular 1 1000 1000 0 57 4096 8
  (mk_stamp 1600000000 (per_second / 2)) (mk_stamp 0 0) (mk_stamp (-1) 0) (mk_stamp 0 0) 0 (2 ^ 64 - 1).
Example C122_case : status_ok sample_status /\ is_mode_text 420 (text "rw-r--r--") /\
  print_perms 33188 = text "rw-r--r--" /\ option_map zlen (print_status sample_status) = Some 180 /\ status_reserve_size = 513.
Proof.
  split; [|split; [|vm_compute; auto]].
  - unfold status_ok, sample_status, is_u64, valid_stamp. cbn [s_dev s_ino s_nlink s_uid s_gid s_rdev s_size s_blksize s_blocks s_flags s_gen s_perm s_atim s_mtim s_ctim s_btim].
    split; [repeat apply Forall_cons; try apply Forall_nil; lia|]. split; [lia|].
    repeat apply Forall_cons; try apply Forall_nil; vm_compute; intuition discriminate.
  - destruct (C122_permissions 420 ltac:(lia)) as (H & _). exact H.
Qed.

(** ** C123: the kind and the permissions of a file *)
Lemma kind_bits m v : 0 <= m -> 0 <= v < 16 -> (Z.land m 61440 =? v * 4096) = ((m / 4096) mod 16 =? v).
Proof.
  intros Hm Hv. assert (E : Z.land m 61440 = (m / 4096) mod 16 * 4096).
  { change 61440 with (15 * 2 ^ 12). change 4096 with (2 ^ 12). rewrite <- !Z.shiftr_div_pow2, <- !Z.shiftl_mul_pow2 by lia.
    change 16 with (2 ^ 4). rewrite <- Z.land_ones by lia. apply Z.bits_inj'. intros k Hk.
    rewrite Z.land_spec, !Z.shiftl_spec by lia. destruct (Z.ltb_spec k 12).
    - rewrite !(Z.testbit_neg_r _ (k - 12)) by lia. apply andb_false_r.
    - rewrite Z.land_spec, Z.shiftr_spec by lia. replace (k - 12 + 12) with k by lia. reflexivity. }
  rewrite E. destruct (Z.eqb_spec ((m / 4096) mod 16) v), (Z.eqb_spec ((m / 4096) mod 16 * 4096) (v * 4096)); lia || reflexivity.
Qed.
Ltac sixteen m := let r := fresh "r" in let R := fresh "R" in
  pose proof (Z.mod_pos_bound (m / 4096) 16 ltac:(lia)) as R; set (r := (m / 4096) mod 16) in *; clearbody r;
  assert (r = 0 \/ r = 1 \/ r = 2 \/ r = 3 \/ r = 4 \/ r = 5 \/ r = 6 \/ r = 7 \/ r = 8 \/ r = 9 \/ r = 10 \/ r = 11 \/ r = 12 \/ r = 13 \/ r = 14 \/ r = 15) as C by lia;
  repeat destruct C as [C|C]; rewrite C; reflexivity.

Theorem C123_kind : forall m, 0 <= m ->
  st_mode_to_file_type m = mode_kind m /\ win_mode_to_file_type m = windows_kind m.
Proof.
  intros m Hm. unfold st_mode_to_file_type, win_mode_to_file_type, mode_kind, windows_kind, s_ifmt. cbv zeta.
  change 32768 with (8 * 4096). change 16384 with (4 * 4096). change 8192 with (2 * 4096). change 24576 with (6 * 4096).
  change 40960 with (10 * 4096). change 49152 with (12 * 4096). change 12288 with (3 * 4096).
  change (Z.land m 61440 =? 4096) with (Z.land m 61440 =? 1 * 4096).
  rewrite !kind_bits by lia. split; sixteen m.
Qed.
Print Assumptions C123_kind.

(** The listing of a directory gives the bits of the kind; a kind that has no name is "unknown" in a status and "not found" in
    a listing. *)
Theorem C123_listing_partial : forall m, 0 <= m -> mode_kind m <> KUnknown ->
  dirent_type ((m / 4096) mod 16) = st_mode_to_file_type m.
Proof.
  intros m Hm. rewrite (proj1 (C123_kind m Hm)). unfold mode_kind, dirent_type.
  pose proof (Z.mod_pos_bound (m / 4096) 16 ltac:(lia)) as R. set (r := (m / 4096) mod 16) in *. clearbody r.
  assert (r = 0 \/ r = 1 \/ r = 2 \/ r = 3 \/ r = 4 \/ r = 5 \/ r = 6 \/ r = 7 \/ r = 8 \/ r = 9 \/ r = 10 \/ r = 11 \/ r = 12 \/ r = 13 \/ r = 14 \/ r = 15) as C by lia.
  repeat destruct C as [C|C]; rewrite C; intros H; reflexivity || (exfalso; apply H; reflexivity).
Qed.
Print Assumptions C123_listing_partial.
Theorem C123_listing_refuted : exists m, 0 <= m < 2 ^ 16 /\ st_mode_to_file_type m = KUnknown /\
  dirent_type ((m / 4096) mod 16) = KNotFound.
Proof. exists 57344. vm_compute. intuition discriminate. Qed.
Print Assumptions C123_listing_refuted.

(** The permissions of a status are the whole mode: the twelve bits are right and so is the text, but the value is not one of the
    permissions a program can name. *)
Theorem C123_permissions_partial : forall m, 0 <= m < 2 ^ 32 ->
  mode_perms (st_mode_to_perms m) = mode_perms m /\ is_mode_text (mode_perms m) (print_perms (st_mode_to_perms m)).
Proof.
  intros m Hm. unfold st_mode_to_perms. rewrite wrap_small by lia. split; [reflexivity|].
  destruct (C122_permissions m ltac:(lia)) as ((L & B) & _). split; [exact L|]. intros i Hi. rewrite B by exact Hi.
  unfold mode_perms. change 4096 with (2 ^ 12). rewrite Z.mod_pow2_bits_low by lia. reflexivity.
Qed.
Print Assumptions C123_permissions_partial.
Theorem C123_permissions_refuted : st_mode_to_file_type 33188 = KRegular /\ mode_perms 33188 = 420 /\ st_mode_to_perms 33188 <> 420 /\
  forall m, 0 <= m < 2 ^ 32 -> (st_mode_to_perms m = mode_perms m <-> m < 4096).
Proof.
  split; [reflexivity|]. split; [reflexivity|]. split; [discriminate|]. intros m Hm. unfold st_mode_to_perms, mode_perms.
  rewrite wrap_small by lia. pose proof (Z.mod_pos_bound m 4096 ltac:(lia)). split; intros H'; [lia|]. symmetry. apply Z.mod_small. lia.
Qed.
Print Assumptions C123_permissions_refuted.

(** Every number of the system call arrives; the times as far as timestamps before 1970 can (C109). *)
Theorem C123_stat_partial : forall r, stat_ok r -> let s := status_of_stat r in
  s_dev s = st_dev r /\ s_ino s = st_ino r /\ s_nlink s = st_nlink r /\ s_uid s = st_uid r /\ s_gid s = st_gid r /\ s_rdev s = st_rdev r /\
  s_size s = st_size r /\ s_blksize s = st_blksize r /\ s_blocks s = st_blocks r /\ s_type s = mode_kind (st_mode r) /\
  (forall x t, In (x, t) [(st_atim r, s_atim s); (st_mtim r, s_mtim s); (st_ctim r, s_ctim s)] -> valid_stamp t /\
     (0 <= tv_sec x \/ tv_nsec x = 0 -> stamp_value t = timespec_value x)) /\
  status_ok s.
Proof.
  intros r (HN & HM & HT). cbv zeta. unfold status_of_stat.
  cbn [s_dev s_ino s_nlink s_uid s_gid s_rdev s_size s_blksize s_blocks s_type s_atim s_mtim s_ctim s_flags s_gen s_perm s_btim].
  pose proof HN as HN'. repeat match goal with H : Forall is_u64 (?v :: _) |- _ =>
    let Hv := fresh "V" in pose proof (Forall_inv H) as Hv; unfold is_u64 in Hv; apply Forall_inv_tail in H end.
  repeat match goal with H : 0 <= ?v < 2 ^ 64 |- _ => rewrite (wrap_small 64 v) by exact H; revert H end. intros.
  assert (TS : forall x t, In (x, t) [(st_atim r, timespec_to_stamp (st_atim r)); (st_mtim r, timespec_to_stamp (st_mtim r)); (st_ctim r, timespec_to_stamp (st_ctim r))] ->
    valid_stamp t /\ (0 <= tv_sec x \/ tv_nsec x = 0 -> stamp_value t = timespec_value x)).
  { rewrite Forall_forall in HT. intros x t Hin. cbn [In] in Hin.
    assert (A : t = timespec_to_stamp x /\ valid_timespec x).
    { repeat destruct Hin as [E|Hin]; try contradiction; injection E as <- <-; (split; [reflexivity|]); apply HT; cbn [In]; auto. }
    destruct A as (-> & Hx). destruct (C109_read_partial x Hx) as (A & _ & B). auto. }
  repeat (split; [reflexivity|]). split; [exact (proj1 (C123_kind (st_mode r) ltac:(lia)))|]. split; [exact TS|].
  unfold status_ok, st_mode_to_perms.
  cbn [s_dev s_ino s_nlink s_uid s_gid s_rdev s_size s_blksize s_blocks s_type s_atim s_mtim s_ctim s_flags s_gen s_perm s_btim].
  split; [repeat apply Forall_cons; try apply Forall_nil; unfold is_u64; lia|]. split; [rewrite wrap_small by lia; lia|].
  repeat apply Forall_cons; try apply Forall_nil.
  - eapply (proj1 (TS _ _ (or_introl eq_refl))).
  - eapply (proj1 (TS _ _ (or_intror (or_introl eq_refl)))).
  - eapply (proj1 (TS _ _ (or_intror (or_intror (or_introl eq_refl))))).
  - unfold valid_stamp, per_second. cbn [ts_sec ts_sub]. lia.
Qed.
Print Assumptions C123_stat_partial.
Theorem C123_time_before_1970_refuted : exists r, stat_ok r /\ timespec_value (st_mtim r) = - (3 * per_second / 2) /\
  stamp_value (s_mtim (status_of_stat r)) = - (5 * per_second / 2).
Proof.
  exists (mk_stat 1 2 33188 1 0 0 0 5 4096 8 (mk_timespec 0 0) (mk_timespec (-2) 500000000) (mk_timespec 0 0)).
  split; [|split; vm_compute; reflexivity]. unfold stat_ok, valid_timespec, is_u64.
  cbn [st_dev st_ino st_nlink st_uid st_gid st_rdev st_size st_blksize st_blocks st_mode st_atim st_mtim st_ctim].
  split; [repeat apply Forall_cons; try apply Forall_nil; lia|]. split; [lia|].
  repeat apply Forall_cons; try apply Forall_nil; cbn [tv_sec tv_nsec]; lia.
Qed.
Print Assumptions C123_time_before_1970_refuted.
Example C123_case : mode_kind 16877 = KDirectory /\ mode_perms 36333 = 3565 /\ print_perms (st_mode_to_perms 36333) = text "rwxr-xr-x" /\
  print_perms (st_mode_to_perms 16877) = text "rwxr-xr-x".
Proof. vm_compute. auto. Qed.

(** ** C124: the status of a file on Windows *)
Lemma land_bit a n : 0 <= n -> (Z.land a (2 ^ n) =? 0) = negb (Z.testbit a n) /\ (Z.land a (2 ^ n) =? 2 ^ n) = Z.testbit a n.
Proof.
  intros Hn. assert (E : Z.land a (2 ^ n) = if Z.testbit a n then 2 ^ n else 0).
  { apply Z.bits_inj'. intros k Hk. rewrite Z.land_spec, Z.pow2_bits_eqb by assumption.
    destruct (Z.eqb_spec n k) as [<-|Hne]; destruct (Z.testbit a n) eqn:T; rewrite ?Z.bits_0, ?Z.pow2_bits_eqb, ?T by assumption;
    try (rewrite Z.eqb_refl; reflexivity); try reflexivity; rewrite andb_false_r; try reflexivity.
    symmetry. now apply Z.eqb_neq. }
  rewrite E. pose proof (Z.pow_pos_nonneg 2 n ltac:(lia) Hn). destruct (Z.testbit a n); cbn [negb].
  - split; [apply Z.eqb_neq; lia|apply Z.eqb_refl].
  - split; [reflexivity|apply Z.eqb_neq; lia].
Qed.
Lemma join_lor h l : is_u32 h -> is_u32 l -> Z.lor (Z.shiftl h 32) l = joined h l.
Proof.
  unfold is_u32, joined. intros Hh Hl. rewrite Z.shiftl_mul_pow2 by lia. symmetry. rewrite <- Z.lxor_lor, <- Z.add_nocarry_lxor; try reflexivity;
  apply Z.bits_inj'; intros k Hk; rewrite Z.land_spec, Z.bits_0, Z.mul_pow2_bits by lia;
  (destruct (Z.ltb_spec k 32); [rewrite Z.testbit_neg_r by lia; reflexivity|]);
  rewrite <- (Z.mod_small l (2 ^ 32)) by lia; rewrite Z.mod_pow2_bits_high by lia; apply andb_false_r.
Qed.
Lemma joined_u64 h l : is_u32 h -> is_u32 l -> is_u64 (joined h l).
Proof. unfold is_u32, is_u64, joined. intros. change (2 ^ 64) with (2 ^ 32 * 2 ^ 32). nia. Qed.

Definition windows_type (attributes : Z) : file_kind :=
  if Z.testbit attributes 10 then KSymlink else if Z.testbit attributes 4 then KDirectory else KRegular.
Theorem C124_status : forall h e i, info_ok i -> exists s,
  win_status h 1 e (Some i) = Value s /\ status_ok s /\
  s_dev s = wi_volume i /\ s_ino s = joined (wi_index_high i) (wi_index_low i) /\ s_nlink s = wi_links i /\
  s_size s = joined (wi_size_high i) (wi_size_low i) /\ s_blocks s = s_size s / 512 /\
  s_perm s = (if Z.testbit (wi_attributes i) 0 then 292 else 438) /\
  s_type s = windows_type (wi_attributes i) /\ s_ctim s = s_mtim s /\
  forall t p, In (t, p) [(s_atim s, wi_access i); (s_mtim s, wi_write i); (s_btim s, wi_creation i)] ->
    is_ticks (Z.max 0 (joined (fst p) (snd p) - 11644473600 * 10000000)) t.
Proof.
  intros h e i (HN & HT). unfold win_status, win_file_type. cbn [Z.eqb Pos.eqb]. eexists. split; [reflexivity|].
  cbn [s_dev s_ino s_nlink s_uid s_gid s_rdev s_size s_blksize s_blocks s_type s_atim s_mtim s_ctim s_flags s_gen s_perm s_btim].
  repeat match goal with H : Forall is_u32 (?v :: _) |- _ =>
    let Hv := fresh "V" in pose proof (Forall_inv H) as Hv; cbv beta in Hv; apply Forall_inv_tail in H end.
  repeat match goal with H : Forall _ (?v :: _) |- _ =>
    let Hv := fresh "T" in pose proof (Forall_inv H) as Hv; cbv beta in Hv; apply Forall_inv_tail in H end.
  assert (TK : forall p, is_u32 (fst p) /\ is_u32 (snd p) -> is_ticks (Z.max 0 (joined (fst p) (snd p) - 11644473600 * 10000000)) (filetime p)).
  { intros p (A & B). exact (C110_file_time_partial (fst p) (snd p) A B). }
  rewrite !join_lor by assumption. rewrite Z.shiftr_div_pow2 by lia. change (2 ^ 9) with 512.
  change 1024 with (2 ^ 10). change 16 with (2 ^ 4). change (Z.land (wi_attributes i) 1) with (Z.land (wi_attributes i) (2 ^ 0)).
  rewrite (proj1 (land_bit (wi_attributes i) 0 ltac:(lia))), (proj2 (land_bit (wi_attributes i) 10 ltac:(lia))),
    (proj2 (land_bit (wi_attributes i) 4 ltac:(lia))).
  assert (J1 := joined_u64 (wi_size_high i) (wi_size_low i) ltac:(assumption) ltac:(assumption)).
  assert (J2 := joined_u64 (wi_index_high i) (wi_index_low i) ltac:(assumption) ltac:(assumption)).
  split.
  { unfold status_ok.
    cbn [s_dev s_ino s_nlink s_uid s_gid s_rdev s_size s_blksize s_blocks s_type s_atim s_mtim s_ctim s_flags s_gen s_perm s_btim].
    split; [|split; [destruct (Z.testbit (wi_attributes i) 0); cbn; lia|]].
    - assert (B : is_u64 (joined (wi_size_high i) (wi_size_low i) / 512)).
      { unfold is_u64 in *. split; [apply Z.div_pos; lia|]. apply Z.div_lt_upper_bound; lia. }
      repeat apply Forall_cons; try apply Forall_nil; try assumption; unfold is_u64, is_u32 in *; lia.
    - repeat apply Forall_cons; try apply Forall_nil; apply (TK _); assumption. }
  repeat (split; [reflexivity|]). split; [destruct (Z.testbit (wi_attributes i) 0); reflexivity|].
  split; [reflexivity|]. split; [reflexivity|].
  intros t p Hin. cbn [In] in Hin. repeat destruct Hin as [E|Hin]; try contradiction; injection E as <- <-; now apply TK.
Qed.
Print Assumptions C124_status.

(** Pipes and consoles are answered without asking for file information; a failure of the question is thrown. *)
Theorem C124_other_kinds : forall h e info,
  (forall ft k, In (ft, k) [(2, KCharacter); (3, KFifo)] -> exists s, win_status h ft e info = Value s /\ s_type s = k /\ s_size s = 0 /\ s_rdev s = h) /\
  (e <> 0 -> win_status h 0 e info = Error e) /\
  (forall ft, In ft [1; 32768] -> win_status h ft e None = Error e) /\
  (forall i, info_ok i -> wi_attributes i = 128 -> exists s, win_status h 32768 e (Some i) = Value s /\ s_type s = KRemote).
Proof.
  intros h e info. split; [|split; [|split]].
  - intros ft k Hin. cbn [In] in Hin. repeat destruct Hin as [E|Hin]; try contradiction; injection E as <- <-; eexists; (split; [reflexivity|]);
    cbn; auto.
  - intros He. unfold win_status, win_file_type. cbn [Z.eqb]. destruct (Z.eqb_spec e 0); [contradiction|reflexivity].
  - intros ft Hin. cbn [In] in Hin. repeat destruct Hin as [<-|Hin]; try contradiction; reflexivity.
  - intros i Hi Ha. unfold win_status, win_file_type. cbn [Z.eqb Pos.eqb]. rewrite Ha. eexists. split; [reflexivity|reflexivity].
Qed.
Print Assumptions C124_other_kinds.

(** The number of 512-byte blocks is rounded down. *)
Theorem C124_blocks_refuted : exists i s, info_ok i /\ win_status 4 1 0 (Some i) = Value s /\ s_size s = 100 /\ s_blocks s = 0.
Proof.
  exists (mk_info 7 0 9 32 1 0 100 (0, 0) (0, 0) (0, 0)). eexists. split; [|split; [reflexivity|split; reflexivity]].
  unfold info_ok, is_u32. cbn [wi_volume wi_index_high wi_index_low wi_attributes wi_links wi_size_high wi_size_low wi_access wi_write wi_creation].
  split; repeat apply Forall_cons; try apply Forall_nil; cbn [fst snd]; lia.
Qed.
Print Assumptions C124_blocks_refuted.

(** A listing and a status give the same kind to files that are not devices, unless the file is offline and neither a link nor a
    directory: a listing then calls it "remote", a status a regular file. *)
Theorem C124_listing_partial : forall a, Z.testbit a 6 = false ->
  (Z.testbit a 12 = false \/ Z.testbit a 4 = true \/ Z.testbit a 10 = true -> nt_dirent_type a = windows_type a) /\
  (Z.testbit a 12 = true -> Z.testbit a 4 = false -> Z.testbit a 10 = false ->
   nt_dirent_type a = KRemote /\ windows_type a = KRegular).
Proof.
  intros a H6. unfold nt_dirent_type, windows_type. cbv zeta. change 1024 with (2 ^ 10). change 64 with (2 ^ 6). change 16 with (2 ^ 4). change 4096 with (2 ^ 12).
  rewrite !(fun n H => proj1 (land_bit a n H)) by lia. rewrite H6, !negb_involutive. split.
  - intros [H|[H|H]]; rewrite H; destruct (Z.testbit a 10); try reflexivity; destruct (Z.testbit a 4); reflexivity.
  - intros H12 H4 H10. rewrite H12, H4, H10. split; reflexivity.
Qed.
Print Assumptions C124_listing_partial.
Theorem C124_listing_refuted : nt_dirent_type 4128 = KRemote /\ windows_type 4128 = KRegular.
Proof. split; reflexivity. Qed.
Print Assumptions C124_listing_refuted.
Example C124_case : exists s, win_status 4 1 0 (Some (mk_info 7 1 9 33 2 1 5 (27111902, 3577643008) (27111902, 3577643009) (0, 5))) = Value s /\
  s_size s = 4294967301 /\ s_perm s = 292 /\ s_mtim s = mk_stamp 0 (10 ^ 12) /\ print_perms (s_perm s) = text "r--r--r--".
Proof. eexists. split; [reflexivity|]. vm_compute. auto. Qed.
