(** Property C14: fixed width little / big endian serialisation. *)
From Verif Require Import Base ByteSpec LebeModel NumSpec IntPrintModel IntPrintProofs IntScanModel IntScanProofs Leb128Proofs ByteProofs.

Definition lebe_size (sz : Z) : Prop := In sz [8; 16; 32; 64; 128].
Definition nbytes (sz : Z) : nat := Z.to_nat (sz / 8).

Lemma lebe_size_cases sz : lebe_size sz -> In (nbytes sz) [1; 2; 4; 8; 16]%nat /\ 256 ^ Z.of_nat (nbytes sz) = 2 ^ sz /\ 0 < sz /\ (nbytes sz = 1%nat <-> sz = 8).
Proof. intros H. destruct H as [<-|[<-|[<-|[<-|[<-|[]]]]]]; cbn; repeat split; auto 10; discriminate. Qed.

Lemma lebe_put_spec sz ty t : lebe_size sz -> In (iw ty) int_widths -> in_range ty t ->
  lebe_put sz ty t = if sz <? iw ty then (if (0 <=? t) && (t <? 2 ^ sz) then Some t else None) else Some (wrap (iw ty) t).
Proof.
  intros Hsz Hw Ht. unfold lebe_put. destruct (lebe_size_cases sz Hsz) as (_ & _ & Hpos & _).
  assert (Hwp : 0 < iw ty) by (apply width_cases in Hw; lia).
  assert (Hu : 0 <= wrap (iw ty) t < 2 ^ iw ty) by (apply Z.mod_pos_bound, Z.pow_pos_nonneg; lia).
  destruct (Z.ltb_spec sz (iw ty)) as [Hlt|Hge].
  - assert (E1 : 2 ^ iw ty = 2 ^ sz * 2 ^ (iw ty - sz)) by (rewrite <- Z.pow_add_r by lia; f_equal; lia).
    assert (E2 : 2 ^ sz = 2 * 2 ^ (sz - 1)) by (rewrite <- Z.pow_succ_r by lia; f_equal; lia).
    assert (2 <= 2 ^ (iw ty - sz)) by (apply (Z.pow_le_mono_r 2 1); lia).
    assert (0 < 2 ^ (sz - 1)) by (apply Z.pow_pos_nonneg; lia).
    rewrite Z.shiftl_mul_pow2, Z.mul_1_l by lia. rewrite (wrap_small (iw ty) (2 ^ (sz - 1))) by nia.
    rewrite (wrap_small (iw ty) (2 ^ (sz - 1) - 1)) by nia. rewrite (wrap_small (iw ty) (2 ^ (sz - 1) - 1 + 2 ^ (sz - 1))) by nia.
    destruct (Z.ltb_spec (2 ^ (sz - 1) - 1 + 2 ^ (sz - 1)) (wrap (iw ty) t)) as [A|A].
    + destruct (Z.leb_spec 0 t), (Z.ltb_spec t (2 ^ sz)); cbn; auto. rewrite wrap_small in A by nia. lia.
    + assert (0 <= t).
      { destruct (Z_lt_dec t 0); [|lia]. exfalso. unfold in_range, int_min, int_max in Ht. destruct (isigned ty); [|lia].
        rewrite wrap_neg in A; [|assert (2 ^ iw ty = 2 * 2 ^ (iw ty - 1)) by (rewrite <- Z.pow_succ_r by lia; f_equal; lia); lia].
        assert (2 ^ iw ty = 2 * 2 ^ (iw ty - 1)) by (rewrite <- Z.pow_succ_r by lia; f_equal; lia).
        assert (2 ^ sz <= 2 ^ (iw ty - 1)) by (apply Z.pow_le_mono_r; lia). lia. }
      assert (t < 2 ^ iw ty).
      { unfold in_range, int_min, int_max in Ht. assert (2 ^ (iw ty - 1) <= 2 ^ iw ty) by (apply Z.pow_le_mono_r; lia). destruct (isigned ty); lia. }
      rewrite (wrap_small (iw ty) t) in * by lia. rewrite (proj2 (Z.leb_le 0 t)), (proj2 (Z.ltb_lt t (2 ^ sz))) by lia.
      cbn. f_equal. apply wrap_small. lia.
  - f_equal. assert (2 ^ iw ty <= 2 ^ sz) by (apply Z.pow_le_mono_r; lia). apply wrap_small. lia.
Qed.

(** An integer too large for sz bits is rejected, and exactly those (and every negative one) are. *)
Theorem C14_reject : forall sz ty t, lebe_size sz -> In (iw ty) [8; 16; 32; 64; 128] -> in_range ty t -> sz < iw ty ->
  (lebe_put sz ty t = None <-> ~ (0 <= t < 2 ^ sz)).
Proof.
  intros sz ty t Hsz Hw Ht Hlt. rewrite lebe_put_spec by assumption. rewrite (proj2 (Z.ltb_lt _ _) Hlt).
  destruct (Z.leb_spec 0 t), (Z.ltb_spec t (2 ^ sz)); cbn [andb]; split; intros X; try discriminate; try reflexivity; try (exfalso; lia); intros Y; lia.
Qed.
Print Assumptions C14_reject.

Lemma in_sizes8 sz : lebe_size sz -> In (nbytes sz) [1; 2; 4; 8; 16]%nat.
Proof. intros H. apply (lebe_size_cases sz H). Qed.

Lemma lebe_print_spec host en cw sz u old : lebe_size sz -> In cw [8; 16; 32] -> (sz = 8 -> cw = 8) -> 0 <= u < 2 ^ sz ->
  lebe_print host en cw (nbytes sz) u old = bytes_of en (nbytes sz) u.
Proof.
  intros Hsz Hcw H8 Hu. destruct (lebe_size_cases sz Hsz) as (Hn & Hp & Hpos & Hone). rewrite <- Hp in Hu.
  unfold lebe_print.
  assert (E : bytes_of host (nbytes sz) (if endian_eqb host en then u else byte_swap (nbytes sz) u) = bytes_of en (nbytes sz) u).
  { destruct host, en; cbn [endian_eqb]; try reflexivity; rewrite byte_swap_image by assumption; reflexivity. }
  destruct (nbytes sz) as [|[|m]] eqn:En; try exact E.
  rewrite H8 by (apply Hone; reflexivity). exact E.
Qed.

(** Exactly sz/8 bytes, in the stated order, whatever the host order: the integer itself when it is not
    negative, its two's complement when the sizes agree. *)
Theorem C14_put_bytes_partial : forall host en sz ty t u old,
  lebe_size sz -> In (iw ty) [8; 16; 32; 64; 128] -> in_range ty t -> lebe_put sz ty t = Some u ->
  (0 <= t -> lebe_print host en 8 (nbytes sz) u old = bytes_of en (nbytes sz) t) /\
  (t < 0 -> sz = iw ty -> lebe_print host en 8 (nbytes sz) u old = bytes_of en (nbytes sz) (t + 2 ^ sz)) /\
  length (lebe_print host en 8 (nbytes sz) u old) = nbytes sz.
Proof.
  intros host en sz ty t u old Hsz Hw Ht Hput. rewrite lebe_put_spec in Hput by assumption.
  assert (Hwp : 0 < iw ty) by (apply width_cases in Hw; lia).
  assert (E2 : 2 ^ iw ty = 2 * 2 ^ (iw ty - 1)) by (rewrite <- Z.pow_succ_r by lia; f_equal; lia).
  assert (Hr : - 2 ^ iw ty <= t < 2 ^ iw ty).
  { unfold in_range, int_min, int_max in Ht. assert (0 < 2 ^ (iw ty - 1)) by (apply Z.pow_pos_nonneg; lia). destruct (isigned ty); lia. }
  assert (Hu : 0 <= u < 2 ^ sz /\ (0 <= t -> u = t) /\ (t < 0 -> sz = iw ty -> u = t + 2 ^ sz)).
  { destruct (Z.ltb_spec sz (iw ty)).
    - destruct (Z.leb_spec 0 t), (Z.ltb_spec t (2 ^ sz)); cbn in Hput; try discriminate. injection Hput as <-. repeat split; intros; lia.
    - injection Hput as <-. assert (2 ^ iw ty <= 2 ^ sz) by (apply Z.pow_le_mono_r; lia).
      assert (0 <= wrap (iw ty) t < 2 ^ iw ty) by (apply Z.mod_pos_bound, Z.pow_pos_nonneg; lia).
      repeat split; intros; try lia; [apply wrap_small; lia|]. subst sz. apply wrap_neg. lia. }
  destruct Hu as (Hu & H1 & H2). rewrite lebe_print_spec by (auto; cbn; auto).
  split; [intros H; rewrite (H1 H); reflexivity|]. split; [intros A B; rewrite (H2 A B); reflexivity|]. apply bytes_of_length.
Qed.
Print Assumptions C14_put_bytes_partial.

(** Reading the bytes back, on any host, followed by anything, restores the integer.
    (sz > width of the type with one byte units is not an instance: the getter does not compile there.) *)
Theorem C14_round_trip : forall host1 host2 en cw sz ty t u old rest,
  lebe_size sz -> In (iw ty) [8; 16; 32; 64; 128] -> In cw [8; 16; 32] -> (sz = 8 -> cw = 8) -> in_range ty t ->
  lebe_put sz ty t = Some u ->
  lebe_get host2 en cw sz ty (lebe_print host1 en cw (nbytes sz) u old ++ rest) = Some t.
Proof.
  intros h1 h2 en cw sz ty t u old rest Hsz Hw Hcw H8 Ht Hput. rewrite lebe_put_spec in Hput by assumption.
  destruct (lebe_size_cases sz Hsz) as (Hn & Hp & Hpos & _).
  assert (Hwp : 0 < iw ty) by (apply width_cases in Hw; lia).
  assert (E2 : 2 ^ iw ty = 2 * 2 ^ (iw ty - 1)) by (rewrite <- Z.pow_succ_r by lia; f_equal; lia).
  assert (Hpw : 0 < 2 ^ (iw ty - 1)) by (apply Z.pow_pos_nonneg; lia).
  assert (Hu : 0 <= u < 2 ^ sz /\ u < 2 ^ iw ty /\ wrap (iw ty) t = u).
  { assert (Hm : 0 <= wrap (iw ty) t < 2 ^ iw ty) by (apply Z.mod_pos_bound, Z.pow_pos_nonneg; lia).
    destruct (Z.ltb_spec sz (iw ty)).
    - assert (2 ^ sz <= 2 ^ iw ty) by (apply Z.pow_le_mono_r; lia).
      destruct (Z.leb_spec 0 t), (Z.ltb_spec t (2 ^ sz)); cbn in Hput; try discriminate. injection Hput as <-. repeat split; try lia. apply wrap_small. lia.
    - injection Hput as <-. assert (2 ^ iw ty <= 2 ^ sz) by (apply Z.pow_le_mono_r; lia). repeat split; lia. }
  destruct Hu as (Hu & Hu2 & Hu3). rewrite lebe_print_spec by auto.
  unfold lebe_get, lebe_read. fold (nbytes sz).
  assert (Ef : firstn (nbytes sz) (bytes_of en (nbytes sz) u ++ rest) = bytes_of en (nbytes sz) u).
  { pose proof (bytes_of_length en (nbytes sz) u) as L. rewrite firstn_app, L, Nat.sub_diag, firstn_O, app_nil_r. apply firstn_all2. lia. }
  rewrite Ef.
  assert (Eb : existsb (fun c => 255 <? c) (bytes_of en (nbytes sz) u) = false).
  { destruct (existsb _ _) eqn:E; [|reflexivity]. apply existsb_exists in E as (c & Hc & E). apply Z.ltb_lt in E.
    pose proof (proj1 (Forall_forall _ _) (bytes_of_byte en (nbytes sz) u) c Hc) as B. unfold is_byte in B. lia. }
  rewrite Eb, andb_false_r.
  assert (Et : (if endian_eqb h2 en then of_bytes h2 (bytes_of en (nbytes sz) u) else byte_swap (nbytes sz) (of_bytes h2 (bytes_of en (nbytes sz) u))) = u).
  { rewrite <- Hp in Hu.
    assert (Hs : bytes_of en (nbytes sz) u = bytes_of h2 (nbytes sz) (if endian_eqb h2 en then u else byte_swap (nbytes sz) u)).
    { destruct h2, en; cbn [endian_eqb]; try reflexivity; rewrite byte_swap_image by assumption; reflexivity. }
    rewrite Hs, of_bytes_bytes_of. destruct (endian_eqb h2 en); [apply Z.mod_small, Hu|].
    rewrite Z.mod_small by (apply byte_swap_bound; assumption). apply byte_swap_involutive; assumption. }
  cbv zeta. rewrite Et. rewrite (wrap_small (iw ty) u) by lia.
  assert (Ec : (if isigned ty then to_signed (iw ty) u else u) = t).
  { unfold in_range, int_min, int_max in Ht. destruct (isigned ty).
    - destruct (Z_lt_dec t 0).
      + rewrite wrap_neg in Hu3 by lia. unfold to_signed. rewrite wrap_small by lia. destruct (Z.ltb_spec u (2 ^ (iw ty - 1))); lia.
      + rewrite wrap_small in Hu3 by lia. subst u. apply to_signed_id; lia.
    - rewrite wrap_small in Hu3 by lia. auto. }
  rewrite Ec. destruct (Z.ltb_spec (iw ty) sz); [|reflexivity]. destruct (Z.ltb_spec (2 ^ iw ty - 1) u); [lia|reflexivity].
Qed.
Print Assumptions C14_round_trip.

(** The rest of the claim is false.  A negative integer put into more bits than its type has is not sign
    extended: int32 -5 as 64 bits is the 64-bit integer 4294967291, and reads back so into an int64. *)
Theorem C14_widening_refuted : exists u, lebe_put 64 (mk_int 32 true) (-5) = Some u /\
  lebe_print little little 8 8 u [] = [251; 255; 255; 255; 0; 0; 0; 0] /\
  le_bytes 8 (-5) = [251; 255; 255; 255; 255; 255; 255; 255] /\
  lebe_get little little 8 64 (mk_int 64 true) (lebe_print little little 8 8 u []) = Some 4294967291.
Proof. exists 4294967291. vm_compute. auto. Qed.
Print Assumptions C14_widening_refuted.

(** A signed destination narrower than the encoding accepts integers it cannot hold. *)
Theorem C14_narrow_signed_get_refuted :
  lebe_get little little 16 64 (mk_int 32 true) (le_bytes 8 4294967291) = Some (-5).
Proof. vm_compute. reflexivity. Qed.
Print Assumptions C14_narrow_signed_get_refuted.

(** One byte integers written as 16 bit units leave the upper half of the unit unwritten. *)
Theorem C14_wide_unit_refuted :
  lebe_print little little 16 1 7 [0] = [7] /\ lebe_print little little 16 1 7 [65535] = [65287] /\
  lebe_get little little 16 8 (mk_int 8 false) (lebe_print little little 16 1 7 [65535]) = None.
Proof. vm_compute. auto. Qed.
Print Assumptions C14_wide_unit_refuted.

Example C14_instance : lebe_put 32 (mk_int 32 true) (-2) = Some 4294967294
  /\ lebe_print little big 8 4 4294967294 [] = [255; 255; 255; 254]
  /\ lebe_get big big 8 32 (mk_int 32 true) [255; 255; 255; 254; 9] = Some (-2)
  /\ lebe_put 16 (mk_int 32 false) 65536 = None.
Proof. vm_compute. auto. Qed.
