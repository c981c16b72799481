(** Properties C10-C13: LEB128. *)
From Verif Require Import Base NumSpec IntPrintModel IntPrintProofs IntScanModel IntScanProofs Leb128Model Leb128Spec Leb128Proofs.

Definition leb_type (ty : int_type) : Prop := In (iw ty) [8; 16; 32; 64; 128].
Definition leb_units (cw : Z) (s : list Z) : Prop := In cw [8; 16; 32] /\ Forall (fun c => 0 <= c < 2 ^ cw) s.

Lemma leb_reserve_groups w : In w int_widths -> leb_reserve w = w / 7 + 1.
Proof. intros H. destruct (leb_width_facts w H) as (g & A & B & C & ->). unfold leb_reserve. destruct (Z.eqb_spec (w mod 7) 0); lia. Qed.

(** *** C11: shape, size and minimality *)

Lemma leb_total ty v : leb_type ty -> in_range ty v ->
  exists bs, leb128_put ty v = Some bs /\ leb_wf bs /\ leb_denotes (isigned ty) bs = v /\ zlen bs <= leb_reserve (iw ty).
Proof.
  intros Hty Hv. destruct (leb_width_facts (iw ty) Hty) as (g & G1 & G2 & G3 & G4).
  assert (Hg : (Z.to_nat g < 64)%nat).
  { unfold leb_type in Hty. destruct ty as [w sg]; cbn in *. destruct Hty as [E|[E|[E|[E|[E|[]]]]]]; subst w; subst g; vm_compute; lia. }
  destruct (leb_put_total (isigned ty) (Z.to_nat g) v) with (f := 64%nat) as (bs & A & B & C & D); [| |exact Hg|].
  - intros E. unfold in_range, int_min in Hv. rewrite E in Hv. lia.
  - rewrite Z2Nat.id by lia. assert (E : 128 ^ g = 2 ^ (7 * g)) by (rewrite Z.pow_mul_r by lia; reflexivity).
    assert (2 ^ iw ty <= 128 * 128 ^ g) by (rewrite E; change 128 with (2 ^ 7); rewrite <- Z.pow_add_r by lia; apply Z.pow_le_mono_r; lia).
    assert (2 ^ (iw ty - 1) <= 64 * 128 ^ g) by (rewrite E; change 64 with (2 ^ 6); rewrite <- Z.pow_add_r by lia; apply Z.pow_le_mono_r; lia).
    unfold in_range, int_min, int_max in Hv. destruct (isigned ty); lia.
  - exists bs. repeat split; auto. rewrite leb_reserve_groups by exact Hty. rewrite <- G4. unfold zlen. lia.
Qed.

(** The encoder's output is a well-formed LEB128 string denoting the value, within the declared size. *)
Theorem C11_encoding_wf_and_fits : forall ty v, leb_type ty -> in_range ty v ->
  exists bs, leb128_put ty v = Some bs /\ leb_wf bs /\ leb_denotes (isigned ty) bs = v
    /\ zlen bs <= leb_reserve (iw ty) /\ Forall (fun b => 0 <= b < 256) bs.
Proof.
  intros ty v Hty Hv. destruct (leb_total ty v Hty Hv) as (bs & A & B & C & D). exists bs. repeat (split; [assumption|]).
  destruct (leb_wf_last _ B) as (ini & b & -> & F & Hb). apply Forall_app. split; [eapply Forall_impl; [|exact F]; cbn; lia|constructor; [lia|constructor]].
Qed.
Print Assumptions C11_encoding_wf_and_fits.

(** No shorter well-formed string denotes the same integer. *)
Theorem C11_encoding_shortest : forall ty v bs other, leb_type ty -> in_range ty v -> leb128_put ty v = Some bs ->
  leb_wf other -> leb_denotes (isigned ty) other = v -> (length bs <= length other)%nat.
Proof.
  intros ty v bs other Hty Hv Hput Hwf Hden.
  destruct (leb_wf_last _ Hwf) as (ini & b & E & HF & Hb).
  assert (Hlen : length other = S (length ini)) by (rewrite E, app_length; cbn; lia).
  destruct (leb_total ty v Hty Hv) as (bs' & A & _ & _ & D). rewrite Hput in A. injection A as <-.
  destruct (leb_width_facts (iw ty) Hty) as (g & G1 & G2 & G3 & G4). rewrite leb_reserve_groups, <- G4 in D by exact Hty.
  assert (Hg : g < 63).
  { unfold leb_type in Hty. clear - Hty G4. destruct ty as [w sg]; cbn in *. destruct Hty as [E|[E|[E|[E|[E|[]]]]]]; subst w; subst g; vm_compute; reflexivity. }
  destruct (le_lt_dec 64 (length other)) as [Hbig|Hsmall]; [unfold zlen in D; lia|].
  destruct (leb_put_total (isigned ty) (length ini) v) with (f := 64%nat) as (bs2 & A2 & _ & _ & D2); [| |lia|].
  - intros E2. unfold in_range, int_min in Hv. rewrite E2 in Hv. lia.
  - subst v. unfold leb_denotes. destruct (isigned ty).
    + assert (Hne : other <> []) by (intros ->; exact Hwf). pose proof (sleb_bound other Hne) as HB.
      replace (zlen other - 1) with (Z.of_nat (length ini)) in HB by (unfold zlen; lia). lia.
    + pose proof (uleb_bound other) as HB. replace (zlen other) with (Z.of_nat (length ini) + 1) in HB by (unfold zlen; lia).
      rewrite Z.pow_add_r in HB by lia. lia.
  - unfold leb128_put in Hput. rewrite Hput in A2. injection A2 as <-. lia.
Qed.
Print Assumptions C11_encoding_shortest.

Example C11_instance : leb_type (mk_int 16 true) /\ in_range (mk_int 16 true) (-300)
  /\ leb128_put (mk_int 16 true) (-300) = Some [212; 125] /\ leb_wf [212; 253; 127] /\ sleb [212; 253; 127] = -300.
Proof. repeat split; try (vm_compute; intuition congruence); cbn; auto; lia. Qed.

(** *** C12: exactness on every input *)

Lemma leb_loop_scan ty cw s : leb_scan ty cw s =
  match l_code (leb_loop ty cw s 0 0 0) with
  | pc_ok => (pc_ok, l_used (leb_loop ty cw s 0 0 0), Some (leb_value ty (l_tmp (leb_loop ty cw s 0 0 0))))
  | pc_partial => (pc_invalid, l_used (leb_loop ty cw s 0 0 0), None)
  | c => (c, l_used (leb_loop ty cw s 0 0 0), None)
  end.
Proof. unfold leb_scan. rewrite Z.lor_0_l. reflexivity. Qed.

(** Decoding a well-formed encoding (padded or not) of an integer, whatever follows: an integer outside
    the destination is overflow; one inside is stored exactly unless the encoding is padded to more groups
    than the type has. *)
Theorem C12_decode_exact : forall ty cw bs rest, leb_type ty -> leb_units cw (bs ++ rest) -> leb_wf bs ->
  let V := leb_denotes (isigned ty) bs in
  (in_range ty V -> zlen bs <= leb_reserve (iw ty) -> leb_scan ty cw (bs ++ rest) = (pc_ok, zlen bs, Some V)) /\
  (~ in_range ty V \/ leb_reserve (iw ty) < zlen bs ->
     exists u, leb_scan ty cw (bs ++ rest) = (pc_overflow, u, None) /\ u <= zlen bs).
Proof.
  intros ty cw bs rest Hty Hu Hwf V. rewrite leb_reserve_groups by exact Hty. rewrite leb_loop_scan.
  pose proof (leb_value_mod ty Hty V) as HV.
  destruct (loop_wf ty Hty cw bs rest Hwf) as [(A & B & C & D & E)|(A & B & C)].
  - rewrite C, D, E. fold V. split; [intros _ _; rewrite HV by exact B; reflexivity|]. intros [H|H]; [contradiction|lia].
  - rewrite B. fold V in A. split; [intros H1 H2; destruct A; [lia|contradiction]|]. intros _. eexists. split; [reflexivity|exact C].
Qed.
Print Assumptions C12_decode_exact.

(** Every text at all: ok only when the consumed units are a well-formed encoding of the stored value. *)
Theorem C12_ok_is_sound : forall ty cw s used v, leb_type ty -> leb_units cw s ->
  leb_scan ty cw s = (pc_ok, used, Some v) ->
  exists bs rest, s = bs ++ rest /\ leb_wf bs /\ used = zlen bs /\ leb_denotes (isigned ty) bs = v /\ in_range ty v.
Proof.
  intros ty cw s used v Hty [Hcw Hu] H.
  destruct (leb_classify ty cw s Hu) as [(bs & rest & E & Hwf)|[HF|(ini & c & rest & E & HF & Hc & Hw)]].
  - cbn in Hcw. lia.
  - exists bs, rest. split; [exact E|]. split; [exact Hwf|]. subst s.
    destruct (C12_decode_exact ty cw bs rest Hty (conj Hcw Hu) Hwf) as [A B].
    destruct (in_rangeb_dec ty (leb_denotes (isigned ty) bs)) as [I|I].
    + destruct (Z_le_dec (zlen bs) (leb_reserve (iw ty))) as [L|L].
      * rewrite (A I L) in H. injection H as <- <-. auto.
      * assert (L2 : leb_reserve (iw ty) < zlen bs) by lia; destruct (B (or_intror L2)) as (u & B' & _). rewrite B' in H. discriminate.
    + destruct (B (or_introl I)) as (u & B' & _). rewrite B' in H. discriminate.
  - exfalso. rewrite leb_loop_scan in H. destruct (loop_unfinished ty cw s HF) as [[A _]|A]; cbv zeta in A; rewrite A in H; discriminate.
  - exfalso. subst s. rewrite leb_loop_scan in H. destruct (loop_badunit ty cw ini c rest HF Hc Hw) as [A|A]; cbv zeta in A; rewrite A in H; discriminate.
Qed.
Print Assumptions C12_ok_is_sound.

Example C12_instance : leb_units 8 ([255; 127] ++ [7]) /\ leb_wf [255; 127] /\ ~ in_range (mk_int 8 false) (uleb [255; 127])
  /\ leb_scan (mk_int 8 false) 8 [255; 127; 7] = (pc_overflow, 2, None)
  /\ leb_scan (mk_int 8 true) 8 [255; 127; 7] = (pc_ok, 2, Some (-1)).
Proof.
  unfold leb_units, in_range. repeat split; try (cbn; lia); try (vm_compute; intuition congruence).
  repeat constructor; cbn; lia.
Qed.

(** *** C13: chunk independence of the streaming decoder, on every text *)

(** The text is a proper prefix of an encoding: every unit carries the continuation bit. *)
Definition unfinished (s : list Z) : Prop := Forall (fun c => 128 <= c < 256) s.

Lemma loop_invalid ty cw s : forall cnt tmp u, l_code (leb_loop ty cw s cnt tmp u) = pc_invalid -> ~ unfinished s.
Proof.
  induction s as [|c s IH]; intros cnt tmp u; cbn [leb_loop]; [discriminate|].
  destruct ((8 <? cw) && (256 <=? c)) eqn:E1.
  - intros _ H. inversion H; subst. apply andb_true_iff in E1 as [_ E1]. apply Z.leb_le in E1. lia.
  - match goal with |- context [if ?b then mk_lres pc_overflow _ _ _ else _] => destruct b end; [discriminate|].
    destruct (negb (negb (Z.land c 128 =? 0))); [discriminate|]. intros H F. inversion F; subst. eapply IH; eauto.
Qed.
Lemma loop_partial ty cw s : leb_units cw s -> forall cnt tmp u, l_code (leb_loop ty cw s cnt tmp u) = pc_partial -> unfinished s.
Proof.
  intros [Hcw Hu]. induction Hu as [|c s Hc Hu IH]; intros cnt tmp u; cbn [leb_loop]; [constructor|].
  destruct ((8 <? cw) && (256 <=? c)) eqn:E1; [discriminate|].
  assert (Hc2 : 0 <= c < 256).
  { cbn in Hcw. destruct Hcw as [<-|Hcw]; [exact Hc|]. apply andb_false_iff in E1 as [E|E]; [apply Z.ltb_ge in E; lia|apply Z.leb_gt in E; lia]. }
  match goal with |- context [if ?b then mk_lres pc_overflow _ _ _ else _] => destruct b end; [discriminate|].
  rewrite bit7 by lia. rewrite negb_involutive. destruct (Z.ltb_spec c 128); [discriminate|]. intros E. constructor; [lia|]. eapply IH; exact E.
Qed.

(** Any split of the text (empty chunks included), any previous content of the target: same code, same
    value, same number of units consumed as the contiguous decoder. *)
Theorem C13_chunk_independent : forall ty cw t0 chunks, leb_type ty -> leb_units cw (concat chunks) ->
  ~ unfinished (concat chunks) \/ fst (fst (leb_scan ty cw (concat chunks))) = pc_overflow ->
  leb_scan_chunks ty cw t0 chunks = leb_scan ty cw (concat chunks).
Proof.
  intros ty cw t0 chunks Hty Hu Hf. unfold leb_scan_chunks. rewrite leb_ctx_run_concat by lia. change (0 =? 0) with true. cbv iota.
  rewrite leb_loop_scan in *. unfold leb_finish. set (s := concat chunks) in *.
  destruct (l_code (leb_loop ty cw s 0 0 0)) eqn:E; try reflexivity. exfalso.
  destruct Hf as [Hf|Hf]; [|discriminate]. apply Hf. eapply loop_partial; eauto.
Qed.
Print Assumptions C13_chunk_independent.

(** An unfinished encoding is reported as end of file by the stream, after all of it was read, at every
    split; the contiguous decoder calls it invalid at the same place. *)
Theorem C13_unfinished : forall ty cw t0 chunks, leb_type ty -> unfinished (concat chunks) ->
  zlen (concat chunks) < leb_reserve (iw ty) ->
  leb_scan_chunks ty cw t0 chunks = (pc_end_of_file, zlen (concat chunks), None) /\
  leb_scan ty cw (concat chunks) = (pc_invalid, zlen (concat chunks), None).
Proof.
  intros ty cw t0 chunks Hty Hf Hl. rewrite leb_reserve_groups in Hl by exact Hty.
  unfold leb_scan_chunks. rewrite leb_ctx_run_concat by lia. change (0 =? 0) with true. cbv iota.
  rewrite leb_loop_scan. unfold leb_finish. set (s := concat chunks) in *.
  pose proof (loop_prefix0 ty Hty cw s [] Hf ltac:(lia)) as E. rewrite app_nil_r in E. rewrite E. cbn [leb_loop l_code l_used]. auto.
Qed.
Print Assumptions C13_unfinished.

(** Two splits of the same text give the same answer, without any condition. *)
Theorem C13_two_splits_agree : forall ty cw t1 t2 chunks1 chunks2, concat chunks1 = concat chunks2 ->
  leb_scan_chunks ty cw t1 chunks1 = leb_scan_chunks ty cw t2 chunks2.
Proof. intros ty cw t1 t2 c1 c2 E. unfold leb_scan_chunks. rewrite !leb_ctx_run_concat by lia. rewrite E. reflexivity. Qed.
Print Assumptions C13_two_splits_agree.

Example C13_instance : leb_scan_chunks (mk_int 32 false) 8 99 [[229]; []; [142; 38]; [1; 2]] = (pc_ok, 3, Some 624485)
  /\ leb_scan (mk_int 32 false) 8 [229; 142; 38; 1; 2] = (pc_ok, 3, Some 624485)
  /\ leb_scan_chunks (mk_int 32 false) 8 99 [[229]; [142]] = (pc_end_of_file, 2, None).
Proof. vm_compute. auto. Qed.

(** *** C10: round trip *)

(** Decode (encode v ++ anything) = v, consuming exactly the encoding; contiguous decoder. *)
Theorem C10_round_trip : forall ty cw v rest, leb_type ty -> in_range ty v -> leb_units cw rest ->
  exists bs, leb128_put ty v = Some bs /\ leb_scan ty cw (bs ++ rest) = (pc_ok, zlen bs, Some v).
Proof.
  intros ty cw v rest Hty Hv [Hcw Hr]. destruct (C11_encoding_wf_and_fits ty v Hty Hv) as (bs & A & B & C & D & F).
  exists bs. split; [exact A|]. destruct (C12_decode_exact ty cw bs rest Hty) as [E _]; [|exact B|].
  - split; [exact Hcw|]. apply Forall_app. split; [|exact Hr]. eapply Forall_impl; [|exact F]. cbn beta. intros b Hb.
    cbn in Hcw. destruct Hcw as [<-|[<-|[<-|[]]]]; cbn; lia.
  - rewrite C in E. apply E; auto.
Qed.
Print Assumptions C10_round_trip.

(** The same through the context interface, for every way of cutting the stream into buffers. *)
Theorem C10_round_trip_chunked : forall ty cw v rest t0 chunks bs, leb_type ty -> in_range ty v -> leb_units cw rest ->
  leb128_put ty v = Some bs -> concat chunks = bs ++ rest ->
  leb_scan_chunks ty cw t0 chunks = (pc_ok, zlen bs, Some v).
Proof.
  intros ty cw v rest t0 chunks bs Hty Hv Hr Hput E.
  destruct (C10_round_trip ty cw v rest Hty Hv Hr) as (bs' & A & B). rewrite Hput in A. injection A as <-.
  destruct (C11_encoding_wf_and_fits ty v Hty Hv) as (bs2 & A & W & _ & _ & F). rewrite Hput in A. injection A as <-.
  rewrite C13_chunk_independent; [rewrite E; exact B|exact Hty| |left; rewrite E].
  - rewrite E. destruct Hr as [Hcw Hr]. split; [exact Hcw|]. apply Forall_app. split; [|exact Hr]. eapply Forall_impl; [|exact F]. cbn beta. intros b Hb.
    cbn in Hcw. destruct Hcw as [<-|[<-|[<-|[]]]]; cbn; lia.
  - intros U. destruct (leb_wf_last _ W) as (ini & b & -> & _ & Hb). apply Forall_app in U as [U _]. apply Forall_app in U as [_ U]. inversion U; lia.
Qed.
Print Assumptions C10_round_trip_chunked.

Example C10_instance : leb128_put (mk_int 64 true) (-9223372036854775808) = Some [128;128;128;128;128;128;128;128;128;127]
  /\ leb_scan (mk_int 64 true) 8 [128;128;128;128;128;128;128;128;128;127;255] = (pc_ok, 10, Some (-9223372036854775808)).
Proof. vm_compute. auto. Qed.
