(** Proofs about the UTF converters. *)
From Verif Require Import Base ByteSpec LebeModel UtfTables UtfSpec UtfModel IntPrintModel IntPrintProofs IntScanModel IntScanProofs Leb128Model Leb128Proofs ByteProofs.
Ltac Zify.zify_post_hook ::= Z.div_mod_to_equations.

(** ** Encoding one code point *)

Lemma lor_const k b n : 0 <= n -> 0 <= b < 2 ^ n -> Z.lor (k * 2 ^ n) b = k * 2 ^ n + b.
Proof. intros Hn Hb. rewrite Z.lor_comm, lor_add by assumption. lia. Qed.
Lemma lor128 x : 0 <= x < 64 -> Z.lor 128 x = 128 + x. Proof. intros. apply (lor_const 2 x 6); [lia|exact H]. Qed.
Lemma lor192 x : 0 <= x < 64 -> Z.lor 192 x = 192 + x. Proof. intros. apply (lor_const 3 x 6); [lia|exact H]. Qed.
Lemma lor224 x : 0 <= x < 32 -> Z.lor 224 x = 224 + x. Proof. intros. apply (lor_const 7 x 5); [lia|exact H]. Qed.
Lemma lor240 x : 0 <= x < 16 -> Z.lor 240 x = 240 + x. Proof. intros. apply (lor_const 15 x 4); [lia|exact H]. Qed.
Lemma land_mask x n m : 0 <= n -> m = Z.ones n -> Z.land x m = x mod 2 ^ n.
Proof. intros Hn ->. apply Z.land_ones. exact Hn. Qed.
Lemma shr x n p : 0 <= n -> p = 2 ^ n -> Z.shiftr x n = x / p.
Proof. intros Hn ->. apply Z.shiftr_div_pow2. exact Hn. Qed.

Lemma units8_spec nat c : 0 <= c <= 1114111 -> get_utf_code_units 8 nat c = utf8 c.
Proof.
  intros Hc. unfold get_utf_code_units, utf8. change (8 =? 32) with false. change (8 =? 16) with false. cbv iota.
  rewrite !(shr c 6 64), !(shr c 12 4096), !(shr c 18 262144) by (reflexivity || lia).
  rewrite !(land_mask _ 6 63), !(land_mask _ 5 31), !(land_mask _ 4 15), !(land_mask _ 3 7) by (reflexivity || lia).
  change (2 ^ 6) with 64. change (2 ^ 5) with 32. change (2 ^ 4) with 16. change (2 ^ 3) with 8.
  destruct (Z.leb_spec c 127), (Z.ltb_spec c 128); try lia; [f_equal; apply wrap_small; change (2 ^ 8) with 256; lia|].
  destruct (Z.leb_spec c 2047), (Z.ltb_spec c 2048); try lia.
  { rewrite lor192, lor128 by lia. do 2 f_equal. lia. }
  destruct (Z.leb_spec c 65535), (Z.ltb_spec c 65536); try lia.
  { rewrite lor224, !lor128 by lia. do 2 f_equal. lia. }
  destruct (Z.leb_spec c 1114111); try lia. rewrite lor240, !lor128 by lia. do 2 f_equal. lia.
Qed.

Lemma units16_spec c : 0 <= c <= 1114111 -> get_utf_code_units 16 true c = utf16 c.
Proof.
  intros Hc. unfold get_utf_code_units, utf16. change (16 =? 32) with false. change (16 =? 16) with true. cbv iota. cbn [sw].
  rewrite (shr c 10 1024) by (reflexivity || lia). rewrite (land_mask _ 10 1023) by (reflexivity || lia). change (2 ^ 10) with 1024.
  destruct (Z.ltb_spec c 65536); rewrite !wrap_small by (change (2 ^ 16) with 65536; lia); [reflexivity|].
  f_equal; [lia|f_equal; lia].
Qed.

Lemma units_spec cw c : In cw [8; 16; 32] -> 0 <= c <= 1114111 -> get_utf_code_units cw true c = utf_units cw c.
Proof.
  intros Hcw Hc. unfold utf_units. destruct Hcw as [<-|[<-|[<-|[]]]]; cbn [Z.eqb Pos.eqb].
  - apply units8_spec, Hc.
  - apply units16_spec, Hc.
  - reflexivity.
Qed.

(** ** The automaton *)

Lemma forall_bytes (P : Z -> bool) : forallb P (map Z.of_nat (seq 0 256)) = true -> forall b, is_byte b -> P b = true.
Proof.
  intros H b Hb. unfold is_byte in Hb. rewrite forallb_forall in H. apply H. apply in_map_iff. exists (Z.to_nat b). split; [lia|]. apply in_seq. lia.
Qed.

Definition rng (lo hi u : Z) : bool := (lo <=? u) && (u <=? hi).
Lemma rng_spec lo hi u : rng lo hi u = true <-> lo <= u <= hi.
Proof. unfold rng. rewrite andb_true_iff, !Z.leb_le. lia. Qed.

Definition trans_to (st lo hi next : Z) : Prop :=
  forall u, is_byte u -> tbl transitions (st + tbl octet_category u) = if rng lo hi u then next else 12.
Lemma trans_by st lo hi next :
  forallb (fun u => tbl transitions (st + tbl octet_category u) =? (if rng lo hi u then next else 12)) (map Z.of_nat (seq 0 256)) = true ->
  trans_to st lo hi next.
Proof. intros H u Hu. apply Z.eqb_eq. apply (forall_bytes (fun u => tbl transitions (st + tbl octet_category u) =? (if rng lo hi u then next else 12)) H u Hu). Qed.
Lemma trans24 : trans_to 24 128 191 0. Proof. apply trans_by. vm_compute. reflexivity. Qed.
Lemma trans36 : trans_to 36 128 191 24. Proof. apply trans_by. vm_compute. reflexivity. Qed.
Lemma trans48 : trans_to 48 128 191 36. Proof. apply trans_by. vm_compute. reflexivity. Qed.
Lemma trans60 : trans_to 60 160 191 24. Proof. apply trans_by. vm_compute. reflexivity. Qed.
Lemma trans72 : trans_to 72 128 159 24. Proof. apply trans_by. vm_compute. reflexivity. Qed.
Lemma trans84 : trans_to 84 144 191 36. Proof. apply trans_by. vm_compute. reflexivity. Qed.
Lemma trans96 : trans_to 96 128 143 36. Proof. apply trans_by. vm_compute. reflexivity. Qed.

(** First bytes: class of each byte. *)
Definition first_class (b : Z) : Z * Z :=
  if b <? 128 then (b, 0) else if b <? 194 then (b, 12) else if b <? 224 then (b - 192, 24)
  else if b =? 224 then (0, 60) else if b <? 237 then (b - 224, 36) else if b =? 237 then (13, 72)
  else if b <? 240 then (b - 224, 36) else if b =? 240 then (0, 84) else if b <? 244 then (b - 240, 48)
  else if b =? 244 then (4, 96) else (b, 12).
Lemma first_state b : is_byte b -> tbl first_unit_state b = snd (first_class b).
Proof. intros Hb. apply Z.eqb_eq. apply (forall_bytes (fun b => tbl first_unit_state b =? snd (first_class b))); [vm_compute; reflexivity|exact Hb]. Qed.
Lemma first_cdpt b : is_byte b -> snd (first_class b) <> 12 -> tbl first_unit_cdpt b = fst (first_class b).
Proof.
  intros Hb H. assert (E : (snd (first_class b) =? 12) || (tbl first_unit_cdpt b =? fst (first_class b)) = true).
  { apply (forall_bytes (fun b => (snd (first_class b) =? 12) || (tbl first_unit_cdpt b =? fst (first_class b)))); [vm_compute; reflexivity|exact Hb]. }
  apply orb_true_iff in E as [E|E]; apply Z.eqb_eq in E; congruence.
Qed.

Lemma dfa_acc cd u : 0 <= cd < 2 ^ 26 -> is_byte u -> wrap 32 (Z.lor (wrap 32 (Z.shiftl cd 6)) (Z.land u 63)) = cd * 64 + u mod 64.
Proof.
  intros Hc Hu. rewrite (land_mask u 6 63) by (reflexivity || lia). rewrite Z.shiftl_mul_pow2 by lia.
  change (2 ^ 26) with 67108864 in Hc. change (2 ^ 6) with 64. rewrite (wrap_small 32 (cd * 64)) by (change (2 ^ 32) with 4294967296; lia).
  rewrite Z.lor_comm. pose proof (lor_add (u mod 64) cd 6 ltac:(lia)) as E. change (2 ^ 6) with 64 in E. rewrite E by lia.
  rewrite wrap_small by (change (2 ^ 32) with 4294967296; lia). lia.
Qed.

Lemma dfa_end0 cd s : utf8_dfa cd 0 s = Some (cd, s). Proof. destruct s; reflexivity. Qed.
Lemma dfa_end12 cd s : utf8_dfa cd 12 s = Some (65533, s). Proof. destruct s; reflexivity. Qed.

Lemma dfa_step cd st lo hi next u s : 12 < st -> trans_to st lo hi next -> 0 <= cd < 2 ^ 26 -> is_byte u ->
  utf8_dfa cd st (u :: s) = if rng lo hi u then utf8_dfa (cd * 64 + u mod 64) next s else Some (65533, s).
Proof.
  intros Hst Ht Hc Hu. cbn [utf8_dfa]. rewrite (proj2 (Z.ltb_lt 12 st) Hst). rewrite (Ht u Hu), dfa_acc by assumption.
  destruct (rng lo hi u); [reflexivity|apply dfa_end12].
Qed.
Lemma dfa_nil cd st : 12 < st -> utf8_dfa cd st [] = None.
Proof. intros H. cbn [utf8_dfa]. rewrite (proj2 (Z.ltb_lt 12 st) H). reflexivity. Qed.

(** What remains after one, two or three more bytes. *)
Definition need1 lo hi cd (s : list Z) : option (Z * list Z) :=
  match s with [] => None | u :: s' => if rng lo hi u then Some (cd * 64 + u mod 64, s') else Some (65533, s') end.
Definition need2 lo hi cd (s : list Z) : option (Z * list Z) :=
  match s with [] => None | u :: s' => if rng lo hi u then need1 128 191 (cd * 64 + u mod 64) s' else Some (65533, s') end.
Definition need3 lo hi cd (s : list Z) : option (Z * list Z) :=
  match s with [] => None | u :: s' => if rng lo hi u then need2 128 191 (cd * 64 + u mod 64) s' else Some (65533, s') end.

Lemma dfa24 cd s : 0 <= cd < 2 ^ 26 -> Forall is_byte s -> utf8_dfa cd 24 s = need1 128 191 cd s.
Proof.
  intros Hc Hs. destruct Hs as [|u s Hu Hs]; [apply dfa_nil; lia|]. rewrite (dfa_step cd 24 128 191 0 u s eq_refl trans24) by assumption.
  cbn [need1]. destruct (rng 128 191 u); [apply dfa_end0|reflexivity].
Qed.
Lemma dfa_n2 cd st lo hi s : 12 < st -> trans_to st lo hi 24 -> 0 <= cd < 2 ^ 20 -> Forall is_byte s -> utf8_dfa cd st s = need2 lo hi cd s.
Proof.
  intros Hst Ht Hc Hs. change (2 ^ 20) with 1048576 in Hc. destruct Hs as [|u s Hu Hs]; [apply dfa_nil; lia|].
  rewrite (dfa_step cd st lo hi 24 u s Hst Ht) by (change (2 ^ 26) with 67108864; assumption || lia).
  cbn [need2]. destruct (rng lo hi u); [|reflexivity]. apply dfa24; [|exact Hs]. change (2 ^ 26) with 67108864. unfold is_byte in Hu. lia.
Qed.
Lemma dfa_n3 cd st lo hi s : 12 < st -> trans_to st lo hi 36 -> 0 <= cd < 2 ^ 14 -> Forall is_byte s -> utf8_dfa cd st s = need3 lo hi cd s.
Proof.
  intros Hst Ht Hc Hs. change (2 ^ 14) with 16384 in Hc. destruct Hs as [|u s Hu Hs]; [apply dfa_nil; lia|].
  rewrite (dfa_step cd st lo hi 36 u s Hst Ht) by (change (2 ^ 26) with 67108864; assumption || lia).
  cbn [need3]. destruct (rng lo hi u); [|reflexivity]. apply (dfa_n2 _ 36 128 191); [lia|exact trans36| |exact Hs].
  change (2 ^ 20) with 1048576. unfold is_byte in Hu. lia.
Qed.

(** The whole automaton as a case analysis on the first byte. *)
Lemma advance_cases b s : is_byte b -> Forall is_byte s ->
  utf8_advance (b :: s) =
    if b <? 128 then Some (b, s) else if b <? 194 then Some (65533, s)
    else if b <? 224 then need1 128 191 (b - 192) s
    else if b =? 224 then need2 160 191 0 s else if b <? 237 then need2 128 191 (b - 224) s
    else if b =? 237 then need2 128 159 13 s else if b <? 240 then need2 128 191 (b - 224) s
    else if b =? 240 then need3 144 191 0 s else if b <? 244 then need3 128 191 (b - 240) s
    else if b =? 244 then need3 128 143 4 s else Some (65533, s).
Proof.
  intros Hb Hs. pose proof Hb as Hb'. unfold is_byte in Hb'. cbn [utf8_advance]. rewrite first_state by exact Hb.
  pose proof (first_cdpt b Hb) as Hc. unfold first_class in *.
  repeat match goal with |- context [if ?x then _ else _] => let E := fresh "E" in destruct x eqn:E end;
  repeat match goal with H : (_ <? _) = true |- _ => apply Z.ltb_lt in H | H : (_ <? _) = false |- _ => apply Z.ltb_ge in H
    | H : (_ =? _) = true |- _ => apply Z.eqb_eq in H | H : (_ =? _) = false |- _ => apply Z.eqb_neq in H end;
  cbn [fst snd] in *; try rewrite (Hc ltac:(lia));
  first [apply dfa_end0|apply dfa_end12|apply dfa24; [change (2 ^ 26) with 67108864; lia|exact Hs]
   |apply (dfa_n2 _ 60); [lia|exact trans60|change (2 ^ 20) with 1048576; lia|exact Hs]
   |apply (dfa_n2 _ 72); [lia|exact trans72|change (2 ^ 20) with 1048576; lia|exact Hs]
   |apply (dfa_n2 _ 36); [lia|exact trans36|change (2 ^ 20) with 1048576; lia|exact Hs]
   |apply (dfa_n3 _ 84); [lia|exact trans84|change (2 ^ 14) with 16384; lia|exact Hs]
   |apply (dfa_n3 _ 96); [lia|exact trans96|change (2 ^ 14) with 16384; lia|exact Hs]
   |apply (dfa_n3 _ 48); [lia|exact trans48|change (2 ^ 14) with 16384; lia|exact Hs]].
Qed.

Ltac zbool := repeat match goal with
  | H : (_ <? _) = true |- _ => apply Z.ltb_lt in H | H : (_ <? _) = false |- _ => apply Z.ltb_ge in H
  | H : (_ <=? _) = true |- _ => apply Z.leb_le in H | H : (_ <=? _) = false |- _ => apply Z.leb_gt in H
  | H : (_ =? _) = true |- _ => apply Z.eqb_eq in H | H : (_ =? _) = false |- _ => apply Z.eqb_neq in H end.

Lemma rng_t lo hi u : lo <= u <= hi -> rng lo hi u = true. Proof. apply rng_spec. Qed.
Lemma rng_f lo hi u : rng lo hi u = false -> ~ (lo <= u <= hi).
Proof. intros E H. apply rng_spec in H. congruence. Qed.

Lemma utf8_bytes c : scalar c -> Forall is_byte (utf8 c).
Proof.
  intros [H _]. unfold utf8, is_byte.
  destruct (c <? 128) eqn:E1; [|destruct (c <? 2048) eqn:E2; [|destruct (c <? 65536) eqn:E3]]; zbool; repeat constructor; lia.
Qed.

Lemma utf8_nonempty c : utf8 c <> [].
Proof. unfold utf8. destruct (c <? 128), (c <? 2048), (c <? 65536); discriminate. Qed.

(** The encoding of a scalar value is a row of table 3-7, and every row is such an encoding. *)
Lemma utf8_wf c : scalar c -> wf8_seq (utf8 c).
Proof.
  intros [H Hs]. unfold utf8.
  destruct (c <? 128) eqn:E1; [|destruct (c <? 2048) eqn:E2; [|destruct (c <? 65536) eqn:E3]]; zbool.
  - apply wf8_1; lia.
  - apply wf8_2; lia.
  - destruct (Z_lt_dec c 4096).
    + replace (c / 4096) with 0 by lia. apply wf8_3a; lia.
    + destruct (Z_lt_dec c 53248); [apply wf8_3b; lia|]. destruct (Z_lt_dec c 57344).
      * replace (c / 4096) with 13 by lia. apply wf8_3c; lia.
      * apply wf8_3d; lia.
  - destruct (Z_lt_dec c 262144).
    + replace (c / 262144) with 0 by lia. apply wf8_4a; lia.
    + destruct (Z_lt_dec c 1048576); [apply wf8_4b; lia|]. replace (c / 262144) with 4 by lia. apply wf8_4c; lia.
Qed.

Lemma utf8_2 a b : 194 <= a <= 223 -> 128 <= b <= 191 -> [a; b] = utf8 ((a - 192) * 64 + b mod 64) /\ scalar ((a - 192) * 64 + b mod 64).
Proof.
  intros Ha Hb. set (c := (a - 192) * 64 + b mod 64). assert (128 <= c < 2048) by lia.
  split; [|split; lia]. unfold utf8. rewrite (proj2 (Z.ltb_ge c 128)), (proj2 (Z.ltb_lt c 2048)) by lia. unfold c. f_equal; [lia|f_equal; lia].
Qed.
Lemma utf8_3 a b d : 224 <= a <= 239 -> 128 <= b <= 191 -> 128 <= d <= 191 -> (a = 224 -> 160 <= b) -> (a = 237 -> b <= 159) ->
  [a; b; d] = utf8 (((a - 224) * 64 + b mod 64) * 64 + d mod 64) /\ scalar (((a - 224) * 64 + b mod 64) * 64 + d mod 64).
Proof.
  intros Ha Hb Hd H1 H2. set (c := ((a - 224) * 64 + b mod 64) * 64 + d mod 64). assert (2048 <= c < 65536) by lia.
  split; [|split; lia]. unfold utf8. rewrite (proj2 (Z.ltb_ge c 128)), (proj2 (Z.ltb_ge c 2048)), (proj2 (Z.ltb_lt c 65536)) by lia.
  unfold c. f_equal; [lia|f_equal; [lia|f_equal; lia]].
Qed.
Lemma utf8_4 a b d e : 240 <= a <= 244 -> 128 <= b <= 191 -> 128 <= d <= 191 -> 128 <= e <= 191 -> (a = 240 -> 144 <= b) -> (a = 244 -> b <= 143) ->
  [a; b; d; e] = utf8 ((((a - 240) * 64 + b mod 64) * 64 + d mod 64) * 64 + e mod 64) /\ scalar ((((a - 240) * 64 + b mod 64) * 64 + d mod 64) * 64 + e mod 64).
Proof.
  intros Ha Hb Hd He H1 H2. set (c := (((a - 240) * 64 + b mod 64) * 64 + d mod 64) * 64 + e mod 64). assert (65536 <= c < 1114112) by lia.
  split; [|split; lia]. unfold utf8. rewrite (proj2 (Z.ltb_ge c 128)), (proj2 (Z.ltb_ge c 2048)), (proj2 (Z.ltb_ge c 65536)) by lia.
  unfold c. f_equal; [lia|f_equal; [lia|f_equal; [lia|f_equal; lia]]].
Qed.

Lemma wf8_seq_utf8 s : wf8_seq s -> exists c, scalar c /\ s = utf8 c.
Proof.
  intros H. inversion H; subst.
  - exists a. split; [split; lia|]. unfold utf8. rewrite (proj2 (Z.ltb_lt a 128)) by lia. reflexivity.
  - destruct (utf8_2 a b) as [E S]; eauto.
  - destruct (utf8_3 224 b c) as [E S]; try lia; eauto.
  - destruct (utf8_3 a b c) as [E S]; try lia; eauto.
  - destruct (utf8_3 237 b c) as [E S]; try lia; eauto.
  - destruct (utf8_3 a b c) as [E S]; try lia; eauto.
  - destruct (utf8_4 240 b c d) as [E S]; try lia; eauto.
  - destruct (utf8_4 a b c d) as [E S]; try lia; eauto.
  - destruct (utf8_4 244 b c d) as [E S]; try lia; eauto.
Qed.

(** ** Completeness: the automaton decodes every well-formed character *)
Lemma advance_utf8 c rest : scalar c -> Forall is_byte rest -> utf8_advance (utf8 c ++ rest) = Some (c, rest).
Proof.
  intros Hsc Hr. pose proof (utf8_bytes c Hsc) as HB. destruct Hsc as [H Hs]. unfold utf8 in *.
  destruct (c <? 128) eqn:E1; [|destruct (c <? 2048) eqn:E2; [|destruct (c <? 65536) eqn:E3]]; zbool; cbn [app];
    rewrite advance_cases by (repeat match type of HB with Forall _ (_ :: _) => let H := fresh in pose proof (Forall_inv HB) as H; apply Forall_inv_tail in HB end; repeat (apply Forall_cons; [assumption|]); assumption); clear HB.
  - rewrite (proj2 (Z.ltb_lt c 128)) by lia. reflexivity.
  - rewrite (proj2 (Z.ltb_ge _ 128)), (proj2 (Z.ltb_ge _ 194)), (proj2 (Z.ltb_lt _ 224)) by lia.
    cbn [need1]. rewrite rng_t by lia. do 2 f_equal. lia.
  - rewrite (proj2 (Z.ltb_ge _ 128)), (proj2 (Z.ltb_ge _ 194)), (proj2 (Z.ltb_ge _ 224)) by lia.
    destruct (Z.eqb_spec (224 + c / 4096) 224); [|destruct (Z.ltb_spec (224 + c / 4096) 237); [|destruct (Z.eqb_spec (224 + c / 4096) 237); [|destruct (Z.ltb_spec (224 + c / 4096) 240); [|lia]]]];
      cbn [need2 need1]; rewrite !rng_t by lia; do 2 f_equal; lia.
  - rewrite (proj2 (Z.ltb_ge _ 128)), (proj2 (Z.ltb_ge _ 194)), (proj2 (Z.ltb_ge _ 224)), (proj2 (Z.eqb_neq _ 224)), (proj2 (Z.ltb_ge _ 237)), (proj2 (Z.eqb_neq _ 237)), (proj2 (Z.ltb_ge _ 240)) by lia.
    destruct (Z.eqb_spec (240 + c / 262144) 240); [|destruct (Z.ltb_spec (240 + c / 262144) 244); [|destruct (Z.eqb_spec (240 + c / 262144) 244); [|lia]]];
      cbn [need3 need2 need1]; rewrite !rng_t by lia; do 2 f_equal; lia.
Qed.

(** ** Soundness *)

Lemma bad_intro b bad : (length bad <= 3)%nat -> (bad = [] \/ exists t, t <> [] /\ wf8_seq (removelast (b :: bad) ++ t)) ->
  (forall t p q, (b :: bad) ++ t = p ++ q -> ~ wf8_seq p) -> bad_run (b :: bad).
Proof.
  intros HL H1 H2. split; [discriminate|]. split; [cbn [length]; lia|]. split; [intros t p q E; exact (H2 t p q E)|].
  destruct H1 as [->|(t & Ht & W)]; [left; reflexivity|]. destruct bad as [|x bad]; [left; reflexivity|]. right. split; [discriminate|]. exists t. split; assumption.
Qed.

Ltac bad_tac := let t := fresh "t" in let p := fresh "p" in let q := fresh "q" in let E := fresh "E" in let W := fresh "W" in
  intros t p q E W; destruct W; cbn [app] in E; repeat match type of E with
  | _ :: _ = _ :: _ => let X := fresh "X" in injection E as X E; try (rewrite <- X in * ) end; try lia; try discriminate E; subst; lia.

Definition adv_ok (s : list Z) (c : Z) (rest : list Z) : Prop :=
  (scalar c /\ s = utf8 c ++ rest) \/ (c = 65533 /\ exists bad, s = bad ++ rest /\ bad_run bad).
Lemma adv_bad b bad rest : bad_run (b :: bad) -> adv_ok (b :: bad ++ rest) 65533 rest.
Proof. intros H. right. split; [reflexivity|]. exists (b :: bad). split; [reflexivity|exact H]. Qed.

Lemma wf3 a b d : 224 <= a <= 239 -> 128 <= b <= 191 -> 128 <= d <= 191 -> (a = 224 -> 160 <= b) -> (a = 237 -> b <= 159) -> wf8_seq [a; b; d].
Proof.
  intros. destruct (utf8_3 a b d) as [-> S]; try assumption. apply utf8_wf, S.
Qed.
Lemma wf4 a b d e : 240 <= a <= 244 -> 128 <= b <= 191 -> 128 <= d <= 191 -> 128 <= e <= 191 -> (a = 240 -> 144 <= b) -> (a = 244 -> b <= 143) -> wf8_seq [a; b; d; e].
Proof.
  intros. destruct (utf8_4 a b d e) as [-> S]; try assumption. apply utf8_wf, S.
Qed.

Lemma sound1 b s c rest : 194 <= b <= 223 -> need1 128 191 (b - 192) s = Some (c, rest) -> adv_ok (b :: s) c rest.
Proof.
  intros Hb H. destruct s as [|u s]; [discriminate|]. cbn [need1] in H. destruct (rng 128 191 u) eqn:E; injection H as <- <-.
  - apply rng_spec in E. left. destruct (utf8_2 b u Hb E) as [Q S]. split; [exact S|]. rewrite <- Q. reflexivity.
  - apply rng_f in E. apply (adv_bad b [u]). apply bad_intro; [cbn; lia| |bad_tac].
    right. exists [128]. split; [discriminate|]. apply wf8_2; lia.
Qed.

Lemma sound2 b lo hi s c rest : 224 <= b <= 239 -> lo = (if b =? 224 then 160 else 128) -> hi = (if b =? 237 then 159 else 191) ->
  need2 lo hi (b - 224) s = Some (c, rest) -> adv_ok (b :: s) c rest.
Proof.
  intros Hb Hlo Hhi H. assert (Q : 128 <= lo <= 160 /\ 159 <= hi <= 191 /\ (b = 224 -> lo = 160) /\ (b <> 224 -> lo = 128) /\ (b = 237 -> hi = 159) /\ (b <> 237 -> hi = 191) /\ (b = 224 -> hi = 191)).
  { destruct (b =? 224) eqn:E1, (b =? 237) eqn:E2; zbool; lia. }
  clear Hlo Hhi. destruct Q as (Q1 & Q2 & Q3 & Q4 & Q5 & Q6 & Q7).
  destruct s as [|u s]; [discriminate|]. cbn [need2] in H. destruct (rng lo hi u) eqn:E; cycle 1.
  { injection H as <- <-. apply rng_f in E. apply (adv_bad b [u]). apply bad_intro; [cbn; lia| |bad_tac].
    right. exists [if b =? 224 then 160 else 128; 128]. split; [discriminate|]. cbn [removelast app]. destruct (b =? 224) eqn:E1; zbool; apply wf3; lia. }
  apply rng_spec in E. destruct s as [|v s]; [discriminate|]. cbn [need1] in H. destruct (rng 128 191 v) eqn:Ev; injection H as <- <-.
  - apply rng_spec in Ev. left. destruct (utf8_3 b u v) as [Q S]; try lia. split; [exact S|]. rewrite <- Q. reflexivity.
  - apply rng_f in Ev. apply (adv_bad b [u; v]). apply bad_intro; [cbn; lia| |bad_tac].
    right. exists [128]. split; [discriminate|]. cbn [removelast app]. apply wf3; lia.
Qed.

Lemma sound3 b lo hi s c rest : 240 <= b <= 244 -> lo = (if b =? 240 then 144 else 128) -> hi = (if b =? 244 then 143 else 191) ->
  need3 lo hi (b - 240) s = Some (c, rest) -> adv_ok (b :: s) c rest.
Proof.
  intros Hb Hlo Hhi H. assert (Q : 128 <= lo <= 144 /\ 143 <= hi <= 191 /\ (b = 240 -> lo = 144) /\ (b <> 240 -> lo = 128) /\ (b = 244 -> hi = 143) /\ (b <> 244 -> hi = 191)).
  { destruct (b =? 240) eqn:E1, (b =? 244) eqn:E2; zbool; lia. }
  clear Hlo Hhi. destruct Q as (Q1 & Q2 & Q3 & Q4 & Q5 & Q6).
  destruct s as [|u s]; [discriminate|]. cbn [need3] in H. destruct (rng lo hi u) eqn:E; cycle 1.
  { injection H as <- <-. apply rng_f in E. apply (adv_bad b [u]). apply bad_intro; [cbn; lia| |bad_tac].
    right. exists [if b =? 240 then 144 else 128; 128; 128]. split; [discriminate|]. cbn [removelast app]. destruct (b =? 240) eqn:E1; zbool; apply wf4; lia. }
  apply rng_spec in E. destruct s as [|v s]; [discriminate|]. cbn [need2] in H. destruct (rng 128 191 v) eqn:Ev; cycle 1.
  { injection H as <- <-. apply rng_f in Ev. apply (adv_bad b [u; v]). apply bad_intro; [cbn; lia| |bad_tac].
    right. exists [128; 128]. split; [discriminate|]. cbn [removelast app]. apply wf4; lia. }
  apply rng_spec in Ev. destruct s as [|w s]; [discriminate|]. cbn [need1] in H. destruct (rng 128 191 w) eqn:Ew; injection H as <- <-.
  - apply rng_spec in Ew. left. destruct (utf8_4 b u v w) as [Q S]; try lia. split; [exact S|]. rewrite <- Q. reflexivity.
  - apply rng_f in Ew. apply (adv_bad b [u; v; w]). apply bad_intro; [cbn; lia| |bad_tac].
    right. exists [128]. split; [discriminate|]. cbn [removelast app]. apply wf4; lia.
Qed.

Lemma advance_sound s c rest : Forall is_byte s -> utf8_advance s = Some (c, rest) -> adv_ok s c rest.
Proof.
  intros Hs H. destruct Hs as [|b s Hb Hs]; [discriminate|]. rewrite advance_cases in H by assumption. unfold is_byte in Hb.
  repeat match type of H with (if ?x then _ else _) = _ => let E := fresh "E" in destruct x eqn:E end; zbool.
  - injection H as <- <-. left. split; [split; lia|]. unfold utf8. rewrite (proj2 (Z.ltb_lt b 128)) by lia. reflexivity.
  - injection H as <- <-. apply (adv_bad b []). apply bad_intro; [cbn; lia|left; reflexivity|bad_tac].
  - apply sound1; [lia|exact H].
  - subst b. eapply (sound2 224 160 191); [lia|reflexivity|reflexivity|exact H].
  - eapply (sound2 b 128 191); [lia| | |exact H]; [destruct (Z.eqb_spec b 224)|destruct (Z.eqb_spec b 237)]; lia.
  - subst b. eapply (sound2 237 128 159); [lia|reflexivity|reflexivity|exact H].
  - eapply (sound2 b 128 191); [lia| | |exact H]; [destruct (Z.eqb_spec b 224)|destruct (Z.eqb_spec b 237)]; lia.
  - subst b. eapply (sound3 240 144 191); [lia|reflexivity|reflexivity|exact H].
  - eapply (sound3 b 128 191); [lia| | |exact H]; [destruct (Z.eqb_spec b 240)|destruct (Z.eqb_spec b 244)]; lia.
  - subst b. eapply (sound3 244 128 143); [lia|reflexivity|reflexivity|exact H].
  - injection H as <- <-. apply (adv_bad b []). apply bad_intro; [cbn; lia|left; reflexivity|bad_tac].
Qed.
