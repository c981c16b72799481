(** Properties C15-C19: Unicode conversion. *)
From Verif Require Import Base ByteSpec LebeModel UtfTables UtfSpec UtfModel UtfProofs UtfLoopProofs UtfSizeProofs.
Ltac Zify.zify_post_hook ::= Z.div_mod_to_equations.

(** C15.  Any sequence of scalar values survives conversion from any of the three encodings to any other and
    back, with and without the SSE path, one shot, and the intermediate text is the standard encoding. *)
Theorem C15_round_trip : forall sse1 sse2 a b cs old1 old2, In a [8; 16; 32] -> In b [8; 16; 32] -> Forall scalar cs ->
  code_cvt_full sse1 a true b true (utf_text a cs) old1 = utf_text b cs /\
  code_cvt_full sse2 b true a true (code_cvt_full sse1 a true b true (utf_text a cs) old1) old2 = utf_text a cs.
Proof.
  intros sse1 sse2 a b cs old1 old2 Ha Hb H. assert (E : code_cvt_full sse1 a true b true (utf_text a cs) old1 = utf_text b cs).
  { unfold code_cvt_full. rewrite code_cvt_text by assumption. reflexivity. }
  split; [exact E|]. rewrite E. unfold code_cvt_full. rewrite code_cvt_text by assumption. reflexivity.
Qed.
Print Assumptions C15_round_trip.
(** The instance named in the claim: UTF-32 to UTF-8 or UTF-16 and back. *)
Theorem C15_utf32_round_trip : forall sse b cs old1 old2, In b [8; 16] -> Forall scalar cs ->
  code_cvt_full sse b true 32 true (code_cvt_full sse 32 true b true cs old1) old2 = cs.
Proof.
  intros sse b cs old1 old2 Hb H. pose proof (C15_round_trip sse sse 32 b cs old1 old2) as Q. rewrite text32 in Q.
  apply Q; [cbn; auto|destruct Hb as [<-|[<-|[]]]; cbn; auto|exact H].
Qed.
Print Assumptions C15_utf32_round_trip.
(** Distinct scalar sequences have distinct texts. *)
Theorem C15_injective : forall a cs cs', In a [8; 16; 32] -> Forall scalar cs -> Forall scalar cs' -> utf_text a cs = utf_text a cs' -> cs = cs'.
Proof.
  intros a cs cs' Ha H H' E. pose proof (code_cvt_text false a 32 cs Ha ltac:(cbn; auto) H) as Q.
  pose proof (code_cvt_text false a 32 cs' Ha ltac:(cbn; auto) H') as Q'. rewrite E in Q. rewrite Q in Q'. rewrite !text32 in Q'. congruence.
Qed.
Print Assumptions C15_injective.
Example C15_case : Forall scalar [65; 233; 8364; 128512; 0; 1114111; 57344] /\ utf_text 8 [65; 233; 8364; 128512] = [65; 195; 169; 226; 130; 172; 240; 159; 152; 128].
Proof. split; [repeat constructor; lia|reflexivity]. Qed.
(** Byte swapped schemes do not round trip: UTF-32 with swapped units is not swapped back on reading, opposite
    byte orders of one size write nothing, a surrogate pair into a swapped UTF-32 stays unswapped. *)
Theorem C15_swapped_utf32_refuted :
  fst (code_cvt false 8 true 32 false (utf_text 8 [65])) = [1090519040] /\
  fst (code_cvt false 32 false 8 true [1090519040]) <> utf_text 8 [65].
Proof. vm_compute. split; [reflexivity|discriminate]. Qed.
Theorem C15_swap_only_refuted : forall s, fst (code_cvt false 16 true 16 false s) = [].
Proof. intros s. reflexivity. Qed.
Theorem C15_swapped_pair_refuted : fst (code_cvt false 16 true 32 false (utf_text 16 [128512])) <> [sw false 32 128512].
Proof. vm_compute. discriminate. Qed.
(** With SSE, ASCII text longer than 16 bytes is not swapped; without SSE it is. *)
Theorem C15_swapped_sse_refuted : fst (cvt8 true 16 false (repeat 65 17)) <> fst (cvt8 false 16 false (repeat 65 17)).
Proof. vm_compute. discriminate. Qed.

(** C16.  Output in UTF-8 is well-formed: for every 16-bit source, whatever it contains (also the part before a
    truncated tail). *)
Theorem C16_from_utf16 : forall sse s, Forall is_u16 s -> wf8 (fst (code_cvt sse 16 true 8 true s)).
Proof.
  intros sse s Hs. cbn [code_cvt Z.eqb Pos.eqb andb]. destruct (cvt16_out 8 ltac:(cbn; auto) s Hs) as (cs & Hcs & _ & [E|(h & _ & _ & E)]);
  unfold code_cvt; cbn [Z.eqb Pos.eqb andb]; rewrite E; apply text_wf8, Hcs.
Qed.
Print Assumptions C16_from_utf16.
(** One shot conversion, for sources that do not end in an unpaired high surrogate. *)
Theorem C16_from_utf16_full_partial : forall sse s old, Forall is_u16 s -> (forall p h, s = p ++ [h] -> ~ hi_unit h) -> wf8 (code_cvt_full sse 16 true 8 true s old).
Proof.
  intros sse s old Hs N. pose proof (C16_from_utf16 sse s Hs) as W. unfold code_cvt_full. destruct (code_cvt sse 16 true 8 true s) as [o r] eqn:E. cbn [fst] in W.
  destruct r as [|h r]; [exact W|]. exfalso. unfold code_cvt in E. cbn [Z.eqb Pos.eqb andb] in E. destruct (cvt16_left 8 ltac:(cbn; auto) s _ _ Hs E) as [[Q|(h' & Hh & Q)] (p & Ep)]; [discriminate|].
  injection Q as -> ->. apply (N p h' Ep Hh).
Qed.
Print Assumptions C16_from_utf16_full_partial.
Example C16_case : Forall is_u16 [65; 56320; 55357; 56832; 55357; 65] /\ fst (code_cvt true 16 true 8 true [65; 56320; 55357; 56832; 55357; 65]) = [65; 239; 191; 189; 240; 159; 152; 128; 239; 191; 189].
Proof. split; [repeat constructor; lia|reflexivity]. Qed.
(** For a 32-bit source: every value, also beyond U+10FFFF, except surrogate code points. *)
Theorem C16_from_utf32_partial : forall sse s, Forall (fun c => 0 <= c < 2 ^ 32 /\ ~ (55296 <= c <= 57343)) s -> wf8 (fst (code_cvt sse 32 true 8 true s)).
Proof.
  intros sse s Hs. unfold code_cvt, cvt32. cbn [Z.eqb Pos.eqb andb fst]. induction Hs as [|c s [Hc N] Hs IH]; [constructor|]. cbn [flat_map]. apply wf8_app; [|exact IH].
  destruct (Z_le_dec c 1114111) as [L|L]; [rewrite units8_spec by lia; apply utf8_wf; split; lia|].
  unfold get_utf_code_units. cbn [Z.eqb Pos.eqb]. rewrite (proj2 (Z.leb_gt c 127)), (proj2 (Z.leb_gt c 2047)), (proj2 (Z.leb_gt c 65535)), (proj2 (Z.leb_gt c 1114111)) by lia.
  apply wf8_3d; lia.
Qed.
Print Assumptions C16_from_utf32_partial.
Theorem C16_from_utf32_surrogate_refuted : ~ wf8 (fst (code_cvt false 32 true 8 true [55296])).
Proof. change (fst (code_cvt false 32 true 8 true [55296])) with [237; 160; 128]. intros H. apply wf8_text in H as (cs & Hcs & E).
  destruct Hcs as [|c cs [Hc Hn] Hcs]; [discriminate|]. unfold utf_text in E. cbn [flat_map] in E. change (utf_units 8 c) with (utf8 c) in E. unfold utf8 in E.
  destruct (c <? 128) eqn:E1; [|destruct (c <? 2048) eqn:E2; [|destruct (c <? 65536) eqn:E3]]; zbool; cbn [app] in E; pose proof (f_equal (fun l => nth 0 l 0) E) as X0; pose proof (f_equal (fun l => nth 1 l 0) E) as X1; cbn [nth] in X0, X1; lia.
Qed.
(** A UTF-8 source is copied verbatim, ill-formed or not. *)
Theorem C16_from_utf8_refuted : forall s, fst (code_cvt false 8 true 8 true s) = s.
Proof. reflexivity. Qed.
(** A truncated tail: the one shot conversion writes the replacement over the start of the output and leaves
    the end as it was. *)
Theorem C16_truncated_refuted : code_cvt_full false 16 true 8 true [65; 66; 67; 68; 55357] [0; 0; 0; 0; 7; 8; 9] = [239; 191; 189; 68; 7; 8; 9].
Proof. reflexivity. Qed.
(** UTF-16 output: well-formed for every byte string and both paths. *)
Theorem C16_utf16_output : forall sse s, Forall is_byte s -> wf16 (fst (code_cvt sse 8 true 16 true s)).
Proof.
  intros sse s Hs. unfold code_cvt. cbn [Z.eqb Pos.eqb andb]. rewrite cvt8_dec by (cbn; auto). destruct (dec8_scalars 16 s ltac:(cbn; auto) Hs) as (cs & Hcs & _ & ->). apply text_wf16, Hcs.
Qed.
Print Assumptions C16_utf16_output.
Theorem C16_utf16_output_from_utf32_refuted : ~ wf16 (fst (code_cvt false 32 true 16 true [1114112])).
Proof. change (fst (code_cvt false 32 true 16 true [1114112])) with [56320; 56320]. intros H. inversion H; subst; unfold hi_unit, lo_unit in *; lia. Qed.

(** C17.  Decoding UTF-8. *)
Theorem C17_well_formed : forall sse cw cs, In cw [16; 32] -> Forall scalar cs ->
  wf8 (utf_text 8 cs) /\ code_cvt sse 8 true cw true (utf_text 8 cs) = (utf_text cw cs, []).
Proof. intros sse cw cs Hcw H. split; [apply text_wf8, H|]. apply code_cvt_text; [cbn; auto|destruct Hcw as [<-|[<-|[]]]; cbn; auto|exact H]. Qed.
Print Assumptions C17_well_formed.
(** All well-formed byte strings are covered: they are exactly the encodings of scalar sequences. *)
Theorem C17_well_formed_texts : forall s, wf8 s <-> exists cs, Forall scalar cs /\ s = utf_text 8 cs.
Proof. intros s. split; [apply wf8_text|]. intros (cs & H & ->). apply text_wf8, H. Qed.
Print Assumptions C17_well_formed_texts.
(** Every byte string: what comes out is one scalar per well-formed character read and one U+FFFD per ill-formed
    run, each run being one in which no character starts; only an unfinished character is left over. *)
Theorem C17_every_input_partial : forall sse cw s, In cw [16; 32] -> Forall is_byte s ->
  exists cs left, code_cvt sse 8 true cw true s = (utf_text cw cs, left) /\ decodes s cs left.
Proof.
  intros sse cw s Hcw Hs. unfold code_cvt. assert (E : (8 =? cw) = false) by (destruct Hcw as [<-|[<-|[]]]; reflexivity). rewrite E. cbn [Z.eqb Pos.eqb andb].
  rewrite cvt8_dec by assumption. destruct (dec8_decodes cw s Hcw Hs) as (cs & D & F). exists cs, (snd (dec8 cw true s)). split; [|exact D].
  destruct (dec8 cw true s). cbn [fst snd] in *. rewrite F. reflexivity.
Qed.
Print Assumptions C17_every_input_partial.
(** A character is output only where its encoding stands: the decoder accepts no overlong form, surrogate or
    value beyond U+10FFFF. *)
Theorem C17_no_false_character : forall s c rest, Forall is_byte s -> utf8_advance s = Some (c, rest) -> c <> 65533 -> scalar c /\ s = utf8 c ++ rest.
Proof. intros s c rest Hs H N. apply advance_sound in H as [H|[-> _]]; [exact H|contradiction|exact Hs]. Qed.
Print Assumptions C17_no_false_character.
(** It asks for more input exactly when the text is a proper prefix of a character. *)
Theorem C17_unfinished_exactly : forall s, Forall is_byte s -> s <> [] -> (utf8_advance s = None <-> wf8_prefix s).
Proof. intros s Hs N. split; [apply none_prefix; assumption|apply prefix_none]. Qed.
Print Assumptions C17_unfinished_exactly.
Example C17_case : exists cs left, Forall is_byte [65; 192; 128; 226; 130; 172; 237; 160; 226; 130] /\
  code_cvt true 8 true 32 true [65; 192; 128; 226; 130; 172; 237; 160; 226; 130] = (cs, left) /\ cs = [65; 65533; 65533; 8364; 65533] /\ left = [226; 130].
Proof. exists [65; 65533; 65533; 8364; 65533], [226; 130]. split; [repeat constructor; lia|]. repeat split. Qed.
(** The last clause fails: the byte that ends an ill-formed run is consumed with it, also when a well-formed
    character starts there: C3 41 gives one U+FFFD and the 'A' is lost. *)
Theorem C17_swallow_refuted : code_cvt false 8 true 32 true [195; 65] = ([65533], []) /\ wf8_seq [65].
Proof. split; [reflexivity|apply wf8_1; lia]. Qed.

(** C18.  A UTF-8 source fed in any chunks (empty ones too) gives the output and the pending bytes of the one
    shot conversion; byte swapped destinations too when the vector path is off. *)
Theorem C18_utf8_chunks : forall sse cw nat chunks, In cw [16; 32] -> sse = false \/ nat = true -> Forall (Forall is_byte) chunks ->
  run_chunks (cvt8_state sse cw nat) [] chunks = code_cvt sse 8 true cw nat (concat chunks).
Proof.
  intros sse cw nat chunks Hcw Hd Hc. rewrite (run8 sse cw nat Hcw Hd) by (auto; constructor || reflexivity). cbn [app].
  assert (HCs : Forall is_byte (concat chunks)) by (clear - Hc; induction Hc; cbn [concat]; [constructor|apply Forall_app; auto]).
  unfold code_cvt. assert (E : (8 =? cw) = false) by (destruct Hcw as [<-|[<-|[]]]; reflexivity). rewrite E. cbn [Z.eqb Pos.eqb andb].
  destruct Hd as [->| ->]; [symmetry; apply cvt8_dec_nosse|symmetry; apply cvt8_dec; assumption].
Qed.
Print Assumptions C18_utf8_chunks.
Example C18_case : run_chunks (cvt8_state true 16 true) [] [[240; 159]; []; [152]; [128; 65; 226]] = ([55357; 56832; 65], [226]).
Proof. reflexivity. Qed.
(** A UTF-16 source whose high surrogates are followed by low ones (unpaired low ones allowed), any chunks. *)
Theorem C18_utf16_chunks_partial : forall cw chunks, In cw [8; 32] -> Forall (Forall is_u16) chunks -> paired16 (concat chunks) ->
  run_chunks (cvt16_state true cw true) [] chunks = code_cvt false 16 true cw true (concat chunks).
Proof.
  intros cw chunks Hcw Hc HP. rewrite (run16 cw Hcw) by auto. unfold code_cvt. assert (E : (16 =? cw) = false) by (destruct Hcw as [<-|[<-|[]]]; reflexivity). rewrite E. reflexivity.
Qed.
Print Assumptions C18_utf16_chunks_partial.
Example C18_case16 : paired16 (concat [[65; 55357]; [56832; 56832]; [66]]) /\ run_chunks (cvt16_state true 32 true) [] [[65; 55357]; [56832; 56832]; [66]] = ([65; 128512; 65533; 66], []).
Proof.
  split; [|reflexivity]. intros p h l q E Hh. cbn in E. unfold hi_unit, lo_unit in *.
  destruct p as [|a p]; cbn in E; [injection E; intros; lia|]. destruct p as [|a2 p]; cbn in E; [injection E; intros; lia|].
  destruct p as [|a3 p]; cbn in E; [injection E; intros; lia|]. destruct p as [|a4 p]; cbn in E; [injection E; intros; lia|].
  destruct p as [|a5 p]; cbn in E; [discriminate|]. destruct p; discriminate.
Qed.
(** With an unpaired high surrogate the chunking matters. *)
Theorem C18_utf16_refuted : run_chunks (cvt16_state true 32 true) [] [[55357]; [65]] <> run_chunks (cvt16_state true 32 true) [] [[55357; 65]].
Proof. vm_compute. discriminate. Qed.
(** 32-bit sources keep no state: chunks concatenate. *)
Theorem C18_utf32_chunks : forall sse dcw dnat a b, In dcw [8; 16] ->
  fst (code_cvt sse 32 true dcw dnat (a ++ b)) = fst (code_cvt sse 32 true dcw dnat a) ++ fst (code_cvt sse 32 true dcw dnat b).
Proof. intros sse dcw dnat a b [<-|[<-|[]]]; unfold code_cvt, cvt32; cbn [Z.eqb Pos.eqb andb fst]; apply flat_map_app. Qed.
Print Assumptions C18_utf32_chunks.

(** C19.  Sizes.  One shot conversion writes at most the announced units, every pair of encodings and byte
    orders, every input. *)
Theorem C19_full_size : forall sse scw snat dcw dnat s old, In scw [8; 16; 32] -> In dcw [8; 16; 32] ->
  zlen (code_cvt_full sse scw snat dcw dnat s old) <= full_reserve scw dcw (zlen s).
Proof.
  intros sse scw snat dcw dnat s old Hs Hd. rewrite full_reserve_fac by exact Hd. unfold code_cvt_full.
  destruct (code_cvt sse scw snat dcw dnat s) as [o r] eqn:E. apply code_cvt_len in E as [L1 L2]; [|exact Hs|exact Hd]. unfold zlen.
  destruct r as [|x r]; [cbn [length] in *; lia|]. pose proof (invalid_len dcw dnat Hd) as HI. cbn [length] in *. rewrite Nat.mul_succ_r in L2.
  destruct (Z.eqb_spec dcw 32) as [->|N].
  - rewrite app_length. cbn [length]. change (fac 32) with 1%nat in *. lia.
  - cbv zeta. rewrite firstn_length. lia.
Qed.
Print Assumptions C19_full_size.
(** One call of the stateful converter, whatever was pending. *)
Theorem C19_state_size_utf8 : forall sse dcw dnat st s, In dcw [8; 16; 32] -> (length st <= 7)%nat ->
  zlen (fst (cvt8_state sse dcw dnat st s)) <= decorated_reserve 8 dcw (zlen s).
Proof.
  intros sse dcw dnat st s Hd Hst. destruct (cvt8_state sse dcw dnat st s) as [o r] eqn:E. apply state8_len in E; [|exact Hd|exact Hst]. cbn [fst].
  unfold zlen, decorated_reserve, fac in *. destruct Hd as [<-|[<-|[<-|[]]]]; cbn [Z.eqb Pos.eqb] in *; lia.
Qed.
Print Assumptions C19_state_size_utf8.
Theorem C19_state_size_utf16 : forall snat dcw dnat st s, In dcw [8; 16; 32] ->
  zlen (fst (cvt16_state snat dcw dnat st s)) <= decorated_reserve 16 dcw (zlen s).
Proof.
  intros snat dcw dnat st s Hd. destruct (cvt16_state snat dcw dnat st s) as [o r] eqn:E. apply state16_len in E; [|exact Hd]. cbn [fst].
  unfold zlen, decorated_reserve, fac in *. destruct Hd as [<-|[<-|[<-|[]]]]; cbn [Z.eqb Pos.eqb] in *; lia.
Qed.
Print Assumptions C19_state_size_utf16.
(** The vector path stores 16 units at a time: the last of them still lies within the announced size. *)
Theorem C19_vector_stores : forall cw nat s, In cw [16; 32] -> u8_sse_end (length s) cw nat 0 s <= full_reserve 8 cw (zlen s).
Proof.
  intros cw nat s Hcw. assert (Hw : In cw [8; 16; 32]) by (destruct Hcw as [<-|[<-|[]]]; cbn; auto). rewrite full_reserve_fac by exact Hw.
  pose proof (sse_end_bound cw nat Hcw (length s) 0 s (Z.le_refl 0)). lia.
Qed.
Print Assumptions C19_vector_stores.
Example C19_case : u8_sse_end 40 32 true 0 (repeat 65 33) = 32 /\ zlen (code_cvt_full true 8 true 16 true (repeat 65 33) []) = 33.
Proof. split; reflexivity. Qed.
