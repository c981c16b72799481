(** UTF-EBCDIC: texts there and back, decoding arbitrary bytes, chunks. *)
From Verif Require Import Base ByteSpec UtfSpec UtfModel UtfProofs UtfLoopProofs UtfSizeProofs EbSpec EbModel EbProofs EbTextProofs.

(** C116.  The byte page used is a permutation with the EBCDIC letters, digits and space. *)
Theorem C116_page : ebcdic_page page.
Proof. exact page_ebcdic. Qed.
Print Assumptions C116_page.
(** A text of scalar values, of any unit width, becomes its UTF-EBCDIC form and comes back, in any unit width. *)
Theorem C116_round_trip : forall a b cs, In a [8; 16; 32] -> In b [8; 16; 32] -> Forall scalar cs ->
  utf_to_eb a (utf_text a cs) = (ebcdic_text page cs, []) /\ eb_to_utf b (ebcdic_text page cs) = Some (utf_text b cs, []).
Proof.
  intros a b cs Ha Hb H. split; [apply to_eb_text; assumption|]. rewrite <- (puts_eb b cs Hb H), ebcdic_flat. pose proof (scalar_code cs H) as C.
  pose proof (reading_text cs C [] [] (or_intror (conj eq_refl eq_refl))) as R. rewrite app_nil_r in R. exact (to_utf_of_reading b _ _ _ R (text_bytes8 cs C)).
Qed.
Print Assumptions C116_round_trip.
(** Any source, well-formed or not: the output is the UTF-EBCDIC form of some code points, one unit or more each, and fits in
    the space announced. *)
Theorem C116_every_source : forall a s, In a [8; 16; 32] -> Forall (fun u => 0 <= u < 2 ^ a) s ->
  exists cs left, utf_to_eb a s = (ebcdic_text page cs, left) /\ Forall (fun c => 0 <= c <= 0x10FFFF) cs /\ zlen (ebcdic_text page cs) <= full_reserve a 8 (zlen s).
Proof.
  intros a s Ha H. destruct (to_eb_any a s Ha H) as (cs & left & E & C & L). exists cs, left. split; [exact E|]. split; [eapply Forall_impl; [|exact C]; intros c Hc; cbv beta in Hc; lia|].
  pose proof (ebcdic_len cs). unfold zlen, full_reserve. cbn [Z.eqb Pos.eqb]. lia.
Qed.
Print Assumptions C116_every_source.
(** UTF-8 sources: the code points are those of the UTF-8 reading, U+FFFD for ill-formed runs. *)
Theorem C116_utf8_source : forall s, Forall is_byte s -> exists cs left, decodes s cs left /\ utf_to_eb 8 s = (ebcdic_text page cs, left).
Proof.
  intros s B. unfold utf_to_eb. cbn [Z.eqb Pos.eqb]. rewrite from8_dec by exact B. fold (dec8 32 true s). destruct (dec8_decodes 32 s ltac:(cbn; auto) B) as (cs & D & E). exists cs, (snd (dec8 32 true s)). split; [exact D|].
  destruct (dec8_scalars 32 s ltac:(cbn; auto) B) as (ds & Sc & _ & E'). rewrite E, text32. assert (cs = ds) by (rewrite <- (text32 cs), <- (text32 ds); congruence). subst ds. rewrite encode_text by (apply scalar_code, Sc). reflexivity.
Qed.
Print Assumptions C116_utf8_source.
(** From UTF-16 the replacement for ill-formed input is the encoding of U+FEFF and not of U+FFFD; a surrogate in UTF-32 is
    encoded. *)
Theorem C116_replacement_refuted : utf_to_eb 16 [0xD800; 65] = (ebcdic_text page [0xFEFF], []) /\ utf_to_eb 32 [0x110000] = (ebcdic_text page [0xFEFF], []) /\
  eb_to_utf 32 (ebcdic_text page [0xFEFF]) = Some ([0xFEFF], []) /\ ebcdic_text page [0xFEFF] <> ebcdic_text page [0xFFFD].
Proof. split; [vm_compute; reflexivity|]. split; [vm_compute; reflexivity|]. split; [vm_compute; reflexivity|]. vm_compute. discriminate. Qed.
Theorem C116_surrogate_refuted : utf_to_eb 32 [0xD800] = (ebcdic_text page [0xD800], []) /\ eb_to_utf 32 (ebcdic_text page [0xD800]) = Some ([0xD800], []) /\ ~ scalar 0xD800.
Proof. split; [reflexivity|]. split; [vm_compute; reflexivity|]. unfold scalar. lia. Qed.
Example C116_case : Forall scalar [65; 0x9F; 0xA0; 0x3FF; 0x400; 0x4E2D; 0x1F600; 0x10FFFF] /\
  utf_to_eb 16 (utf_text 16 [65; 0x4E2D; 0x1F600]) = ([0xC1; 0xDC; 0x62; 0x58; 0x54] ++ eb_encode 0x1F600, []) /\ length (ebcdic_text page [65; 0x4E2D; 0x10FFFF]) = 10%nat.
Proof. split; [repeat constructor; lia|]. split; vm_compute; reflexivity. Qed.

(** C117.  Decoding any bytes: they are read in bounds; each is the page of one byte, and the code points are those of the
    reading of these; at most six bytes are kept back; the output fits in the space announced. *)
Lemma bytes_unpage s : Forall is_byte s -> s = map page (map unpage s) /\ Forall is_byte (map unpage s).
Proof.
  induction 1 as [|b s Hb H IH]; [split; [reflexivity|constructor]|]. cbn [map]. destruct IH as [E F]. split; [rewrite page_unpage, <- E by exact Hb; reflexivity|]. constructor; [apply unpage_byte, Hb|exact F].
Qed.
Lemma puts_len cw cs : In cw [8; 16; 32] -> (length (eb_puts cw cs) <= fac cw * length cs)%nat.
Proof.
  intros Hw. unfold eb_puts. induction cs as [|c cs IH]; [cbn; lia|]. cbn [flat_map length]. rewrite app_length. pose proof (units_len cw true c Hw) as U. unfold eb_put at 1. pose proof (fac_pos cw). destruct (cw =? 32); cbn [length]; nia.
Qed.
Theorem C117_every_input : forall s, Forall is_byte s -> exists t cs left, s = map page t /\ i8_reading t cs left /\ Forall (fun c => 0 <= c < 2 ^ 21) cs /\ (length left <= 6)%nat /\
  forall cw, In cw [8; 16; 32] -> exists out, eb_to_utf cw s = Some (out, map page left) /\ (Forall scalar cs -> out = utf_text cw cs) /\ (cw = 32 -> out = cs) /\ zlen out <= full_reserve 8 cw (zlen s).
Proof.
  intros s B. destruct (bytes_unpage s B) as [E F]. exists (map unpage s). destruct (reading_total _ F) as (cs & left & R). exists cs, left. split; [exact E|]. split; [exact R|]. destruct (reading_codes _ _ _ R F) as [C L].
  split; [exact C|]. split. { destruct (reading_left _ _ _ R) as [->|(b & u & -> & _ & Lu)]; [cbn; lia|]. pose proof (i8_length_range b). lia. }
  intros cw Hw. exists (eb_puts cw cs). split; [rewrite E; exact (to_utf_of_reading cw _ _ _ R F)|]. split; [intros Sc; apply puts_eb; assumption|]. split.
  - intros ->. unfold eb_puts, eb_put. cbn [Z.eqb Pos.eqb]. clear. induction cs as [|c cs IH]; [reflexivity|]. cbn [flat_map app]. rewrite IH. reflexivity.
  - rewrite (full_reserve_fac 8 cw s Hw). unfold zlen. pose proof (puts_len cw cs Hw). rewrite map_length in L. nia.
Qed.
Print Assumptions C117_every_input.
(** In chunks: a result, if there is one, is that of the whole text. *)
Theorem C117_chunks_partial : forall cw chunks r, In cw [8; 16; 32] -> Forall (Forall is_byte) chunks -> eb_chunks cw [] chunks = Some r -> eb_to_utf cw (concat chunks) = Some r.
Proof.
  intros cw chunks r Hw B E. set (us := map (map unpage) chunks). assert (Eu : chunks = map (map page) us /\ Forall (Forall is_byte) us).
  { unfold us. clear E us. induction B as [|c cs Hc B IH]; [split; [reflexivity|constructor]|]. destruct (bytes_unpage c Hc) as [E1 F1]. cbn [map]. destruct IH as [E2 F2]. split; [rewrite <- E1, <- E2; reflexivity|constructor; assumption]. }
  destruct Eu as [Eu Fu]. rewrite Eu in *. clearbody us. destruct (chunks_sound cw us [] r (or_introl eq_refl) (Forall_nil _) Fu E) as (cs & left & R & ->). cbn [app] in R. rewrite <- concat_map.
  apply to_utf_of_reading; [exact R|]. clear - Fu. induction Fu; cbn [concat]; [constructor|apply Forall_app; auto].
Qed.
Print Assumptions C117_chunks_partial.
(** A text of scalar values may be cut anywhere. *)
Theorem C117_chunks_of_text : forall cw chunks cs, In cw [8; 16; 32] -> Forall scalar cs -> concat chunks = ebcdic_text page cs -> eb_chunks cw [] chunks = Some (utf_text cw cs, []).
Proof.
  intros cw chunks cs Hw H E. pose proof (scalar_code cs H) as C. rewrite <- (puts_eb cw cs Hw H).
  assert (B : Forall is_byte (concat chunks)). { rewrite E, ebcdic_flat. apply Forall_map. eapply Forall_impl; [|exact (text_bytes8 cs C)]. exact page_byte. }
  assert (Eu : chunks = map (map page) (map (map unpage) chunks)).
  { clear E. induction chunks as [|c chunks IH]; [reflexivity|]. cbn [concat] in B. apply Forall_app in B as [B1 B2]. cbn [map]. destruct (bytes_unpage c B1) as [E1 _]. rewrite <- E1, <- (IH B2). reflexivity. }
  rewrite Eu. apply (chunks_text cw (map (map unpage) chunks) [] cs C (or_introl eq_refl)). cbn [app]. rewrite <- concat_map, E, ebcdic_flat, map_map.
  rewrite <- (map_id (flat_map i8 cs)) at 2. apply map_ext_in. intros b Hb. apply unpage_page. pose proof (text_bytes8 cs C) as F. rewrite Forall_forall in F. apply F, Hb.
Qed.
Print Assumptions C117_chunks_of_text.
(** A broken sequence cut after the break: the converter goes on before the beginning of the chunk. *)
Theorem C117_chunks_refuted : eb_to_utf 32 (map page ([0xE4; 65] ++ [66])) = Some ([0xFFFD; 65; 66], []) /\ eb_chunks 32 [] [map page [0xE4; 65]; map page [66]] = None.
Proof. split; vm_compute; reflexivity. Qed.
(** A sequence of two bytes for the slash, one for a code above U+10FFFF and one for a surrogate are accepted. *)
Theorem C117_ill_formed_refuted : eb_to_utf 8 (map page [0xC1; 0xAF]) = Some ([0x2F], []) /\ eb_to_utf 32 (map page [0xF9; 0xA2; 0xA0; 0xA0; 0xA0]) = Some ([0x110000], []) /\
  eb_to_utf 32 (map page [0xFB; 0xA1; 0xA0; 0xA0; 0xA0]) = Some ([0x108000], []) /\ eb_to_utf 16 (map page (i8 0xD800)) = Some ([0xD800], []) /\ i8 0x2F = [0x2F] /\ hd 0 (i8 0x108000) = 0xF9.
Proof. repeat split; vm_compute; reflexivity. Qed.
Example C117_case : eb_chunks 8 [] [[0xC1; 0xDC]; []; [0x62; 0x58]; [0x54; 0xF0]] = Some (utf_text 8 [65; 0x4E2D; 0x30], []) /\ concat [[0xC1; 0xDC]; []; [0x62; 0x58]; [0x54; 0xF0]] = ebcdic_text page [65; 0x4E2D; 0x30].
Proof. split; vm_compute; reflexivity. Qed.
