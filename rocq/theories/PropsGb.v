(** GB18030: encoding, round trips, decoding arbitrary bytes. *)
From Verif Require Import Base ByteSpec UtfSpec UtfModel UtfProofs UtfLoopProofs PropsUtf GbSpec GbTables GbModel GbTextProofs GbBackProofs.

(** C113.  Conversion to GB18030 of any source, well-formed or not: it reads inside the tables, gives well-formed GB18030
    and fits in the space announced. *)
Theorem C113_output_well_formed : forall sse cw s, In cw [8; 16; 32] -> Forall (fun u => 0 <= u < 2 ^ cw) s ->
  exists gb left, utf_to_gb sse cw s = Some (gb, left) /\ gb_text gb /\ zlen gb <= full_reserve cw 8 (zlen s).
Proof.
  intros sse cw s Hw Hs. unfold full_reserve, zlen. cbn [Z.eqb Pos.eqb]. unfold utf_to_gb. destruct Hw as [<-|[<-|[<-|[]]]]; cbn [Z.eqb Pos.eqb].
  - rewrite convert8_whole by (auto; cbn; auto). destruct (whole_reads FromUtf8 s Hs) as (cs & left & R & Sc & H). destruct (H ToGb ltac:(cbn; auto)) as (o & P & W). exists o, left. split; [exact W|].
    destruct (puts_gb_any cs) as (o' & P' & T & L); [eapply Forall_impl; [|exact Sc]; intros c [Hc _]; lia|]. assert (o' = o) by congruence. subst o'. split; [exact T|]. pose proof (reads_length _ _ _ _ R Hs). lia.
  - destruct (convert16_any s Hs) as (o & left & E & T & L). exists o, left. split; [exact E|]. split; [exact T|lia].
  - destruct (convert32_any s) as (o & E & T & L); [eapply Forall_impl; [|exact Hs]; intros c Hc; cbv beta in Hc; lia|]. exists o, []. split; [exact E|]. split; [exact T|lia].
Qed.
Print Assumptions C113_output_well_formed.
(** Single code points: ASCII is itself, the supplementary planes follow each other from 90308130, what is not a scalar value
    becomes the replacement character, which is the code of U+FFFD. *)
Theorem C113_characters : forall c, 0 <= c < 2 ^ 32 ->
  (c < 0x80 -> gb_encode c = Some [c]) /\
  (0x80 <= c -> exists bs, gb_encode c = Some bs /\ gb_char bs /\ (1 < length bs)%nat) /\
  (0x10000 <= c <= 0x10FFFF -> exists x y z w, gb_encode c = Some [x; y; z; w] /\ gb_number x y z w = gb_number 0x90 0x30 0x81 0x30 + (c - 0x10000)) /\
  (~ scalar c -> gb_encode c = Some gb_replacement) /\ gb_encode 0xFFFD = Some gb_replacement.
Proof.
  intros c Hc. split; [intros; apply GbProofs.encode_ascii; lia|]. split.
  { intros H. destruct (GbProofs.encode_form c H) as (bs & E & F). exists bs. split; [exact E|]. destruct F as [(a & b & -> & H1 & H2)|(a & b & x & d & -> & H1 & H2 & H3 & H4)]; (split; [constructor; assumption|cbn; lia]). }
  split; [apply encode_supplementary|]. split; [|exact encode_fffd]. intros N. destruct (Z_le_dec c 1114111) as [L|L]; [|apply GbProofs.encode_big; lia]. apply encode_surrogate. unfold scalar in N. lia.
Qed.
Print Assumptions C113_characters.
(** Texts of scalar values: distinct texts have distinct encodings if U+E7C7 is not in them. *)
Theorem C113_injective_partial : forall sse1 sse2 a b cs cs' gb, In a [8; 16; 32] -> In b [8; 16; 32] -> Forall scalar cs -> Forall scalar cs' ->
  ~ In 0xE7C7 cs -> ~ In 0xE7C7 cs' ->
  utf_to_gb sse1 a (utf_text a cs) = Some (gb, []) -> utf_to_gb sse2 b (utf_text b cs') = Some (gb, []) -> cs = cs'.
Proof.
  intros sse1 sse2 a b cs cs' gb Ha Hb H H' N N' E E'. destruct (to_gb_text sse1 a cs Ha H) as (o & P & W). destruct (to_gb_text sse2 b cs' Hb H') as (o' & P' & W').
  assert (o = gb) by congruence. assert (o' = gb) by congruence. subst o o'.
  apply (puts_inj cs cs' gb H H'); try assumption; apply Forall_forall; intros c Hc ->; contradiction.
Qed.
Print Assumptions C113_injective_partial.
(** U+E7C7 shares its code with U+1E3F, and no other two scalar values share one. *)
Theorem C113_collision_refuted : gb_encode 0xE7C7 = Some [0x81; 0x35; 0xF4; 0x37] /\ gb_encode 0x1E3F = Some [0x81; 0x35; 0xF4; 0x37] /\ scalar 0xE7C7 /\ scalar 0x1E3F.
Proof. split; [|split; [reflexivity|split; split; lia]]. unfold gb_encode. vm_compute. reflexivity. Qed.
Theorem C113_only_collision : forall c c', scalar c -> scalar c' -> c <> c' -> gb_encode c = gb_encode c' -> (c = 0x1E3F /\ c' = 0xE7C7) \/ (c = 0xE7C7 /\ c' = 0x1E3F).
Proof. intros c c' H H' N E. destruct (encode_injective c c' H H' E) as [Q|Q]; [contradiction|exact Q]. Qed.
Print Assumptions C113_only_collision.
Example C113_case : utf_to_gb true 16 (utf_text 16 [65; 0x4E2D; 0x6587; 0x1F600; 0x452]) = Some ([65; 0xD6; 0xD0; 0xCE; 0xC4; 0x94; 0x39; 0xFC; 0x36; 0x81; 0x30; 0xD3; 0x30], []) /\
  Forall scalar [65; 0x4E2D; 0x6587; 0x1F600; 0x452].
Proof. split; [vm_compute; reflexivity|repeat constructor; lia]. Qed.

(** C114.  To GB18030 and back, through any unit widths, with and without SSE: the text comes back exactly when none of its
    characters is on the list [lost]. *)
Theorem C114_round_trip_partial : forall sse1 sse2 a b cs, In a [8; 16; 32] -> In b [8; 16; 32] -> Forall scalar cs ->
  exists gb, utf_to_gb sse1 a (utf_text a cs) = Some (gb, []) /\ gb_text gb /\
  (gb_to_utf sse2 b gb = Some (utf_text b cs, []) <-> Forall (fun c => ~ is_lost c) cs).
Proof.
  intros sse1 sse2 a b cs Ha Hb H. destruct (to_gb_text sse1 a cs Ha H) as (gb & P & W). exists gb. split; [exact W|]. destruct (puts_gb cs H) as (o & P' & T & _). assert (o = gb) by congruence. subst o. split; [exact T|].
  rewrite (from_gb_text sse2 b cs gb Hb H P). split.
  - intros E. assert (E2 : utf_text b (map back cs) = utf_text b cs) by congruence.
    assert (Hm : Forall scalar (map back cs)). { apply Forall_map. eapply Forall_impl; [|exact H]. intros c Hc. destruct (char_back c Hc) as (bs & _ & _ & _ & Sb & _). exact Sb. }
    apply (C15_injective b) in E2; [|assumption|assumption|assumption]. clear - H E2. induction H as [|c cs Hc H IH]; constructor.
    + cbn [map] in E2. destruct (char_back c Hc) as (bs & _ & _ & _ & _ & L). apply L. congruence.
    + cbn [map] in E2. apply IH. congruence.
  - intros N. f_equal. f_equal. f_equal. clear - H N. induction H as [|c cs Hc H IH]; [reflexivity|]. inversion N; subst. cbn [map]. destruct (char_back c Hc) as (bs & _ & _ & _ & _ & L). f_equal; [apply L; assumption|apply IH; assumption].
Qed.
Print Assumptions C114_round_trip_partial.
(** In particular everything outside U+0080 ... U+0451 and U+E78D ... U+FFDF is kept. *)
Theorem C114_kept : forall c, c < 0x80 \/ 0x452 <= c < 0xE78D \/ 0xE865 <= c < 0xF92D \/ 0xFFE0 <= c -> ~ is_lost c.
Proof.
  intros c H (a & b & L & R). unfold lost in L. cbn [In] in L.
  repeat (destruct L as [E|L]; [assert (a = fst (a, b)) as Ea by reflexivity; assert (b = snd (a, b)) as Eb by reflexivity; rewrite <- E in Ea, Eb; cbn [fst snd] in Ea, Eb; subst; lia|]). destruct L.
Qed.
Print Assumptions C114_kept.
(** U+0080 ... U+0451: what does not come back is replaced by U+FFFD, and these are the characters with four bytes. *)
Theorem C114_latin : forall sse1 sse2 a b c, In a [8; 16; 32] -> In b [8; 16; 32] -> 0x80 <= c <= 0x451 ->
  exists gb, utf_to_gb sse1 a (utf_text a [c]) = Some (gb, []) /\ (gb_to_utf sse2 b gb = Some (utf_text b [c], []) \/ gb_to_utf sse2 b gb = Some (utf_text b [0xFFFD], [])).
Proof.
  intros sse1 sse2 a b c Ha Hb Hc. assert (H : Forall scalar [c]) by (repeat constructor; lia). destruct (to_gb_text sse1 a [c] Ha H) as (gb & P & W). exists gb. split; [exact W|].
  rewrite (from_gb_text sse2 b [c] gb Hb H P). cbn [map]. destruct (back_latin c Hc) as [-> | ->]; auto.
Qed.
Print Assumptions C114_latin.
(** The claim for all texts is false: U+00F6 comes back as U+FFFD, U+F92D as U+E863. *)
Theorem C114_umlaut_refuted : utf_to_gb false 32 [0xF6] = Some ([0x81; 0x30; 0x8B; 0x32], []) /\ gb_to_utf false 32 [0x81; 0x30; 0x8B; 0x32] = Some ([0xFFFD], []).
Proof. split; vm_compute; reflexivity. Qed.
Theorem C114_other_character_refuted : utf_to_gb false 32 [0xF92D] = Some ([0x84; 0x30; 0x85; 0x35], []) /\ gb_to_utf false 32 [0x84; 0x30; 0x85; 0x35] = Some ([0xE863], []).
Proof. split; vm_compute; reflexivity. Qed.
Example C114_case : Forall scalar [65; 0x4E2D; 0x20AC; 0x1F600; 0xFFFD] /\ Forall (fun c => ~ is_lost c) [65; 0x4E2D; 0x20AC; 0x1F600; 0xFFFD] /\
  gb_to_utf true 8 [65; 0xD6; 0xD0; 0xA2; 0xE3; 0x94; 0x39; 0xFC; 0x36; 0x84; 0x31; 0xA4; 0x37] = Some (utf_text 8 [65; 0x4E2D; 0x20AC; 0x1F600; 0xFFFD], []).
Proof. split; [repeat constructor; lia|]. split; [|vm_compute; reflexivity]. repeat (constructor; [apply C114_kept; lia|]). constructor. Qed.

(** C115.  Reading any bytes as GB18030: the tables and the source are read in bounds (no [None]); the result is the same for
    all widths, with and without SSE; one table [m] gives the meaning of all characters, and it contains every character that
    survives a round trip. *)
Theorem C115_every_input : exists m : list Z -> Z,
  (forall c, scalar c -> ~ is_lost c -> exists bs, gb_encode c = Some bs /\ m bs = c) /\
  forall s, Forall is_byte s -> exists cs left, gb_reading m s cs left /\ Forall scalar cs /\
  forall sse cw, In cw [8; 16; 32] -> gb_to_utf sse cw s = Some (utf_text cw cs, left).
Proof.
  exists meaning. split.
  - intros c Hc N. destruct (char_back c Hc) as (bs & E & _ & A & _ & L). exists bs. split; [exact E|]. unfold meaning. rewrite A. apply L, N.
  - intros s Hs. destruct (whole_reads FromGb s Hs) as (cs & left & R & Sc & H). exists cs, left. split; [apply reads_reading; assumption|]. split; [exact Sc|]. intros sse cw Hw. unfold gb_to_utf. rewrite convert8_whole by assumption.
    destruct (H (ToUtf cw) Hw) as (o & P & W). rewrite puts_utf in P by assumption. congruence.
Qed.
Print Assumptions C115_every_input.
Lemma pending_nil : pending []. Proof. split; [constructor|left; reflexivity]. Qed.
(** In chunks, of any sizes, the result is that of the whole text. *)
Theorem C115_chunks : forall sse cw chunks, In cw [8; 16; 32] -> Forall (Forall is_byte) chunks ->
  gb_chunks sse (ToUtf cw) [] chunks = gb_to_utf sse cw (concat chunks).
Proof.
  intros sse cw chunks Hw Hc. rewrite (chunks_whole sse (ToUtf cw) Hw chunks []) by (exact Hc || exact pending_nil). cbn [app]. unfold gb_to_utf. rewrite convert8_whole; [reflexivity|exact Hw|].
  clear - Hc. induction Hc; cbn [concat]; [constructor|apply Forall_app; auto].
Qed.
Print Assumptions C115_chunks.
(** Space: a call fits in what is announced for it, at most three bytes being kept from the calls before. *)
Lemma text_length cw cs : In cw [8; 16; 32] -> Forall scalar cs -> zlen (utf_text cw cs) <= (if cw =? 32 then 1 else if cw =? 16 then 2 else 4) * zlen cs.
Proof.
  intros Hw H. set (k := if cw =? 32 then 1 else if cw =? 16 then 2 else 4).
  assert (U : forall c, Z.of_nat (length (utf_units cw c)) <= k).
  { intros c. unfold k, utf_units, utf16. pose proof (utf8_length c). destruct Hw as [<-|[<-|[<-|[]]]]; cbn [Z.eqb Pos.eqb]; [lia|destruct (c <? 65536); cbn [length]; lia|cbn [length]; lia]. }
  clearbody k. unfold zlen, utf_text. induction H as [|c cs Hc H IH]; [cbn; lia|]. cbn [flat_map length]. rewrite app_length. specialize (U c). lia.
Qed.
Theorem C115_space : forall sse cw chunks c, In cw [8; 16; 32] -> Forall (Forall is_byte) chunks -> Forall is_byte c ->
  exists before st now st', gb_chunks sse (ToUtf cw) [] chunks = Some (before, st) /\ (length st <= 3)%nat /\
  gb_state sse (ToUtf cw) st c = Some (now, st') /\ zlen now <= decorated_reserve 8 cw (zlen c) /\ (chunks = [] -> zlen now <= full_reserve 8 cw (zlen c)).
Proof.
  intros sse cw chunks c Hw Hc Hb. assert (Hcs : Forall is_byte (concat chunks)) by (clear - Hc; induction Hc; cbn [concat]; [constructor|apply Forall_app; auto]).
  rewrite (chunks_whole sse (ToUtf cw) Hw chunks []) by (exact Hc || exact pending_nil). cbn [app]. destruct (whole_reads FromGb _ Hcs) as (cs & st & R & _ & H). destruct (H (ToUtf cw) Hw) as (o & _ & W).
  pose proof (reads_left_ok _ _ _ R Hcs) as Pd. exists o, st. destruct Pd as [Hst Pd]. assert (L3 : (length st <= 3)%nat). { destruct Pd as [-> |E]; [cbn; lia|]. destruct st as [|x st]; [cbn; lia|]. exact (proj1 (gb_none_short _ Hst ltac:(discriminate) E)). }
  assert (Hx : Forall is_byte (st ++ c)) by (apply Forall_app; auto). destruct (whole_reads FromGb _ Hx) as (cs2 & st2 & R2 & Sc2 & H2). destruct (H2 (ToUtf cw) Hw) as (o2 & P2 & W2). exists o2, st2. split; [exact W|]. split; [exact L3|].
  rewrite state_whole by (assumption || (split; assumption)). split; [exact W2|]. rewrite puts_utf in P2 by assumption. assert (o2 = utf_text cw cs2) by congruence. subst o2. pose proof (text_length cw cs2 Hw Sc2) as T. pose proof (reads_length _ _ _ _ R2 Hx) as L. rewrite app_length in L.
  split.
  - unfold decorated_reserve, zlen in *. destruct Hw as [<-|[<-|[<-|[]]]]; cbn [Z.eqb Pos.eqb] in *; lia.
  - intros ->. cbn [concat] in *. assert (st = []) by (cbv in W; congruence). subst st. unfold full_reserve, zlen in *. cbn [length] in *. destruct Hw as [<-|[<-|[<-|[]]]]; cbn [Z.eqb Pos.eqb] in *; lia.
Qed.
Print Assumptions C115_space.
(** That every byte string that is not GB18030 is marked by U+FFFD is false: 0x3A ... 0x3F are taken for digits; and the byte
    after a lead byte is swallowed, a line feed too. *)
Theorem C115_ill_formed_refuted : gb_to_utf false 32 [0x81; 0x30; 0xD3; 0x3A] = Some ([0x45C], []) /\ ~ gb_text [0x81; 0x30; 0xD3; 0x3A].
Proof.
  split; [vm_compute; reflexivity|]. intros H. inversion H as [|s t Hs Ht E]. pose proof (char_split _ _ _ (eq_sym E) Hs) as Q. unfold lead, trail, gb_digit in Q. lia.
Qed.
Theorem C115_swallow_refuted : gb_to_utf false 32 [0x81; 10] = Some ([0xFFFD], []) /\ gb_char [10].
Proof. split; [vm_compute; reflexivity|constructor; lia]. Qed.
Example C115_case : gb_chunks true (ToUtf 32) [] [[65; 0xD6]; [0xD0; 0x94]; []; [0x39; 0xFC]; [0x36; 0xFF; 0x81]] = Some ([65; 0x4E2D; 0x1F600; 0xFFFD], [0x81]).
Proof. vm_compute. reflexivity. Qed.
