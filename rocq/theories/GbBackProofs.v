(** Proofs about texts converted to GB18030 and back, and about distinct characters. *)
From Verif Require Import Base ByteSpec UtfSpec UtfModel UtfProofs UtfLoopProofs GbSpec GbTables GbModel GbTrie GbCheck GbProofs GbTextProofs.

Lemma gb_char_bytes bs : gb_char bs -> Forall is_byte bs /\ bs <> [] /\ (length bs <= 4)%nat.
Proof. destruct 1; unfold lead, trail, gb_digit in *; (split; [repeat constructor; unfold is_byte; lia|split; [discriminate|cbn; lia]]). Qed.

(** The code point that comes back. *)
Definition back (c : Z) : Z :=
  match gb_encode c with Some bs => match gb_advance bs with Some (Some (u, _)) => u | _ => 0xFFFD end | None => 0xFFFD end.
Lemma char_back c : scalar c -> exists bs, gb_encode c = Some bs /\ gb_char bs /\ gb_advance bs = Some (Some (back c, length bs)) /\ scalar (back c) /\ (back c = c <-> ~ is_lost c).
Proof.
  intros Sc. assert (G : exists bs u, gb_encode c = Some bs /\ gb_char bs /\ gb_advance bs = Some (Some (u, length bs)) /\ (u = c <-> ~ is_lost c)).
  2: { destruct G as (bs & u & E & W & A & L). exists bs. assert (Eb : back c = u) by (unfold back; rewrite E, A; reflexivity). rewrite Eb. repeat split; try assumption; try apply L.
       - destruct (gb_char_bytes bs W) as (Hb & Ne & _). destruct (advance_cases_gb bs Hb Ne) as [(x & n & E' & G & _)|(E' & _)]; [|congruence]. assert (x = u) by congruence. subst x. exact (proj1 (proj1 (step_scalar _ _ _ G))).
       - destruct (gb_char_bytes bs W) as (Hb & Ne & _). destruct (advance_cases_gb bs Hb Ne) as [(x & n & E' & G & _)|(E' & _)]; [|congruence]. assert (x = u) by congruence. subst x. exact (proj2 (proj1 (step_scalar _ _ _ G))).
       - destruct (gb_char_bytes bs W) as (Hb & Ne & _). destruct (advance_cases_gb bs Hb Ne) as [(x & n & E' & G & _)|(E' & _)]; [|congruence]. assert (x = u) by congruence. subst x. exact (proj2 (step_scalar _ _ _ G)). }
  destruct (Z_lt_dec c 0x80) as [L|L].
  { destruct Sc as [[Sc _] _]. exists [c], c. split; [apply encode_ascii; lia|]. split; [constructor; lia|]. split.
    - unfold gb_advance, advance_checked. cbn [nth_error]. destruct (Z.ltb_spec c 0x80); [reflexivity|lia].
    - split; [|reflexivity]. intros _ Q. apply lost_spec in Q. unfold lost in Q. cbn [in_sorted] in Q. destruct (Z.ltb_spec c 0x80); [discriminate|lia]. }
  destruct (encode_total c ltac:(lia)) as (bs & E & W). exists bs.
  destruct (encode_piece (table_at uni_to_gb) c) as (lo & hi & arith & off & Hin & B & P); [destruct Sc; lia|]. fold (gb_encode c) in P. rewrite E in P.
  destruct arith; unfold piece_code in P.
  - exists c. assert (bs = four_bytes (c + off)) by congruence. subst bs. split; [exact E|]. split; [exact W|]. split; [|split; [|reflexivity]].
    + unfold gb_advance. rewrite (four_back _ _ lo hi off c Hin B). pose proof (pieces_ok _ _ _ _ Hin) as Q. cbn iota in Q. destruct (four_bytes_spec (c + off) ltac:(lia)) as (a & b & x & d & -> & _). reflexivity.
    + intros _. exact (arith_kept lo hi off c Hin B).
  - destruct (back_entry c lo hi off Hin B Sc) as (v & x & V & A & L1). rewrite V in P. cbn [option_map] in P. assert (bs = entry_bytes v) by congruence. subst bs. exists x. auto.
Qed.

(** ** Texts *)
Lemma puts_gb cs : Forall scalar cs -> exists o, puts ToGb cs = Some o /\ gb_text o /\ Forall is_byte o /\ reads FromGb o (map back cs) [].
Proof.
  induction 1 as [|c cs Hc H IH]; [exists []; repeat split; constructor|]. destruct IH as (o & P & T & B & R). destruct (char_back c Hc) as (bs & E & W & A & Sb & _).
  destruct (gb_char_bytes bs W) as (Hb & Ne & _). exists (bs ++ o). cbn [puts put map]. rewrite E, P. split; [reflexivity|]. split; [constructor; assumption|]. split; [apply Forall_app; auto|].
  apply (reads_char FromGb (bs ++ o) (back c) o); [destruct bs; [contradiction|discriminate]| |exact Sb|exact R].
  cbn [advance8]. unfold gb_advance in *. rewrite (GbProofs.advance_mono _ _ _ o _ _ A). cbn [option_map fst snd]. rewrite skipn_app, skipn_all, Nat.sub_diag. reflexivity.
Qed.
Lemma reads_utf8 cs : Forall scalar cs -> Forall is_byte (utf_text 8 cs) /\ reads FromUtf8 (utf_text 8 cs) cs [].
Proof.
  induction 1 as [|c cs Hc H IH]; [split; constructor|]. destruct IH as [B R]. change (utf_text 8 (c :: cs)) with (utf8 c ++ utf_text 8 cs). split; [apply Forall_app; split; [apply utf8_bytes, Hc|exact B]|].
  apply (reads_char FromUtf8 _ c (utf_text 8 cs)); [pose proof (utf8_nonempty c); destruct (utf8 c); [contradiction|discriminate]| |exact Hc|exact R]. cbn [advance8]. rewrite advance_utf8 by assumption. reflexivity.
Qed.
Lemma whole_of_reads src d s cs left o : dest_ok d -> Forall is_byte s -> reads src s cs left -> puts d cs = Some o -> whole src d s = Some (o, left).
Proof.
  intros Hd Hs R P. destruct (whole_reads src s Hs) as (cs' & left' & R' & _ & H). destruct (reads_det _ _ _ _ R _ _ R') as [<- <-]. destruct (H d Hd) as (o' & P' & W). congruence.
Qed.
Lemma convert32_text cs : Forall scalar cs -> exists o, puts ToGb cs = Some o /\ convert32_gb cs = Some (o, []).
Proof.
  induction 1 as [|c cs Hc H IH]; [exists []; auto|]. destruct IH as (o & P & W). destruct (char_back c Hc) as (bs & E & _). exists (bs ++ o). cbn [puts put convert32_gb]. rewrite E, P, W. auto.
Qed.
Lemma convert16_text cs : Forall scalar cs -> exists o, puts ToGb cs = Some o /\ convert16_gb (utf_text 16 cs) = Some (o, []).
Proof.
  induction 1 as [|c cs Hc H IH]; [exists []; auto|]. destruct IH as (o & P & W). destruct (char_back c Hc) as (bs & E & _). exists (bs ++ o). cbn [puts put]. rewrite E, P. split; [reflexivity|].
  change (utf_text 16 (c :: cs)) with (utf16 c ++ utf_text 16 cs). unfold utf16. destruct (Z.ltb_spec c 65536) as [L|L]; cbn [app convert16_gb].
  - destruct Hc as [Hc N]. rewrite surr_false by (unfold is_u16; lia). rewrite E, W. reflexivity.
  - assert (Hh : hi_unit (55296 + (c - 65536) / 1024)) by (unfold hi_unit; destruct Hc; lia). assert (Hl : lo_unit (56320 + (c - 65536) mod 1024)) by (unfold lo_unit; lia).
    rewrite surr_true by (unfold hi_unit in Hh; lia). rewrite high_true, low_true by assumption. rewrite surr_pair by assumption.
    replace (65536 + (55296 + (c - 65536) / 1024 - 55296) * 1024 + (56320 + (c - 65536) mod 1024 - 56320)) with c by lia. rewrite E, W. reflexivity.
Qed.
Lemma to_gb_text sse cw cs : In cw [8; 16; 32] -> Forall scalar cs -> exists o, puts ToGb cs = Some o /\ utf_to_gb sse cw (utf_text cw cs) = Some (o, []).
Proof.
  intros Hw H. unfold utf_to_gb. destruct Hw as [<-|[<-|[<-|[]]]]; cbn [Z.eqb Pos.eqb].
  - destruct (reads_utf8 cs H) as [B R]. destruct (puts_gb cs H) as (o & P & _). exists o. split; [exact P|]. rewrite convert8_whole by (auto; cbn; auto). exact (whole_of_reads FromUtf8 ToGb _ cs [] o ltac:(cbn; auto) B R P).
  - apply convert16_text, H.
  - destruct (convert32_text cs H) as (o & P & W). exists o. split; [exact P|]. assert (E : utf_text 32 cs = cs) by (clear; induction cs as [|c cs IH]; [reflexivity|]; change (c :: utf_text 32 cs = c :: cs); congruence). rewrite E. exact W.
Qed.
Lemma from_gb_text sse cw cs o : In cw [8; 16; 32] -> Forall scalar cs -> puts ToGb cs = Some o -> gb_to_utf sse cw o = Some (utf_text cw (map back cs), []).
Proof.
  intros Hw H P. destruct (puts_gb cs H) as (o' & P' & _ & B & R). assert (o' = o) by congruence. subst o'. unfold gb_to_utf. rewrite convert8_whole by (auto; exact Hw).
  assert (Hb : Forall scalar (map back cs)). { apply Forall_map. eapply Forall_impl; [|exact H]. intros c Hc. destruct (char_back c Hc) as (bs & _ & _ & _ & Sb & _). exact Sb. }
  apply (whole_of_reads FromGb (ToUtf cw) o (map back cs) []); [exact Hw|exact B|exact R|apply puts_utf; assumption].
Qed.

(** Any source: the conversion reads inside the tables and writes well-formed text. *)
Lemma puts_gb_any cs : Forall (fun c => 0 <= c) cs -> exists o, puts ToGb cs = Some o /\ gb_text o /\ (length o <= 4 * length cs)%nat.
Proof.
  induction 1 as [|c cs Hc H IH]; [exists []; repeat split; [constructor|cbn; lia]|]. destruct IH as (o & P & T & L). destruct (encode_total c Hc) as (bs & E & W). exists (bs ++ o). cbn [puts put]. rewrite E, P.
  split; [reflexivity|]. split; [constructor; assumption|]. destruct (gb_char_bytes bs W) as (_ & _ & Lb). rewrite app_length. cbn [length]. lia.
Qed.
Lemma reads_length src s cs left : reads src s cs left -> Forall is_byte s -> (length cs + length left <= length s)%nat.
Proof.
  induction 1 as [|s N E|s u s2 cs left N E Su R IH]; intros Hs; [cbn; lia|cbn; lia|]. destruct (advance8_spec src s Hs N) as (r & E2 & P). rewrite E in E2. assert (r = Some (u, s2)) by congruence. subst r. destruct P as [_ (p & Np & Ep)].
  specialize (IH (bytes_tail _ _ _ Hs Ep)). rewrite Ep, app_length. destruct p; [contradiction|]. cbn [length]. lia.
Qed.
Lemma reads_scalars src s cs left : reads src s cs left -> Forall scalar cs.
Proof. induction 1; constructor; assumption. Qed.
Definition unit_ok (cw u : Z) : Prop := 0 <= u < 2 ^ cw.
Lemma convert16_any s : Forall is_u16 s -> exists o left, convert16_gb s = Some (o, left) /\ gb_text o /\ (length o <= 4 * length s)%nat.
Proof.
  remember (length s) as n eqn:En. revert s En. induction n as [n IH] using lt_wf_ind. intros s En Hs. destruct s as [|a s]; [exists [], []; repeat split; [constructor|cbn; lia]|].
  inversion Hs as [|? ? Ha Hs1]; subst. cbn [length] in IH. cbn [convert16_gb]. unfold is_u16 in Ha.
  assert (One : forall c s', 0 <= c -> Forall is_u16 s' -> (length s' <= length s)%nat ->
    exists o left, match gb_encode c with None => None | Some o => emit o (convert16_gb s') end = Some (o, left) /\ gb_text o /\ (length o <= 4 * length (a :: s))%nat).
  { intros c s' Hc Hs' L. destruct (encode_total c Hc) as (bs & E & W). destruct (gb_char_bytes bs W) as (_ & _ & Lb). rewrite E. destruct (IH (length s') ltac:(lia) s' eq_refl Hs') as (o & left & E' & T & Lo). rewrite E'. exists (bs ++ o), left.
    split; [reflexivity|]. split; [constructor; assumption|]. rewrite app_length. cbn [length]. lia. }
  assert (Bad : forall s', Forall is_u16 s' -> (length s' <= length s)%nat -> exists o left, emit gb_invalid (convert16_gb s') = Some (o, left) /\ gb_text o /\ (length o <= 4 * length (a :: s))%nat).
  { intros s' Hs' L. destruct (IH (length s') ltac:(lia) s' eq_refl Hs') as (o & left & E' & T & Lo). rewrite E'. exists (gb_invalid ++ o), left.
    split; [reflexivity|]. split; [constructor; [apply gb_four; unfold lead, gb_digit; lia|assumption]|]. rewrite app_length. cbn [length gb_invalid]. lia. }
  destruct (is_surrogate a); [|apply One; [lia|exact Hs1|lia]]. destruct (is_high a); [|apply Bad; [exact Hs1|lia]]. destruct s as [|b s]; [exists [], [a]; repeat split; [constructor|cbn; lia]|].
  inversion Hs1 as [|? ? Hb Hs2]; subst. destruct (is_low b); [|apply Bad; [exact Hs2|cbn; lia]]. apply One; [|exact Hs2|cbn; lia]. unfold surrogate_to_utf32. unfold wrap at 1. apply Z.mod_pos_bound. lia.
Qed.
Lemma convert32_any s : Forall (fun c => 0 <= c) s -> exists o, convert32_gb s = Some (o, []) /\ gb_text o /\ (length o <= 4 * length s)%nat.
Proof.
  intros H. destruct (puts_gb_any s H) as (o & P & T & L). exists o. split; [|auto]. clear T L H. revert o P. induction s as [|c s IH]; intros o P; [cbn in P; cbn; congruence|]. cbn [puts put convert32_gb] in *.
  destruct (gb_encode c) as [bs|]; [|discriminate]. destruct (puts ToGb s) as [o'|]; [|discriminate]. rewrite (IH o' eq_refl). cbn. congruence.
Qed.

(** ** Distinct characters *)
Lemma advance_same uni c c' lo hi off lo' hi' off' : In (lo, hi, true, off) pieces -> lo <= c < hi -> In (lo', hi', true, off') pieces -> lo' <= c' < hi' ->
  piece_code uni true off c = piece_code uni true off' c' -> c = c'.
Proof.
  intros Hin B Hin' B' E. unfold piece_code in E. assert (E' : four_bytes (c + off) = four_bytes (c' + off')) by congruence.
  pose proof (four_back (fun _ => None) (fun _ => None) lo hi off c Hin B) as F. rewrite E' in F. rewrite (four_back _ _ lo' hi' off' c' Hin' B') in F. congruence.
Qed.
Lemma entry_bytes_inj v v' : entry_wf v = true -> entry_wf v' = true -> entry_bytes v = entry_bytes v' -> v = v'.
Proof.
  intros W W' E. unfold entry_bytes in E.
  assert (D4 : forall x, entry_wf x = true -> 0 <= x). { intros x Wx. destruct (Z.leb_spec 0 x); [assumption|]. unfold entry_wf in Wx. cbv zeta in Wx. rewrite (proj2 (Z.ltb_lt x 65536)) in Wx by lia.
    apply Bool.andb_true_iff in Wx as [Wx _]. apply Bool.andb_true_iff in Wx as [_ Wx]. apply in_range_spec in Wx. rewrite Z.shiftr_div_pow2 in Wx by lia. change (2 ^ 8) with 256 in Wx. lia. }
  pose proof (D4 _ W) as P. pose proof (D4 _ W') as P'. clear D4 W W'. rewrite !land_byte, !Z.shiftr_div_pow2 in E by lia. change (2 ^ 8) with 256 in E. change (2 ^ 16) with 65536 in E. change (2 ^ 24) with 16777216 in E.
  destruct (wrap 16 v =? v), (wrap 16 v' =? v'); try discriminate E.
  - assert (E1 : v mod 256 = v' mod 256) by congruence. assert (E2 : v / 256 = v' / 256) by congruence. lia.
  - assert (E1 : v mod 256 = v' mod 256) by congruence. assert (E2 : (v / 256) mod 256 = (v' / 256) mod 256) by congruence. assert (E3 : (v / 65536) mod 256 = (v' / 65536) mod 256) by congruence. assert (E4 : v / 16777216 = v' / 16777216) by congruence. clear E.
    lia.
Qed.
Definition disjoint (p q : Z * Z * bool * Z) : bool :=
  let '(lo, hi, k, off) := p in let '(lo', hi', k', off') := q in
  if k || k' then true else (lo =? lo') || (hi + off <=? lo' + off') || (hi' + off' <=? lo + off).
Lemma index_inj lo hi off c lo' hi' off' c' : In (lo, hi, false, off) pieces -> lo <= c < hi -> In (lo', hi', false, off') pieces -> lo' <= c' < hi' -> c + off = c' + off' -> c = c'.
Proof.
  intros Hin B Hin' B' E. assert (C : forallb (fun p => forallb (disjoint p) pieces) pieces = true) by reflexivity. rewrite forallb_forall in C. specialize (C _ Hin). rewrite forallb_forall in C. specialize (C _ Hin'). cbn [disjoint orb] in C.
  apply Bool.orb_true_iff in C as [C|C]; [|zbool; lia]. apply Bool.orb_true_iff in C as [C|C]; [|zbool; lia]. zbool. subst lo'.
  assert (U : forallb (fun p => forallb (fun q => let '(l, _, _, o) := p in let '(l', _, _, o') := q in negb (l =? l') || (o =? o')) pieces) pieces = true) by reflexivity.
  rewrite forallb_forall in U. specialize (U _ Hin). rewrite forallb_forall in U. specialize (U _ Hin'). cbv beta iota in U. rewrite Z.eqb_refl in U. cbn [negb orb] in U. zbool. lia.
Qed.
Lemma surrogate_piece lo hi off c : In (lo, hi, false, off) pieces -> lo <= c < hi -> (surrogate_index (c + off) = true <-> 0xD800 <= c <= 0xDFFF).
Proof.
  intros Hin B. unfold surrogate_index. rewrite in_range_spec. unfold pieces in Hin. cbn [In] in Hin.
  repeat (destruct Hin as [E|Hin]; [first [discriminate E|injection E as <- <- <-; lia]|]). destruct Hin.
Qed.
Lemma entry_unique i i' v : 0 <= i < 32781 -> 0 <= i' < 32781 -> surrogate_index i = false -> surrogate_index i' = false -> table_at uni_to_gb i = Some v -> table_at uni_to_gb i' = Some v -> i = i'.
Proof.
  intros Hi Hi' Si Si' E E'. destruct (table_walk _ uni_to_gb 32781 unique_check i Hi) as (w & W & F). destruct (table_walk _ uni_to_gb 32781 unique_check i' Hi') as (w' & W' & F').
  assert (w = v) by congruence. assert (w' = v) by congruence. subst w w'. unfold unique_at in F, F'. rewrite Si in F. rewrite Si' in F'. destruct v as [|p|p]; try discriminate.
  unfold opt_is in F, F'. destruct (get p _) as [x|]; [|discriminate]. zbool. congruence.
Qed.
Definition covered (p : Z * Z * bool * Z) : bool :=
  let '(lo, hi, arith, off) := p in
  if arith then existsb (fun r => (fst r <=? lo + off + 1687218) && (hi + off + 1687218 <=? snd r + 1)) range_numbers else true.
(** The bytes of an entry against the bytes of a number. *)
Lemma entry_not_number i v lo hi off c : 0 <= i < 32781 -> surrogate_index i = false -> i <> 31931 -> table_at uni_to_gb i = Some v ->
  In (lo, hi, true, off) pieces -> lo <= c < hi -> entry_bytes v <> four_bytes (c + off).
Proof.
  intros Hi Si Ni V Hin B E. pose proof (pieces_ok _ _ _ _ Hin) as P. cbn iota in P. destruct (four_bytes_spec (c + off) ltac:(lia)) as (a & b & x & d & F & H1 & H2 & H3 & H4 & N). rewrite F in E.
  destruct (table_walk _ uni_to_gb 32781 outside_check i Hi) as (w & W & O). assert (w = v) by congruence. subst w. destruct (table_walk _ uni_to_gb 32781 all_wf i Hi) as (w & W' & Wf). assert (w = v) by congruence. subst w.
  unfold outside_ranges in O. unfold entry_bytes in E. destruct (wrap 16 v =? v) eqn:E16; [discriminate|].
  assert (L : (v <? 65536) = false). { apply Z.ltb_ge. apply Z.eqb_neq in E16. destruct (Z_le_dec 65536 v) as [|G]; [assumption|exfalso]. apply E16. unfold wrap. change (2 ^ 16) with 65536. apply Z.mod_small. split; [|lia].
    unfold entry_wf in Wf. cbv zeta in Wf. rewrite (proj2 (Z.ltb_lt v 65536)) in Wf by lia. apply Bool.andb_true_iff in Wf as [Wf _]. apply Bool.andb_true_iff in Wf as [_ Wf]. apply in_range_spec in Wf. rewrite Z.shiftr_div_pow2 in Wf by lia. change (2 ^ 8) with 256 in Wf. lia. }
  rewrite L, Si in O. cbn [orb] in O. rewrite (proj2 (Z.eqb_neq _ _) Ni) in O. cbv zeta in O.
  assert (X : entry_linear v = c + off + 1687218).
  { unfold entry_linear. assert (Ea : Z.land v 255 = a) by congruence. assert (Eb : Z.land (Z.shiftr v 8) 255 = b) by congruence. assert (Ex : Z.land (Z.shiftr v 16) 255 = x) by congruence. assert (Ed : Z.shiftr v 24 = d) by congruence.
    rewrite Ea, Eb, Ex, Ed. rewrite <- N. unfold gb_number. lia. }
  rewrite X in O. rewrite forallb_forall in O. assert (C : forallb covered pieces = true) by reflexivity. rewrite forallb_forall in C. specialize (C _ Hin). cbn [covered] in C. apply existsb_exists in C as ([lo2 hi2] & Hr & C).
  cbn [fst snd] in C. apply Bool.andb_true_iff in C as [C1 C2]. specialize (O _ Hr). cbn [fst snd] in O. zbool. rewrite (proj2 (Z.leb_le lo2 (c + off + 1687218))) in O by lia. zbool. lia.
Qed.
Lemma e7c7_index lo hi off c : In (lo, hi, false, off) pieces -> lo <= c < hi -> c + off = 31931 -> c = 0xE7C7.
Proof. intros Hin B E. apply (index_inj lo hi off c 0xD800 0xE865 (-27404) 0xE7C7 Hin B); [unfold pieces; repeat (first [left; reflexivity|right])|lia|lia]. Qed.
Lemma e7c7_entry v : table_at uni_to_gb 31931 = Some v -> entry_bytes v = four_bytes (0x1E3F + -286).
Proof. intros E. rewrite table_trie in E. assert (Q : at_ (trie (concat uni_to_gb)) 31931 = Some 0x37F43581) by (vm_compute; reflexivity). rewrite Q in E. injection E as <-. reflexivity. Qed.

Lemma encode_injective c c' : scalar c -> scalar c' -> gb_encode c = gb_encode c' -> c = c' \/ (c = 0x1E3F /\ c' = 0xE7C7) \/ (c = 0xE7C7 /\ c' = 0x1E3F).
Proof.
  intros Sc Sc' E. destruct Sc as [Bc Nc], Sc' as [Bc' Nc'].
  destruct (Z_lt_dec c 0x80) as [L|L], (Z_lt_dec c' 0x80) as [L'|L'].
  - rewrite !encode_ascii in E by lia. left. congruence.
  - rewrite encode_ascii in E by lia. destruct (encode_form c' ltac:(lia)) as (bs & E' & [(a & b & -> & _)|(a & b & x & d & -> & _)]); congruence.
  - rewrite (encode_ascii c') in E by lia. destruct (encode_form c ltac:(lia)) as (bs & E' & [(a & b & -> & _)|(a & b & x & d & -> & _)]); congruence.
  - destruct (encode_piece (table_at uni_to_gb) c ltac:(lia)) as (lo & hi & k & off & Hin & B & P). destruct (encode_piece (table_at uni_to_gb) c' ltac:(lia)) as (lo' & hi' & k' & off' & Hin' & B' & P').
    unfold gb_encode in E. rewrite P, P' in E. clear P P'. pose proof (pieces_ok _ _ _ _ Hin) as Q. pose proof (pieces_ok _ _ _ _ Hin') as Q'. destruct k, k'; cbn iota in Q, Q'.
    + left. exact (advance_same _ _ _ _ _ _ _ _ _ Hin B Hin' B' E).
    + unfold piece_code in E. destruct (entry_at (c' + off') ltac:(lia)) as (v & V & W). rewrite V in E. cbn [option_map] in E.
      assert (S' : surrogate_index (c' + off') = false). { destruct (surrogate_index (c' + off')) eqn:S1; [|reflexivity]. apply (surrogate_piece _ _ _ _ Hin' B') in S1. lia. }
      destruct (Z.eq_dec (c' + off') 31931) as [I1|I1].
      * pose proof (e7c7_index _ _ _ _ Hin' B' I1). rewrite I1 in V. pose proof (e7c7_entry v V) as F. right. left. split; [|assumption].
        apply (advance_same (fun _ => None) c 0x1E3F lo hi off 0x452 0x2010 (-286) Hin B); [unfold pieces; repeat (first [left; reflexivity|right])|lia|]. unfold piece_code. congruence.
      * exfalso. apply (entry_not_number (c' + off') v lo hi off c ltac:(lia) S' I1 V Hin B). congruence.
    + unfold piece_code in E. destruct (entry_at (c + off) ltac:(lia)) as (v & V & W). rewrite V in E. cbn [option_map] in E.
      assert (S1 : surrogate_index (c + off) = false). { destruct (surrogate_index (c + off)) eqn:S1; [|reflexivity]. apply (surrogate_piece _ _ _ _ Hin B) in S1. lia. }
      destruct (Z.eq_dec (c + off) 31931) as [I1|I1].
      * pose proof (e7c7_index _ _ _ _ Hin B I1). rewrite I1 in V. pose proof (e7c7_entry v V) as F. right. right. split; [assumption|].
        symmetry. apply (advance_same (fun _ => None) 0x1E3F c' 0x452 0x2010 (-286) lo' hi' off'); [unfold pieces; repeat (first [left; reflexivity|right])|lia|exact Hin'|exact B'|]. unfold piece_code. congruence.
      * exfalso. apply (entry_not_number (c + off) v lo' hi' off' c' ltac:(lia) S1 I1 V Hin' B'). congruence.
    + unfold piece_code in E. destruct (entry_at (c + off) ltac:(lia)) as (v & V & W). destruct (entry_at (c' + off') ltac:(lia)) as (v' & V' & W'). rewrite V, V' in E. cbn [option_map] in E.
      assert (v = v') by (apply entry_bytes_inj; [assumption|assumption|congruence]). subst v'.
      assert (S1 : surrogate_index (c + off) = false). { destruct (surrogate_index (c + off)) eqn:S1; [|reflexivity]. apply (surrogate_piece _ _ _ _ Hin B) in S1. lia. }
      assert (S' : surrogate_index (c' + off') = false). { destruct (surrogate_index (c' + off')) eqn:S2; [|reflexivity]. apply (surrogate_piece _ _ _ _ Hin' B') in S2. lia. }
      left. apply (index_inj lo hi off c lo' hi' off' c' Hin B Hin' B'). exact (entry_unique (c + off) (c' + off') v ltac:(lia) ltac:(lia) S1 S' V V').
Qed.
Lemma encode_surrogate c : 0xD800 <= c <= 0xDFFF -> gb_encode c = Some gb_replacement.
Proof.
  intros H. destruct (table_walk_from _ uni_to_gb 55296 2048 27892 surrogate_check ltac:(lia) c ltac:(lia)) as (v & V & F). zbool. subst v.
  destruct (encode_piece (table_at uni_to_gb) c ltac:(lia)) as (lo & hi & k & off & Hin & B & P). unfold gb_encode. rewrite P.
  assert (O : k = false /\ c + off = c - 55296 + 27892).
  { clear P V. unfold pieces in Hin. cbn [In] in Hin. repeat (destruct Hin as [E|Hin]; [injection E as <- <- <- <-; first [split; [reflexivity|lia]|exfalso; lia]|]). destruct Hin. }
  destruct O as [-> O]. unfold piece_code. rewrite O, V. reflexivity.
Qed.
Lemma encode_fffd : gb_encode 0xFFFD = Some gb_replacement. Proof. reflexivity. Qed.
Lemma encode_supplementary c : 0x10000 <= c <= 0x10FFFF -> exists a b x d, gb_encode c = Some [a; b; x; d] /\ gb_number a b x d = gb_number 0x90 0x30 0x81 0x30 + (c - 0x10000).
Proof.
  intros H. destruct (encode_piece (table_at uni_to_gb) c ltac:(lia)) as (lo & hi & k & off & Hin & B & P).
  assert (O : k = true /\ off = 123464).
  { clear P. unfold pieces in Hin. cbn [In] in Hin. repeat (destruct Hin as [E|Hin]; [injection E as <- <- <- <-; first [split; [reflexivity|lia]|exfalso; lia]|]). destruct Hin. }
  destruct O as [-> ->]. unfold gb_encode. rewrite P. destruct (four_bytes_spec (c + 123464) ltac:(lia)) as (a & b & x & d & F & _ & _ & _ & _ & N). exists a, b, x, d. unfold piece_code. rewrite F. split; [reflexivity|].
  rewrite N. change (gb_number 0x90 0x30 0x81 0x30) with 189000. lia.
Qed.
Lemma back_latin c : 0x80 <= c <= 0x451 -> back c = c \/ back c = 0xFFFD.
Proof.
  intros H. destruct (table_walk_from _ uni_to_gb 128 978 0 latin_check ltac:(lia) c ltac:(lia)) as (v & V & F). replace (c - 128 + 0) with (c - 128) in V by lia.
  unfold back, gb_encode, encode_with, encode_unhappy. destruct (Z.ltb_spec c 0x80); [lia|]. destruct (Z.ltb_spec c 0x110000); [|lia]. destruct (Z.ltb_spec c 0x452); [|lia]. unfold lookup_bytes, wrap. rewrite Z.mod_small by lia. rewrite V. cbn [option_map].
  unfold latin_back in F. rewrite <- advance_trie in F. destruct (gb_advance (entry_bytes v)) as [[[x n]|]|]; try discriminate. apply Bool.orb_true_iff in F as [F|F]; zbool; auto.
Qed.

(** ** Reading any bytes *)
Definition meaning (s : list Z) : Z := match gb_advance s with Some (Some (u, _)) => u | _ => 0xFFFD end.
Lemma meaning_whole s t u n : Forall is_byte s -> s <> [] -> gb_advance (s ++ t) = Some (Some (u, n)) -> ~ gb_unfinished s -> u = meaning s.
Proof.
  intros Hs Ne E U. destruct (advance_cases_gb s Hs Ne) as [(x & k & E' & _)|(_ & U')]; [|contradiction]. unfold meaning. rewrite E'. unfold gb_advance in *. rewrite (GbProofs.advance_mono _ _ _ t _ _ E') in E. congruence.
Qed.
Lemma char_split s p q : s = p ++ q -> gb_char p ->
  match s with
  | a :: s1 => (0 <= a <= 0x7F) \/ (lead a /\ match s1 with b :: s2 => trail b \/ (gb_digit b /\ match s2 with c :: s3 => lead c /\ match s3 with d :: _ => gb_digit d | [] => False end | [] => False end) | [] => False end)
  | [] => False end.
Proof. intros -> H. destruct H; cbn [app]; auto. right. split; [assumption|]. right. auto. Qed.
Lemma reads_reading s cs left : reads FromGb s cs left -> Forall is_byte s -> gb_reading meaning s cs left.
Proof.
  induction 1 as [|s N E|s u s2 cs left N E Su R IH]; intros Hs; [constructor| |].
  - apply read_unfinished. cbn [advance8] in E. destruct (gb_advance s) as [[r|]|] eqn:A; try discriminate. exact (proj2 (gb_none_short s Hs N A)).
  - destruct (advance_cases_gb s Hs N) as [(x & n & A & G & _)|(A & _)]; [|cbn [advance8] in E; rewrite A in E; discriminate].
    cbn [advance8] in E. rewrite A in E. cbn [option_map fst snd] in E. assert (x = u /\ skipn n s = s2) as [-> E2] by (split; congruence). clear E. rewrite E2 in G.
    assert (Hs2 : Forall is_byte s2). { rewrite <- E2. apply (bytes_tail (firstn n s) _ s Hs). symmetry. apply firstn_skipn. } specialize (IH Hs2). clear E2.
    destruct G as [b t Hb|t|t|a b u t Ha Hb Hu|a b t Ha Hb Hn|a b c d t Ha Hb Hc|a b c d t Ha Hb Hc Hd|a b c d u t Ha Hb Hc Hd Hu].
    + apply read_ascii; [lia|exact IH].
    + apply read_euro, IH.
    + apply (read_bad meaning [0xFF] t); [discriminate|cbn; lia| |exact IH]. intros p q Ep Gp. pose proof (char_split _ _ _ Ep Gp) as Q. cbn [app] in Q. unfold lead in Q. lia.
    + assert (M : u = meaning [a; b]). { apply (meaning_whole [a; b] t u n); [unfold lead, trail in *; repeat constructor; unfold is_byte; lia|discriminate|exact A|]. cbn [gb_unfinished]. unfold trail in Hb. lia. }
      rewrite M. apply (read_char meaning [a; b] t); [constructor; assumption|cbn; lia|exact IH].
    + apply (read_bad meaning [a; b] t); [discriminate|cbn; lia| |exact IH]. intros p q Ep Gp. pose proof (char_split _ _ _ Ep Gp) as Q. cbn [app] in Q. unfold lead, gb_digit in *. destruct Q as [Q|[_ [Q|[Q _]]]]; [lia|contradiction|lia].
    + apply (read_bad meaning [a; b; c] (d :: t)); [discriminate|cbn; lia| |exact IH]. intros p q Ep Gp. pose proof (char_split _ _ _ Ep Gp) as Q. cbn [app] in Q. unfold gb_digit, trail in *. destruct Q as [Q|[_ [Q|[Q [Q1 _]]]]]; [unfold lead in *; lia|lia|contradiction].
    + apply (read_bad meaning [a; b; c; d] t); [discriminate|cbn; lia| |exact IH]. intros p q Ep Gp. pose proof (char_split _ _ _ Ep Gp) as Q. cbn [app] in Q. unfold gb_digit, trail in *. destruct Q as [Q|[_ [Q|[Q [Q1 Q2]]]]]; [unfold lead in *; lia|lia|lia].
    + assert (M : u = meaning [a; b; c; d]). { apply (meaning_whole [a; b; c; d] t u n); [unfold lead in *; repeat constructor; unfold is_byte; lia|discriminate|exact A|]. cbn [gb_unfinished]. auto. }
      rewrite M. destruct (Z_le_dec b 0x39) as [B1|B1]; [destruct (Z_le_dec d 0x39) as [D1|D1]|].
      * apply (read_char meaning [a; b; c; d] t); [constructor; unfold gb_digit; auto; lia|cbn; lia|exact IH].
      * apply read_loose; auto. intros Gc. inversion Gc; subst. unfold gb_digit in *. lia.
      * apply read_loose; auto. intros Gc. inversion Gc; subst. unfold gb_digit in *. lia.
Qed.

(** Characters are told apart without looking ahead. *)
Lemma gb_char_prefix s t s' t' : gb_char s -> gb_char s' -> s ++ t = s' ++ t' -> s = s' /\ t = t'.
Proof.
  intros G G' E. destruct G, G'; cbn [app] in E; unfold lead, trail, gb_digit in *.
  all: repeat match goal with H : ?x :: ?l = ?y :: ?l' |- _ => assert (x = y) by congruence; assert (l = l') by congruence; clear H end; subst; try (split; reflexivity); exfalso; lia.
Qed.
Lemma puts_inj cs : forall cs' o, Forall scalar cs -> Forall scalar cs' -> Forall (fun c => c <> 0xE7C7) cs -> Forall (fun c => c <> 0xE7C7) cs' -> puts ToGb cs = Some o -> puts ToGb cs' = Some o -> cs = cs'.
Proof.
  induction cs as [|c cs IH]; intros [|c' cs'] o H H' N N' P P'; [reflexivity| | |].
  - cbn [puts put] in P, P'. inversion H' as [|? ? Hc _]; subst. destruct (char_back c' Hc) as (bs & E & W & _). destruct (gb_char_bytes bs W) as (_ & Ne & _). rewrite E in P'. destruct (puts ToGb cs'); [|discriminate]. destruct bs; [contradiction|]. cbn in P'. congruence.
  - cbn [puts put] in P, P'. inversion H as [|? ? Hc _]; subst. destruct (char_back c Hc) as (bs & E & W & _). destruct (gb_char_bytes bs W) as (_ & Ne & _). rewrite E in P. destruct (puts ToGb cs); [|discriminate]. destruct bs; [contradiction|]. cbn in P. congruence.
  - inversion H as [|? ? Hc Hcs]; inversion H' as [|? ? Hc' Hcs']; inversion N as [|? ? Nc Ncs]; inversion N' as [|? ? Nc' Ncs']; subst. cbn [puts put] in P, P'.
    destruct (char_back c Hc) as (bs & E & W & _). destruct (char_back c' Hc') as (bs' & E' & W' & _). rewrite E in P. rewrite E' in P'. destruct (puts ToGb cs) as [o1|] eqn:P1; [|discriminate]. destruct (puts ToGb cs') as [o2|] eqn:P2; [|discriminate].
    assert (X : bs ++ o1 = bs' ++ o2) by congruence. destruct (gb_char_prefix _ _ _ _ W W' X) as [<- <-]. f_equal; [|exact (IH cs' o1 Hcs Hcs' Ncs Ncs' eq_refl P2)].
    destruct (encode_injective c c' Hc Hc' ltac:(congruence)) as [Q|[[_ Q]|[Q _]]]; [exact Q|contradiction|contradiction].
Qed.
