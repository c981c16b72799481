(** Properties C130-C134: names handed to the operating system. *)
From Verif Require Import Base UtfSpec UtfModel UtfProofs UtfLoopProofs UtfSizeProofs OsNameSpec OsNameModel.
Ltac Zify.zify_post_hook ::= Z.div_mod_to_equations.

Lemma c_string_app s rest : ~ In 0 s -> c_string (s ++ 0 :: rest) = Some s.
Proof.
  induction s as [|u s IH]; intros H; [reflexivity|]. cbn [app c_string]. destruct (Z.eqb_spec u 0) as [->|N]; [exfalso; apply H; left; reflexivity|].
  rewrite IH; [reflexivity|]. intros Q. apply H. right. exact Q.
Qed.
Lemma cstr_len_app s rest : ~ In 0 s -> cstr_len (s ++ 0 :: rest) = Some (length s).
Proof.
  induction s as [|u s IH]; intros H; [reflexivity|]. cbn [app cstr_len]. destruct (Z.eqb_spec u 0) as [->|N]; [exfalso; apply H; left; reflexivity|].
  rewrite IH; [reflexivity|]. intros Q. apply H. right. exact Q.
Qed.
Lemma unit_not_nul w c : In w widths -> scalar c -> c <> 0 -> ~ In 0 (utf_units w c).
Proof.
  intros Hw (Hc & _) N. unfold utf_units, utf8, utf16. cbn [widths In] in Hw. destruct Hw as [<-|[<-|[<-|[]]]]; cbn [Z.eqb Pos.eqb].
  - destruct (c <? 128) eqn:E1; [|destruct (c <? 2048) eqn:E2; [|destruct (c <? 65536) eqn:E3]]; zbool; cbn [In]; lia.
  - destruct (c <? 65536) eqn:E1; zbool; cbn [In]; lia.
  - cbn [In]. lia.
Qed.
Lemma text_no_nul w cs : In w widths -> name_text cs -> ~ In 0 (utf_text w cs).
Proof.
  intros Hw (Hs & Hn) H. unfold utf_text in H. apply in_flat_map in H. destruct H as (c & Hc & H).
  rewrite Forall_forall in Hs. apply (unit_not_nul w c Hw (Hs c Hc)); [intros ->; exact (Hn Hc)|exact H].
Qed.
Lemma text_app w a b : utf_text w (a ++ b) = utf_text w a ++ utf_text w b.
Proof. apply flat_map_app. Qed.
Lemma text_nul w ds : utf_text w (0 :: ds) = 0 :: utf_text w ds.
Proof. unfold utf_text. cbn [flat_map]. unfold utf_units. destruct (w =? 8), (w =? 16); reflexivity. Qed.
Lemma reserve_room scw dcw n : 0 <= n -> full_reserve scw dcw n <= decorated_reserve scw dcw n.
Proof. intros H. unfold full_reserve, decorated_reserve. destruct (scw =? 32), (scw =? 16), (dcw =? 32), (dcw =? 16); lia. Qed.

(** The converter never writes outside its buffer, and text comes out as text, terminated. *)
Lemma full_size sse scw dcw s old : In scw widths -> In dcw widths -> zlen (code_cvt_full sse scw true dcw true s old) <= full_reserve scw dcw (zlen s).
Proof.
  intros Hs Hd. rewrite full_reserve_fac by exact Hd. unfold code_cvt_full.
  destruct (code_cvt sse scw true dcw true s) as [o r] eqn:E. apply code_cvt_len in E as [L1 L2]; [|exact Hs|exact Hd]. unfold zlen.
  destruct r as [|x r]; [cbn [length] in *; lia|]. pose proof (invalid_len dcw true Hd) as HI. cbn [length] in *. rewrite Nat.mul_succ_r in L2.
  destruct (Z.eqb_spec dcw 32) as [->|N].
  - rewrite app_length. cbn [length]. change (fac 32) with 1%nat in *. lia.
  - cbv zeta. rewrite firstn_length. lia.
Qed.
Lemma converter_room sse scw dcw s old : In scw widths -> In dcw widths -> zlen old = capacity scw dcw s + 1 ->
  exists m n, converter sse scw dcw s old = Some (m, n) /\ (n < length old)%nat /\ length m = length old /\ nth n m 1 = 0.
Proof.
  intros Hs Hd H. unfold converter. cbv zeta. pose proof (full_size sse scw dcw s old Hs Hd) as L. pose proof (reserve_room scw dcw (zlen s)) as R.
  unfold capacity in H. unfold zlen in *. rewrite (proj2 (Nat.ltb_lt _ _)) by lia. eexists _, _. split; [reflexivity|].
  split; [lia|]. split; [|rewrite app_nth2 by lia; rewrite Nat.sub_diag; reflexivity].
  rewrite app_length. cbn [length]. rewrite skipn_length. lia.
Qed.
Lemma converter_text sse scw dcw cs old : In scw widths -> In dcw widths -> Forall scalar cs -> zlen old = capacity scw dcw (utf_text scw cs) + 1 ->
  exists rest, converter sse scw dcw (utf_text scw cs) old = Some (utf_text dcw cs ++ 0 :: rest, length (utf_text dcw cs)).
Proof.
  intros Hs Hd Hc H. destruct (converter_room sse scw dcw _ old Hs Hd H) as (m & n & E & L). unfold converter in *. cbv zeta in *.
  assert (T : code_cvt_full sse scw true dcw true (utf_text scw cs) old = utf_text dcw cs).
  { unfold code_cvt_full. rewrite code_cvt_text by assumption. reflexivity. }
  rewrite T in *. destruct (_ <? _)%nat; [|discriminate]. eexists. reflexivity.
Qed.
Lemma firstn_length_app {A} (a b : list A) : firstn (length a) (a ++ b) = a.
Proof. rewrite firstn_app, firstn_all, Nat.sub_diag. cbn [firstn]. apply app_nil_r. Qed.
Lemma array_size (s : list Z) x : cal_array_size (s ++ [x]) = length s.
Proof. unfold cal_array_size. rewrite app_length. cbn [length]. lia. Qed.

(** Everything a name can be converted to: the memory begins with the text and a NUL; the size is the text's when it is exact. *)
Lemma api_common_text sse native has t cs old : In native [8; 16] -> name_text cs -> holds native t cs -> allocated native t old ->
  exists rest n, api_common sse native has t old = Some (utf_text native cs ++ 0 :: rest, n) /\
    (has = true -> spells t cs -> n = length (utf_text native cs)).
Proof.
  intros Hnat Hcs Ht Ha. assert (Hn : In native widths) by (cbn [In widths] in *; tauto).
  assert (Conv : forall w es old, In w widths -> Forall scalar es -> (es = cs \/ exists ds, es = cs ++ 0 :: ds) ->
    zlen old = capacity w native (utf_text w es) + 1 ->
    exists rest n, converter sse w native (utf_text w es) old = Some (utf_text native cs ++ 0 :: rest, n) /\ (es = cs -> n = length (utf_text native cs))).
  { intros w es o Hw He Hes Ho. destruct (converter_text sse w native es o Hw Hn He Ho) as (rest & ->). destruct Hes as [->|(ds & ->)].
    - exists rest, (length (utf_text native cs)). auto.
    - rewrite text_app, text_nul, <- app_assoc. eexists _, _. split; [reflexivity|]. intros Q.
      exfalso. pose proof (f_equal (@length Z) Q) as L. rewrite app_length in L. cbn [length] in L. lia. }
  assert (Lit : forall w es, In w widths -> Forall scalar es -> (es = cs \/ exists ds, es = cs ++ 0 :: ds) -> t = NArray w (utf_text w es ++ [0]) ->
    exists rest n, api_common sse native has t old = Some (utf_text native cs ++ 0 :: rest, n) /\ (has = true -> es = cs -> n = length (utf_text native cs))).
  { intros w es Hw He Hes ->. unfold allocated, source in Ha. unfold api_common. rewrite array_size in *. rewrite firstn_length_app in *. destruct (Z.eqb_spec w native) as [->|N].
    - destruct Hes as [->|(ds & ->)].
      + eexists _, _. split; [reflexivity|]. intros -> _. reflexivity.
      + rewrite text_app, text_nul, <- app_assoc. eexists _, _. split; [reflexivity|]. intros _ Q.
        exfalso. pose proof (f_equal (@length Z) Q) as L. rewrite app_length in L. cbn [length] in L. lia.
    - destruct (Conv w es old Hw He Hes Ha) as (rest & n & C1 & C2). exists rest, n. auto. }
  pose proof (proj1 Hcs) as Sc. destruct Ht as [t' cs' Sp|cs' rest'|w cs' ds Hw Hds].
  - destruct Sp as [w c Hw|w c rest Hw|w c rest Hw|w c Hw].
    + destruct (Lit w c Hw Sc (or_introl eq_refl) eq_refl) as (r & n & L1 & L2). exists r, n. split; [exact L1|]. intros H _. exact (L2 H eq_refl).
    + unfold allocated, source in Ha. unfold api_common. rewrite firstn_length_app in *. destruct (Z.eqb_spec w native) as [->|N].
      * destruct has; eexists _, _; split; try reflexivity. discriminate.
      * destruct (Conv w c old Hw Sc (or_introl eq_refl) Ha) as (r & n & C1 & C2). exists r, n. auto.
    + unfold allocated, source in Ha. unfold api_common. rewrite cstr_len_app in * by (exact (text_no_nul w c Hw Hcs)).
      rewrite firstn_length_app in *. destruct (Z.eqb_spec w native) as [->|N].
      * destruct has; eexists _, _; split; try reflexivity. discriminate.
      * destruct (Conv w c old Hw Sc (or_introl eq_refl) Ha) as (r & n & C1 & C2). exists r, n. auto.
    + unfold allocated, source in Ha. unfold api_common. destruct (Z.eqb_spec w native) as [->|N].
      * eexists _, _. split; [reflexivity|]. reflexivity.
      * destruct (Conv w c old Hw Sc (or_introl eq_refl) Ha) as (r & n & C1 & C2). exists r, n. auto.
  - unfold api_common. rewrite Z.eqb_refl. eexists _, _. split; [reflexivity|]. intros H Sp. rewrite H. remember (NArray native (utf_text native cs' ++ 0 :: rest')) as T eqn:ET.
    destruct Sp as [w c Hw|w c r Hw|w c r Hw|w c Hw]; try discriminate. injection ET as -> E1. apply app_inv_head in E1. injection E1 as <-.
    rewrite array_size. reflexivity.
  - assert (He : Forall scalar (cs' ++ 0 :: ds)).
    { apply Forall_app. split; [exact Sc|]. constructor; [unfold scalar; lia|exact Hds]. }
    destruct (Lit w (cs' ++ 0 :: ds) Hw He (or_intror (ex_intro _ ds eq_refl)) eq_refl) as (r & n & L1 & L2). exists r, n. split; [exact L1|].
    intros H Sp. exfalso. remember (NArray w (utf_text w (cs' ++ 0 :: ds) ++ [0])) as T eqn:ET.
    destruct Sp as [w' c Hw'|w' c q Hw'|w' c q Hw'|w' c Hw']; try discriminate. injection ET as -> E1. apply app_inj_tail in E1. destruct E1 as (E1 & _).
    rewrite text_app, text_nul in E1. pose proof (f_equal (@length Z) E1) as L. rewrite app_length in L. cbn [length] in L. lia.
Qed.

(** ** C130: paths of POSIX systems *)
(** The system reads the UTF-8 encoding of the name, whatever kind of object and whatever encoding the name came in. *)
Theorem C130_path : forall sse has t cs old, name_text cs -> holds 8 t cs -> allocated 8 t old -> posix_path sse has t old = Some (utf_text 8 cs).
Proof.
  intros sse has t cs old Hcs Ht Ha. destruct (api_common_text sse 8 has t cs old ltac:(cbn; auto) Hcs Ht Ha) as (rest & n & E & _).
  unfold posix_path. rewrite E. apply c_string_app. apply text_no_nul; [cbn; auto|exact Hcs].
Qed.
Print Assumptions C130_path.
Lemma text_inj w a b : In w widths -> Forall scalar a -> Forall scalar b -> utf_text w a = utf_text w b -> a = b.
Proof.
  intros Hw Ha Hb E. pose proof (code_cvt_text false w 32 a Hw ltac:(cbn; auto) Ha) as A. pose proof (code_cvt_text false w 32 b Hw ltac:(cbn; auto) Hb) as B.
  rewrite !text32 in *. rewrite E in A. congruence.
Qed.
(** Different names are different paths. *)
Theorem C130_different : forall sse has t u cs ds old1 old2, name_text cs -> name_text ds -> holds 8 t cs -> holds 8 u ds -> allocated 8 t old1 -> allocated 8 u old2 ->
  posix_path sse has t old1 = posix_path sse has u old2 -> cs = ds.
Proof.
  intros sse has t u cs ds old1 old2 Hc Hd Ht Hu A1 A2 E. rewrite (C130_path sse has t cs old1), (C130_path sse has u ds old2) in E by assumption.
  injection E as E. apply (text_inj 8); [cbn; auto|apply Hc|apply Hd|exact E].
Qed.
Print Assumptions C130_different.
(** A name that contains a NUL is cut there and names another file. *)
Theorem C130_embedded_nul_refuted : forall sse has old, posix_path sse has (NView 8 [97; 0; 98]) old = posix_path sse has (NView 8 [97]) old /\
  posix_path sse has (NCstr 8 [97; 0; 98; 0] (Some 3%nat)) old = Some [97].
Proof. intros sse has old. destruct has; split; reflexivity. Qed.
Print Assumptions C130_embedded_nul_refuted.
(** In an array of another width what lies behind the NUL is converted too and may damage the name in front of it: char16_t
    holding "ab", a NUL and an unpaired high surrogate. *)
Theorem C130_behind_nul_refuted : exists old, allocated 8 (NArray 16 [97; 98; 0; 55296; 0]) old /\
  posix_path true false (NArray 16 [97; 98; 0; 55296; 0]) old = Some [239; 191; 189] /\
  posix_path true false (NArray 8 [97; 98; 0; 200; 0]) old = Some [97; 98].
Proof. exists (repeat 0 41). vm_compute. auto. Qed.
Print Assumptions C130_behind_nul_refuted.

(** ** C131: no write outside the buffer of a conversion *)
(** For every name, well-formed or not, of any length: the converted name and its NUL stay inside the allocated buffer. *)
Theorem C131_buffer : forall sse native has t old w s, In native [8; 16] -> In w widths -> source native t = Some (w, s) -> allocated native t old ->
  exists m n, api_common sse native has t old = Some (m, n) /\ (n < length old)%nat /\ length m = length old /\ nth n m 1 = 0.
Proof.
  intros sse native has t old w s Hn Hw Hs Ha. assert (Hn' : In native widths) by (cbn [In widths] in *; tauto). unfold allocated in Ha. rewrite Hs in Ha.
  assert (E : api_common sse native has t old = converter sse w native s old).
  { destruct t as [w' u|w' m size|w' u]; unfold source in Hs; unfold api_common; destruct (w' =? native); try discriminate.
    - injection Hs as -> <-. reflexivity.
    - destruct (match size with Some n => Some n | None => cstr_len m end); [|discriminate]. injection Hs as -> <-. reflexivity.
    - injection Hs as -> <-. reflexivity. }
  rewrite E. apply converter_room; assumption.
Qed.
Print Assumptions C131_buffer.
Example C131_case : source 8 (NView 16 [97; 55296; 56320; 55296]) = Some (16, [97; 55296; 56320; 55296]) /\
  allocated 8 (NView 16 [97; 55296; 56320; 55296]) (repeat 7 41).
Proof. split; reflexivity. Qed.

(** ** C132: names on Windows *)
(** Opening a name asks for the translation of its UTF-16 encoding. *)
Theorem C132_open : forall sse t cs old, name_text cs -> holds 16 t cs -> allocated 16 t old -> nt_open sse t old = Translate (utf_text 16 cs).
Proof.
  intros sse t cs old Hcs Ht Ha. destruct (api_common_text sse 16 false t cs old ltac:(cbn; auto) Hcs Ht Ha) as (rest & n & E & _).
  unfold nt_open. rewrite E. unfold translated. rewrite c_string_app; [reflexivity|]. apply text_no_nul; [cbn; auto|exact Hcs].
Qed.
Print Assumptions C132_open.
Lemma counted_text d s rest : counted d (s ++ 0 :: rest) (length s) = if 32767 <? zlen s then Threw name_too_long else Below d s.
Proof.
  unfold counted, nt_filename_bytes, zlen. destruct (Z.ltb_spec 32767 (Z.of_nat (length s))); [reflexivity|].
  rewrite Z.shiftl_mul_pow2 by lia. change (2 ^ 1) with 2. unfold wrap. rewrite Z.mod_small by lia. rewrite Z.div_mul by lia. rewrite Nat2Z.id.
  now rewrite firstn_length_app.
Qed.
(** Opening a name below a directory asks for exactly the name, or throws when it is longer than a counted string can be, and
    never for a part of it. *)
Theorem C132_open_at : forall sse kernel d t cs old, name_text cs -> spells t cs -> allocated 16 t old ->
  nt_open_at sse kernel d t old =
    if d =? 0 then Threw invalid_handle
    else if (d =? at_fdcwd) && negb kernel then Translate (utf_text 16 cs)
    else if 32767 <? zlen (utf_text 16 cs) then Threw name_too_long
    else Below (if d =? at_fdcwd then 0 else d) (utf_text 16 cs).
Proof.
  intros sse kernel d t cs old Hcs Ht Ha. destruct (api_common_text sse 16 true t cs old ltac:(cbn; auto) Hcs (ho_exact 16 t cs Ht) Ha) as (rest & n & E & L).
  unfold nt_open_at. rewrite E. rewrite (L eq_refl Ht). unfold nt_call_kernel_callback, nt_call_callback.
  destruct (d =? 0) eqn:D0; [destruct kernel; reflexivity|]. destruct kernel; cbn [negb].
  - rewrite andb_false_r. apply counted_text.
  - rewrite andb_true_r. destruct (d =? at_fdcwd) eqn:D1; [|apply counted_text].
    unfold translated. rewrite c_string_app; [reflexivity|]. apply text_no_nul; [cbn; auto|exact Hcs].
Qed.
Print Assumptions C132_open_at.
Theorem C132_open_kernel : forall sse t cs old, name_text cs -> spells t cs -> allocated 16 t old ->
  nt_open_kernel sse t old = if 32767 <? zlen (utf_text 16 cs) then Threw name_too_long else Below 0 (utf_text 16 cs).
Proof.
  intros sse t cs old Hcs Ht Ha. destruct (api_common_text sse 16 true t cs old ltac:(cbn; auto) Hcs (ho_exact 16 t cs Ht) Ha) as (rest & n & E & L).
  unfold nt_open_kernel. rewrite E. rewrite (L eq_refl Ht). apply counted_text.
Qed.
Print Assumptions C132_open_kernel.
(** An array larger than its text works with one and fails with the other: below a directory the NULs behind it are part of the
    name. *)
Theorem C132_array_refuted : holds 16 (NArray 16 [97; 0; 0; 0]) [97] /\ (forall sse old, nt_open sse (NArray 16 [97; 0; 0; 0]) old = Translate [97] /\
  nt_open_at sse false 4 (NArray 16 [97; 0; 0; 0]) old = Below 4 [97; 0; 0]).
Proof. split; [exact (ho_native 16 [97] [0; 0])|]. intros sse old. split; reflexivity. Qed.
Print Assumptions C132_array_refuted.
Example C132_case : name_text [104; 233; 128512] /\ spells (NArray 8 [104; 195; 169; 240; 159; 152; 128; 0]) [104; 233; 128512] /\
  allocated 16 (NArray 8 [104; 195; 169; 240; 159; 152; 128; 0]) (repeat 9 29) /\
  nt_open_at true false 8 (NArray 8 [104; 195; 169; 240; 159; 152; 128; 0]) (repeat 9 29) = Below 8 [104; 233; 55357; 56832].
Proof.
  split; [split; [repeat constructor; unfold scalar; lia|cbn [In]; lia]|]. split; [exact (sp_literal 8 [104; 233; 128512] ltac:(cbn; auto))|].
  split; [reflexivity|]. vm_compute. reflexivity.
Qed.
Example C130_case : name_text [104; 233] /\ holds 8 (NArray 16 [104; 233; 0; 0; 0]) [104; 233] /\ allocated 8 (NArray 16 [104; 233; 0; 0; 0]) (repeat 5 41) /\
  posix_path true false (NArray 16 [104; 233; 0; 0; 0]) (repeat 5 41) = Some [104; 195; 169].
Proof.
  split; [split; [repeat constructor; unfold scalar; lia|cbn [In]; lia]|]. split.
  { apply (ho_text 8 16 [104; 233] [0]); [cbn; auto|]. repeat constructor; unfold scalar; lia. }
  split; [reflexivity|vm_compute; reflexivity].
Qed.

(** ** C133: names in a directory listing on Windows *)
Lemma units_three c : is_u16 c -> (length (get_utf_code_units 8 true c) <= 3)%nat.
Proof.
  unfold is_u16. intros H. unfold get_utf_code_units. cbn [Z.eqb Pos.eqb]. destruct (c <=? 127); [cbn; lia|]. destruct (c <=? 2047); [cbn; lia|].
  rewrite (proj2 (Z.leb_le c 65535)) by lia. cbn; lia.
Qed.
Lemma cvt16_three : forall s o r, Forall is_u16 s -> cvt16 true 8 true s = (o, r) -> (length r <= length s /\ length o + 3 * length r <= 3 * length s)%nat.
Proof.
  intros s. remember (length s) as n eqn:En. revert s En. induction n as [n IH] using lt_wf_ind. intros s -> o r Hs H.
  destruct s as [|c s1]; [injection H as <- <-; cbn; lia|]. cbn [cvt16] in H. cbn [length]. pose proof (Forall_inv Hs) as Hc. pose proof (Forall_inv_tail Hs) as Hs1.
  assert (HI : length (invalid_units 8 true) = 3%nat) by reflexivity. cbn [sw Z.eqb Pos.eqb] in H.
  destruct (is_surrogate c); [destruct (is_high c)|].
  - destruct s1 as [|c1 s2]; [injection H as <- <-; cbn [length]; lia|]. destruct (cvt16 true 8 true s2) as [o2 r2] eqn:E.
    apply (IH (length s2)) in E; [|cbn [length]; lia|reflexivity|exact (Forall_inv_tail Hs1)]. cbn [length]. destruct (is_low c1).
    + injection H as <- <-. rewrite app_length. pose proof (units_len 8 true (surrogate_to_utf32 c c1) ltac:(cbn; auto)) as U.
      assert (F : (length (get_utf_code_units 8 true (surrogate_to_utf32 c c1)) <= 6)%nat).
      { clear. unfold get_utf_code_units. cbn [Z.eqb Pos.eqb]. destruct (_ <=? 127); [cbn; lia|]. destruct (_ <=? 2047); [cbn; lia|].
        destruct (_ <=? 65535); [cbn; lia|]. destruct (_ <=? 1114111); cbn; lia. }
      lia.
    + injection H as <- <-. cbn [length]. lia.
  - destruct (cvt16 true 8 true s1) as [o2 r2] eqn:E. apply (IH (length s1)) in E; [|cbn [length]; lia|reflexivity|exact Hs1]. injection H as <- <-. cbn [length]. lia.
  - destruct (cvt16 true 8 true s1) as [o2 r2] eqn:E. apply (IH (length s1)) in E; [|cbn [length]; lia|reflexivity|exact Hs1]. injection H as <- <-. rewrite app_length.
    pose proof (units_three c Hc). lia.
Qed.
Lemma full_three sse s old : Forall is_u16 s -> (length (code_cvt_full sse 16 true 8 true s old) <= 3 * length s)%nat.
Proof.
  intros Hs. unfold code_cvt_full, code_cvt. cbn [Z.eqb Pos.eqb andb]. destruct (cvt16 true 8 true s) as [o r] eqn:E. apply cvt16_three in E; [|exact Hs].
  destruct r as [|x r]; [cbn [length] in *; lia|]. cbv zeta. rewrite firstn_length. change (length (invalid_units 8 true)) with 3%nat. cbn [length] in *. lia.
Qed.
Definition entry_buffers (p : dirent_names) : Prop := zlen (dn_native p) = native_name_units /\ zlen (dn_u8 p) = u8_name_units.
(** Every name the system can report fits into the buffers of the entry, which keep their sizes. *)
Theorem C133_room : forall sse prev name, entry_buffers prev -> Forall is_u16 name -> zlen name <= 8192 ->
  exists now, set_names sse prev (2 * zlen name) name = Some now /\ entry_buffers now /\ firstn (dn_native_len now) (dn_native now) = name.
Proof.
  intros sse prev name (B1 & B2) Hu Hl. unfold native_name_units, u8_name_units, zlen in *. unfold set_names. cbv zeta. fold (zlen name). rewrite Z.mul_comm, Z.div_mul by lia.
  unfold zlen. rewrite Nat2Z.id, (proj2 (Nat.ltb_lt _ _)) by lia. rewrite firstn_all. rewrite firstn_length_app.
  unfold converter. cbv zeta. pose proof (full_three sse name (dn_u8 prev) Hu) as F. rewrite (proj2 (Nat.ltb_lt _ _)) by lia.
  eexists. split; [reflexivity|]. cbn [dn_native dn_native_len dn_u8 dn_u8_len entry_buffers]. split; [|apply firstn_length_app].
  unfold entry_buffers, zlen, native_name_units, u8_name_units. cbn [dn_native dn_u8]. rewrite !app_length. cbn [length]. rewrite !skipn_length. lia.
Qed.
Print Assumptions C133_room.
(** A name that is text is listed as its UTF-8 encoding, terminated by a NUL. *)
Theorem C133_name : forall sse prev cs, entry_buffers prev -> Forall scalar cs -> zlen (utf_text 16 cs) <= 8192 ->
  exists now, set_names sse prev (2 * zlen (utf_text 16 cs)) (utf_text 16 cs) = Some now /\
    firstn (dn_u8_len now) (dn_u8 now) = utf_text 8 cs /\ nth (dn_u8_len now) (dn_u8 now) 1 = 0 /\
    firstn (dn_native_len now) (dn_native now) = utf_text 16 cs /\ nth (dn_native_len now) (dn_native now) 1 = 0.
Proof.
  intros sse prev cs (B1 & B2) Hc Hl. assert (Hu : Forall is_u16 (utf_text 16 cs)) by (apply text_u16; exact Hc).
  unfold native_name_units, u8_name_units, zlen in *. unfold set_names. cbv zeta. fold (zlen (utf_text 16 cs)). rewrite Z.mul_comm, Z.div_mul by lia.
  unfold zlen. rewrite Nat2Z.id, (proj2 (Nat.ltb_lt _ _)) by lia. rewrite firstn_all. rewrite firstn_length_app.
  unfold converter. cbv zeta. pose proof (full_three sse _ (dn_u8 prev) Hu) as F. rewrite (proj2 (Nat.ltb_lt _ _)) by lia.
  assert (T : code_cvt_full sse 16 true 8 true (utf_text 16 cs) (dn_u8 prev) = utf_text 8 cs).
  { unfold code_cvt_full. rewrite code_cvt_text by (cbn; auto). reflexivity. }
  rewrite T. eexists. split; [reflexivity|]. cbn [dn_native dn_native_len dn_u8 dn_u8_len].
  split; [apply firstn_length_app|]. split; [rewrite app_nth2, Nat.sub_diag by lia; reflexivity|]. split; [apply firstn_length_app|].
  rewrite app_nth2, Nat.sub_diag by lia. reflexivity.
Qed.
Print Assumptions C133_name.
(** A name that ends in an unpaired high surrogate is listed with bytes of the name before it: "foo" and U+D800 after "secret". *)
Theorem C133_stale_refuted : forall a b, zlen a = 8193 -> zlen b = 32766 ->
  exists now, set_names true (mk_names a 6 ([115; 101; 99; 114; 101; 116] ++ b) 6) 8 [102; 111; 111; 55296] = Some now /\
    firstn (dn_u8_len now) (dn_u8 now) = [239; 191; 189; 114; 101; 116].
Proof.
  intros a b Ha Hb. unfold zlen in *. unfold set_names. cbn [dn_native dn_u8]. change (Z.to_nat (8 / 2)) with 4%nat. rewrite (proj2 (Nat.ltb_lt 4 (length a))) by lia.
  cbv zeta. cbn [firstn app]. unfold converter.
  change (code_cvt_full true 16 true 8 true [102; 111; 111; 55296] (115 :: 101 :: 99 :: 114 :: 101 :: 116 :: b)) with [239; 191; 189; 114; 101; 116]. cbv zeta.
  cbn [length]. rewrite (proj2 (Nat.ltb_lt 6 _)) by lia. eexists. split; reflexivity.
Qed.
Print Assumptions C133_stale_refuted.
(** Two names that are not text may be listed the same. *)
Theorem C133_same_refuted : forall old, code_cvt_full true 16 true 8 true [97; 55296; 98; 99] old = code_cvt_full true 16 true 8 true [97; 55297; 100; 99] old.
Proof. reflexivity. Qed.
Print Assumptions C133_same_refuted.
Example C133_case : entry_buffers (mk_names (repeat 0 (Z.to_nat 8193)) 0 (repeat 0 (Z.to_nat 32772)) 0) /\ Forall scalar [233; 128512] /\
  utf_text 16 [233; 128512] = [233; 55357; 56832] /\ utf_text 8 [233; 128512] = [195; 169; 240; 159; 152; 128].
Proof.
  split; [split; unfold zlen; cbn [dn_native dn_u8]; rewrite repeat_length, Z2Nat.id by lia; reflexivity|].
  split; [repeat constructor; unfold scalar; lia|]. vm_compute. auto.
Qed.
