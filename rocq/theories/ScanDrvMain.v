(** The scan driver: one argument against the specification (ScanDrvSpec). *)
From Verif Require Import Base NumSpec ScanSpec ByteSpec IntPrintModel IntScanModel IntScanProofs IntSseProofs IntCtxProofs CharSpec FindModel FindSpec PropsFind LineModel LineSpec LineProofs StrProofs PropsLine
  Leb128Model Leb128Spec PropsLeb128 LebeModel PropsLebe IpSpec IpModel IpCtxModel IpScanProofs ScanDrvModel ScanDrvSpec ScanDrvProofs ScanDrvInt ScanDrvPieces ScanDrvIp.
Open Scope Z_scope.

Lemma gives_map {S} (f : S -> list Z) r (P : S -> Prop) v rest : gives r P rest -> (forall st, P st -> f st = v) ->
  gives (map_scanned f r) (fun x => x = v) rest.
Proof. intros (st & b & s & -> & HP & HS) H. exists (f st), b, s. split; [reflexivity|]. split; [apply H; exact HP|exact HS]. Qed.
Lemma le_bytes_length n : forall x, length (le_bytes n x) = n.
Proof. induction n as [|n IH]; intros x; cbn; [reflexivity|]. rewrite IH. reflexivity. Qed.
Lemma bytes_of_length en n x : length (bytes_of en n x) = n.
Proof. destruct en; cbn [bytes_of]; unfold be_bytes; rewrite ?rev_length; apply le_bytes_length. Qed.

Lemma bytes_get host en sz ty x : In sz [8; 16; 32; 64; 128] -> In (iw ty) [8; 16; 32; 64; 128] -> in_range ty x -> 0 <= x < 2 ^ sz ->
  lebe_get host en 8 sz ty (bytes_of en (Z.to_nat (sz / 8)) x) = Some x.
Proof.
  intros Hsz Hw Hx Hb.
  assert (P : exists u, lebe_put sz ty x = Some u).
  { rewrite lebe_put_spec by assumption. destruct (sz <? iw ty); [|eauto]. exists x. rewrite (proj2 (Z.leb_le 0 x)), (proj2 (Z.ltb_lt x (2 ^ sz))) by lia. reflexivity. }
  destruct P as (u & P).
  destruct (C14_put_bytes_partial host en sz ty x u [] Hsz Hw Hx P) as (A & _). specialize (A ltac:(lia)).
  pose proof (C14_round_trip host host en 8 sz ty x u [] [] Hsz Hw ltac:(cbn; auto) ltac:(auto) Hx P) as B.
  rewrite A, app_nil_r in B. exact B.
Qed.

Lemma one_gives a v t tail buf src : piece_text a v t tail -> stream_text buf src (t ++ tail) ->
  (forall n, bad_place a v t n -> ~ cut_after buf src n) -> gives (scan_one a buf src) (fun x => x = v) tail.
Proof.
  intros HP [HT Hs] Hcut. symmetry in HT. destruct a as [cfg|c old|c old|c|lit|ty cw old|host en cw sz ty|port cw sse]; cbn [scan_one piece_text bad_place] in *.
  - destruct HP as (ws & sg & cs & ds & Et & Hb & Hcw & Hw & Hsh & Hsse & Hws & Hnows & Hsg & Hcs & Hne & Hlead & Ev & HV & Hby & Hsf & Hn).
    change (if sg then [45] else []) with (sign_chars sg) in Et.
    change (if sg then - value_of (sc_base cfg) ds else value_of (sc_base cfg) ds) with (signed_value sg (value_of (sc_base cfg) ds)) in Ev.
    subst v. apply Forall_inv in HV. apply in_rangeb_spec in HV.
    eapply gives_map; [apply (int_piece cfg ws sg cs ds tail)|]; auto.
    + repeat split; auto; lia.
    + rewrite HT, Et, <- !app_assoc. reflexivity.
    + intros Ez E0. rewrite <- Et. apply Hcut. repeat split; auto. rewrite E0. destruct sg; reflexivity.
  - destruct HP as (Hc & Tx & Px & FW). rewrite <- HT in *. rewrite word_is_buffered by assumption.
    destruct (C55_word_partial c old buf src (buf ++ concat src) Hc (conj eq_refl Hs) Tx Px) as (W & _).
    destruct (W v tail FW) as (st & b & s & E & P & S). apply (gives_map ss_str _ (fun st => ss_str st = v)); [exists st, b, s; auto|auto].
  - destruct HP as (Hc & Tx & FL). rewrite <- HT in *. rewrite line_is_buffered by assumption.
    destruct (C55_line c old buf src (buf ++ concat src) Hc (conj eq_refl Hs) Tx) as (W & _).
    destruct (W v tail FL) as (st & b & s & E & P & S). apply (gives_map ss_str _ (fun st => ss_str st = v)); [exists st, b, s; auto|auto].
  - destruct HP as (Hc & Tx & Px & ws & x & -> & Hws & Hx & ->). rewrite <- app_assoc in HT. rewrite <- app_assoc in Tx, Px. cbn [app] in *. rewrite <- HT in Tx, Px.
    apply (char_piece c x ws tail); auto.
  - destruct HP as (-> & ->). eapply gives_map; [apply (match_piece lit tail); auto|]. reflexivity.
  - destruct HP as (Hty & Hu & Hwf & Hl & -> & HV). apply Forall_inv in HV.
    destruct (leb_piece ty cw old t tail Hty Hu Hwf Hl HV src buf Hs HT) as ([gc x] & b & s & E & P & S). rewrite E. cbn [snd] in P.
    exists [leb_value ty x], b, s. split; [reflexivity|]. split; [rewrite P; reflexivity|exact S].
  - destruct HP as (-> & Hsz & Hw & x & -> & Hx & Hb & Et).
    destruct (take_ok tail src (Z.to_nat (sz / 8)) buf t Hs) as (b & s & E & S); [rewrite Et; symmetry; apply bytes_of_length|exact HT|].
    unfold precise_scan. rewrite E, Et, bytes_get by assumption. exists [x], b, s. auto.
  - destruct HP as (Hcw & Hr & Hn & a & b & c & d & p & Ha & Hb & Hc & Hd & Hp & Ht & ->).
    eapply gives_map; [apply (ip_piece port cw sse a b c d p t tail); auto|]. auto.
Qed.

Lemma one_nothing a t buf src : nothing_left a t -> stream_text buf src t -> exists v, scan_one a buf src = Scanned false v [] [].
Proof.
  intros HN [HT Hs].
  assert (Z0 : t = [] -> buf = [] /\ src = []).
  { intros ->. symmetry in HT. apply app_eq_nil in HT as [-> HT]. split; [reflexivity|]. destruct src as [|c src]; [reflexivity|].
    apply Forall_inv in Hs. cbn in HT. apply app_eq_nil in HT as [HT _]. contradiction. }
  destruct a as [cfg|c old|c old|c|lit|ty cw old|host en cw sz ty|port cw sse]; cbn [scan_one nothing_left] in *.
  - destruct HN as (Hb & Hcw & Hw & En & Hsp). subst t. destruct (int_nothing cfg buf src) as (st & ->); auto; [repeat split; auto; lia|]. eexists. reflexivity.
  - destruct HN as (Hc & Tx & Px & Hsp). subst t. rewrite word_is_buffered by assumption.
    destruct (C55_word_partial c old buf src (buf ++ concat src) Hc (conj eq_refl Hs) Tx Px) as (_ & W & _). destruct (W Hsp) as (st & -> & _). eexists; reflexivity.
  - destruct HN as (Hc & ->). destruct (Z0 eq_refl) as [-> ->]. rewrite line_is_buffered by (auto; constructor).
    destruct (C55_line c old [] [] [] Hc (conj eq_refl (Forall_nil _)) (Forall_nil _)) as (_ & W & _). destruct (W eq_refl) as (st & -> & _). eexists; reflexivity.
  - destruct HN as (Hc & Tx & Px & Hsp). subst t. rewrite char_nothing by assumption. eexists; reflexivity.
  - destruct HN as (Hl & ->). destruct (Z0 eq_refl) as [-> ->]. rewrite match_nothing by exact Hl. eexists; reflexivity.
  - subst t. destruct (Z0 eq_refl) as [-> ->]. destruct (leb_nothing ty cw old) as ([gc x] & ->). eexists; reflexivity.
  - subst t. unfold precise_scan. rewrite take_short by assumption. eexists; reflexivity.
  - subst t. destruct (Z0 eq_refl) as [-> ->]. destruct (ip_nothing port cw sse) as (st & ->). eexists; reflexivity.
Qed.

(** The arguments one after the other. *)
Lemma cut_later buf src buf' src' t tail n : stream_text buf src (t ++ tail) -> stream_text buf' src' tail -> (exists s0, src = s0 ++ src' \/ src' = []) ->
  cut_after buf' src' n -> cut_after buf src (length t + n).
Proof.
  intros [HT _] [HT' _] (s0 & E) (s1 & s2 & E1 & E2 & E3). destruct E as [E|E].
  - exists (s0 ++ s1), s2. split; [rewrite E, E1, app_assoc; reflexivity|]. split; [exact E2|].
    assert (L : (length (t ++ tail) = length (buf ++ concat src))%nat) by (f_equal; exact HT).
    assert (L' : (length tail = length (buf' ++ concat src'))%nat) by (f_equal; exact HT').
    rewrite E, E1, !concat_app in L. rewrite E1, concat_app in L'. rewrite concat_app. rewrite !app_length in *. lia.
  - exfalso. rewrite E in E1. symmetry in E1. apply app_eq_nil in E1 as [_ E1]. contradiction.
Qed.
Lemma all_good ps : forall rest buf src, pieces_ok ps rest -> stream_text buf src (texts_of ps ++ rest) -> well_cut ps buf src ->
  exists buf' src', stream_text buf' src' rest /\ (exists s0, src = s0 ++ src' \/ src' = []) /\
  forall more, scan_args (args_of ps ++ more) buf src =
    match scan_args more buf' src' with SDone ret vs b s => SDone ret (objects_of ps ++ vs) b s | r => r end.
Proof.
  induction ps as [|[[a v] t] ps IH]; intros rest buf src Hok HS Hcut.
  - exists buf, src. split; [exact HS|]. split; [exists []; auto|]. intros more. cbn [args_of objects_of map app]. destruct (scan_args more buf src); reflexivity.
  - destruct Hok as [HP Hok]. unfold texts_of in HS. cbn [map concat snd] in HS. fold (texts_of ps) in HS. rewrite <- app_assoc in HS.
    destruct (one_gives a v t (texts_of ps ++ rest) buf src HP HS) as (x & b1 & s1 & E1 & -> & S1).
    { intros n Hb. pose proof (Hcut [] a v t ps n eq_refl Hb) as H. exact H. }
    pose proof (one_suffix _ _ _ _ _ _ _ E1) as Suf.
    destruct (IH rest b1 s1 Hok S1) as (b2 & s2 & S2 & Suf2 & E2).
    { intros ps1 a' v' t' ps2 n Eps Hb Hc. apply (Hcut ((a, v, t) :: ps1) a' v' t' ps2 n); [cbn; rewrite Eps; reflexivity|exact Hb|].
      unfold texts_of. cbn [map concat snd]. fold (texts_of ps1). rewrite app_length, <- Nat.add_assoc.
      exact (cut_later buf src b1 s1 t _ _ HS S1 Suf Hc). }
    exists b2, s2. split; [exact S2|]. split.
    { destruct Suf as (q1 & [A|A]), Suf2 as (q2 & [B|B]).
      - exists (q1 ++ q2). left. rewrite A, B, app_assoc. reflexivity.
      - exists []. right; exact B.
      - exists []. right. rewrite A in B. symmetry in B. apply app_eq_nil in B. apply B.
      - exists []. right; exact B. }
    intros more. unfold scan_args in *. cbn [args_of map fst app scan_all]. fold (args_of ps). rewrite E1, E2.
    destruct (scan_all scan_one more b2 s2); reflexivity.
Qed.

(** ** Contiguous streams *)
Lemma view_is_ctx {S} (define : S -> list Z -> option (S * nat * parse_code)) eof init buf :
  (forall st k, define init buf = Some (st, k, pc_partial) -> (length buf <= k)%nat) ->
  view_ctx_scan define eof init buf = ctx_scan define eof init buf [].
Proof.
  intros H. unfold view_ctx_scan. cbn [ctx_scan]. destruct (define init buf) as [[[st k] code]|]; [|reflexivity].
  destruct (length buf <? k)%nat; [reflexivity|]. destruct code; try reflexivity. rewrite skipn_all2 by (apply (H st); reflexivity). reflexivity.
Qed.
Lemma str_partial c noskipws line st buf st' k : str_define c noskipws line st buf = Some (st', k, pc_partial) -> (length buf <= k)%nat.
Proof.
  unfold str_define, string_define. cbv zeta.
  match goal with |- context [match ?sk with None => Defined st (length buf) pc_partial | _ => _ end] => destruct sk as [[it st1]|] end.
  - match goal with |- context [Nat.eqb ?a (length buf)] => destruct (Nat.eqb a (length buf)) eqn:E end; [|discriminate].
    apply Nat.eqb_eq in E. intros H. injection H as _ <-. lia.
  - intros H. injection H as _ <-. lia.
Qed.
Lemma char_partial c st buf st' k : char_define c st buf = Some (st', k, pc_partial) -> (length buf <= k)%nat.
Proof.
  unfold char_define. destruct (skipn (find_none_c_space c buf) buf) as [|x r] eqn:E; [|discriminate].
  intros H. injection H as _ <-. pose proof (skipn_length (find_none_c_space c buf) buf) as L. rewrite E in L. cbn in L. lia.
Qed.
Lemma match_partial lit n buf n' k : match_define lit n buf = Some (n', k, pc_partial) -> (length buf <= k)%nat.
Proof.
  unfold match_define. destruct (Nat.eqb _ (length buf)) eqn:E.
  - apply Nat.eqb_eq in E. destruct (negb _); [|discriminate]. intros H. injection H as _ <-. lia.
  - destruct (negb _); discriminate.
Qed.
Lemma view_ctx_one a buf : match a with AInt _ | ALeb _ _ _ | ABytes _ _ _ _ _ | AIp _ _ _ => True | _ => scan_one_view a buf = scan_one a buf [] end.
Proof.
  destruct a; cbn [scan_one_view scan_one]; auto.
  - rewrite view_is_ctx; [reflexivity|]. intros. eapply str_partial; eauto.
  - rewrite view_is_ctx; [reflexivity|]. intros. eapply str_partial; eauto.
  - apply view_is_ctx. intros. eapply char_partial; eauto.
  - rewrite view_is_ctx; [reflexivity|]. intros. eapply match_partial; eauto.
Qed.
Lemma no_cut_view buf n : ~ cut_after buf [] n.
Proof. intros (s1 & s2 & E & N & _). symmetry in E. apply app_eq_nil in E as [_ E]. contradiction. Qed.

Lemma one_view_gives a v t tail : piece_text a v t tail -> scan_one_view a (t ++ tail) = Scanned true v tail [].
Proof.
  intros HP.
  assert (G : gives (scan_one a (t ++ tail) []) (fun x => x = v) tail).
  { apply (one_gives a v t); auto; [split; [cbn; rewrite app_nil_r; reflexivity|constructor]|]. intros n _. apply no_cut_view. }
  assert (Q : match a with AInt _ | ALeb _ _ _ | ABytes _ _ _ _ _ | AIp _ _ _ => True | _ => scan_one_view a (t ++ tail) = Scanned true v tail [] end).
  { pose proof (view_ctx_one a (t ++ tail)) as VC. destruct G as (x & b & s & E & -> & [HT Hs]).
    assert (Es : s = []).
    { destruct (one_suffix _ _ _ _ _ _ _ E) as (s0 & [H|H]); [symmetry in H; apply app_eq_nil in H; apply H|exact H]. }
    subst s. cbn [concat] in HT. rewrite app_nil_r in HT. subst b. destruct a; auto; rewrite VC; exact E. }
  clear G. destruct a as [cfg|c old|c old|c|lit|ty cw old|host en cw sz ty|port cw sse]; try exact Q; clear Q; cbn [scan_one_view piece_text] in *.
  - destruct HP as (ws & sg & cs & ds & Et & Hb & Hcw & Hw & Hsh & Hsse & Hws & Hnows & Hsg & Hcs & Hne & Hlead & Ev & HV & Hby & Hsf & Hn).
    change (if sg then [45] else []) with (sign_chars sg) in Et.
    change (if sg then - value_of (sc_base cfg) ds else value_of (sc_base cfg) ds) with (signed_value sg (value_of (sc_base cfg) ds)) in Ev.
    subst v t. apply Forall_inv in HV. apply in_rangeb_spec in HV.
    assert (Hcfg : good_cfg cfg) by (repeat split; auto; lia).
    destruct (scan_int_gen cfg ws sg cs ds tail Hcfg Hsh Hsg) as (r & E & C & V & U); auto.
    { intros Ez _. unfold no_sse. rewrite (Hsse Ez). reflexivity. }
    rewrite <- !app_assoc. unfold view_scan, int_contig. rewrite E. unfold outcome in C, V, U. rewrite HV in C, V, U. cbn [p_code p_val p_used] in C, V, U.
    rewrite C, V, U by (left; reflexivity).
    assert (EK : Z.to_nat (zlen ws + zlen (sign_chars sg) + zlen cs) = length (ws ++ sign_chars sg ++ cs)) by (rewrite !app_length; unfold zlen; lia).
    rewrite EK. rewrite (proj2 (Nat.ltb_ge _ _)) by (rewrite !app_length; lia). cbn [map_scanned snd]. f_equal.
    replace (ws ++ sign_chars sg ++ cs ++ tail) with ((ws ++ sign_chars sg ++ cs) ++ tail) by (rewrite <- !app_assoc; reflexivity).
    rewrite skipn_app, skipn_all, Nat.sub_diag. reflexivity.
  - destruct HP as (Hty & Hu & Hwf & Hl & -> & HV). apply Forall_inv in HV. destruct (C12_decode_exact ty cw t tail Hty Hu Hwf) as [A _]. specialize (A HV Hl).
    unfold view_scan, leb_contig. rewrite A. unfold zlen. rewrite Nat2Z.id. rewrite (proj2 (Nat.ltb_ge _ _)) by (rewrite app_length; lia).
    rewrite skipn_app, skipn_all, Nat.sub_diag. cbn [app skipn]. unfold wrap. rewrite (Leb128Proofs.leb_value_mod ty Hty _ HV). reflexivity.
  - destruct HP as (-> & Hsz & Hw & x & -> & Hx & Hb & Et).
    assert (Lt : length t = Z.to_nat (sz / 8)) by (rewrite Et; apply bytes_of_length).
    unfold view_precise. rewrite <- Lt. rewrite (proj2 (Nat.ltb_ge _ _)) by (rewrite app_length; lia).
    rewrite firstn_app, firstn_all, Nat.sub_diag, skipn_app, skipn_all, Nat.sub_diag. cbn [firstn skipn app]. rewrite app_nil_r, Et, bytes_get by assumption. reflexivity.
  - destruct HP as (Hcw & Hr & Hn & a & b & c & d & p & Ha & Hb & Hc & Hd & Hp & Ht & ->).
    unfold view_scan, ip_contig. rewrite (ip_scan port cw sse a b c d p t tail) by assumption. rewrite app_length.
    replace (length t + length tail - length tail)%nat with (length t) by lia.
    rewrite (proj2 (Nat.ltb_ge _ _)) by lia. rewrite skipn_app, skipn_all, Nat.sub_diag. cbn [app skipn map_scanned ip_vals]. destruct port; reflexivity.
Qed.
Lemma one_view_nothing a t : nothing_left a t -> (match a with ALeb _ _ _ | AIp _ _ _ => False | _ => True end) ->
  exists v b, scan_one_view a t = Scanned false v b [].
Proof.
  intros HN Ha. pose proof (view_ctx_one a t) as VC. assert (HS : stream_text t [] t) by (split; [cbn; rewrite app_nil_r; reflexivity|constructor]).
  destruct (one_nothing a t t [] HN HS) as (v & E).
  destruct a as [cfg|c old|c old|c|lit|ty cw old|host en cw sz ty|port cw sse]; try contradiction; try (rewrite VC, E; eauto; fail).
  - cbn [nothing_left scan_one_view] in *. destruct HN as (Hb & Hcw & Hw & En & Hsp). unfold view_scan, int_contig. rewrite IntRoundProofs.scan_blank by (repeat split; auto; lia).
    cbn [p_used p_code p_val]. rewrite (proj2 (Nat.ltb_ge _ _)) by (unfold zlen; lia). cbn. eauto.
  - cbn [nothing_left scan_one_view] in *. unfold view_precise. rewrite (proj2 (Nat.ltb_lt _ _)) by exact HN. eauto.
Qed.

(** ** One-character buffers *)
Definition small (l : list Z) : Prop := (length l <= 1)%nat.
Lemma skipn_small k l : small l -> small (skipn k l).
Proof. unfold small. rewrite skipn_length. lia. Qed.
Lemma ctx_small {S} (define : S -> list Z -> option (S * nat * parse_code)) eof : forall src st buf b st' buf' src',
  small buf -> Forall small src -> ctx_scan define eof st buf src = Scanned b st' buf' src' -> small buf'.
Proof.
  assert (E : forall st src b st' buf' src', at_eof eof st [] src = Scanned b st' buf' src' -> small buf').
  { intros st src b st' buf' src'. unfold at_eof. destruct (eof st) as [[? []]|]; try discriminate; intros H; injection H as _ _ <- _; unfold small; cbn; lia. }
  induction src as [|c src IH]; intros st buf b st' buf' src' Hb Hs H; cbn [ctx_scan] in H; destruct (define st buf) as [[[s1 k] code]|]; try discriminate;
    destruct (_ <? _)%nat; try discriminate; destruct code; try discriminate.
  - injection H as _ _ <- _. apply skipn_small. exact Hb.
  - eapply E; eauto.
  - injection H as _ _ <- _. apply skipn_small. exact Hb.
  - destruct c as [|x c]; [eapply E; eauto|]. eapply IH; [exact (Forall_inv Hs)|exact (Forall_inv_tail Hs)|exact H].
Qed.
Lemma both_small {S} contig (define : S -> list Z -> option (S * nat * parse_code)) eof src st buf b st' buf' src' :
  small buf -> Forall small src -> both_scan contig define eof st buf src = Scanned b st' buf' src' -> small buf'.
Proof.
  intros Hb Hs. unfold both_scan. destruct (contig buf) as [[[s1 k] code]|]; [|discriminate]. destruct (Nat.eqb _ _); [apply ctx_small; auto|].
  destruct (_ <? _)%nat; [discriminate|]. destruct code; try discriminate. intros H. injection H as _ _ <- _. apply skipn_small. exact Hb.
Qed.
Lemma take_small : forall src n buf t b s, small buf -> Forall small src -> take_chars n buf src = Some (t, b, s) -> small b.
Proof.
  induction src as [|c src IH]; intros n buf t b s Hb Hs H; cbn [take_chars] in H; destruct (_ <=? _)%nat; try discriminate.
  - injection H as _ <- _. apply skipn_small. exact Hb.
  - injection H as _ <- _. apply skipn_small. exact Hb.
  - destruct c as [|x c]; [discriminate|]. destruct (take_chars _ (x :: c) src) as [[[t1 b1] s1]|] eqn:E; [|discriminate].
    injection H as _ <- _. eapply IH; [exact (Forall_inv Hs)|exact (Forall_inv_tail Hs)|exact E].
Qed.
Lemma one_small a buf src b v buf' src' : small buf -> Forall small src -> scan_one a buf src = Scanned b v buf' src' -> small buf'.
Proof.
  intros Hb Hs. destruct a; cbn [scan_one]; intros H.
  - apply map_suffix in H as (st & H). eapply both_small; eauto.
  - apply map_suffix in H as (st & H). eapply ctx_small; eauto.
  - apply map_suffix in H as (st & H). eapply ctx_small; eauto.
  - eapply ctx_small; eauto.
  - apply map_suffix in H as (st & H). eapply ctx_small; eauto.
  - destruct (both_scan _ _ _ _ _ _) as [b1 [gc t] b2 s2| |] eqn:E; try discriminate. injection H as _ _ <- _. eapply both_small; eauto.
  - unfold precise_scan in H. destruct (take_chars _ _ _) as [[[t b1] s1]|] eqn:E.
    + destruct (lebe_get _ _ _ _ _ _); [|discriminate]. injection H as _ _ <- _. eapply take_small; eauto.
    + injection H as _ _ <- _. unfold small; cbn; lia.
  - apply map_suffix in H as (st & H). eapply both_small; eauto.
Qed.
Lemma small_suffix (s0 : list (list Z)) src src' : Forall small src -> src = s0 ++ src' \/ src' = [] -> Forall small src'.
Proof. intros H [-> | ->]; [apply Forall_app in H; apply H|constructor]. Qed.
Lemma all_small : forall args buf src ret vs b s, small buf -> Forall small src -> scan_args args buf src = SDone ret vs b s -> small b.
Proof.
  unfold scan_args. induction args as [|a args IH]; intros buf src ret vs b s Hb Hs H; cbn [scan_all] in H.
  - injection H as _ _ <- _. exact Hb.
  - destruct (scan_one a buf src) as [r1 v b1 s1|c1|] eqn:E; try discriminate. destruct r1.
    + pose proof (one_small _ _ _ _ _ _ _ Hb Hs E) as Hb1. destruct (one_suffix _ _ _ _ _ _ _ E) as (s0 & Suf). pose proof (small_suffix _ _ _ Hs Suf) as Hs1.
      destruct (scan_all scan_one args b1 s1) eqn:E2; try discriminate. injection H as _ _ <- _. eapply IH; eauto.
    + injection H as _ _ <- _. eapply one_small; eauto.
Qed.
Lemma singles_text t : stream_text [] (map (fun c => [c]) t) t.
Proof.
  split; [cbn [app]; induction t as [|c t IH]; cbn; [reflexivity|congruence]|]. apply Forall_forall. intros x Hx. apply in_map_iff in Hx as (c & <- & _). discriminate.
Qed.
Lemma singles_small t : Forall small (map (fun c => [c]) t).
Proof. apply Forall_forall. intros x Hx. apply in_map_iff in Hx as (c & <- & _). unfold small; cbn; lia. Qed.

(** ** Arguments that use up the character they end with *)
Lemma ctx_used {S} (define : S -> list Z -> option (S * nat * parse_code)) eof : (forall st buf st' k, define st buf = Some (st', k, pc_ok) -> (1 <= k)%nat) ->
  forall src st buf b st' buf' src', small buf -> Forall small src -> ctx_scan define eof st buf src = Scanned b st' buf' src' -> buf' = [].
Proof.
  intros Hd.
  assert (E : forall st src b st' buf' src', at_eof eof st [] src = Scanned b st' buf' src' -> buf' = []).
  { intros st src b st' buf' src'. unfold at_eof. destruct (eof st) as [[? []]|]; try discriminate; intros H; injection H as _ _ <- _; reflexivity. }
  induction src as [|c src IH]; intros st buf b st' buf' src' Hb Hs H; cbn [ctx_scan] in H; destruct (define st buf) as [[[s1 k] code]|] eqn:ED; try discriminate;
    destruct (_ <? _)%nat; try discriminate; destruct code; try discriminate.
  - injection H as _ _ <- _. apply skipn_all2. apply Hd in ED. unfold small in Hb. lia.
  - eapply E; eauto.
  - injection H as _ _ <- _. apply skipn_all2. apply Hd in ED. unfold small in Hb. lia.
  - destruct c as [|x c]; [eapply E; eauto|]. eapply IH; [exact (Forall_inv Hs)|exact (Forall_inv_tail Hs)|exact H].
Qed.
Lemma leb_loop_used ty cw : forall s cnt tmp used, l_code (leb_loop ty cw s cnt tmp used) = pc_ok -> used + 1 <= l_used (leb_loop ty cw s cnt tmp used).
Proof.
  induction s as [|c s IH]; intros cnt tmp used; cbn [leb_loop]; [discriminate|].
  destruct (_ && _); [discriminate|]. match goal with |- context [if ?o then mk_lres pc_overflow _ _ _ else _] => destruct o end; [discriminate|].
  cbv zeta. destruct (negb _).
  - cbn. lia.
  - intros H. apply IH in H. lia.
Qed.
Lemma one_used a buf src b v buf' src' : match a with ALine _ _ | AChar _ | ALeb _ _ _ => True | ABytes _ _ _ sz _ => 8 <= sz | _ => False end ->
  small buf -> Forall small src -> scan_one a buf src = Scanned b v buf' src' -> buf' = [].
Proof.
  intros Ha Hb Hs. destruct a; cbn [scan_one] in *; intros H; try contradiction.
  - apply map_suffix in H as (st & H). eapply ctx_used; [|exact Hb|exact Hs|exact H]. intros st0 buf0 st1 k. unfold str_define, string_define. cbn [negb andb orb].
    destruct (Nat.eqb _ _); [discriminate|]. intros E. injection E as _ <-. lia.
  - eapply ctx_used; [|exact Hb|exact Hs|exact H]. intros st0 buf0 st1 k. unfold char_define. destruct (skipn _ _); [discriminate|]. intros E. injection E as _ <-. lia.
  - destruct (both_scan _ _ _ _ _ _) as [b1 [gc t] b2 s2| |] eqn:E; try discriminate. injection H as _ _ <- _.
    unfold both_scan in E. destruct (leb_contig ty cw buf) as [[[s1 k] code]|] eqn:EC; try discriminate.
    destruct (Nat.eqb_spec k (length buf)) as [K|K].
    + eapply ctx_used; [|exact Hb|exact Hs|exact E]. intros st0 buf0 st1 k0. unfold leb_define, leb_ctx_feed.
      pose proof (leb_loop_used ty cw buf0 (fst st0) 0 0) as U. destruct (l_code _); try discriminate. intros Q. injection Q as _ <-. specialize (U eq_refl). lia.
    + destruct (_ <? _)%nat; [discriminate|]. destruct code; try discriminate. injection E as _ _ <- _. apply skipn_all2. unfold small in Hb.
      unfold leb_contig, leb_scan in EC. pose proof (leb_loop_used ty cw buf 0 0 0) as U. destruct (l_code _); try discriminate. injection EC as _ <-. specialize (U eq_refl). lia.
  - unfold precise_scan in H. assert (Hn : (1 <= Z.to_nat (sz / 8))%nat) by (assert (1 <= sz / 8) by (apply Z.div_le_lower_bound; lia); lia).
    assert (T : forall s n bf t b1 s1, small bf -> Forall small s -> (1 <= n)%nat -> take_chars n bf s = Some (t, b1, s1) -> b1 = []).
    { clear. induction s as [|c s IH]; intros n bf t b1 s1 Hb Hs Hn H; cbn [take_chars] in H; destruct (n <=? length bf)%nat eqn:L; try discriminate.
      - injection H as _ <- _. apply skipn_all2. unfold small in Hb. lia.
      - injection H as _ <- _. apply skipn_all2. unfold small in Hb. lia.
      - apply Nat.leb_gt in L. destruct c as [|x c]; [discriminate|]. destruct (take_chars _ (x :: c) s) as [[[t2 b2] s2]|] eqn:E; [|discriminate].
        injection H as _ <- _. eapply (IH (n - length bf)%nat); [exact (Forall_inv Hs)|exact (Forall_inv_tail Hs)|lia|exact E]. }
    destruct (take_chars _ _ _) as [[[t b1] s1]|] eqn:E.
    + destruct (lebe_get _ _ _ _ _ _); [|discriminate]. injection H as _ _ <- _. eapply T; eauto.
    + injection H as _ _ <- _. reflexivity.
Qed.
