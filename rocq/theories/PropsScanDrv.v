(** C76, C77, C78: scan(in, a1, ..., an) on buffered, unbuffered and contiguous streams. *)
From Coq Require Import String.
From Coq Require Import List.
From Verif Require Import Base NumSpec ScanSpec ByteSpec IntPrintModel IntScanModel IntScanProofs CharSpec FindModel FindSpec PropsFind LineModel LineSpec LineProofs StrProofs PropsLine
  IntSseProofs Leb128Model Leb128Spec PropsLeb128 LebeModel PropsLebe IpSpec IpModel IpCtxModel ScanDrvModel ScanDrvSpec ScanDrvProofs ScanDrvPieces ScanDrvMain.
Import ListNotations.
Open Scope string_scope.
Open Scope list_scope.
Open Scope Z_scope.
Definition chars (s : string) : list Z := NumSpec.text s.
Definition an_int : sarg := AInt (mk_scfg 10 false false false (mk_int 32 true) 8 false).
Definition an_ip : sarg := AIp false 8 false.

(** ** C76: a buffered stream
    The text of the arguments one after the other, in whatever buffers it comes: true, the objects, and the stream left
    exactly after the last text.  Missing: the cuttings that [well_cut] leaves out, see below. *)
Theorem C76_scan_partial : forall ps rest buf src,
  pieces_ok ps rest -> stream_text buf src (texts_of ps ++ rest) -> well_cut ps buf src ->
  exists buf' src', scan_args (args_of ps) buf src = SDone true (objects_of ps) buf' src' /\ stream_text buf' src' rest.
Proof.
  intros ps rest buf src Hok HS Hcut. destruct (all_good ps rest buf src Hok HS Hcut) as (b & s & S & _ & E).
  exists b, s. specialize (E []). rewrite app_nil_r in E. rewrite E. unfold scan_args. cbn [scan_all]. rewrite app_nil_r. auto.
Qed.
Print Assumptions C76_scan_partial.

(** With nothing left for the next argument: the arguments before it have their objects, and the end of the file is the
    bool false, or the exception if the caller did not ask for the bool. *)
Theorem C76_end_partial : forall ps a more rest buf src,
  pieces_ok ps rest -> nothing_left a rest -> stream_text buf src (texts_of ps ++ rest) -> well_cut ps buf src ->
  scan_args (args_of ps ++ a :: more) buf src = SDone false (objects_of ps) [] [] /\
  scan_top true (args_of ps ++ a :: more) buf src = SDone false (objects_of ps) [] [] /\
  scan_top false (args_of ps ++ a :: more) buf src = SThrew pc_end_of_file.
Proof.
  intros ps a more rest buf src Hok HN HS Hcut. destruct (all_good ps rest buf src Hok HS Hcut) as (b & s & S & _ & E).
  destruct (one_nothing a rest b s HN S) as (v & N).
  assert (A : scan_args (args_of ps ++ a :: more) buf src = SDone false (objects_of ps) [] []).
  { rewrite E. unfold scan_args. cbn [scan_all]. rewrite N, app_nil_r. reflexivity. }
  unfold scan_top. rewrite A. auto.
Qed.
Print Assumptions C76_end_partial.

(** What [well_cut] leaves out.  A literal cut into two buffers is refused, or accepted although it is another text;
    an address cut into two buffers is refused; so is an integer after whose only digit 0 a buffer ends. *)
Theorem C76_cut_refuted :
  scan_args [AMatch (chars "abc"); an_int] (chars "abc12 ") [] = SDone true [[]; [12]] (chars " ") [] /\
  scan_args [AMatch (chars "abc"); an_int] (chars "ab") [chars "c12 "] = SThrew pc_invalid /\
  scan_args [AMatch (chars "abc"); an_int] (chars "ab") [chars "a12 "] = SDone true [[]; [12]] (chars " ") [] /\
  scan_args [an_ip] (chars "1.2.3.4 ") [] = SDone true [[1; 2; 3; 4]] (chars " ") [] /\
  scan_args [an_ip] (chars "1.2") [chars ".3.4 "] = SThrew pc_invalid /\
  scan_args [an_int] (chars "0 x") [] = SDone true [[0]] (chars " x") [] /\
  scan_args [an_int] (chars "0") [chars " x"] = SDone true [[0]] (chars "x") [] /\
  scan_args [an_int] (chars "0") [chars " "; chars "x"] = SUndef.
Proof. repeat split; vm_compute; reflexivity. Qed.
Print Assumptions C76_cut_refuted.

(** White space before an address is skipped when the stream's buffer is empty and refused when it is not. *)
Theorem C76_space_refuted :
  scan_args [an_ip] [] [chars " 1.2.3.4 x"] = SDone true [[1; 2; 3; 4]] (chars " x") [] /\
  scan_args [an_ip] (chars " 1.2.3.4 x") [] = SThrew pc_invalid.
Proof. repeat split; vm_compute; reflexivity. Qed.
Print Assumptions C76_space_refuted.

(** ** C77: a stream without a buffer
    The arguments for which every buffer may end anywhere. *)
Definition anywhere (p : piece) : Prop :=
  let '(a, v, t) := p in
  match a with
  | AInt cfg => sc_skipzero cfg = true \/ v <> [0]
  | AMatch lit => (length lit <= 1)%nat
  | AIp _ _ _ => False
  | _ => True
  end.
Lemma anywhere_cut ps rest buf src : pieces_ok ps rest -> Forall anywhere ps -> well_cut ps buf src.
Proof.
  intros Hok Ha ps1 a v t ps2 n -> Hb _. apply Forall_app in Ha as [_ Ha]. apply Forall_inv in Ha.
  assert (HP : exists tail, piece_text a v t tail).
  { clear - Hok. revert Hok. induction ps1 as [|[[a1 v1] t1] ps1 IH]; cbn [app pieces_ok]; intros [A B]; eauto. }
  destruct HP as (tail & HP). unfold anywhere in Ha. destruct a; cbn [bad_place piece_text] in *; try contradiction.
  - destruct Hb as (A & B & _). destruct Ha as [Ha|Ha]; congruence.
  - destruct HP as [-> _]. lia.
Qed.
Lemma raw_done ps rest more : pieces_ok ps rest -> Forall anywhere ps ->
  exists b s, stream_text b s rest /\ (scan_args (args_of ps ++ more) [] (map (fun c => [c]) (texts_of ps ++ rest)) =
    match scan_args more b s with SDone ret vs b s => SDone ret (objects_of ps ++ vs) b s | r => r end) /\
    (scan_args (args_of ps) [] (map (fun c => [c]) (texts_of ps ++ rest)) = SDone true (objects_of ps) b s).
Proof.
  intros Hok Ha. destruct (all_good ps rest [] (map (fun c => [c]) (texts_of ps ++ rest)) Hok (singles_text _) (anywhere_cut _ _ _ _ Hok Ha)) as (b & s & S & _ & E).
  exists b, s. split; [exact S|]. split; [apply E|]. specialize (E []). rewrite app_nil_r in E. rewrite E. unfold scan_args. cbn [scan_all]. rewrite app_nil_r. reflexivity.
Qed.
(** If the stream can take the character after the last text back, it is left exactly after it; otherwise at most that
    one character is lost. *)
Theorem C77_raw_partial : forall ps rest, pieces_ok ps rest -> Forall anywhere ps ->
  scan_raw true (args_of ps) (texts_of ps ++ rest) = RDone true (objects_of ps) rest /\
  exists left, scan_raw false (args_of ps) (texts_of ps ++ rest) = RDone true (objects_of ps) left /\
    (left = rest \/ exists x, rest = x :: left).
Proof.
  intros ps rest Hok Ha. destruct (raw_done ps rest [] Hok Ha) as (b & s & [HT _] & _ & E). unfold scan_raw. rewrite E. split; [rewrite HT; reflexivity|].
  exists (concat s). split; [reflexivity|].
  assert (Hb : small b) by (apply (all_small _ _ _ _ _ _ _ (Nat.le_0_l 1 : small []) (singles_small _) E)).
  unfold small in Hb. destruct b as [|x [|y b]]; cbn in *; [left; auto|right; exists x; auto|lia].
Qed.
Print Assumptions C77_raw_partial.
Theorem C77_end_partial : forall ps a more rest unget, pieces_ok ps rest -> Forall anywhere ps -> nothing_left a rest ->
  scan_raw unget (args_of ps ++ a :: more) (texts_of ps ++ rest) = RDone false (objects_of ps) [].
Proof.
  intros ps a more rest unget Hok Ha HN. destruct (raw_done ps rest (a :: more) Hok Ha) as (b & s & S & E & _).
  destruct (one_nothing a rest b s HN S) as (v & N). unfold scan_raw. rewrite E. unfold scan_args. cbn [scan_all]. rewrite N, app_nil_r. destruct unget; reflexivity.
Qed.
Print Assumptions C77_end_partial.

(** Nothing is lost after an argument that ends with its own last character: a line, a character, LEB128 or bytes.  (A
    line that the end of the file ends loses nothing either: there is nothing after it.) *)
Definition self_ending (a : sarg) : Prop := match a with ALine _ _ | AChar _ | ALeb _ _ _ | ABytes _ _ _ _ _ => True | _ => False end.
Theorem C77_nothing_lost_partial : forall ps a v t rest, pieces_ok (ps ++ [(a, v, t)]) rest -> Forall anywhere ps -> self_ending a ->
  scan_raw false (args_of ps ++ [a]) (texts_of ps ++ t ++ rest) = RDone true (objects_of ps ++ [v]) rest.
Proof.
  intros ps a v t rest Hok Ha Hself.
  assert (Hok2 : pieces_ok ps (t ++ rest) /\ piece_text a v t rest).
  { clear - Hok. induction ps as [|[[a1 v1] t1] ps IH]; cbn [app pieces_ok] in *; [tauto|]. destruct Hok as [A B]. destruct (IH B) as [C D]. split; [|exact D]. split; [|exact C].
    unfold texts_of in A. rewrite map_app, concat_app in A. cbn [map concat snd] in A. rewrite app_nil_r, <- app_assoc in A. exact A. }
  destruct Hok2 as [Hok2 HP]. set (txt := texts_of ps ++ t ++ rest).
  destruct (all_good ps (t ++ rest) [] (map (fun c => [c]) txt) Hok2 (singles_text _) (anywhere_cut _ _ _ _ Hok2 Ha)) as (b & s & S & (s0 & Suf) & E).
  assert (E0 : scan_args (args_of ps) [] (map (fun c => [c]) txt) = SDone true (objects_of ps) b s).
  { specialize (E []). rewrite app_nil_r in E. rewrite E. unfold scan_args. cbn [scan_all]. rewrite app_nil_r. reflexivity. }
  assert (Hb : small b) by (apply (all_small _ _ _ _ _ _ _ (Nat.le_0_l 1 : small []) (singles_small _) E0)).
  pose proof (small_suffix _ _ _ (singles_small txt) Suf) as Hs.
  destruct (one_gives a v t rest b s HP S) as (x & b1 & s1 & E1 & -> & [HT _]).
  { intros n Hn. exfalso. destruct a; contradiction. }
  assert (b1 = []).
  { eapply one_used; [|exact Hb|exact Hs|exact E1]. destruct a; try contradiction; auto. cbn in HP. destruct HP as (_ & Hz & _).
    repeat (destruct Hz as [<-|Hz]; [lia|]). contradiction. }
  subst b1. unfold scan_raw. rewrite E. unfold scan_args. cbn [scan_all]. rewrite E1. cbn [app] in *. rewrite HT. reflexivity.
Qed.
Print Assumptions C77_nothing_lost_partial.

(** The character after an integer is lost without try_unget: the scan of "34" that follows does not see the comma.  The
    integer 0 reads past the end of the one-character buffer; a literal of two or more characters is compared with its
    own beginning; an address is always refused after another argument. *)
Theorem C77_raw_refuted :
  scan_raw true [an_int] (chars "12,34") = RDone true [[12]] (chars ",34") /\
  scan_raw false [an_int] (chars "12,34") = RDone true [[12]] (chars "34") /\
  scan_raw true [an_int] (chars "0,34") = RUndef /\
  scan_raw true [AMatch (chars "abc"); an_int] (chars "abc12 ") = RThrew pc_invalid /\
  scan_raw true [AMatch (chars "abc"); an_int] (chars "aaa12 ") = RDone true [[]; [12]] (chars " ") /\
  scan_raw true [an_int; an_ip] (chars "5 1.2.3.4 ") = RThrew pc_invalid.
Proof. repeat split; vm_compute; reflexivity. Qed.
Print Assumptions C77_raw_refuted.

(** ** C78: a contiguous stream (a string or a mapped file): no cuts, no conditions. *)
Lemma view_good ps : forall rest more, pieces_ok ps rest ->
  scan_view (args_of ps ++ more) (texts_of ps ++ rest) =
    match scan_view more rest with SDone ret vs b s => SDone ret (objects_of ps ++ vs) b s | r => r end.
Proof.
  induction ps as [|[[a v] t] ps IH]; intros rest more Hok.
  - cbn [args_of objects_of texts_of map concat app]. destruct (scan_view more rest); reflexivity.
  - destruct Hok as [HP Hok]. unfold scan_view in *. cbn [args_of map fst app scan_all]. fold (args_of ps).
    unfold texts_of. cbn [map concat snd]. fold (texts_of ps). rewrite <- app_assoc.
    rewrite (one_view_gives a v t (texts_of ps ++ rest) HP), (IH rest more Hok).
    destruct (scan_all _ more rest []); reflexivity.
Qed.
Theorem C78_view : forall ps rest, pieces_ok ps rest ->
  scan_view (args_of ps) (texts_of ps ++ rest) = SDone true (objects_of ps) rest [].
Proof.
  intros ps rest Hok. pose proof (view_good ps rest [] Hok) as E. rewrite app_nil_r in E. rewrite E. unfold scan_view. cbn [scan_all]. rewrite app_nil_r. reflexivity.
Qed.
Print Assumptions C78_view.
Theorem C78_end_partial : forall ps a more rest, pieces_ok ps rest -> nothing_left a rest ->
  (match a with ALeb _ _ _ | AIp _ _ _ => False | _ => True end) ->
  exists b, scan_view (args_of ps ++ a :: more) (texts_of ps ++ rest) = SDone false (objects_of ps) b [].
Proof.
  intros ps a more rest Hok HN Ha. destruct (one_view_nothing a rest HN Ha) as (v & b & E). exists b.
  rewrite (view_good ps rest (a :: more) Hok). unfold scan_view. cbn [scan_all]. rewrite E, app_nil_r. reflexivity.
Qed.
Print Assumptions C78_end_partial.
(** LEB128 and addresses: the end of a contiguous stream is the exception "invalid"; of the same text in a buffered
    stream it is the end of the file. *)
Theorem C78_end_refuted :
  scan_view [ALeb (mk_int 32 false) 8 0] [] = SThrew pc_invalid /\ scan_args [ALeb (mk_int 32 false) 8 0] [] [] = SDone false [] [] [] /\
  scan_view [an_ip] [] = SThrew pc_invalid /\ scan_args [an_ip] [] [] = SDone false [] [] [].
Proof. repeat split; vm_compute; reflexivity. Qed.
Print Assumptions C78_end_refuted.

Definition plain : fcfg := mk_fcfg 8 0 false false 8 false.
Definition some_pieces : list piece :=
  [(AMatch (chars "x="), [], chars "x="); (an_int, [-12], chars " -12"); (AWord plain [1], chars "ab", chars "  ab");
   (AChar plain, chars "c", chars " c"); (ALine plain [], chars "de f", chars "de f
"); (an_ip, [1; 20; 3; 4], chars "1.20.3.4"); (AMatch (chars ";"), [], chars ";");
   (ABytes little big 8 16 (mk_int 16 false), [258], [1; 2]); (ALeb (mk_int 32 false) 8 77, [300], [172; 2])].
Ltac tx := repeat first [apply Forall_cons | apply Forall_nil]; unfold code_unit, C_space, c_space, is_byte; cbn; lia.
Fixpoint cuts (n : nat) (src : list (list Z)) : list nat :=
  match src with [] => [] | c :: s => n :: cuts (n + length c) s end.
Lemma cut_in buf : forall src n, cut_after buf src n -> In n (cuts (length buf) src).
Proof.
  intros src n (s1 & s2 & -> & N & ->). rewrite app_length. generalize (length buf) as m.
  induction s1 as [|c s1 IH]; intros m; cbn [app concat length cuts].
  - destruct s2; [contradiction|]. left. cbn. lia.
  - right. rewrite app_length, Nat.add_assoc. apply IH.
Qed.
Definition some_buf : list Z := chars "x= -".
Definition some_src : list (list Z) := [chars "12 "; chars " a"; chars "b c"; chars "de"; chars " f" ++ [10] ++ chars "1.20.3.4;" ++ [1]; [2; 172]; [2] ++ chars "ta"; chars "il"].
Ltac fa := repeat first [apply Forall_cons | apply Forall_nil]; try (unfold code_unit, C_space, c_space, is_byte; cbn; lia).
Lemma plain_ok : space_search_ok plain.
Proof. split; [unfold build_ok, char_width, plain; cbn; lia|discriminate]. Qed.
Lemma not_digit c : c < 48 \/ 57 < c -> ~ is_digit_of 10 c.
Proof. rewrite IntSseProofs.is_digit10. lia. Qed.
Example C76_nonvacuous :
  pieces_ok some_pieces (chars "tail") /\ stream_text some_buf some_src (texts_of some_pieces ++ chars "tail") /\
  well_cut some_pieces some_buf some_src /\
  scan_args (args_of some_pieces) some_buf some_src = SDone true (objects_of some_pieces) (chars "ta") [chars "il"].
Proof.
  split; [|split; [split; [vm_compute; reflexivity|unfold some_src; fa; discriminate]|split; [|vm_compute; reflexivity]]].
  - unfold some_pieces. cbn [pieces_ok].
    split; [split; reflexivity|]. split.
    { exists (chars " "), true, (chars "12"), [1; 2]. split; [reflexivity|]. split; [cbn; lia|]. split; [cbn; auto|]. split; [cbn; auto|].
      split; [reflexivity|]. split; [discriminate|]. split; [fa|]. split; [discriminate|]. split; [discriminate|].
      split; [repeat constructor; lia|].
      split; [discriminate|]. split; [cbn; lia|]. split; [reflexivity|]. split; [fa; unfold in_range; cbn; lia|].
      split; [intros _; vm_compute; repeat constructor; discriminate|]. split; [change (safe_char 10 8 32); unfold safe_char; lia|]. apply (not_digit 32). lia. }
    split; [split; [exact plain_ok|]; split; [vm_compute; repeat constructor; discriminate|]; split; [left; reflexivity|]; exists (chars "  "); split; [reflexivity|]; split; [fa|]; split; [fa|]; split; [discriminate|right; exists 32; eexists; split; [reflexivity|left; reflexivity]]|].
    split; [split; [exact plain_ok|]; split; [vm_compute; repeat constructor; discriminate|]; split; [left; reflexivity|]; exists (chars " "), 99; split; [reflexivity|]; split; [fa|]; split; [unfold C_space; lia|reflexivity]|].
    split; [split; [left; exact plain_ok|]; split; [vm_compute; repeat constructor; discriminate|]; split; [cbn; lia|left; reflexivity]|].
    split.
    { split; [cbn; auto|]. split; [vm_compute; repeat constructor; discriminate|]. split; [apply (not_digit 59); lia|]. exists 1, 20, 3, 4, 0.
      do 4 (split; [unfold octet; lia|]). split; [lia|]. split; [|reflexivity]. exists (chars "1.20.3.4"), (chars "0"). split.
      - exists (chars "1"), (chars "20"), (chars "3"), (chars "4").
        split; [exists [1]; split; [fa; lia|repeat split; cbn; lia]|]. split; [exists [2; 0]; split; [fa; lia|repeat split; cbn; lia]|]. split; [exists [3]; split; [fa; lia|repeat split; cbn; lia]|]. split; [exists [4]; split; [fa; lia|repeat split; cbn; lia]|]. reflexivity.
      - split; [exists [0]; split; [fa; lia|repeat split; cbn; lia]|reflexivity]. }
    split; [split; reflexivity|].
    split; [split; [reflexivity|]; split; [cbn; auto|]; split; [cbn; auto|]; exists 258; split; [reflexivity|]; split; [unfold in_range; vm_compute; split; discriminate|]; split; [cbn; lia|reflexivity]|].
    split; [|exact I]. split; [unfold leb_type; cbn; auto|]. split; [split; [cbn; auto|vm_compute; repeat constructor; discriminate]|]. split; [cbn; lia|]. split; [vm_compute; discriminate|]. split; [reflexivity|]. apply Forall_cons; [unfold in_range; vm_compute; split; discriminate|constructor].
  - intros ps1 a v t ps2 n E Hb Hc. apply cut_in in Hc.
    do 9 (destruct ps1 as [|p1 ps1]; [injection E as <- <- <- _; cbn in Hb, Hc; first [contradiction | discriminate (proj1 (proj2 Hb)) | lia]|injection E as <- E]).
    destruct ps1; discriminate E.
Qed.
Example C77_nonvacuous : let ps := [(an_int, [-12], chars " -12"); (AChar plain, chars "c", chars " c")] in
  pieces_ok ps (chars "d") /\ Forall anywhere ps /\ self_ending (AChar plain) /\ nothing_left (ABytes little big 8 16 (mk_int 16 false)) (chars "d") /\
  texts_of ps ++ chars "d" = chars " -12 cd".
Proof.
  cbv zeta. split; [|split; [apply Forall_cons; [right; discriminate|apply Forall_cons; [exact I|constructor]]|split; [exact I|split; [cbn; lia|reflexivity]]]].
  split; [|split; [|exact I]].
  - exists (chars " "), true, (chars "12"), [1; 2]. split; [reflexivity|]. split; [cbn; lia|]. split; [cbn; auto|]. split; [cbn; auto|].
    split; [reflexivity|]. split; [discriminate|]. split; [fa|]. split; [discriminate|]. split; [discriminate|].
    split; [repeat constructor; lia|]. split; [discriminate|]. split; [cbn; lia|]. split; [reflexivity|]. split; [fa; unfold in_range; cbn; lia|].
    split; [intros _; vm_compute; repeat constructor; discriminate|]. split; [change (safe_char 10 8 32); unfold safe_char; lia|]. apply (not_digit 32). lia.
  - split; [exact plain_ok|]. split; [vm_compute; repeat constructor; discriminate|]. split; [left; reflexivity|].
    exists (chars " "), 99. split; [reflexivity|]. split; [fa|]. split; [unfold C_space; lia|reflexivity].
Qed.
