(** The shortened text, what texts denote, and the space they take. *)
From Coq Require Import String.
From Verif Require Import Base NumSpec NumFacts ByteSpec LebeModel ByteProofs IntPrintModel IntPrintProofs IntPrintCorrect IntScanModel ScanSpec
  IntScanProofs IntSseProofs IntRoundProofs TimeTextModel IpSpec IpModel IpProofs.

Lemma skipn_step {A} (l : list A) i d : (i < length l)%nat -> skipn i l = nth i l d :: skipn (i + 1) l.
Proof.
  revert i. induction l as [|x l IH]; intros i H; cbn [length] in H; [lia|]. destruct i; [reflexivity|]. cbn [skipn nth Nat.add].
  apply IH. lia.
Qed.

Lemma skipn_plus {A} (l : list A) : forall p n, skipn n (skipn p l) = skipn (p + n) l.
Proof. induction l as [|x l IH]; intros p n; [now rewrite !skipn_nil|]. destruct p; [reflexivity|]. cbn [skipn Nat.add]. apply IH. Qed.
Lemma firstn_In {A} (x : A) n l : In x (firstn n l) -> In x l.
Proof. intros H. rewrite <- (firstn_skipn n l). apply in_or_app. auto. Qed.
Lemma skipn_In {A} (x : A) n l : In x (skipn n l) -> In x l.
Proof. intros H. rewrite <- (firstn_skipn n l). apply in_or_app. auto. Qed.
Lemma repeat_nth {A} (x d : A) n i : (i < n)%nat -> nth i (repeat x n) d = x.
Proof. revert i. induction n as [|n IH]; intros i H; [lia|]. destruct i; [reflexivity|]. cbn. apply IH. lia. Qed.

Section Short.
Context (host : endian) (upper full : bool) (gs : list Z) (HL : length gs = 8%nat) (HG : Forall group gs).
Let a := map (stored host) gs.
Let P := piece upper full.

Lemma group_nth i : (i < 8)%nat -> group (nth i gs 0).
Proof. intros H. rewrite Forall_forall in HG. apply HG, nth_In. lia. Qed.
Lemma word_nth i : (i < 8)%nat -> nth i a 0 = stored host (nth i gs 0).
Proof.
  intros H. unfold a. rewrite (nth_indep _ 0 (stored host 0)) by (rewrite map_length; lia). apply map_nth.
Qed.

(** From [i] on there is no run to elide. *)
Lemma print_after p e fuel : forall i, (i <= 8)%nat -> (8 - i < fuel)%nat -> (forall j, (i <= j < 8)%nat -> p <> j) -> (e <= i \/ e = 8)%nat ->
  exists t, joined P (skipn i gs) t /\
    print_short fuel host upper full a p e i = Some ((if negb (Nat.eqb i 8) && negb (Nat.eqb i 0) && negb (Nat.eqb i e) then text ":" else []) ++ t).
Proof.
  induction fuel as [|k IH]; intros i Hi Hf Hp He; [lia|]. cbn [print_short]. destruct (Nat.eqb_spec i 8) as [->|Hi8].
  - exists []. split; [|reflexivity]. replace (skipn 8 gs) with (@nil Z); [constructor|]. symmetry. apply skipn_all2. lia.
  - destruct (Nat.eqb_spec p i) as [Hpi|Hpi]; [exfalso; apply (Hp i); lia|].
    rewrite word_nth by lia. destruct (print_group_ok host upper full (nth i gs 0) (group_nth i ltac:(lia))) as (t & E & Pt).
    fold P in Pt. rewrite E.
    destruct (IH (i + 1)%nat) as (t2 & J & E2); [lia|lia|intros j Hj; apply Hp; lia|lia|]. rewrite E2. cbn [opt_app negb andb].
    rewrite (skipn_step gs i 0) by lia.
    destruct (Nat.eqb_spec (i + 1) 8) as [H8|H8].
    + exists t. split.
      * rewrite H8. replace (skipn 8 gs) with (@nil Z) by (symmetry; apply skipn_all2; lia). now constructor.
      * cbn [negb andb app]. assert (N : t2 = []).
        { rewrite H8 in J. rewrite skipn_all2 in J by lia. inversion J. reflexivity. }
        rewrite N, !app_nil_r. reflexivity.
    + exists (t ++ text ":" ++ t2). split.
      * rewrite (skipn_step gs (i + 1) 0) in J |- * by lia. now constructor.
      * f_equal. f_equal. f_equal. destruct (Nat.eqb_spec (i + 1) 0); [lia|]. destruct (Nat.eqb_spec (i + 1) e); [lia|]. reflexivity.
Qed.

(** Before the run. *)
Lemma print_before p e : (p < e <= 8)%nat -> forall n i fuel, (p - i = n)%nat -> (i <= p)%nat -> (8 - i < fuel)%nat ->
  exists tl tr, joined P (firstn (p - i) (skipn i gs)) tl /\ joined P (skipn e gs) tr /\
    print_short fuel host upper full a p e i
      = Some ((if negb (Nat.eqb i p) && negb (Nat.eqb i 0) then text ":" else []) ++ tl ++ text "::" ++ tr).
Proof.
  intros Hpe. induction n as [|n IH]; intros i fuel Hn Hi Hf; destruct fuel as [|k]; try lia; cbn [print_short];
    destruct (Nat.eqb_spec i 8); try lia.
  - assert (i = p) by lia. subst i. rewrite Nat.eqb_refl. replace (p - p)%nat with 0%nat by lia. cbn [firstn].
    destruct (print_after p e k e) as (tr & J & E); [lia|lia|intros; lia|lia|]. rewrite E. cbn [opt_app].
    rewrite Nat.eqb_refl. rewrite andb_false_r. exists [], tr. split; [constructor|]. split; [exact J|]. reflexivity.
  - destruct (Nat.eqb_spec p i); [lia|]. rewrite word_nth by lia.
    destruct (print_group_ok host upper full (nth i gs 0) (group_nth i ltac:(lia))) as (t & E & Pt). fold P in Pt. rewrite E.
    destruct (IH (i + 1)%nat k) as (tl & tr & J1 & J2 & E2); [lia|lia|lia|]. rewrite E2. cbn [opt_app].
    rewrite (skipn_step gs i 0) by lia. replace (p - i)%nat with (S (p - (i + 1))) by lia. cbn [firstn].
    destruct (Nat.eqb_spec i p); [lia|]. destruct (Nat.eqb_spec i e); [lia|]. cbn [negb andb]. rewrite andb_true_r.
    destruct (Nat.eqb_spec (i + 1) p) as [Hlast|Hlast].
    + exists t, tr. split; [|split; [exact J2|]].
      * replace (p - (i + 1))%nat with 0%nat by lia. cbn [firstn]. now constructor.
      * assert (N : tl = []). { replace (p - (i + 1))%nat with 0%nat in J1 by lia. cbn [firstn] in J1. inversion J1. reflexivity. }
        rewrite N. cbn [negb andb app]. reflexivity.
    + exists (t ++ text ":" ++ tl), tr. split; [|split; [exact J2|]].
      * rewrite (skipn_step gs (i + 1) 0) in J1 |- * by lia. replace (p - (i + 1))%nat with (S (p - (i + 1) - 1)) in J1 |- * by lia.
        cbn [firstn] in J1 |- *. now constructor.
      * destruct (Nat.eqb_spec (i + 1) 0); [lia|]. cbn [negb andb]. rewrite <- !app_assoc. reflexivity.
Qed.

Lemma print_short_ok : let '(p, e) := find_run 8 a 0 8 8 in
  exists t, print_short 9 host upper full a p e 0 = Some t /\ shortened P gs t.
Proof.
  pose proof (find_run_spec host gs HL HG) as F. fold a in F. destruct (find_run 8 a 0 8 8) as [p e].
  destruct F as [(-> & -> & N)|[Hpe B]].
  - destruct (print_after 8 8 9 0) as (t & J & E); [lia|lia|intros; lia|lia|]. rewrite E. exists t. split; [reflexivity|].
    left. split; [exact N|exact J].
  - destruct (print_before p e Hpe (p - 0) 0 9) as (tl & tr & J1 & J2 & E); [lia|lia|lia|]. rewrite E.
    rewrite andb_false_r. cbn [app]. eexists. split; [reflexivity|]. right. exists p, (e - p)%nat, tl, tr.
    split; [exact B|]. rewrite Nat.sub_0_r in J1. split; [exact J1|]. replace (p + (e - p))%nat with e by lia. auto.
Qed.
End Short.

(** ** What the text denotes *)
Lemma joined_impl (P Q : Z -> list Z -> Prop) gs t : (forall g t, In g gs -> P g t -> Q g t) -> joined P gs t -> joined Q gs t.
Proof.
  intros H J. induction J as [|g t Hg|g t h gs s Hg J IH]; constructor.
  - apply H; cbn; auto.
  - apply H; cbn; auto.
  - apply IH. intros g' t' Hin. apply H. cbn in *. tauto.
Qed.
Lemma map_digit_string upper ds : digits_ok 16 ds -> digit_string 16 (map (digit_char upper) ds) ds.
Proof.
  induction 1 as [|d ds Hd _ IH]; cbn [map]; constructor; auto. split; [lia|]. destruct upper; auto.
Qed.
Lemma piece_hex upper full g t : group g -> piece upper full g t -> hex_piece g t.
Proof.
  intros Hg. unfold piece. destruct full.
  - intros (ds & O & L & V & ->). exists ds. split; [now apply map_digit_string|]. unfold zlen. lia.
  - intros N. pose proof (numeral_length 16 upper g t 16 ltac:(lia) w16 N Hg) as L.
    change (cal_max_int_size (mk_int 16 false) 16) with 4 in L.
    destruct N as (ds & O & Nz & V & ->). exists ds. split; [now apply map_digit_string|]. split; [|exact V].
    unfold zlen in L |- *. rewrite map_length in L. destruct ds; [contradiction|]. cbn [length] in *. lia.
Qed.

Lemma zero_run_split gs p n : length gs = 8%nat -> zero_run gs p n -> gs = firstn p gs ++ repeat 0 n ++ skipn (p + n) gs.
Proof.
  intros HL [H1 H2]. rewrite <- (firstn_skipn p gs) at 1. f_equal. rewrite <- (firstn_skipn n (skipn p gs)) at 1.
  rewrite skipn_plus. f_equal.
  apply nth_ext with (d := 1) (d' := 1).
  - rewrite firstn_length, skipn_length, repeat_length. lia.
  - intros i Hi. rewrite firstn_length, skipn_length in Hi.
    assert (Hin : (i < n)%nat) by lia.
    rewrite repeat_nth by lia.
    rewrite <- (H2 (p + i)%nat) by lia.
    rewrite <- (firstn_skipn p gs) at 2. rewrite app_nth2 by (rewrite firstn_length; lia).
    rewrite firstn_length. replace (p + i - Nat.min p (length gs))%nat with i by lia.
    rewrite <- (firstn_skipn n (skipn p gs)) at 2. rewrite app_nth1; [reflexivity|]. rewrite firstn_length, skipn_length. lia.
Qed.

Lemma joined_denotes upper full gs t : length gs = 8%nat -> Forall group gs -> joined (piece upper full) gs t -> v6_denotes t gs.
Proof.
  intros HL HG J. split; [exact HL|]. left. eapply joined_impl; [|exact J]. intros g s Hin. apply piece_hex.
  rewrite Forall_forall in HG. auto.
Qed.
Lemma shortened_denotes upper full gs t : length gs = 8%nat -> Forall group gs -> shortened (piece upper full) gs t -> v6_denotes t gs.
Proof.
  intros HL HG [[_ J]|(p & n & tl & tr & (R & N & _) & J1 & J2 & ->)]; [now apply joined_denotes in J|].
  split; [exact HL|]. right. exists (firstn p gs), (skipn (p + n) gs), n, tl, tr. split; [lia|].
  split; [now apply zero_run_split|]. rewrite Forall_forall in HG. split; [|split; [|reflexivity]].
  - eapply joined_impl; [|exact J1]. intros g s Hin. apply piece_hex. apply HG. eapply firstn_In; exact Hin.
  - eapply joined_impl; [|exact J2]. intros g s Hin. apply piece_hex. apply HG. eapply skipn_In; exact Hin.
Qed.

(** ** A text denotes at most one address *)
Fixpoint split (s : list Z) : list (list Z) :=
  match s with
  | [] => [[]]
  | c :: s' => if c =? 58 then [] :: split s'
               else match split s' with p :: ps => (c :: p) :: ps | [] => [[c]] end
  end.
Lemma split_nonempty s : split s <> [].
Proof. induction s as [|c s IH]; cbn [split]; [discriminate|]. destruct (c =? 58); [discriminate|]. destruct (split s); discriminate. Qed.
Lemma split_app t s : Forall (fun c => c <> 58) t -> split (t ++ text ":" ++ s) = t :: split s.
Proof.
  induction 1 as [|c t Hc _ IH]; [reflexivity|]. cbn [app split] in *. destruct (Z.eqb_spec c 58); [contradiction|]. rewrite IH. reflexivity.
Qed.
Lemma split_one t : Forall (fun c => c <> 58) t -> split t = [t].
Proof. induction 1 as [|c t Hc _ IH]; [reflexivity|]. cbn [split]. destruct (Z.eqb_spec c 58); [contradiction|]. rewrite IH. reflexivity. Qed.
Lemma split_app2 t s : split (t ++ text ":" ++ s) = split t ++ split s.
Proof.
  induction t as [|c t IH]; [reflexivity|]. cbn [app split] in *. rewrite IH. destruct (c =? 58); [reflexivity|].
  destruct (split t) eqn:E; [now apply split_nonempty in E|]. reflexivity.
Qed.
Lemma hex_no_colon g t : hex_piece g t -> Forall (fun c => c <> 58) t /\ t <> [].
Proof.
  intros (ds & D & L & _). split.
  - clear L. induction D as [|c d t ds Hd _ IH]; constructor; [|exact IH]. intros ->.
    apply (denotes_cases 16) in Hd; lia.
  - intros ->. inversion D; subst. cbn in L. lia.
Qed.
Lemma digit_string_det t ds ds' : digit_string 16 t ds -> digit_string 16 t ds' -> ds = ds'.
Proof.
  intros D. revert ds'. induction D as [|c d t ds Hd _ IH]; intros ds' D'; inversion D'; subst; [reflexivity|].
  f_equal; [|now apply IH]. apply (denotes_cases 16) in Hd; [|lia].
  match goal with H : denotes 16 c _ |- _ => apply (denotes_cases 16) in H; [|lia] end. lia.
Qed.
Lemma hex_det g g' t : hex_piece g t -> hex_piece g' t -> g = g'.
Proof. intros (ds & D & _ & <-) (ds' & D' & _ & <-). now rewrite (digit_string_det _ _ _ D D'). Qed.
Lemma hex_list_det ts : forall gs gs', Forall2 hex_piece gs ts -> Forall2 hex_piece gs' ts -> gs = gs'.
Proof.
  induction ts as [|t ts IH]; intros gs gs' F F'; inversion F; inversion F'; subst; [reflexivity|]. f_equal; [eapply hex_det; eassumption|auto].
Qed.

Lemma joined_split gs t : joined hex_piece gs t -> gs <> [] -> Forall2 hex_piece gs (split t) /\ Forall (fun p => p <> []) (split t).
Proof.
  induction 1 as [|g t Hg|g t h gs s Hg J IH]; intros Hne; [contradiction| |].
  - apply hex_no_colon in Hg as Hc. destruct Hc as [C1 C2]. rewrite split_one by assumption. auto.
  - apply hex_no_colon in Hg as Hc. destruct Hc as [C1 C2]. rewrite split_app by assumption.
    destruct IH as [IH1 IH2]; [discriminate|]. auto.
Qed.

Lemma gap_unique (L1 L2 R1 R2 : list (list Z)) : Forall (fun p => p <> []) L1 -> Forall (fun p => p <> []) L2 ->
  L1 ++ [] :: R1 = L2 ++ [] :: R2 -> L1 = L2 /\ R1 = R2.
Proof.
  intros F1. revert L2. induction F1 as [|x L1 Hx _ IH]; intros L2 F2 E.
  - destruct F2 as [|y L2 Hy F2]; cbn [app] in E; injection E; [auto|]. intros _ E0. subst y. contradiction.
  - destruct F2 as [|y L2 Hy F2]; cbn [app] in E; injection E.
    + intros _ E0. subst x. contradiction.
    + intros E2 E0. subst y. destruct (IH L2 F2 E2) as [-> ->]. auto.
Qed.

(** The pieces of a side of the gap: one empty piece when there are no groups. *)
Lemma side_split gs t : joined hex_piece gs t ->
  (gs = [] /\ split t = [[]]) \/ (gs <> [] /\ Forall2 hex_piece gs (split t) /\ Forall (fun p => p <> []) (split t)).
Proof.
  intros J. destruct gs as [|g gs]; [left; inversion J; auto|]. right. split; [discriminate|]. apply joined_split; [exact J|discriminate].
Qed.
Lemma side_det gs gs' t t' : joined hex_piece gs t -> joined hex_piece gs' t' -> split t = split t' -> gs = gs'.
Proof.
  intros J J' E. destruct (side_split _ _ J) as [[-> S1]|(N & F & NE)], (side_split _ _ J') as [[-> S2]|(N' & F' & NE')].
  - reflexivity.
  - rewrite <- E, S1 in NE'. inversion NE'. contradiction.
  - rewrite E, S2 in NE. inversion NE. contradiction.
  - rewrite E in F. eapply hex_list_det; eassumption.
Qed.

Lemma split_gap l r tl tr : joined hex_piece l tl -> joined hex_piece r tr -> split (tl ++ text "::" ++ tr) = split tl ++ [] :: split tr.
Proof. intros _ _. change (text "::" ++ tr) with (text ":" ++ (text ":" ++ tr)). rewrite split_app2. reflexivity. Qed.

Lemma denotes_unique t gs gs' : v6_denotes t gs -> v6_denotes t gs' -> gs = gs'.
Proof.
  intros [L D] [L' D'].
  assert (NE : forall g : list Z, length g = 8%nat -> g <> []) by (intros g H ->; discriminate).
  destruct D as [J|(l & r & n & tl & tr & Hn & E & J1 & J2 & ET)], D' as [J'|(l' & r' & n' & tl' & tr' & Hn' & E' & J1' & J2' & ET')].
  - destruct (joined_split _ _ J (NE _ L)) as [F _]. destruct (joined_split _ _ J' (NE _ L')) as [F' _]. eapply hex_list_det; eassumption.
  - exfalso. destruct (joined_split _ _ J (NE _ L)) as [_ F]. rewrite ET', (split_gap l' r') in F by assumption.
    apply Forall_app in F as [_ F]. inversion F. contradiction.
  - exfalso. destruct (joined_split _ _ J' (NE _ L')) as [_ F]. rewrite ET, (split_gap l r) in F by assumption.
    apply Forall_app in F as [_ F]. inversion F. contradiction.
  - assert (ES : split tl ++ [] :: split tr = split tl' ++ [] :: split tr').
    { rewrite <- (split_gap l r), <- (split_gap l' r') by assumption. congruence. }
    assert (EE : split tl = split tl' /\ split tr = split tr').
    { destruct (side_split _ _ J1) as [[-> S1]|(N1 & F1 & NE1)], (side_split _ _ J1') as [[-> S2]|(N2 & F2 & NE2)].
      - rewrite S1, S2 in ES |- *. cbn [app] in ES. injection ES. auto.
      - rewrite S1 in ES. cbn [app] in ES. destruct NE2 as [|y ys Hy _]; [now apply Forall2_length in F2; destruct l'; [contradiction|discriminate F2]|].
        cbn [app] in ES. injection ES. intros _ E0. subst y. contradiction.
      - rewrite S2 in ES. cbn [app] in ES. destruct NE1 as [|y ys Hy _]; [now apply Forall2_length in F1; destruct l; [contradiction|discriminate F1]|].
        cbn [app] in ES. injection ES. intros _ E0. subst y. contradiction.
      - now apply gap_unique in ES. }
    destruct EE as [E1 E2]. assert (l = l') by (eapply side_det; eassumption). assert (r = r') by (eapply side_det; eassumption).
    subst l' r'. subst gs gs'. rewrite !app_length, !repeat_length in *. replace n' with n by lia. reflexivity.
Qed.

(** ** Length *)
Lemma hex_len g t : hex_piece g t -> zlen t <= 4.
Proof. intros (ds & D & L & _). apply Forall2_length in D. unfold zlen in *. lia. Qed.
Lemma joined_len gs t : joined hex_piece gs t -> zlen t <= 5 * zlen gs /\ (gs <> [] -> zlen t <= 5 * zlen gs - 1).
Proof.
  induction 1 as [|g t Hg|g t h gs s Hg J IH].
  - split; [cbn; lia|]. intros H. contradiction.
  - apply hex_len in Hg. rewrite zlen_cons. change (zlen (@nil Z)) with 0. lia.
  - apply hex_len in Hg. rewrite !zlen_app. change (zlen (text ":")) with 1. rewrite !zlen_cons in *.
    destruct IH as [_ IH]. specialize (IH ltac:(discriminate)). lia.
Qed.
Lemma denotes_len t gs : v6_denotes t gs -> zlen t <= 39.
Proof.
  intros [L [J|(l & r & n & tl & tr & Hn & E & J1 & J2 & ->)]].
  - apply joined_len in J as [_ J]. unfold zlen in J at 2. rewrite L in J. apply J. intros ->. discriminate.
  - apply joined_len in J1 as [J1 _]. apply joined_len in J2 as [J2 _]. rewrite !zlen_app. change (zlen (text "::")) with 2.
    subst gs. rewrite !app_length, repeat_length in L. unfold zlen in *. lia.
Qed.
