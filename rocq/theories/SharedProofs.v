(** The calls on shared streams follow the discipline and do what the calls on the stream inside do. *)
From Verif Require Import Base BufModel PrintModel BufSpec BufOutProofs TransmitModel LockModel LockSpec LockProofs SharedModel SharedSpec.

(** Bodies: they work on the streams of [held] and do not touch locks. *)
Fixpoint works (held : list nat) (c : scmd) : Prop :=
  match c with
  | CLoad m k => In m held /\ forall s, works held (k s)
  | CStore m s k => In m held /\ works held k
  | CEnd _ => True
  | _ => False
  end.
Lemma guard_disciplined m c : works [m] c -> disciplined [] (lock_guard m c).
Proof.
  intros H. right. induction c as [n k IH|n k IH|n k IH|n s k IH|r]; cbn in *; try contradiction; try tauto.
  - destruct H as [H1 H2]. split; auto.
  - split; [tauto|]. destruct (Nat.eq_dec m m); [reflexivity|congruence].
Qed.
Lemma guard2_disciplined o i c : works [o; i] c -> disciplined [] (lock_guard i (lock_guard o c)).
Proof.
  intros H. right. destruct (Nat.eq_dec o i) as [->|Hne]; [left; left; reflexivity|]. right.
  change (disciplined [o; i] (and_unlock i (and_unlock o c))).
  induction c as [n k IH|n k IH|n k IH|n s k IH|r]; cbn in *; try contradiction; try tauto.
  - destruct H as [H1 H2]. split; auto.
  - split; [tauto|]. destruct (Nat.eq_dec o o); [|congruence]. destruct (Nat.eq_dec o i); [congruence|].
    cbn. split; [auto|]. destruct (Nat.eq_dec i i); [reflexivity|congruence].
Qed.
Lemma and_unlock_in_order rank top m c : forall held, works held c -> in_order rank top held (and_unlock m c).
Proof.
  induction c as [n k IH|n k IH|n k IH|n s k IH|r]; intros l H; cbn in *; try contradiction; auto.
  - intros s. apply IH, H.
  - apply IH, H.
Qed.
Lemma guard_in_order rank top m c : (rank m < top)%nat -> works [m] c -> in_order rank top [] (lock_guard m c).
Proof. intros Hr H. split; auto. split; [intros n []|]. apply and_unlock_in_order. exact H. Qed.
Lemma and_unlock2_in_order rank top m n c : forall held, works held c -> in_order rank top held (and_unlock n (and_unlock m c)).
Proof.
  induction c as [p k IH|p k IH|p k IH|p s k IH|r]; intros l H; cbn in *; try contradiction; auto.
  - intros s. apply IH, H.
  - apply IH, H.
Qed.
Lemma guard2_in_order rank top o i c : (rank i < rank o)%nat -> (rank o < top)%nat -> works [o; i] c ->
  in_order rank top [] (lock_guard i (lock_guard o c)).
Proof.
  intros Hr Ht H. cbn. split; [lia|]. split; [intros n []|]. split; auto.
  split; [intros n [<-|[]]; exact Hr|]. apply and_unlock2_in_order. exact H.
Qed.
Lemma alone_and_unlock m (c : scmd) : forall f, alone (and_unlock m c) f = alone c f.
Proof. induction c; intros f; cbn; auto. Qed.
Lemma alone_guard m (c : scmd) f : alone (lock_guard m c) f = alone c f.
Proof. cbn. apply alone_and_unlock. Qed.

Section Calls.
Variables (cf : nat -> config) (an : nat -> answers).
Lemma pieces_work m : forall fs, works [m] (pieces m fs).
Proof.
  induction fs as [|f fs IH]; cbn; auto. split; [auto|]. intros s. destruct (f s); cbn; auto.
Qed.
Lemma read_works m n : works [m] (read_body cf an m n).
Proof. cbn. split; auto. intros s. destruct (io_read _ _ s n); cbn; auto. Qed.
Lemma transmit_works o i : forall fuel chars, works [o; i] (transmit_rounds cf an o i fuel chars).
Proof.
  induction fuel as [|fuel IH]; intros chars; cbn; auto. split; [auto|]. intros s.
  assert (Next : forall chars, works [o; i] (CLoad i (fun s =>
          match io_underflow (cf i) (an i) s with
          | UFine s true => CStore i s (transmit_rounds cf an o i fuel chars)
          | UFine s false => CStore i s (CEnd (ORet [] chars))
          | URaised s => CStore i s (CEnd OThrow)
          | USmashed => CEnd ODead
          end))).
  { intros ch. cbn. split; [auto|]. intros s1. destruct (io_underflow _ _ s1) as [s2 [|]|s2|]; cbn; auto. }
  destruct (b_in s) as [|[|z l]|]; try apply Next; [|exact I].
  cbn. split; auto. intros x. destruct (ob_write _ _ x (z :: l)); try exact I; cbn [works]; split; cbn; auto.
  split; [auto|]. apply Next.
Qed.
Lemma transmit_body_works o i : works [o; i] (transmit_body cf an o i).
Proof.
  change (In i [o; i] /\ forall s, works [o; i] (transmit_rounds cf an o i (loop_fuel (d_src (b_dev s))) 0)).
  split; [cbn; auto|]. intros s. apply transmit_works.
Qed.
Lemma shared_disciplined x : disciplined [] (shared cf an x).
Proof.
  destruct x as [m l|m opt line args|m|m n|o i]; cbn [shared].
  - apply guard_disciplined, pieces_work.
  - destruct line, args; try apply guard_disciplined, pieces_work. reflexivity.
  - apply guard_disciplined, pieces_work.
  - apply guard_disciplined, read_works.
  - apply guard2_disciplined, transmit_body_works.
Qed.
Lemma shared_in_order rank top x :
  (forall m, touches x m -> (rank m < top)%nat) ->
  (forall o i, x = STransmit o i -> (rank i < rank o)%nat) ->
  in_order rank top [] (shared cf an x).
Proof.
  intros Hr Ht. destruct x as [m l|m opt line args|m|m n|o i]; cbn [shared].
  - apply guard_in_order; [apply Hr; reflexivity|apply pieces_work].
  - destruct line, args; try (apply guard_in_order; [apply Hr; reflexivity|apply pieces_work]). exact I.
  - apply guard_in_order; [apply Hr; reflexivity|apply pieces_work].
  - apply guard_in_order; [apply Hr; reflexivity|apply read_works].
  - apply guard2_in_order; [apply Ht; reflexivity|apply Hr; left; reflexivity|apply transmit_body_works].
Qed.
Lemma work_disciplined T t c : In c (work cf an T t) -> disciplined [] c.
Proof. intros H. apply in_map_iff in H. destruct H as (x & <- & _). apply shared_disciplined. Qed.

(** ** What a call does alone *)
Fixpoint fold_pieces (fs : list (bios -> res bios)) (s : bios) : res bios :=
  match fs with [] => Fine s | f :: fs => then! s := f s in fold_pieces fs s end.
Lemma set_set {A} (f : nat -> A) m a b n : set (set f m a) m b n = set f m b n.
Proof. unfold set. destruct (Nat.eqb n m); auto. Qed.
Definition leaves (f : nat -> bios) (m : nat) (r : res bios) (out : (nat -> bios) * outcome) : Prop :=
  snd out = out_outcome r /\
  match r with Fine s | Raised s => forall n, fst out n = set f m s n | _ => True end.
Lemma pieces_alone m : forall fs f, leaves f m (fold_pieces fs (f m)) (alone (pieces m fs) f).
Proof.
  induction fs as [|g fs IH]; intros f; cbn.
  - split; cbn; auto. intros n. unfold set. destruct (Nat.eqb n m) eqn:E; auto. apply Nat.eqb_eq in E. subst. reflexivity.
  - destruct (g (f m)) as [s|s|s|] eqn:E; cbn; try (split; cbn; auto; fail).
    + specialize (IH (set f m s)). rewrite set_same in IH. destruct IH as [H1 H2]. split; [exact H1|].
      destruct (fold_pieces fs s); auto; intros n; rewrite H2, set_set; reflexivity.
Qed.
Lemma fold_plain o line : forall args s, fold_pieces (plain_pieces o line args) s = print_plain o line s args.
Proof.
  induction args as [|t [|u rest] IH]; intros s; [reflexivity| |].
  - cbn. destruct (print_control o line s t); reflexivity.
  - change (plain_pieces o line (t :: u :: rest)) with ((fun s => print_control o false s t) :: plain_pieces o line (u :: rest)).
    cbn [fold_pieces]. change (print_plain o line s (t :: u :: rest)) with (then! s := print_control o false s t in print_plain o line s (u :: rest)).
    destruct (print_control o false s t); cbn [bindr]; auto.
Qed.
Lemma fold_multi (o : ostream bios) line : forall args skip s, fold_pieces (multi_pieces o line skip args) s = print_multi o line skip s args.
Proof.
  induction args as [|t rest IH]; intros skip s; [reflexivity|].
  destruct skip as [|k]; [|cbn; apply IH].
  cbn [multi_pieces print_multi].
  assert (One : fold_pieces (match rest with
                     | [] => [fun s => print_control o line s t]
                     | _ => (fun s => print_control o false s t) :: multi_pieces o line 0 rest
                     end) s = match rest with
                              | [] => print_control o line s t
                              | _ => then! s := print_control o false s t in print_multi o line 0 s rest
                              end).
  { destruct rest as [|u rest]; cbn [fold_pieces]; [destruct (print_control o line s t); reflexivity|].
    destruct (print_control o false s t); cbn [bindr]; auto. }
  destruct t as [text|sz text|sz text|ws]; try exact One.
  destruct (multi_size sz rest) as [n total]. destruct (Nat.eqb n 0); [exact One|].
  destruct (Nat.eqb (length rest) n); cbn [fold_pieces andb].
  - reflexivity.
  - match goal with |- bindr ?a _ = bindr ?b _ => change b with a; destruct a; cbn [bindr]; auto end.
Qed.
Lemma fold_print o opt line args s : fold_pieces (print_pieces o opt line args) s = print_buffered o opt line s args.
Proof.
  unfold print_pieces, print_buffered. destruct args as [|t rest].
  - destruct line; cbn; [destruct (os_put o s lf); reflexivity|reflexivity].
  - destruct opt; [apply fold_multi|apply fold_plain].
Qed.
Lemma read_alone m n f :
  snd (alone (read_body cf an m n) f) = (match io_read (cf m) (an m) (f m) n with
     | RFine _ got => ORet got 0 | RRaised _ _ | REof _ _ => OThrow | _ => ODead end) /\
  match io_read (cf m) (an m) (f m) n with
  | RFine s _ | RRaised s _ | REof s _ => forall k, fst (alone (read_body cf an m n) f) k = set f m s k
  | _ => True
  end.
Proof. cbn. destruct (io_read _ _ (f m) n); cbn; auto. Qed.
Lemma transmit_rounds_alone o i : o <> i -> forall fuel chars f,
  match transmit_buffered_loop (ob_write (cf o) (an o)) (cf i) (an i) fuel (f i) (f o) chars with
  | TFine s x n => snd (alone (transmit_rounds cf an o i fuel chars) f) = ORet [] n /\
      forall k, fst (alone (transmit_rounds cf an o i fuel chars) f) k = set (set f o x) i s k
  | TRaised s x => snd (alone (transmit_rounds cf an o i fuel chars) f) = OThrow /\
      forall k, fst (alone (transmit_rounds cf an o i fuel chars) f) k = set (set f o x) i s k
  | _ => snd (alone (transmit_rounds cf an o i fuel chars) f) = ODead
  end.
Proof.
  intros Hne. induction fuel as [|fuel IH]; intros chars f; [reflexivity|].
  cbn [transmit_buffered_loop transmit_rounds].
  assert (Next : forall chars g,
    let c := CLoad i (fun s =>
          match io_underflow (cf i) (an i) s with
          | UFine s true => CStore i s (transmit_rounds cf an o i fuel chars)
          | UFine s false => CStore i s (CEnd (ORet [] chars))
          | URaised s => CStore i s (CEnd OThrow)
          | USmashed => CEnd ODead
          end) in
    match (match io_underflow (cf i) (an i) (g i) with
        | UFine s true => transmit_buffered_loop (ob_write (cf o) (an o)) (cf i) (an i) fuel s (g o) chars
        | UFine s false => TFine s (g o) chars
        | URaised s => TRaised s (g o)
        | USmashed => TSmashed
        end) with
    | TFine s x n => snd (alone c g) = ORet [] n /\ forall k, fst (alone c g) k = set (set g o x) i s k
    | TRaised s x => snd (alone c g) = OThrow /\ forall k, fst (alone c g) k = set (set g o x) i s k
    | _ => snd (alone c g) = ODead
    end).
  { intros ch g. cbn [alone].
    assert (Hid : forall s k, set g i s k = set (set g o (g o)) i s k).
    { intros s k. unfold set. destruct (Nat.eqb k i); auto. destruct (Nat.eqb k o) eqn:E; auto. apply Nat.eqb_eq in E. congruence. }
    destruct (io_underflow (cf i) (an i) (g i)) as [s [|]|s|]; cbn [alone]; auto;
      try (split; [reflexivity|exact (Hid s)]).
    specialize (IH ch (set g i s)). rewrite set_same, set_other in IH by congruence.
    destruct (transmit_buffered_loop _ _ _ fuel s (g o) ch) as [s' x' n|s' x'| | |]; auto;
      destruct IH as [H1 H2]; (split; [exact H1|]); intros k; rewrite H2; unfold set; destruct (Nat.eqb k i) eqn:E1; auto;
      destruct (Nat.eqb k o); auto. }
  cbn [alone]. destruct (b_in (f i)) as [|[|z l]|] eqn:Ei.
  - apply Next.
  - apply Next.
  - cbn [alone]. unfold send. destruct (ob_write (cf o) (an o) (f o) (z :: l)) as [x|x|x|]; cbn [alone]; auto.
    + specialize (Next (add64 chars (zlen (z :: l))) (set (set f o x) i (set_in (f i) (IHas [])))).
      rewrite set_same, (set_other _ i _ o), set_same in Next by congruence. cbn zeta in Next.
      match goal with |- match ?r with _ => _ end => destruct r as [s' x' n|s' x'| | |] end; auto;
        destruct Next as [H1 H2]; (split; [exact H1|]); intros k; rewrite H2; unfold set;
        destruct (Nat.eqb k i) eqn:E1; auto; destruct (Nat.eqb k o); auto.
    + split; [reflexivity|]. intros k. cbn [fst]. unfold set. destruct (Nat.eqb k i) eqn:E1; [|reflexivity].
      apply Nat.eqb_eq in E1. destruct (Nat.eqb k o) eqn:E2; [apply Nat.eqb_eq in E2; congruence|]. congruence.
  - reflexivity.
Qed.
Lemma alone_untouched m : forall (c : scmd) held f, works held c -> ~ In m held -> fst (alone c f) m = f m.
Proof.
  induction c as [n k IH|n k IH|n k IH|n s k IH|r]; intros held f H Hm; cbn in *; try contradiction; auto.
  - destruct H as [_ H]. eapply IH; eauto.
  - destruct H as [H1 H]. rewrite (IH _ _ H Hm). apply set_other. intros ->. auto.
Qed.
Lemma shared_untouched x m f : ~ touches x m -> fst (alone (shared cf an x) f) m = f m.
Proof.
  intros Hx. destruct x as [n l|n opt line args|n|n k|o i]; cbn [shared touches] in *.
  - rewrite alone_guard. eapply alone_untouched; [apply pieces_work|]. intros [->|[]]; auto.
  - assert (H : forall fs, fst (alone (lock_guard n (pieces n fs)) f) m = f m).
    { intros fs. rewrite alone_guard. eapply alone_untouched; [apply pieces_work|]. intros [->|[]]; auto. }
    destruct line, args; auto.
  - rewrite alone_guard. eapply alone_untouched; [apply pieces_work|]. intros [->|[]]; auto.
  - rewrite alone_guard. eapply alone_untouched; [apply read_works|]. intros [->|[]]; auto.
  - rewrite !alone_guard. eapply alone_untouched; [apply transmit_body_works|]. intros [->|[->|[]]]; auto.
Qed.

(** An output call on a stream over a device that takes everything. *)
Lemma output_alone m x f :
  (0 < c_bfs (cf m))%nat -> takes_all (an m) -> binv (cf m) (f m) -> is_output x -> call_ok x -> touches x m ->
  binv (cf m) (fst (alone (shared cf an x) f) m) /\ ball (fst (alone (shared cf an x) f) m) = ball (f m) ++ text_on m x /\
  snd (alone (shared cf an x) f) = ORet [] 0.
Proof.
  intros Hb Ha Hi Ho Hc Ht.
  assert (Go : forall fs t, (exists s', fold_pieces fs (f m) = Fine s' /\ binv (cf m) s' /\ ball s' = ball (f m) ++ t) ->
     binv (cf m) (fst (alone (lock_guard m (pieces m fs)) f) m) /\
     ball (fst (alone (lock_guard m (pieces m fs)) f) m) = ball (f m) ++ t /\
     snd (alone (lock_guard m (pieces m fs)) f) = ORet [] 0).
  { intros fs t (s' & E & H1 & H2). rewrite alone_guard. pose proof (pieces_alone m fs f) as [H3 H4]. rewrite E in H3, H4.
    rewrite (H4 m), set_same. auto. }
  pose proof (fun x => oop_goes eq (cf m) (an m) okrel_eq (dev_good_eq _ Ha) Hb (f m) x Hi) as G.
  destruct x as [n l|n opt line args|n|n k|o i]; cbn [is_output touches call_ok] in *; try contradiction; subst n; cbn [text_on shared];
    rewrite ?Nat.eqb_refl.
  - apply Go. destruct (G (OWrite l) I) as (s' & E & H1 & H2). exists s'. cbn in E |- *. rewrite E. auto.
  - destruct (G (OPrint opt line args) Hc) as (s' & E & H1 & H2). cbn [do_oop said] in E, H2.
    assert (H : (line = false /\ args = []) \/ shared cf an (SPrint m opt line args) = lock_guard m (pieces m (print_pieces (out_of cf an m) opt line args))).
    { destruct line, args; auto. }
    destruct H as [[-> ->]|H].
    + cbn. rewrite app_nil_r. auto.
    + cbn [shared] in H. rewrite H. apply Go. exists s'. rewrite fold_print. auto.
  - apply Go. destruct (G OFlush I) as (s' & E & H1 & H2). exists s'. cbn in E, H2 |- *. rewrite E. auto.
Qed.
Lemma output_run m T : (0 < c_bfs (cf m))%nat -> takes_all (an m) ->
  (forall t x, In x (T t) -> touches x m -> is_output x /\ call_ok x) ->
  forall order f, binv (cf m) (f m) ->
  binv (cf m) (one_by_one (work cf an T) order f m) /\
  ball (one_by_one (work cf an T) order f m) = ball (f m) ++ concat (map (text_of_call T m) order).
Proof.
  intros Hb Ha HT. induction order as [|[t i] order IH]; intros f Hi; cbn.
  - rewrite app_nil_r. auto.
  - unfold call, work, text_of_call, nth_call. cbn [fst snd]. rewrite nth_error_map.
    destruct (nth_error (T t) i) as [x|] eqn:E; cbn [option_map]; [|apply IH; exact Hi].
    assert (Hdec : touches x m \/ ~ touches x m).
    { destruct x; cbn; try (destruct (Nat.eq_dec m0 m); auto; fail). destruct (Nat.eq_dec out m), (Nat.eq_dec inp m); tauto. }
    destruct Hdec as [Ht|Ht].
    + destruct (HT t x (nth_error_In _ _ E) Ht) as [H1 H2].
      destruct (output_alone m x f Hb Ha Hi H1 H2 Ht) as (A & B & _).
      destruct (IH _ A) as [C D]. split; [exact C|]. unfold work in D. rewrite D, B, <- app_assoc. reflexivity.
    + pose proof (shared_untouched x m f Ht) as Hu.
      assert (Hx : text_on m x = []).
      { destruct x; cbn in *; auto; (destruct (Nat.eqb m0 m) eqn:En; [apply Nat.eqb_eq in En; tauto|reflexivity]). }
      rewrite Hx. cbn [app]. rewrite <- Hu. apply IH. rewrite Hu. exact Hi.
Qed.
End Calls.
