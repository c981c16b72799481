(** The properties of streams shared by threads through a mutex: C67, C68. *)
From Verif Require Import Base BufModel PrintModel BufSpec BufOutProofs TransmitModel LockModel LockSpec LockProofs
  LockRun SharedModel SharedSpec SharedProofs.

(** ** C67: calls on shared streams take effect one at a time *)
(** For any number of threads, any calls (write, print, println, flush, read, transmit) on any number of shared
    streams, any devices (also throwing ones) and every schedule, the run up to any moment is explained by the calls
    taking effect one by one, undisturbed, in some order. *)
Theorem C67_one_at_a_time : forall cf an T mem0 tr w,
  steps (work cf an T) (start mem0) tr w ->
  exists order, explains (work cf an T) mem0 tr w order.
Proof.
  intros cf an T mem0 tr w H. destruct (inv_steps _ _ _ _ (work_disciplined cf an T) H) as [lin HI].
  exists lin. apply inv_explains. exact HI.
Qed.
Print Assumptions C67_one_at_a_time.

(** An undisturbed call does what the call on the stream inside does (PrintModel, BufModel, TransmitModel). *)
Theorem C67_alone_print : forall cf an m opt line args f,
  leaves f m (print_buffered (bios_stream (cf m) (an m)) opt line (f m) args) (alone (shared cf an (SPrint m opt line args)) f).
Proof.
  intros cf an m opt line args f.
  assert (H : leaves f m (print_buffered (bios_stream (cf m) (an m)) opt line (f m) args)
                (alone (lock_guard m (pieces m (print_pieces (out_of cf an m) opt line args))) f)).
  { rewrite alone_guard. rewrite <- fold_print. apply pieces_alone. }
  destruct line, args; auto.
Qed.
Print Assumptions C67_alone_print.
Theorem C67_alone_write : forall cf an m l f,
  leaves f m (ob_write (cf m) (an m) (f m) l) (alone (shared cf an (SWrite m l)) f).
Proof.
  intros cf an m l f. cbn [shared]. rewrite alone_guard. pose proof (pieces_alone m [fun s => ob_write (cf m) (an m) s l] f) as H.
  cbn [fold_pieces] in H. destruct (ob_write (cf m) (an m) (f m) l); exact H.
Qed.
Print Assumptions C67_alone_write.
Theorem C67_alone_flush : forall cf an m f,
  leaves f m (io_flush (cf m) (an m) (f m)) (alone (shared cf an (SFlush m)) f).
Proof.
  intros cf an m f. cbn [shared]. rewrite alone_guard. pose proof (pieces_alone m [io_flush (cf m) (an m)] f) as H.
  cbn [fold_pieces] in H. destruct (io_flush (cf m) (an m) (f m)); exact H.
Qed.
Print Assumptions C67_alone_flush.
Theorem C67_alone_read : forall cf an m n f,
  match io_read (cf m) (an m) (f m) n with
  | RFine s got => snd (alone (shared cf an (SRead m n)) f) = ORet got 0 /\
      forall k, fst (alone (shared cf an (SRead m n)) f) k = set f m s k
  | RRaised s _ | REof s _ => snd (alone (shared cf an (SRead m n)) f) = OThrow /\
      forall k, fst (alone (shared cf an (SRead m n)) f) k = set f m s k
  | _ => snd (alone (shared cf an (SRead m n)) f) = ODead
  end.
Proof.
  intros cf an m n f. cbn [shared]. rewrite alone_guard. pose proof (read_alone cf an m n f) as [H1 H2].
  destruct (io_read (cf m) (an m) (f m) n); auto.
Qed.
Print Assumptions C67_alone_read.
Theorem C67_alone_transmit : forall cf an o i f, o <> i ->
  match transmit_buffered (ob_write (cf o) (an o)) (cf i) (an i) (f i) (f o) with
  | TFine s x n => snd (alone (shared cf an (STransmit o i)) f) = ORet [] n /\
      forall k, fst (alone (shared cf an (STransmit o i)) f) k = set (set f o x) i s k
  | TRaised s x => snd (alone (shared cf an (STransmit o i)) f) = OThrow /\
      forall k, fst (alone (shared cf an (STransmit o i)) f) k = set (set f o x) i s k
  | _ => snd (alone (shared cf an (STransmit o i)) f) = ODead
  end.
Proof.
  intros cf an o i f Hne. cbn [shared]. rewrite !alone_guard. unfold transmit_buffered.
  change (alone (transmit_body cf an o i) f) with (alone (transmit_rounds cf an o i (loop_fuel (d_src (b_dev (f i)))) 0) f).
  apply transmit_rounds_alone. exact Hne.
Qed.
Print Assumptions C67_alone_transmit.

(** In particular prints do not mix: whenever the mutex of an output stream is free, the stream has got the texts of
    the calls in [order], whole and one after the other: of every call that is over and of no call that was not
    made, each once, those of one thread in the order it made them, and a call that was over before another one
    (of any thread) was made before that one. *)
Theorem C67_prints_do_not_mix : forall cf an T m mem0 tr w,
  c_out (cf m) = true -> (0 < c_bfs (cf m))%nat -> takes_all (an m) -> (length (pending (mem0 m)) <= c_bfs (cf m))%nat ->
  (forall t x, In x (T t) -> touches x m -> is_output x /\ call_ok x) ->
  steps (work cf an T) (start mem0) tr w -> owner w m = None ->
  exists order,
    device_got (mem w m) ++ pending (mem w m) =
      device_got (mem0 m) ++ pending (mem0 m) ++ concat (map (text_of_call T m) order) /\
    NoDup order /\
    (forall o r, ended o r tr -> In o order) /\ (forall o, In o order -> began o tr) /\
    (forall o o', In o' order -> precedes o o' tr -> before o o' order) /\
    (forall t i j, (i < j)%nat -> In (t, j) order -> before (t, i) (t, j) order) /\
    (forall o r x, ended o r tr -> nth_call T o = Some x -> touches x m -> r = ORet [] 0).
Proof.
  intros cf an T m mem0 tr w Ho Hb Ha Hp HT H Hw.
  destruct (inv_steps _ _ _ _ (work_disciplined cf an T) H) as [lin HI].
  assert (Hi : binv (cf m) (mem0 m)) by (split; auto; unfold pending in Hp; destruct (b_out (mem0 m)); auto).
  destruct (output_run cf an m T Hb Ha HT lin mem0 Hi) as [_ Hrun].
  pose proof (inv_explains _ _ _ _ _ HI) as (E1 & E2 & E3 & E4 & E5 & E6 & E7).
  exists lin. split; [|split; [|split; [|split; [|split; [|split]]]]]; auto.
  - rewrite app_assoc. rewrite (E7 m Hw). exact Hrun.
  - intros o r x He Hx Ht. pose proof (E2 o r He) as Hin. apply in_split in Hin. destruct Hin as (pre & post & Hl).
    pose proof (E6 o r pre post He Hl) as Hout. unfold outcome_of, call, work in Hout. rewrite nth_error_map in Hout.
    unfold nth_call in Hx. rewrite Hx in Hout. cbn [option_map] in Hout. injection Hout as <-.
    destruct (HT (fst o) x (nth_error_In _ _ Hx) Ht) as [A B].
    destruct (output_run cf an m T Hb Ha HT pre mem0 Hi) as [Hbi _].
    apply (output_alone cf an m x _ Hb Ha Hbi A B Ht).
Qed.
Print Assumptions C67_prints_do_not_mix.
(** When every thread is done, all the texts are there. *)
Theorem C67_all_prints_arrive : forall cf an T m mem0 tr w,
  c_out (cf m) = true -> (0 < c_bfs (cf m))%nat -> takes_all (an m) -> (length (pending (mem0 m)) <= c_bfs (cf m))%nat ->
  (forall t x, In x (T t) -> touches x m -> is_output x /\ call_ok x) ->
  steps (work cf an T) (start mem0) tr w -> all_done (work cf an T) w ->
  exists order,
    device_got (mem w m) ++ pending (mem w m) =
      device_got (mem0 m) ++ pending (mem0 m) ++ concat (map (text_of_call T m) order) /\
    NoDup order /\ (forall t i, In (t, i) order <-> (i < length (T t))%nat) /\
    (forall t i j, (i < j)%nat -> In (t, j) order -> before (t, i) (t, j) order).
Proof.
  intros cf an T m mem0 tr w Ho Hb Ha Hp HT H Hd.
  destruct (inv_steps _ _ _ _ (work_disciplined cf an T) H) as [lin HI].
  assert (Hi : binv (cf m) (mem0 m)) by (split; auto; unfold pending in Hp; destruct (b_out (mem0 m)); auto).
  destruct (output_run cf an m T Hb Ha HT lin mem0 Hi) as [_ Hrun].
  pose proof (inv_explains _ _ _ _ _ HI) as (E1 & E2 & E3 & E4 & E5 & E6 & E7).
  assert (Hw : owner w m = None).
  { destruct (owner w m) as [t|] eqn:E; auto. pose proof (i_thr _ _ _ _ _ HI t) as Tt. unfold thread_ok in Tt.
    rewrite (proj1 (Hd t)) in Tt. destruct Tt as [Tt _]. destruct (Tt m E). }
  exists lin. split; [rewrite app_assoc, (E7 m Hw); exact Hrun|]. split; auto. split; auto.
  intros t i. destruct (Hd t) as [D1 D2]. apply nth_error_None in D2. unfold work in D2. rewrite map_length in D2.
  pose proof (i_thr _ _ _ _ _ HI t) as Tt. unfold thread_ok in Tt. rewrite D1 in Tt. destruct Tt as [_ Tt].
  split; [|intros Hl; apply Tt; lia]. intros Hin. apply (i_lin _ _ _ _ _ HI) in Hin.
  pose proof (next_bound _ _ _ _ H t) as Hnb. unfold work in Hnb. rewrite map_length in Hnb. lia.
Qed.
Print Assumptions C67_all_prints_arrive.

(** *** A run of two threads *)
Definition run_cf : nat -> config := fun _ => mk_config 4 false false true false.
Definition run_an : nat -> answers := fun _ _ n => (n, true).
Definition run_T : nat -> list shared_call := fun t =>
  match t with
  | 0%nat => [SPrint 0 false true [PScatter [97; 98]; PScatter [99]]]
  | 1%nat => [SPrint 0 false true [PScatter [49; 50]; PScatter [51]]; SFlush 0]
  | _ => []
  end.
Definition run_mem : nat -> bios := fun _ => mk_bios (mk_dev [] []) None INull.
(** The two threads take turns as the locks allow; the second one's first print waits for the first one's. *)
Definition run_order : list nat := [0; 1; 0; 0; 0; 0; 0; 0; 0; 1; 1; 1; 1; 1; 1; 1; 1; 1; 1; 1; 1; 1]%nat.
Example C67_hypotheses_met : exists tr w,
  steps (work run_cf run_an run_T) (start run_mem) tr w /\ all_done (work run_cf run_an run_T) w /\
  c_out (run_cf 0%nat) = true /\ (0 < c_bfs (run_cf 0%nat))%nat /\ takes_all (run_an 0%nat) /\
  (length (pending (run_mem 0%nat)) <= c_bfs (run_cf 0%nat))%nat /\
  (forall t x, In x (run_T t) -> touches x 0 -> is_output x /\ call_ok x) /\
  device_got (mem w 0%nat) = [97; 98; 99; 10; 49; 50; 51; 10] /\ pending (mem w 0%nat) = [].
Proof.
  destruct (runs (work run_cf run_an run_T) (start run_mem) run_order) as [[tr w]|] eqn:E; [|vm_compute in E; discriminate].
  exists tr, w. split; [apply (runs_steps _ _ _ _ _ E)|]. cbv in E. injection E as <- <-.
  split. { intros [|[|[|t]]]; split; reflexivity. }
  split; [reflexivity|]. split; [cbn; lia|]. split; [intros k n; split; [apply le_n|reflexivity]|]. split; [cbn; lia|].
  split.
  { intros [|[|t]] x Hx _; cbn in Hx; [| |destruct Hx].
    - destruct Hx as [<-|[]]. split; [exact I|]. repeat constructor; cbn; lia.
    - destruct Hx as [<-|[<-|[]]]; (split; [exact I|]); [repeat constructor; cbn; lia|exact I]. }
  split; reflexivity.
Qed.
(** The locks are needed: the same prints on the streams inside, without the guards, can lose text in the model. *)
Definition run_bare : calls bios outcome := fun t =>
  match t with
  | 0%nat => [pieces 0 (print_pieces (out_of run_cf run_an 0) false true [PScatter [97; 98]; PScatter [99]])]
  | 1%nat => [pieces 0 (print_pieces (out_of run_cf run_an 0) false true [PScatter [49; 50]; PScatter [51]])]
  | _ => []
  end.
Example C67_unguarded_prints_mix : exists tr w,
  steps run_bare (start run_mem) tr w /\ all_done run_bare w /\
  device_got (mem w 0%nat) ++ pending (mem w 0%nat) = [49; 50; 99; 10; 51; 10].
Proof.
  destruct (runs run_bare (start run_mem) [0; 1; 0; 1; 0; 1; 0; 0; 0; 1; 1; 1]%nat) as [[tr w]|] eqn:E; [|vm_compute in E; discriminate].
  exists tr, w. split; [apply (runs_steps _ _ _ _ _ E)|]. cbv in E. injection E as <- <-.
  split; [intros [|[|[|t]]]; split; reflexivity|reflexivity].
Qed.

(** ** C68: threads sharing streams never block each other for good *)
(** The full claim, for all threads and calls: whenever some thread has something left to do, some thread can go on.
    It holds when the streams can be numbered so that every transmit reads from a lower one than it writes to. *)
Theorem C68_never_stuck_partial : forall cf an T (rank : nat -> nat) top mem0 tr w,
  (forall t x m, In x (T t) -> touches x m -> (rank m < top)%nat) ->
  (forall t o i, In (STransmit o i) (T t) -> (rank i < rank o)%nat) ->
  steps (work cf an T) (start mem0) tr w -> forall t, unfinished (work cf an T) w t -> can_go_on (work cf an T) w.
Proof.
  intros cf an T rank top mem0 tr w H1 H2 H t. apply (no_deadlock _ rank top mem0 tr w t); auto.
  - apply work_disciplined.
  - intros u c Hc. apply in_map_iff in Hc. destruct Hc as (x & <- & Hx). apply shared_in_order; eauto.
    intros o i ->. eauto.
Qed.
Print Assumptions C68_never_stuck_partial.
(** Nor do finitely many threads go on forever: every run, however scheduled, ends, and then everything is done. *)
Theorem C68_runs_end : forall cf an T n mem0, (forall t, (n <= t)%nat -> T t = []) ->
  forall f, f 0%nat = start mem0 -> ~ (forall i, exists e, step (work cf an T) (f i) e (f (S i))).
Proof.
  intros cf an T n mem0 Hn. apply (no_infinite_run _ n). intros t Ht. unfold work. rewrite (Hn t Ht). reflexivity.
Qed.
Print Assumptions C68_runs_end.
Theorem C68_runs_complete_partial : forall cf an T n (rank : nat -> nat) top mem0 tr w,
  (forall t, (n <= t)%nat -> T t = []) ->
  (forall t x m, In x (T t) -> touches x m -> (rank m < top)%nat) ->
  (forall t o i, In (STransmit o i) (T t) -> (rank i < rank o)%nat) ->
  steps (work cf an T) (start mem0) tr w ->
  exists tr' w', steps (work cf an T) w tr' w' /\ all_done (work cf an T) w'.
Proof.
  intros cf an T n rank top mem0 tr w Hn H1 H2 H. eapply (can_complete _ n mem0); eauto.
  - intros t Ht. unfold work. rewrite (Hn t Ht). reflexivity.
  - intros. eapply C68_never_stuck_partial; eauto.
Qed.
Print Assumptions C68_runs_complete_partial.
(** Without transmits nothing more is needed. *)
Theorem C68_no_transmit : forall cf an T mem0 tr w,
  (forall t o i, ~ In (STransmit o i) (T t)) ->
  steps (work cf an T) (start mem0) tr w -> forall t, unfinished (work cf an T) w t -> can_go_on (work cf an T) w.
Proof.
  intros cf an T mem0 tr w HT. apply (C68_never_stuck_partial cf an T (fun _ => 0%nat) 1%nat); [lia|].
  intros t o i Hi. destruct (HT _ _ _ Hi).
Qed.
Print Assumptions C68_no_transmit.
Example C68_hypotheses_met :
  (forall t x m, In x (run_T t) -> touches x m -> (0 < 1)%nat) /\ (forall t o i, ~ In (STransmit o i) (run_T t)) /\
  unfinished (work run_cf run_an run_T) (start run_mem) 0%nat /\
  (* copying 1 to 2 and 0 to 1 while 0 is read *)
  let T := fun t => match t with 0%nat => [STransmit 2 1] | 1%nat => [STransmit 1 0] | 2%nat => [SRead 0 3] | _ => [] end in
  (forall t x m, In x (T t) -> touches x m -> (m < 3)%nat) /\ (forall t o i, In (STransmit o i) (T t) -> (i < o)%nat).
Proof.
  split; [lia|]. split.
  { intros [|[|t]] o i; cbn; intros H; repeat destruct H as [H|H]; try discriminate; auto. }
  split; [right; discriminate|]. cbv zeta. split.
  - intros [|[|[|t]]] x m; cbn; intros H; repeat destruct H as [<-|H]; try destruct H; cbn; lia.
  - intros [|[|[|t]]] o i; cbn; intros H; repeat destruct H as [H|H]; try discriminate; try contradiction; injection H as <- <-; lia.
Qed.

(** Refutation: transmit locks its input, then its output.  Two threads copying between the same two streams in
    opposite directions can block each other forever, whatever the streams hold... *)
Theorem C68_opposite_transmits_refuted : forall cf an mem0,
  let T := fun t => match t with 0%nat => [STransmit 0 1] | 1%nat => [STransmit 1 0] | _ => [] end in
  exists tr w, steps (work cf an T) (start mem0) tr w /\
    unfinished (work cf an T) w 0 /\ unfinished (work cf an T) w 1 /\ ~ can_go_on (work cf an T) w.
Proof.
  intros cf an mem0 T.
  destruct (runs (work cf an T) (start mem0) [0; 0; 1; 1]%nat) as [[tr w]|] eqn:E; [|cbn in E; discriminate].
  exists tr, w. split; [apply (runs_steps _ _ _ _ _ E)|]. cbn in E. injection E as <- <-.
  split; [left; cbn; discriminate|]. split; [left; cbn; discriminate|].
  apply stuck_go. intros [|[|t]]; reflexivity.
Qed.
Print Assumptions C68_opposite_transmits_refuted.
(** ... and one thread copying a stream to itself waits for itself. *)
Theorem C68_self_transmit_refuted : forall cf an mem0,
  let T := fun t => match t with 0%nat => [STransmit 0 0] | _ => [] end in
  exists tr w, steps (work cf an T) (start mem0) tr w /\
    unfinished (work cf an T) w 0 /\ ~ can_go_on (work cf an T) w.
Proof.
  intros cf an mem0 T.
  destruct (runs (work cf an T) (start mem0) [0; 0]%nat) as [[tr w]|] eqn:E; [|cbn in E; discriminate].
  exists tr, w. split; [apply (runs_steps _ _ _ _ _ E)|]. cbn in E. injection E as <- <-.
  split; [left; cbn; discriminate|].
  apply stuck_go. intros [|t]; reflexivity.
Qed.
Print Assumptions C68_self_transmit_refuted.
