(** The properties of buffered streams, print, read_all and write_all: C30 - C33, C49 - C51. *)
From Verif Require Import Base BufModel PrintModel BufSpec BufOutProofs BufInProofs BufRunProofs
  WriteAllModel WriteAllSpec WriteAllProofs.

(** ** C30 *)
Lemma fresh_binv c src : c_out c = true -> binv c (fresh src).
Proof. intros H. split; cbn; auto. Qed.
Lemma do_oops_app c a : forall xs ys s, do_oops c a s (xs ++ ys) = (then! s := do_oops c a s xs in do_oops c a s ys).
Proof.
  induction xs as [|x xs IH]; intros ys s; cbn; [reflexivity|]. destruct (do_oop c a s x); cbn; auto.
Qed.

(** Every byte said is either delivered or still in the buffer, in order, and the buffer is within its size. *)
Theorem C30_nothing_lost : forall c a src xs,
  c_out c = true -> (0 < c_bfs c)%nat -> takes_all a -> Forall oop_ok xs ->
  exists s, do_oops c a (fresh src) xs = Fine s /\
    device_got s ++ pending s = concat (map said xs) /\ (length (pending s) <= c_bfs c)%nat.
Proof.
  intros c a src xs Ho Hb Ha Hx.
  destruct (oops_goes eq c a okrel_eq (dev_good_eq a Ha) Hb xs (fresh src) (fresh_binv c src Ho) Hx) as (s & E & [Hi1 Hi2] & Hr).
  exists s. split; auto. split; [exact Hr|]. unfold pending. destruct (b_out s); cbn; lia.
Qed.
Print Assumptions C30_nothing_lost.
(** After a flush, a close or the destructor the device has everything. *)
Theorem C30_flush_delivers : forall c a src xs,
  c_out c = true -> (0 < c_bfs c)%nat -> takes_all a -> Forall oop_ok xs ->
  exists s, do_oops c a (fresh src) (xs ++ [OFlush]) = Fine s /\
    device_got s = concat (map said xs) /\ pending s = [].
Proof.
  intros c a src xs Ho Hb Ha Hx.
  destruct (oops_goes eq c a okrel_eq (dev_good_eq a Ha) Hb xs (fresh src) (fresh_binv c src Ho) Hx) as (s & E & Hi & Hr).
  destruct (ioflush_goes eq c a okrel_eq (dev_good_eq a Ha) Hb s Hi) as (s' & E' & Hi' & Hp & Hd).
  exists s'. rewrite do_oops_app, E. cbn. rewrite E'. cbn. split; auto.
  unfold ball in *. rewrite Hd, Hr. cbn. auto.
Qed.
Print Assumptions C30_flush_delivers.
Theorem C30_close_delivers : forall c a src xs,
  c_out c = true -> (0 < c_bfs c)%nat -> takes_all a -> Forall oop_ok xs ->
  exists s, (then! s := do_oops c a (fresh src) xs in io_close c a s) = Fine s /\ device_got s = concat (map said xs).
Proof.
  intros c a src xs Ho Hb Ha Hx.
  destruct (oops_goes eq c a okrel_eq (dev_good_eq a Ha) Hb xs (fresh src) (fresh_binv c src Ho) Hx) as (s & E & Hi & Hr).
  destruct (close_goes eq c a okrel_eq (dev_good_eq a Ha) Hb s Hi) as (s' & E' & Hi' & Hp & Hd).
  exists s'. rewrite E. cbn. rewrite E'. split; auto. rewrite Hd, Hr. reflexivity.
Qed.
Print Assumptions C30_close_delivers.
Theorem C30_destructor_delivers : forall c a src xs,
  c_out c = true -> (0 < c_bfs c)%nat -> takes_all a -> Forall oop_ok xs ->
  exists s d, do_oops c a (fresh src) xs = Fine s /\ io_destroy c a s = Some d /\ delivered (d_log d) = concat (map said xs).
Proof.
  intros c a src xs Ho Hb Ha Hx.
  destruct (oops_goes eq c a okrel_eq (dev_good_eq a Ha) Hb xs (fresh src) (fresh_binv c src Ho) Hx) as (s & E & Hi & Hr).
  destruct (destroy_goes eq c a okrel_eq (dev_good_eq a Ha) s Hi) as (d & E' & Hd).
  exists s, d. rewrite Hd, Hr. auto.
Qed.
Print Assumptions C30_destructor_delivers.

(** A device that sometimes takes only a part of a write and never throws: nothing is duplicated or reordered, but
    what it did not take is gone. *)
Theorem C30_no_duplication_partial : forall c a src xs,
  c_out c = true -> (0 < c_bfs c)%nat -> never_throws a -> Forall oop_ok xs ->
  exists s d, do_oops c a (fresh src) xs = Fine s /\ subseq (device_got s ++ pending s) (concat (map said xs)) /\
    io_destroy c a s = Some d /\ subseq (delivered (d_log d)) (concat (map said xs)).
Proof.
  intros c a src xs Ho Hb Ha Hx.
  destruct (oops_goes subseq c a okrel_sub (dev_good_sub a Ha) Hb xs (fresh src) (fresh_binv c src Ho) Hx) as (s & E & Hi & Hr).
  destruct (destroy_goes subseq c a okrel_sub (dev_good_sub a Ha) s Hi) as (d & E' & Hd).
  exists s, d. split; [exact E|]. split; [exact Hr|]. split; [exact E'|].
  eapply subseq_trans; [exact Hd|exact Hr].
Qed.
Print Assumptions C30_no_duplication_partial.
(** A device that takes all or throws having taken nothing, behind a scatter write: an operation that throws leaves no
    trace, the others are delivered (print is excluded, see C30_print_terminates_refuted). *)
Theorem C30_failed_write_partial : forall c a src xs,
  c_out c = true -> (0 < c_bfs c)%nat -> c_scatter c = true -> throws_clean a -> all_or_throw a -> Forall not_print xs ->
  exists s t, run_catch c a (fresh src) xs = Some (s, t) /\ device_got s ++ pending s = t.
Proof.
  intros c a src xs Ho Hb Hs Hc Ha Hx.
  destruct (catch_clean c a Hc Ha Hb Hs xs (fresh src) (fresh_binv c src Ho) Hx) as (s & t & E & _ & H).
  exists s, t. split; auto.
Qed.
Print Assumptions C30_failed_write_partial.

(** Refuted for a device that takes only a part of a write (write(2) on a pipe, a socket or a full disk): the rest is
    lost silently, output_normal.h 62-98 and posix.h 542-567 make one call and ignore its result. *)
Definition one_at_a_time : answers := fun k n => (1%nat, true).
Theorem C30_short_write_refuted : exists c a xs s,
  c_out c = true /\ never_throws a /\ do_oops c a (fresh []) (xs ++ [OFlush]) = Fine s /\ pending s = [] /\
  concat (map said xs) = [97; 98; 99] /\ device_got s = [97].
Proof.
  exists (mk_config 16 false false true false), one_at_a_time, [OWrite [97; 98; 99]],
    (mk_bios (mk_dev [Wrote [97]] []) (Some []) INull).
  repeat split.
Qed.
Print Assumptions C30_short_write_refuted.
(** Refuted for a device without scatter write which throws (having taken nothing): the pending bytes went out before
    the exception but stay in the buffer, and go out again. *)
Definition second_throws : answers := fun k n => if Nat.eqb k 1 then (0%nat, false) else (n, true).
Theorem C30_exception_duplicates_refuted : exists c a xs s t d,
  c_out c = true /\ throws_clean a /\ all_or_throw a /\
  concat (map said xs) = [97; 98; 99] /\ run_catch c a (fresh []) xs = Some (s, t) /\
  io_destroy c a s = Some d /\ delivered (d_log d) = [97; 97].
Proof.
  exists (mk_config 2 false false true false), second_throws, [OWrite [97]; OWrite [98; 99]],
    (mk_bios (mk_dev [Wrote [97]; Wrote []] []) (Some [97]) INull), [97],
    (mk_dev [Wrote [97]; Wrote []; Wrote [97]] []).
  split; [reflexivity|]. split.
  { intros k n. unfold second_throws. destruct (Nat.eqb k 1); cbn; congruence. }
  split; [|repeat split].
  intros k n. unfold second_throws. destruct (Nat.eqb k 1); cbn; [discriminate|lia].
Qed.
Print Assumptions C30_exception_duplicates_refuted.
(** Refuted for print over a device that throws: obuffer_constant_flush_prepare is noexcept (general.h 30-45), the
    program is terminated. *)
Theorem C30_print_terminates_refuted : exists c a xs s,
  c_out c = true /\ Forall oop_ok xs /\ throws_clean a /\ all_or_throw a /\
  do_oops c a (fresh []) xs = Died s.
Proof.
  exists (mk_config 4 true false true false), (fun _ _ => (0%nat, false)),
    [OWrite [97; 98; 99]; OPrint true false [PReserve 2 [52; 50]]],
    (mk_bios (mk_dev [Wrote []] []) (Some [97; 98; 99]) INull).
  split; [reflexivity|]. split; [repeat constructor|].
  split; [intros k n; reflexivity|]. split; [intros k n; cbn; discriminate|]. reflexivity.
Qed.
Print Assumptions C30_print_terminates_refuted.
Example C30_not_vacuous :
  let c := mk_config 4 false false true false in
  let a : answers := fun k n => (n, true) in
  takes_all a /\
  Forall oop_ok [OWrite [97; 98; 99]; OPut 100; OPut 101; OPrint true true [PReserve 3 [52; 50]; PScatter [102; 103; 104; 105; 106]]] /\
  exists s, do_oops c a (fresh [])
    [OWrite [97; 98; 99]; OPut 100; OPut 101; OPrint true true [PReserve 3 [52; 50]; PScatter [102; 103; 104; 105; 106]]] = Fine s
    /\ device_got s = [97; 98; 99; 100; 101; 52; 50; 102; 103; 104; 105; 106] /\ pending s = [10].
Proof.
  cbn zeta. split; [intros k n; cbn; lia|]. split; [repeat constructor|].
  eexists. split; [reflexivity|]. split; reflexivity.
Qed.

(** ** C31 *)
(** Whatever short reads the device makes, what was handed to the caller followed by what is still to be read is the
    input of the device. *)
Theorem C31_nothing_lost : forall c a src xs,
  (c_out c = true \/ Forall no_output xs) -> (0 < c_bfs c)%nat -> never_throws a ->
  exists s got, run_in c a (fresh src) xs = Some (s, got) /\ got ++ left_over s = src.
Proof.
  intros c a src xs Ho Hb Ha.
  destruct (run_in_accounts c a Ha Hb xs (fresh src) Ho I) as (s & got & E & H); [cbn; discriminate|].
  exists s, got. auto.
Qed.
Print Assumptions C31_nothing_lost.
(** A refill of a used-up buffer answers false exactly when nothing came. *)
Theorem C31_refill_answer : forall c a s, never_throws a -> b_in s <> ITorn -> unread s = [] ->
  exists s' more, io_underflow c a s = UFine s' more /\ left_over s' = left_over s /\ (more = true <-> unread s' <> []).
Proof.
  intros c a s Ha Ht Hu. destruct (refill_step c a Ha s Ht Hu) as (s' & m & H1 & _ & H2 & H3). eauto.
Qed.
Print Assumptions C31_refill_answer.
(** With a device that may throw: a read never stores outside its buffers or the range, and whatever it stored in the
    caller's range (even when it throws) together with what is left is what there was. *)
Theorem C31_throwing_read_partial : forall c a s n, b_in s <> ITorn ->
  match io_read c a s n with
  | RFine s' got => got ++ left_over s' = left_over s /\ (length got <= n)%nat
  | RRaised s' got => got ++ left_over s' = left_over s
  | _ => False
  end.
Proof.
  intros c a s n Ht. destruct (read_accounts c a s n Ht) as [H1 H2]. destruct (io_read c a s n); cbn in *; tauto.
Qed.
Print Assumptions C31_throwing_read_partial.
(** Refuted for a device whose first read throws: buffer_curr stays null while buffer_end does not
    (input_normal.h 34-39), the next read computes with both (undefined behaviour). *)
Definition first_throws : answers := fun k n => if Nat.eqb k 0 then (0%nat, false) else (n, true).
Theorem C31_torn_refuted : exists c a s, c_in c = true /\
  io_read c a (fresh [97; 98]) 1 = RRaised s [] /\ io_read c a s 1 = RSmashed.
Proof.
  exists (mk_config 4 false true false false), first_throws, (mk_bios (mk_dev [Asked 4] [97; 98]) None ITorn).
  repeat split.
Qed.
Print Assumptions C31_torn_refuted.
(** Refuted for a stream opened for both directions: flush (general.h 6-18), and the first print (general.h 30-45),
    discard input that was read from the device but not handed over. *)
Theorem C31_flush_discards_refuted : exists c a s s',
  c_in c = true /\ c_out c = true /\ takes_all a /\
  io_read c a (fresh [97; 98; 99]) 1 = RFine s [97] /\ left_over s = [98; 99] /\
  io_flush c a s = Fine s' /\ left_over s' = [].
Proof.
  exists (mk_config 4 false true true false), (fun _ n => (n, true)),
    (mk_bios (mk_dev [Asked 4] []) None (IHas [98; 99])), (mk_bios (mk_dev [Asked 4] []) None (IHas [])).
  repeat split; cbn; lia.
Qed.
Print Assumptions C31_flush_discards_refuted.
Theorem C31_print_discards_refuted : exists c a s s',
  c_in c = true /\ c_out c = true /\ takes_all a /\
  io_read c a (fresh [97; 98; 99]) 1 = RFine s [97] /\ left_over s = [98; 99] /\
  do_oop c a s (OPrint true false [PReserve 2 [52; 50]]) = Fine s' /\ left_over s' = [].
Proof.
  exists (mk_config 4 false true true false), (fun _ n => (n, true)),
    (mk_bios (mk_dev [Asked 4] []) None (IHas [98; 99])),
    (mk_bios (mk_dev [Asked 4] []) (Some [52; 50]) (IHas [])).
  repeat split; cbn; lia.
Qed.
Print Assumptions C31_print_discards_refuted.
Example C31_not_vacuous :
  let c := mk_config 4 false true true true in
  let a : answers := fun k n => (S (k mod 3), true) in
  never_throws a /\
  exists s, run_in c a (fresh [1; 2; 3; 4; 5; 6; 7; 8; 9])
    [IRead 1; IRefill; ITake 1; IOut [100]; IRead 6; IReadAll 2] = Some (s, [1; 2; 3; 4; 5; 6]) /\ left_over s = [7; 8; 9].
Proof.
  cbn zeta. split; [intros k n; reflexivity|].
  exists (mk_bios (mk_dev [Asked 4; Asked 4; Wrote [100]; Asked 5; Asked 4] [7; 8; 9]) (Some []) (IHas [])).
  split; vm_compute; reflexivity.
Qed.

(** ** C32 *)
(** On a device that delivers at least one character unless it is at its end: read_all returns exactly the next [n]
    characters, or reports end_of_file when fewer are left. *)
Theorem C32_fills_or_eof : forall c a s n,
  (0 < c_bfs c)%nat -> honest_reads a -> b_in s <> ITorn ->
  ((n <= length (left_over s))%nat ->
     exists s', read_all c a s n = RFine s' (firstn n (left_over s)) /\ left_over s' = skipn n (left_over s)) /\
  ((length (left_over s) < n)%nat -> exists s', read_all c a s n = REof s' (left_over s) /\ left_over s' = []).
Proof.
  intros c a s n Hb Ha Ht. destruct (read_all_honest c a Ha Hb s n Ht) as [[H1 H2]|[H1 H2]]; split; intros H; auto; lia.
Qed.
Print Assumptions C32_fills_or_eof.
(** The same on the device itself, without a buffer. *)
Theorem C32_unbuffered : forall a d n, honest_reads a ->
  let s := mk_bios d None INull in
  ((n <= length (d_src d))%nat ->
     exists s', read_all_raw a s n = RFine s' (firstn n (d_src d)) /\ d_src (b_dev s') = skipn n (d_src d)) /\
  ((length (d_src d) < n)%nat -> exists s', read_all_raw a s n = REof s' (d_src d) /\ d_src (b_dev s') = []).
Proof.
  intros a d n Ha s. unfold read_all_raw.
  destruct (raw_cold (mk_config 1 false true false false) a Ha (le_n 1) n s n eq_refl ltac:(cbn; discriminate) (le_n n)) as [[H1 H2]|[H1 H2]]; split; intros H; auto;
    cbn [s b_dev] in *; lia.
Qed.
Print Assumptions C32_unbuffered.
(** Any device that does not throw, even one that answers zero characters before its end: a normal return means [n]
    consecutive characters, end_of_file means fewer, nothing is lost and the loop ends. *)
Theorem C32_any_schedule : forall c a s n, never_throws a -> b_in s <> ITorn ->
  exists s' got, got ++ left_over s' = left_over s /\
    ((read_all c a s n = RFine s' got /\ length got = n) \/ (read_all c a s n = REof s' got /\ (length got < n)%nat)).
Proof.
  intros c a s n Ha Ht. destruct (read_all_step c a Ha s n Ht) as (s' & got & _ & H1 & H2). eauto.
Qed.
Print Assumptions C32_any_schedule.
(** Any device, throwing ones included. *)
Theorem C32_throwing : forall c a s n, b_in s <> ITorn ->
  match read_all c a s n with
  | RFine s' got => got ++ left_over s' = left_over s /\ length got = n
  | REof s' got => got ++ left_over s' = left_over s /\ (length got < n)%nat
  | RRaised s' got => got ++ left_over s' = left_over s
  | RSmashed => False
  | RStuck => False
  end.
Proof.
  intros c a s n Ht. destruct (read_all_accounts c a s n Ht) as [H1 H2]. destruct (read_all c a s n); cbn in *; tauto.
Qed.
Print Assumptions C32_throwing.
(** Refuted for the reflective read_all (reflectread.h 265-310): it never ends when the input is too short, and when it
    ends it is right. *)
Theorem C32_reflective_hangs_refuted : forall fuel a d n,
  (length (d_src d) < n)%nat -> read_some_loop fuel a d n = None.
Proof. exact read_loop_hangs. Qed.
Print Assumptions C32_reflective_hangs_refuted.
Theorem C32_reflective_partial : forall fuel a d n d' got,
  read_some_loop fuel a d n = Some (d', got) -> length got = n /\ got ++ d_src d' = d_src d.
Proof. exact read_loop_exact. Qed.
Print Assumptions C32_reflective_partial.
Example C32_not_vacuous :
  let a : answers := fun k n => (S k, true) in honest_reads a /\
  exists s, read_all (mk_config 3 false true false false) a (fresh [1; 2; 3; 4; 5; 6; 7]) 6 = RFine s [1; 2; 3; 4; 5; 6] /\
    left_over s = [7].
Proof. cbn zeta. split; [intros k n; cbn; lia|]. eexists. split; reflexivity. Qed.

(** ** C33 *)
(** Through every kind of stream except one with an output buffer, write_all delivers exactly the range... *)
Theorem C33_write_all : forall fuel cp smtp a s data s',
  smtp && has_obuffer cp = false -> direct cp smtp = true ->
  write_all_impl fuel cp smtp a s data = Some s' ->
  delivered (d_log (w_dev s')) = delivered (d_log (w_dev s)) ++ data.
Proof. exact write_all_exact. Qed.
Print Assumptions C33_write_all.
(** ... and it ends after at most one round per element when the device takes at least one element each time. *)
Theorem C33_write_all_ends : forall cp smtp a s data, progresses a ->
  exists s', write_all_impl (S (length data)) cp smtp a s data = Some s'.
Proof. intros. apply write_all_ends; auto. Qed.
Print Assumptions C33_write_all_ends.
Theorem C33_scatter_write_all : forall fuel cp a s scatters s', can_scatter cp = true ->
  scatter_write_all_impl fuel cp a s scatters = Some s' ->
  delivered (d_log (w_dev s')) = delivered (d_log (w_dev s)) ++ concat scatters.
Proof. exact scatter_write_all_exact. Qed.
Print Assumptions C33_scatter_write_all.
Theorem C33_scatter_write_all_ends : forall cp a s scatters, progresses a ->
  exists s', scatter_write_all_impl (S (length (concat scatters) + length scatters)) cp a s scatters = Some s'.
Proof. exact scatter_write_all_ends. Qed.
Print Assumptions C33_scatter_write_all_ends.
(** Refuted for a stream with an output buffer: when the range fits it is stored and then written again
    (reflectwrite.h 307-314, the "else" is missing). *)
Definition obuffer_only : caps := mk_caps true false false false false false false false false.
Theorem C33_twice_refuted : forall fuel a s data, data <> [] ->
  (length data < w_cap s - length (w_buf s))%nat ->
  exists s', write_all_impl fuel obuffer_only true a s data = Some s' /\ out_of s' = out_of s ++ data ++ data.
Proof.
  intros fuel a s data Hd Hl. unfold write_all_impl. cbn [andb obuffer_only has_obuffer].
  replace (Nat.ltb _ _) with true by (symmetry; apply Nat.ltb_lt; exact Hl).
  eexists. split; [reflexivity|]. unfold out_of. cbn. rewrite delivered_app. cbn. rewrite !app_nil_r, !app_assoc. reflexivity.
Qed.
Print Assumptions C33_twice_refuted.
(** Refuted for a stream that offers only scatter_write_some_bytes: write_all has no branch for it, the rest of a
    half-written scatter is dropped (reflectwrite.h 466). *)
Definition scatter_some_only : caps := mk_caps false false false false false false false false true.
Theorem C33_dropped_refuted : exists a fuel s', progresses a /\
  scatter_write_all_impl fuel scatter_some_only a (mk_wst (mk_dev [] []) [] 0) [[97; 98; 99]; [100]] = Some s' /\
  delivered (d_log (w_dev s')) = [97; 100].
Proof.
  exists (fun _ _ => 1%nat), 9%nat, (mk_wst (mk_dev [Wrote [97]; Wrote [100]] []) [] 0).
  split; [intros k n; lia|]. split; reflexivity.
Qed.
Print Assumptions C33_dropped_refuted.
Example C33_not_vacuous :
  let cp := mk_caps false false false false false false true false true in
  let a : sched := fun k n => S (k mod 2) in
  progresses a /\ can_scatter cp = true /\
  exists s, scatter_write_all_impl 20 cp a (mk_wst (mk_dev [] []) [] 0) [[1; 2; 3]; []; [4; 5; 6; 7]; [8]] = Some s /\
    delivered (d_log (w_dev s)) = [1; 2; 3; 4; 5; 6; 7; 8] /\ (4 < length (d_log (w_dev s)))%nat.
Proof.
  cbn zeta. split; [intros k n; lia|]. split; [reflexivity|].
  eexists. split; [vm_compute; reflexivity|]. split; [reflexivity|]. cbn. lia.
Qed.

(** ** C49: print and println *)
(** On a buffered stream: the arguments' texts one after the other and the line feed, nothing stored outside the
    buffers, whatever the fill level, with and without optimisation. *)
Theorem C49_buffered : forall c a s opt line args,
  c_out c = true -> (0 < c_bfs c)%nat -> takes_all a -> (length (pending s) <= c_bfs c)%nat -> Forall arg_ok args ->
  exists s', print_buffered (bios_stream c a) opt line s args = Fine s' /\
    device_got s' ++ pending s' = device_got s ++ pending s ++ concat (map text_of args) ++ (if line then [10] else []) /\
    (length (pending s') <= c_bfs c)%nat.
Proof.
  intros c a s opt line args Ho Hb Ha Hs Hargs.
  assert (Hi : binv c s) by (split; auto; unfold pending in Hs; destruct (b_out s); auto).
  destruct (bprint_goes eq c a okrel_eq (dev_good_eq a Ha) Hb opt line s args Hi Hargs) as (s' & E & Hi' & Hr).
  exists s'. split; auto. split.
  - unfold ball in Hr. rewrite Hr. unfold printed. destruct line; cbn; rewrite <- !app_assoc; reflexivity.
  - destruct Hi' as [_ Hi']. unfold pending. destruct (b_out s'); cbn; lia.
Qed.
Print Assumptions C49_buffered.
(** On a device without buffer, with or without scatter write. *)
Theorem C49_unbuffered : forall a scatter line d args,
  takes_all a -> Forall arg_ok args -> Z.of_nat (dynamic_total args) < 2 ^ 64 ->
  exists d', print_raw a scatter line d args = Fine d' /\
    delivered (d_log d') = delivered (d_log d) ++ concat (map text_of args) ++ (if line then [10] else []).
Proof.
  intros a scatter line d args Ha Hargs Hd.
  destruct (raw_goes eq a okrel_eq (dev_good_eq a Ha) scatter line d args Hargs Hd) as (d' & E & H).
  exists d'. split; [exact E|exact H].
Qed.
Print Assumptions C49_unbuffered.
Example C49_not_vacuous :
  let args := [PReserve 3 [49; 50]; PReserve 2 [51]; PScatter [97; 98; 99; 100; 101; 102; 103]; PDynamic 5 [52; 53]; PReserve 1 [54]] in
  Forall arg_ok args /\
  (forall opt, exists s, print_buffered (bios_stream (mk_config 6 false false true false) (fun _ n => (n, true))) opt true
     (mk_bios (mk_dev [] []) (Some [48; 48; 48; 48]) INull) args = Fine s /\
     device_got s ++ pending s = [48; 48; 48; 48; 49; 50; 51; 97; 98; 99; 100; 101; 102; 103; 52; 53; 54; 10]).
Proof.
  cbn zeta. split; [repeat (constructor; cbn; try lia)|]. intros [|]; eexists; (split; [vm_compute; reflexivity|reflexivity]).
Qed.

(** ** C50: tied streams *)
(** A read or refill on a tied stream asks the device for input only after everything said before is delivered. *)
Theorem C50_prompt_before_input : forall c a s n s' got,
  takes_all a -> c_out c = true -> c_tie c = true -> io_read c a s n = RFine s' got ->
  exists evs, d_log (b_dev s') = d_log (b_dev s) ++ evs /\
    (forall pre m post, evs = pre ++ Asked m :: post -> delivered (d_log (b_dev s) ++ pre) = device_got s ++ pending s).
Proof. intros c a s n s' got Ha Ho Ht E. exact (read_tied c a Ha Ho Ht s n s' got E). Qed.
Print Assumptions C50_prompt_before_input.
Theorem C50_prompt_before_refill : forall c a s s' more,
  takes_all a -> c_out c = true -> c_tie c = true -> io_underflow c a s = UFine s' more ->
  exists evs, d_log (b_dev s') = d_log (b_dev s) ++ evs /\
    (forall pre m post, evs = pre ++ Asked m :: post -> delivered (d_log (b_dev s) ++ pre) = device_got s ++ pending s).
Proof. intros c a s s' more Ha Ho Ht E. exact (underflow_tied c a Ha Ho Ht s s' more E). Qed.
Print Assumptions C50_prompt_before_refill.
Example C50_not_vacuous :
  let c := mk_config 4 false true true true in
  exists s s', ob_write c (fun _ n => (n, true)) (fresh [97; 98]) [62; 32] = Fine s /\ pending s = [62; 32] /\
    io_read c (fun _ n => (n, true)) s 1 = RFine s' [97] /\ d_log (b_dev s') = [Wrote [62; 32]; Asked 4].
Proof. cbn zeta. eexists. eexists. repeat split. Qed.

(** ** C51: the status of partial writes *)
(** write_some reports exactly how much of the range the stream took. *)
Theorem C51_write_some : forall cp smtp a s data s' k,
  (smtp && has_obuffer cp = false -> w_buf s = []) ->
  write_some_impl cp smtp a s data = (s', k) ->
  (k <= length data)%nat /\ out_of s' = out_of s ++ firstn k data.
Proof.
  intros cp smtp a s data s' k Hb E. destruct (write_some_exact _ _ _ _ _ _ _ E) as [H|(H1 & H2 & _)]; auto.
  exfalso. auto.
Qed.
Print Assumptions C51_write_some.
(** For elements of [n] bytes through a byte device: a whole number [u] of elements is reported, and exactly their bytes
    were taken. *)
Theorem C51_write_some_wide : forall a n fuel s data s' u,
  n <> 0%nat -> (length data mod n = 0)%nat -> wide_outer fuel a s n data 0 = Some (s', u) ->
  (u * n <= length data)%nat /\ delivered (d_log (w_dev s')) = delivered (d_log (w_dev s)) ++ firstn (u * n) data.
Proof. exact wide_ok. Qed.
Print Assumptions C51_write_some_wide.
(** scatter_write_some reports the index of the scatter reached and the offset in it: what is before that place was
    taken, and a scatter that was taken completely is not reported as reached. *)
Theorem C51_scatter_write_some : forall cp a s scatters s' k i p,
  has_scatter_write_some_bytes cp || has_scatter_write_all_bytes cp || has_write_some_bytes cp || has_write_all_bytes cp = true ->
  scatter_write_some_impl cp a s scatters = (s', (k, i, p)) ->
  delivered (d_log (w_dev s')) = delivered (d_log (w_dev s)) ++ concat (firstn i scatters) ++ firstn p (nth i scatters []) /\
  k = length (concat (firstn i scatters) ++ firstn p (nth i scatters [])) /\
  (i <= length scatters)%nat /\ (i = length scatters -> p = 0%nat) /\
  ((i < length scatters)%nat -> (p < length (nth i scatters []))%nat).
Proof.
  intros cp a s scatters s' k i p Hc E.
  destruct (scatter_write_some_ok _ _ _ _ _ _ _ _ E Hc) as [(H1 & H2 & H3 & H4 & H5) Hd].
  split; [exact Hd|]. split; [|auto]. unfold upto in H2. rewrite H2, firstn_length. lia.
Qed.
Print Assumptions C51_scatter_write_some.
Example C51_not_vacuous :
  let cp := mk_caps false false false false false false false false true in
  exists s, scatter_write_some_impl cp (fun _ _ => 5%nat) (mk_wst (mk_dev [] []) [] 0) [[1; 2; 3]; [4; 5; 6; 7]; [8]] = (s, (5, 1, 2)%nat)
   /\ delivered (d_log (w_dev s)) = [1; 2; 3; 4; 5].
Proof. eexists. split; reflexivity. Qed.
