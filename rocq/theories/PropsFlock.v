(** File locks (include/fast_io_hosted/platforms/posix_file_lock.h, nt.h, include/fast_io_freestanding_impl/io_buffer/output.h). *)
From Verif Require Import Base FlockSpec FlockModel FlockProofs.

(** The bytes a request names, for a descriptor at position [pos] of a file of [size] bytes. *)
Definition bytes_of (r : request) (pos size b : Z) : bool := covers (origin (r_whence r) pos size + r_start r) (r_len r) b.
Definition start_state (pos : nat -> Z) (size : Z) : state := mk_state no_locks pos size.
Definition anyone : nat -> Prop := fun _ => True.

(** * C139: a lock that was granted excludes the other processes *)

(** Whatever the processes do, an exclusively locked byte is locked by nobody else. *)
Theorem C139_exclusive : forall pos size s p q b, steps anyone (start_state pos size) s -> p <> q -> 0 <= b ->
  locks s p b = Some Exclusive -> locks s q b = None.
Proof.
  intros pos size s p q b R. refine (steps_alone _ _ _ _ R p q b). intros x y z _ _ H. discriminate.
Qed.
Print Assumptions C139_exclusive.

(** When lock() returns, the process holds exactly the bytes the request names, in the way it names, in addition to
    what it held; and it holds them, with nobody else against it, as long as it does not itself call the lock
    again, whatever the others do and wherever it moves. *)
Theorem C139_critical_section : forall pos0 size0 s p ob ib r t1 s2, 0 < ob -> 0 < ib -> has_bits ib r ->
  steps anyone (start_state pos0 size0) s ->
  performs p (position s p) (fsize s) (locks s) (posix_file_lock m_lock ob ib r) t1 Returns ->
  steps (fun q => q <> p) (mk_state t1 (position s) (fsize s)) s2 ->
  forall b, 0 <= b ->
    locks s2 p b = (if bytes_of r (position s p) (fsize s) b then wanted (r_type r) else locks s p b) /\
    (bytes_of r (position s p) (fsize s) b = true -> forall k q, wanted (r_type r) = Some k -> q <> p -> ~ against k (locks s2 q b)).
Proof.
  intros pos0 size0 s p ob ib r t1 s2 O I HB R P R2 b B.
  assert (A : exclusive_alone (locks s)).
  { refine (steps_alone _ _ _ _ R). intros x y z _ _ H. discriminate. }
  assert (A2 : exclusive_alone (locks s2)).
  { refine (steps_alone _ _ _ _ R2). exact (performs_alone _ _ _ _ _ _ _ A P). }
  pose proof (steps_mine p _ _ b R2) as M. cbn [locks] in M.
  assert (V : t1 p b = if bytes_of r (position s p) (fsize s) b then wanted (r_type r) else locks s p b).
  { unfold posix_file_lock, lock_impl in P. destruct (out_of_range ob ib r) eqn:OR; [inversion P|].
    rewrite (flock_exact ob ib r O I HB OR) in P. inversion P as [c fl t' o F E1 E2 E3| | | | |]. subst.
    destruct o; try discriminate. inversion F as [t' NC F1 F2| | |]; subst. rewrite F1. reflexivity. }
  split; [rewrite M; exact V|]. intros RB k q W N. rewrite RB in V. rewrite W in V.
  apply (shared_alone (locks s2) p q b A2 N B k). rewrite M. exact V.
Qed.
Print Assumptions C139_critical_section.

(** A request that off_t cannot hold is refused, with nothing locked, and a lock() that throws changes nothing. *)
Theorem C139_refused : forall p pos size t ob ib r t1, performs p pos size t (posix_file_lock m_lock ob ib r) t1 Throws -> same t t1.
Proof.
  intros p pos size t ob ib r t1 P. unfold posix_file_lock, lock_impl in P.
  destruct (out_of_range ob ib r); inversion P as [c fl t' o F E1 E2 E3| | | | |]; subst; [intros x b; reflexivity|].
  destruct o; try discriminate. inversion F; subst; assumption.
Qed.
Print Assumptions C139_refused.

(** Process 0 locks bytes 10 to 19 of a file exclusively, process 1 locks 20 to 29. *)
Definition set_lock (t : table) (p : nat) (r : request) (pos size : Z) : table :=
  fun q b => if Nat.eqb q p then (if bytes_of r pos size b then wanted (r_type r) else t q b) else t q b.

Lemma set_lock_done p pos size t r m : (m = m_lock \/ m = m_unlock) -> has_bits 64 r ->
  ~ conflict p (mk_flock (wanted (r_type r)) (r_whence r) (r_start r) (r_len r)) pos size t ->
  performs p pos size t (posix_file_lock m 64 64 r) (set_lock t p r pos size) Returns.
Proof.
  intros M HB NC.
  assert (F : fcntl p F_SETLKW (flock_of 64 r) pos size t (set_lock t p r pos size) Succeeds).
  { rewrite (flock_exact 64 64 r) by (try reflexivity; exact HB). constructor.
    - exact NC.
    - intros b. unfold set_lock. rewrite Nat.eqb_refl. reflexivity.
    - intros q b N. unfold set_lock. apply Nat.eqb_neq in N. rewrite N. reflexivity. }
  destruct M as [-> | ->]; [exact (perf_throw _ _ _ _ _ _ _ _ F)|exact (perf_quiet _ _ _ _ _ _ _ _ F)].
Qed.

Example C139_example :
  let r0 := mk_req exclusive_lock from_beg 10 10 in let r1 := mk_req exclusive_lock from_cur 0 10 in
  let t0 := set_lock no_locks 0%nat r0 0 100 in
  performs 0%nat 0 100 no_locks (posix_file_lock m_lock 64 64 r0) t0 Returns /\
  performs 1%nat 20 100 t0 (posix_file_lock m_lock 64 64 r1) (set_lock t0 1%nat r1 20 100) Returns /\
  performs 1%nat 15 100 t0 (posix_file_lock m_lock 64 64 r1) t0 Waits.
Proof.
  cbv zeta. split; [|split].
  - apply set_lock_done; [auto| |].
    + unfold has_bits; cbn; lia.
    + intros (k & q & b & _ & _ & _ & _ & C). exact (against_none k C).
  - apply set_lock_done; [auto| |].
    + unfold has_bits; cbn; lia.
    + intros (k & q & b & _ & _ & _ & R & C). unfold set_lock in C. destruct (Nat.eqb q 0); [|exact (against_none k C)].
      unfold range_of, bytes_of, covers in R, C. cbn in R, C.
      apply andb_prop in R as [R1 R2]. apply Z.leb_le in R1. apply Z.ltb_lt in R2.
      destruct (b <? 20) eqn:E; [apply Z.ltb_lt in E; lia|]. rewrite andb_false_r in C. exact (against_none k C).
  - refine (perf_throw _ _ _ _ F_SETLKW _ _ Blocks _). apply fcntl_blocks; [reflexivity| |intros q b; reflexivity].
    exists Exclusive, 0%nat, 15. repeat split; try discriminate; try lia; try exact Logic.I.
Qed.

(** * C140: the end of a file_lock_guard releases the lock *)

(** False of POSIX files: a guard hands its request, whose type is the lock it wants, to unlock(), which asks the
    kernel for a lock of this type; so after the guard the process still holds every byte it locked. *)
Theorem C140_guard_releases_refuted : forall s p ob ib r t1 s2 t3, 0 < ob -> 0 < ib -> has_bits ib r -> r_type r <> unlock ->
  performs p (position s p) (fsize s) (locks s) (posix_file_lock m_lock ob ib r) t1 Returns ->
  steps (fun q => q <> p) (mk_state t1 (position s) (fsize s)) s2 ->
  performs p (position s2 p) (fsize s2) (locks s2) (posix_file_lock m_unlock ob ib r) t3 Returns ->
  forall b, 0 <= b -> bytes_of r (position s p) (fsize s) b = true ->
    t3 p b = wanted (r_type r) /\ t3 p b <> None.
Proof.
  intros s p ob ib r t1 s2 t3 O I HB U P R2 P3 b B RB.
  assert (W : wanted (r_type r) <> None) by (destruct (r_type r); [discriminate|discriminate|contradiction U; reflexivity]).
  assert (V : t1 p b = wanted (r_type r)).
  { unfold posix_file_lock, lock_impl in P. destruct (out_of_range ob ib r) eqn:OR; [inversion P|].
    rewrite (flock_exact ob ib r O I HB OR) in P. inversion P as [c fl t' o F E1 E2 E3| | | | |]. subst.
    destruct o; try discriminate. inversion F as [t' NC F1 F2| | |]; subst. rewrite F1.
    change (range_of _ _ _ b) with (bytes_of r (position s p) (fsize s) b). rewrite RB. reflexivity. }
  pose proof (steps_mine p _ _ b R2) as M. cbn [locks] in M. rewrite V in M.
  enough (E : t3 p b = wanted (r_type r)) by (split; [exact E|rewrite E; exact W]).
  unfold posix_file_lock, unlock_impl in P3. destruct (out_of_range ob ib r) eqn:OR; [inversion P3; subst; exact M|].
  rewrite (flock_exact ob ib r O I HB OR) in P3. inversion P3 as [| |c fl t' o F E1 E2 E3| | |]. subst.
  destruct o; try discriminate; inversion F as [t' NC F1 F2|t' Sm|t' Cm _ Sm|]; subst; try (rewrite Sm; exact M).
  rewrite F1. destruct (range_of _ _ _ b); [reflexivity|exact M].
Qed.
Print Assumptions C140_guard_releases_refuted.

(** Such a guard exists: the default request (exclusive, from the current position to the end) on a file where 12
    bytes are written under the lock: the bytes written stay locked, and another process waits for them. *)
Example C140_example :
  let r := default_request in let t1 := set_lock no_locks 0%nat r 0 0 in let t3 := set_lock t1 0%nat r 12 12 in
  performs 0%nat 0 0 no_locks (posix_file_lock m_lock 64 64 r) t1 Returns /\
  performs 0%nat 12 12 t1 (posix_file_lock m_unlock 64 64 r) t3 Returns /\
  t3 0%nat 5 = Some Exclusive /\
  performs 1%nat 0 12 t3 (posix_file_lock m_lock 64 64 r) t3 Waits.
Proof.
  cbv zeta. split; [|split; [|split; [reflexivity|]]].
  - apply set_lock_done; [auto| |].
    + unfold has_bits; cbn; lia.
    + intros (k & q & b & _ & _ & _ & _ & C). exact (against_none k C).
  - apply set_lock_done; [auto| |].
    + unfold has_bits; cbn; lia.
    + intros (k & q & b & _ & N & _ & _ & C). unfold set_lock in C. apply Nat.eqb_neq in N. rewrite N in C. exact (against_none k C).
  - refine (perf_throw _ _ _ _ F_SETLKW _ _ Blocks _). apply fcntl_blocks; [reflexivity| |intros q b; reflexivity].
    exists Exclusive, 0%nat, 5. repeat split; try discriminate; try lia; try exact Logic.I.
Qed.

(** unlock() may even wait: the process moved to where another one holds a lock. *)
Theorem C140_unlock_waits_refuted : exists pos size s p, steps anyone (start_state pos size) s /\
  performs p (position s p) (fsize s) (locks s) (posix_file_lock m_unlock 64 64 default_request) (locks s) Waits.
Proof.
  set (r := mk_req exclusive_lock from_beg 10 10).
  exists (fun _ => 0), 100, (mk_state (set_lock no_locks 0%nat r 0 100) (fun _ => 0) 100), 1%nat. split.
  - eapply steps_more; [|apply steps_none]. apply (step_call anyone 0%nat (start_state (fun _ => 0) 100) m_lock 64 64 r _ Returns); [exact Logic.I|].
    apply set_lock_done; [auto| |].
    + unfold has_bits; cbn; lia.
    + intros (k & q & b & _ & _ & _ & _ & C). exact (against_none k C).
  - refine (perf_quiet _ _ _ _ F_SETLKW _ _ Blocks _). apply fcntl_blocks; [reflexivity| |intros q b; reflexivity].
    exists Exclusive, 0%nat, 15. repeat split; try discriminate; try lia; try exact Logic.I.
Qed.
Print Assumptions C140_unlock_waits_refuted.

(** What holds: unlock() with a request of type unlock never waits or throws; unless the kernel reports an error or
    off_t cannot hold the range, it releases exactly the bytes the request names, counted from where the descriptor is. *)
Theorem C140_unlock_partial : forall p pos size t ob ib r t' e, 0 < ob -> 0 < ib -> has_bits ib r -> r_type r = unlock ->
  performs p pos size t (posix_file_lock m_unlock ob ib r) t' e ->
  e = Returns /\ (forall q b, q <> p -> t' q b = t q b) /\
  (same t t' \/ forall b, t' p b = if bytes_of r pos size b then None else t p b).
Proof.
  intros p pos size t ob ib r t' e O I HB U P. split; [|split].
  - unfold posix_file_lock, unlock_impl in P. destruct (out_of_range ob ib r) eqn:OR; [inversion P; reflexivity|].
    rewrite (flock_exact ob ib r O I HB OR) in P. inversion P as [| |c fl t1 o F E1 E2 E3| | |]. subst.
    destruct o; try reflexivity. inversion F as [| | |t2 _ C _]; subst. exfalso.
    destruct C as (k & q & b & K & _). rewrite U in K. discriminate.
  - intros q b N. exact (performs_others _ _ _ _ _ _ _ q b P N).
  - unfold posix_file_lock, unlock_impl in P. destruct (out_of_range ob ib r) eqn:OR; [inversion P; subst; left; intros x b; reflexivity|].
    rewrite (flock_exact ob ib r O I HB OR) in P. inversion P as [| |c fl t1 o F E1 E2 E3| | |]. subst.
    inversion F as [t2 NC F1 F2|t2 Sm|t2 _ _ Sm|t2 _ _ Sm]; subst; try (left; exact Sm).
    right. intros b. rewrite F1. rewrite U. reflexivity.
Qed.
Print Assumptions C140_unlock_partial.

Example C140_partial_example :
  let r := mk_req exclusive_lock from_beg 10 10 in let u := mk_req unlock from_beg 10 10 in
  let t1 := set_lock no_locks 0%nat r 0 100 in let t2 := set_lock t1 0%nat u 7 100 in
  performs 0%nat 7 100 t1 (posix_file_lock m_unlock 64 64 u) t2 Returns /\ t1 0%nat 15 = Some Exclusive /\ t2 0%nat 15 = None.
Proof.
  cbv zeta. split; [|split; reflexivity]. apply set_lock_done; [auto| |].
  - unfold has_bits; cbn; lia.
  - intros (k & q & b & K & _). discriminate.
Qed.

(** * C141: try_lock() does not wait and says whether the lock was taken *)

(** False of POSIX files: where another process is in the way, try_lock() waits (or throws), and it never says false. *)
Theorem C141_try_lock_refuted :
  (exists pos size s p, steps anyone (start_state pos size) s /\
    performs p (position s p) (fsize s) (locks s) (posix_file_lock m_try_lock 64 64 default_request) (locks s) Waits) /\
  (forall p pos size t ob ib r t' e, performs p pos size t (posix_file_lock m_try_lock ob ib r) t' e -> e <> Returns_false).
Proof.
  split.
  - set (r := mk_req exclusive_lock from_beg 10 10).
    exists (fun _ => 0), 100, (mk_state (set_lock no_locks 0%nat r 0 100) (fun _ => 0) 100), 1%nat. split.
    + eapply steps_more; [|apply steps_none]. apply (step_call anyone 0%nat (start_state (fun _ => 0) 100) m_lock 64 64 r _ Returns); [exact Logic.I|].
      apply set_lock_done; [auto| |].
      * unfold has_bits; cbn; lia.
      * intros (k & q & b & _ & _ & _ & _ & C). exact (against_none k C).
    + refine (perf_throw _ _ _ _ F_SETLKW _ _ Blocks _). apply fcntl_blocks; [reflexivity| |intros q b; reflexivity].
      exists Exclusive, 0%nat, 15. repeat split; try discriminate; try lia; try exact Logic.I.
  - intros p pos size t ob ib r t' e P. unfold posix_file_lock, lock_impl in P.
    destruct (out_of_range ob ib r); inversion P as [c fl t1 o F E1 E2 E3| | | | |]; subst; [discriminate|].
    destruct o; discriminate.
Qed.
Print Assumptions C141_try_lock_refuted.

(** What holds: the routine written for it (and called by nobody) never waits or throws; it says true only if exactly
    the bytes named are now held as asked for, and false only if nothing changed; it cannot say true if another
    process is in the way. *)
Theorem C141_try_lock_partial : forall p pos size t ob ib r t' e, 0 < ob -> 0 < ib -> has_bits ib r ->
  performs p pos size t (try_lock_impl ob ib r) t' e ->
  (e = Returns /\ (forall b, t' p b = if bytes_of r pos size b then wanted (r_type r) else t p b) /\
    (forall b k q, 0 <= b -> bytes_of r pos size b = true -> wanted (r_type r) = Some k -> q <> p -> ~ against k (t q b))) \/
  (e = Returns_false /\ same t t').
Proof.
  intros p pos size t ob ib r t' e O I HB P. unfold try_lock_impl in P.
  destruct (out_of_range ob ib r) eqn:OR; [inversion P; subst; right; split; [reflexivity|intros x b; reflexivity]|].
  rewrite (flock_exact ob ib r O I HB OR) in P. inversion P as [|c fl t1 o F E1 E2 E3| | | |]. subst.
  inversion F as [t2 NC F1 F2|t2 Sm|t2 _ _ Sm|t2 C _ _]; subst; try (right; split; [reflexivity|exact Sm]); [|discriminate].
  left. split; [reflexivity|]. split; [exact F1|]. intros b k q B RB W N A. apply NC. exists k, q, b. repeat split; assumption.
Qed.
Print Assumptions C141_try_lock_partial.

(** The calls of C139_example through try_lock_impl: 20 to 29 is granted, 15 to 24 is not. *)
Example C141_example :
  let r0 := mk_req exclusive_lock from_beg 10 10 in let r1 := mk_req shared_lock from_cur 0 10 in
  let t0 := set_lock no_locks 0%nat r0 0 100 in
  performs 0%nat 0 100 no_locks (try_lock_impl 64 64 r0) t0 Returns /\
  performs 1%nat 15 100 t0 (try_lock_impl 64 64 r1) t0 Returns_false.
Proof.
  cbv zeta. split.
  - refine (perf_false _ _ _ _ F_SETLK _ _ Succeeds _). apply fcntl_done.
    + intros (k & q & b & _ & _ & _ & _ & C). exact (against_none k C).
    + intros b. reflexivity.
    + intros q b N. unfold set_lock. apply Nat.eqb_neq in N. rewrite N. reflexivity.
  - refine (perf_false _ _ _ _ F_SETLK _ _ Fails _). apply fcntl_again; [reflexivity| |intros q b; reflexivity].
    exists Shared, 0%nat, 15. repeat split; try discriminate; try lia; try exact Logic.I.
Qed.

(** * C142: locks of Windows files *)

(** A guard releases exactly the lock it took, wherever the position is when it ends, and whatever the other handles
    do meanwhile; nobody else's locks change; and no query can fail at the end. *)
Theorem C142_guard_releases : forall p pos size r t r' t1 t2 pos2 size2, r_type r <> unlock ->
  nt_lock_member p pos size r t r' t1 Returns -> nt_others p t1 t2 ->
  locks_of p (nt_unlock_member p pos2 size2 r' t2) = locks_of p t /\
  (forall q, q <> p -> locks_of q (nt_unlock_member p pos2 size2 r' t2) = locks_of q t2).
Proof.
  intros p pos size r t r' t1 t2 pos2 size2 U (o & C & E) OT.
  destruct o; try discriminate. inversion C as [|fp F U' E1 E2|fp t' o F U' L E1 E2]; subst; [contradiction|].
  pose proof (position_range _ _ _ _ _ F) as B. inversion L; subst.
  unfold nt_unlock_member. cbn [r_start r_whence r_len]. rewrite (position_absolute pos2 size2 fp B). rewrite length_idem.
  pose proof (others_mine _ _ _ OT) as L2. unfold locks_of at 2 in L2. cbn [filter nt_owner] in L2. rewrite Nat.eqb_refl in L2.
  exact (drop_mine p fp (nt_length (r_len r)) t2 _ _ L2 eq_refl eq_refl).
Qed.
Print Assumptions C142_guard_releases.

(** So does unlock() with the request as it was before the lock, if position and size are what they were. *)
Theorem C142_unlock_same_request : forall p pos size r t r' t1 t2, r_type r <> unlock ->
  nt_lock_member p pos size r t r' t1 Returns -> nt_others p t1 t2 ->
  locks_of p (nt_unlock_member p pos size r t2) = locks_of p t.
Proof.
  intros p pos size r t r' t1 t2 U (o & C & E) OT.
  destruct o; try discriminate. inversion C as [|fp F U' E1 E2|fp t' o F U' L E1 E2]; subst; [contradiction|].
  inversion L; subst. unfold nt_unlock_member. rewrite F.
  pose proof (others_mine _ _ _ OT) as L2. unfold locks_of at 2 in L2. cbn [filter nt_owner] in L2. rewrite Nat.eqb_refl in L2.
  exact (proj1 (drop_mine p fp (nt_length (r_len r)) t2 _ _ L2 eq_refl eq_refl)).
Qed.
Print Assumptions C142_unlock_same_request.

(** When lock() returns or try_lock() says true, the range asked for (from the position at that time; to the largest
    offset if the length is 0) is locked as asked for, and no lock granted before overlaps it unless both are shared. *)
Theorem C142_lock_holds : forall p pos size r t r' t1 base, r_type r <> unlock ->
  match r_whence r with from_beg => Some 0 | from_cur => pos | from_end => size end = Some base ->
  0 <= base + r_start r <= 2 ^ 63 - 1 ->
  nt_lock_member p pos size r t r' t1 Returns \/ nt_try_lock_member p pos size r t r' t1 Returns ->
  exists l, t1 = l :: t /\ nt_owner l = p /\ nt_start l = base + r_start r /\
    nt_len l = (if r_len r =? 0 then 2 ^ 63 - 1 else r_len r) /\
    (nt_exclusive l = true <-> r_type r = exclusive_lock) /\
    forall x, In x t -> overlap l x = true -> nt_exclusive l = false /\ nt_exclusive x = false.
Proof.
  intros p pos size r t r' t1 base U Bs Rg H.
  assert (P : nt_get_file_position pos size (r_start r) (r_whence r) = Some (base + r_start r)).
  { assert (W : wrap 64 (wrap 64 (r_start r) + base) = base + r_start r).
    { unfold wrap. rewrite Z.add_mod_idemp_l by lia. rewrite Z.mod_small by lia. lia. }
    assert (W0 : base = 0 -> wrap 64 (r_start r) = base + r_start r) by (intros ->; unfold wrap; rewrite Z.mod_small by lia; lia).
    assert (L : (2 ^ 63 - 1 <? base + r_start r) = false) by (apply Z.ltb_ge; lia).
    unfold nt_get_file_position. cbv zeta. destruct (r_whence r).
    - injection Bs as Bs. rewrite W0 by congruence. rewrite L. reflexivity.
    - subst pos. rewrite W, L. reflexivity.
    - subst size. rewrite W, L. reflexivity. }
  assert (C : exists a, nt_common p pos size r a t r' t1 Succeeds).
  { destruct H as [(o & C & E)|(o & C & E)]; destruct o; try discriminate; eauto. }
  destruct C as (a & C). inversion C as [|fp F U' E1 E2|fp t' o F U' L E1 E2]; subst; [contradiction|].
  rewrite P in F. injection F as <-. inversion L as [NC| | |]; subst.
  eexists. split; [reflexivity|]. cbn [nt_owner nt_start nt_len nt_exclusive]. repeat split; try reflexivity.
  - destruct (r_type r); [discriminate|reflexivity|contradiction U; reflexivity].
  - intros ->. reflexivity.
  - match goal with |- ?b = false => destruct b eqn:EX; [|reflexivity] end.
    exfalso. apply NC. exists x. repeat split; auto.
  - destruct (nt_exclusive x) eqn:EX; [|reflexivity]. exfalso. apply NC. exists x. repeat split; auto.
Qed.
Print Assumptions C142_lock_holds.

(** try_lock() never waits and never throws; if it says false nothing is locked. *)
Theorem C142_try_lock : forall p pos size r t r' t1 e, r_type r <> unlock -> nt_try_lock_member p pos size r t r' t1 e ->
  e = Returns \/ (e = Returns_false /\ t1 = t).
Proof.
  intros p pos size r t r' t1 e U (o & C & ->). inversion C as [F|fp F U' E1 E2|fp t' o' F U' L E1 E2]; subst; [right; auto|contradiction|].
  inversion L; subst; auto. discriminate.
Qed.
Print Assumptions C142_try_lock.

Example C142_example :
  let r := default_request in let r' := mk_req exclusive_lock from_beg 40 (2 ^ 63 - 1) in
  let l := mk_nt 1 40 (2 ^ 63 - 1) true in let other := mk_nt 2 0 10 true in
  nt_lock_member 1 (Some 40) (Some 40) r [other] r' [l; other] Returns /\
  nt_unlock_member 1 (Some 52) (Some 52) r' [l; other] = [other] /\
  nt_try_lock_member 2 (Some 40) (Some 40) r [l; other] r' [l; other] Returns_false.
Proof.
  cbv zeta. split; [|split; [reflexivity|]].
  - exists Succeeds. split; [|reflexivity].
    refine (ntc_lock 1 (Some 40) (Some 40) default_request false _ 40 _ Succeeds _ _ _); [reflexivity|discriminate|].
    apply ntl_done. intros (x & H & O & _). destruct H as [<-|H]; [discriminate|destruct H].
  - exists Fails. split; [|reflexivity].
    refine (ntc_lock 2 (Some 40) (Some 40) default_request true _ 40 _ Fails _ _ _); [reflexivity|discriminate|].
    apply ntl_again; [reflexivity|]. exists (mk_nt 1 40 (2 ^ 63 - 1) true). repeat split; auto. left. reflexivity.
Qed.

(** * C143: what is printed to a buffered file under its lock is written under the lock *)

Lemma prints_written : forall data buf ev buf', buffer_prints data buf ev buf' ->
  written ev ++ buf' = buf ++ data /\ Forall (fun e => exists d, e = Ev_write d) ev.
Proof.
  intros data buf ev buf' H. induction H as [buf|data rest buf ev buf' H (IH1 & IH2)|n rest buf ev buf' H (IH1 & IH2)].
  - split; [symmetry; apply app_nil_r|constructor].
  - split; [rewrite IH1, <- app_assoc; reflexivity|exact IH2].
  - split; [|constructor; eauto]. cbn [written]. rewrite <- app_assoc, IH1, app_assoc, firstn_skipn. reflexivity.
Qed.

(** What was in the buffer before is written before the lock is taken; what is printed under the lock is written, in
    order and whole, between lock and unlock, and the buffer is empty at the end; if the flush in unlock() succeeds. *)
Theorem C143_under_the_lock_partial : forall buf ev1 buf1 data ev2 buf2 ev3 buf3,
  buffer_lock buf ev1 buf1 Returns -> buffer_prints data buf1 ev2 buf2 -> flushes buf2 ev3 buf3 true ->
  buffer_unlock buf2 (ev3 ++ [Ev_unlock]) buf3 /\
  ev1 = [Ev_write buf; Ev_lock] /\ buf1 = [] /\
  Forall (fun e => exists d, e = Ev_write d) (ev2 ++ ev3) /\ written (ev2 ++ ev3) = data /\ buf3 = [].
Proof.
  intros buf ev1 buf1 data ev2 buf2 ev3 buf3 L P F.
  split; [econstructor; exact F|]. inversion L as [ev buf' F1 E1 E2| |]; subst. inversion F1; subst. inversion F; subst.
  destruct (prints_written _ _ _ _ P) as (W & A). cbn [app] in W. repeat split; auto.
  - apply Forall_app. split; [exact A|]. constructor; [eauto|constructor].
  - assert (WA : forall a b, written (a ++ b) = written a ++ written b).
    { induction a as [|[d| |] a IH]; intros b; cbn [app written]; rewrite ?IH, ?app_assoc; reflexivity. }
    rewrite WA. cbn [written]. rewrite app_nil_r. exact W.
Qed.
Print Assumptions C143_under_the_lock_partial.

(** If that flush fails the lock is released all the same, nothing tells the program, and the text stays in the
    buffer, to be written later without the lock. *)
Theorem C143_under_the_lock_refuted : exists data ev2 buf2 ev3 buf3,
  buffer_prints data [] ev2 buf2 /\ buffer_unlock buf2 ev3 buf3 /\ last ev3 Ev_lock = Ev_unlock /\
  written (ev2 ++ ev3) <> data /\ buf3 = data /\ data <> [].
Proof.
  exists [72; 105], [], [72; 105], [Ev_write [72]; Ev_unlock], [72; 105]. split; [|split; [|split; [reflexivity|split; [discriminate|split; [reflexivity|discriminate]]]]].
  - exact (bp_put [72; 105] [] [] [] [72; 105] (bp_none [72; 105])).
  - exact (bu [72; 105] [Ev_write [72]] [72; 105] false (flush_fails [72; 105] 1)).
Qed.
Print Assumptions C143_under_the_lock_refuted.

Example C143_example :
  buffer_lock [1; 2] [Ev_write [1; 2]; Ev_lock] [] Returns /\
  buffer_prints [3; 4; 5] [] [Ev_write [3]] [4; 5] /\ flushes [4; 5] [Ev_write [4; 5]] [] true.
Proof.
  split; [exact (bl_ok _ _ _ (flush_ok [1; 2]))|]. split; [|apply flush_ok].
  apply (bp_put [3; 4] [5] []). apply (bp_drain 1 [5] ([] ++ [3; 4])). exact (bp_put [5] [] [4] [] [4; 5] (bp_none [4; 5])).
Qed.
