(** Proofs about file locks. *)
From Verif Require Import Base FlockSpec FlockModel.

Definition exclusive_alone (t : table) : Prop :=
  forall p q b, p <> q -> 0 <= b -> t p b = Some Exclusive -> t q b = None.

Definition wanted (m : lock_mode) : option kind :=
  match m with shared_lock => Some Shared | exclusive_lock => Some Exclusive | unlock => None end.

Lemma native_wanted m : flock_type_to_native m = wanted m.
Proof. destruct m; reflexivity. Qed.

Lemma against_none k : ~ against k None.
Proof. destruct k; exact (fun x => x). Qed.

Lemma fcntl_alone p c fl pos size t t' o : exclusive_alone t -> fcntl p c fl pos size t t' o -> exclusive_alone t'.
Proof.
  intros A F. destruct F as [t' NC P Q|t' H|t' _ _ H|t' _ _ H]; try (intros x y b N B E; rewrite H in E; rewrite H; exact (A x y b N B E)).
  intros x y b N B E.
  destruct (Nat.eq_dec x p) as [-> |Nx], (Nat.eq_dec y p) as [-> |Ny].
  - congruence.
  - rewrite (Q y b Ny). rewrite P in E. destruct (range_of fl pos size b) eqn:R; [|exact (A p y b N B E)].
    destruct (t y b) as [k|] eqn:T; [|reflexivity]. exfalso. apply NC. exists Exclusive, y, b. rewrite T.
    repeat split; auto. destruct k; exact Logic.I.
  - rewrite (Q x b Nx) in E. rewrite P. destruct (range_of fl pos size b) eqn:R; [|exact (A x p b N B E)].
    destruct (l_type fl) as [k|] eqn:K; [|reflexivity]. exfalso. apply NC. exists k, x, b. rewrite E.
    repeat split; auto. destruct k; exact Logic.I.
  - rewrite (Q x b Nx) in E. rewrite (Q y b Ny). exact (A x y b N B E).
Qed.

Lemma fcntl_others p c fl pos size t t' o q b : fcntl p c fl pos size t t' o -> q <> p -> t' q b = t q b.
Proof. intros F N. destruct F as [t' NC P Q|t' H|t' _ _ H|t' _ _ H]; auto; apply H. Qed.

Lemma performs_alone p pos size t a t' e : exclusive_alone t -> performs p pos size t a t' e -> exclusive_alone t'.
Proof. intros A P. destruct P; try exact A; eapply fcntl_alone; eauto. Qed.

Lemma performs_others p pos size t a t' e q b : performs p pos size t a t' e -> q <> p -> t' q b = t q b.
Proof. intros P N. destruct P; try reflexivity; eapply fcntl_others; eauto. Qed.

Lemma steps_alone who s s' : exclusive_alone (locks s) -> steps who s s' -> exclusive_alone (locks s').
Proof.
  intros A R. induction R as [s|s s1 s2 p H R IH]; [exact A|]. apply IH. destruct H; cbn [locks]; [eapply performs_alone; eauto|exact A].
Qed.

Lemma steps_mine p s s' b : steps (fun q => q <> p) s s' -> locks s' p b = locks s p b.
Proof.
  intros R. induction R as [s|s s1 s2 q H R IH]; [reflexivity|]. rewrite IH.
  destruct H as [m ob ib r t' e W H|x n _ _]; cbn [locks]; [|reflexivity].
  eapply performs_others; [exact H|]. intros ->. apply W. reflexivity.
Qed.

Lemma shared_alone t p q b : exclusive_alone t -> q <> p -> 0 <= b -> forall k, t p b = Some k -> ~ against k (t q b).
Proof.
  intros A N B k E. destruct k.
  - destruct (t q b) as [[|]|] eqn:T; try exact (fun x => x). intros _. rewrite (A q p b N B T) in E. discriminate.
  - rewrite (A p q b (not_eq_sym N) B E). exact (fun x => x).
Qed.

Lemma fits_signed w x : 0 < w -> - 2 ^ (w - 1) <= x <= 2 ^ (w - 1) - 1 -> to_signed w x = x.
Proof.
  intros W H. unfold to_signed, wrap. assert (P : 2 ^ w = 2 * 2 ^ (w - 1)).
  { rewrite <- (Z.pow_succ_r 2 (w - 1)) by lia. f_equal. lia. }
  assert (0 < 2 ^ (w - 1)) by (apply Z.pow_pos_nonneg; lia).
  destruct (Z_lt_le_dec x 0) as [L|L].
  - replace (x mod 2 ^ w) with (x + 2 ^ w); [|apply (Z.mod_unique x (2 ^ w) (-1)); lia].
    destruct (x + 2 ^ w <? 2 ^ (w - 1)) eqn:E; [apply Z.ltb_lt in E|]; lia.
  - rewrite Z.mod_small by lia. destruct (x <? 2 ^ (w - 1)) eqn:E; [reflexivity|apply Z.ltb_ge in E; lia].
Qed.

(** A request whose integers have [ib] bits: either it is refused or the kernel gets it unchanged. *)
Definition has_bits (ib : Z) (r : request) : Prop :=
  - 2 ^ (ib - 1) <= r_start r <= 2 ^ (ib - 1) - 1 /\ - 2 ^ (ib - 1) <= r_len r <= 2 ^ (ib - 1) - 1.

Lemma flock_exact ob ib r : 0 < ob -> 0 < ib -> has_bits ib r -> out_of_range ob ib r = false ->
  flock_of ob r = mk_flock (wanted (r_type r)) (r_whence r) (r_start r) (r_len r).
Proof.
  intros O I (H1 & H2) N. unfold flock_of. rewrite native_wanted. unfold out_of_range in N. cbv zeta in N.
  assert (M : - 2 ^ (ob - 1) <= r_start r <= 2 ^ (ob - 1) - 1 /\ - 2 ^ (ob - 1) <= r_len r <= 2 ^ (ob - 1) - 1).
  { destruct (ob <? ib) eqn:E; cbn [andb] in N.
    - apply orb_false_iff in N as [N N4]. apply orb_false_iff in N as [N N3]. apply orb_false_iff in N as [N1 N2].
      apply Z.ltb_ge in N1, N2, N3, N4. lia.
    - apply Z.ltb_ge in E. assert (2 ^ (ib - 1) <= 2 ^ (ob - 1)) by (apply Z.pow_le_mono_r; lia). lia. }
  rewrite !fits_signed by lia. reflexivity.
Qed.

(** * Windows *)
Lemma drop_other p q s n t : q <> p -> locks_of p (drop_lock q s n t) = locks_of p t.
Proof.
  intros N. induction t as [|x t IH]; [reflexivity|]. cbn [drop_lock].
  destruct (Nat.eqb (nt_owner x) q && (nt_start x =? s) && (nt_len x =? n)) eqn:E.
  - apply andb_prop in E as [E _]. apply andb_prop in E as [E _]. apply Nat.eqb_eq in E. cbn [locks_of filter].
    destruct (Nat.eqb (nt_owner x) p) eqn:F; [apply Nat.eqb_eq in F; congruence|reflexivity].
  - cbn [locks_of filter]. unfold locks_of in IH. rewrite IH. reflexivity.
Qed.

Lemma others_mine p t t' : nt_others p t t' -> locks_of p t' = locks_of p t.
Proof.
  intros H. induction H as [t|t l t' N H IH|t q s n t' N H IH]; [reflexivity| |]; rewrite IH.
  - unfold locks_of. cbn [filter]. destruct (Nat.eqb (nt_owner l) p) eqn:E; [apply Nat.eqb_eq in E; contradiction|reflexivity].
  - apply drop_other. exact N.
Qed.

(** Releasing a lock one holds releases the first of this range, and no lock of somebody else. *)
Lemma drop_mine p s n t x r : locks_of p t = x :: r -> nt_start x = s -> nt_len x = n ->
  locks_of p (drop_lock p s n t) = r /\ forall q, q <> p -> locks_of q (drop_lock p s n t) = locks_of q t.
Proof.
  intros L Hs Hn. split; [|intros q N; apply drop_other; congruence].
  induction t as [|y t IH]; [discriminate|]. cbn [locks_of filter] in L. cbn [drop_lock].
  destruct (Nat.eqb (nt_owner y) p) eqn:E; cbn [andb].
  - injection L as -> L. subst s n. rewrite !Z.eqb_refl. exact L.
  - cbn [locks_of filter]. rewrite E. apply IH. exact L.
Qed.

Lemma position_range pos size off w fp : nt_get_file_position pos size off w = Some fp -> 0 <= fp <= 2 ^ 63 - 1.
Proof.
  assert (C : forall x, 0 <= (if 2 ^ 63 - 1 <? wrap 64 x then 0 else wrap 64 x) <= 2 ^ 63 - 1).
  { intros x. pose proof (Z.mod_pos_bound x (2 ^ 64) ltac:(reflexivity)) as B. change (x mod 2 ^ 64) with (wrap 64 x) in B.
    destruct (2 ^ 63 - 1 <? wrap 64 x) eqn:E; [lia|apply Z.ltb_ge in E; lia]. }
  unfold nt_get_file_position. destruct w; [|destruct pos; [|discriminate]|destruct size; [|discriminate]]; intros H;
    injection H as <-; apply C.
Qed.

Lemma position_absolute pos size fp : 0 <= fp <= 2 ^ 63 - 1 -> nt_get_file_position pos size fp from_beg = Some fp.
Proof.
  intros H. unfold nt_get_file_position, wrap. rewrite Z.mod_small by lia.
  destruct (2 ^ 63 - 1 <? fp) eqn:E; [apply Z.ltb_lt in E; lia|reflexivity].
Qed.

Lemma length_idem n : nt_length (nt_length n) = nt_length n.
Proof. unfold nt_length. destruct (n =? 0) eqn:E; [reflexivity|rewrite E; reflexivity]. Qed.
