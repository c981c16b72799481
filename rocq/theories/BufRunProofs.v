(** Histories of input operations, read_all on honest devices, tied streams. *)
From Verif Require Import Base BufModel PrintModel BufSpec BufOutProofs BufInProofs.

Section Run.
  Variables (c : config) (a : answers).
  Hypothesis Hnt : never_throws a.

  Lemma hread_fine s n : exists got d', handle_read a s n = (set_dev s d', got, true) /\
    got ++ d_src d' = d_src (b_dev s) /\ (length got <= n)%nat /\ d_log d' = d_log (b_dev s) ++ [Asked n].
  Proof.
    destruct (hread a s n) as (got & d' & [H|[H _]] & H2).
    - exists got, d'. auto.
    - exfalso. unfold handle_read, dev_read in H. specialize (Hnt (length (d_log (b_dev s))) n).
      destruct (a _ _) as [k ok]. cbn in Hnt. subst ok. inversion H.
  Qed.
  Lemma handle_write_fine s data : exists d', handle_write a s data = Fine (set_dev s d') /\ d_src d' = d_src (b_dev s).
  Proof.
    unfold handle_write, dev_write. specialize (Hnt (length (d_log (b_dev s))) (length data)).
    destruct (a _ _) as [k ok]. cbn in Hnt. subst ok. eexists. split; reflexivity.
  Qed.
  Lemma tie_flush_fine s : exists s', tie_flush c a s = Fine s'.
  Proof.
    unfold tie_flush, out_flush. destruct (c_out c && c_tie c); [|eauto].
    destruct (Nat.eqb _ _); [eauto|]. destruct (handle_write_fine s (pending s)) as (d' & -> & _). cbn. eauto.
  Qed.
  Lemma decay_fine s n : exists s' got, read_unhappy_decay c a s n = RFine s' got.
  Proof.
    unfold read_unhappy_decay. destruct (Nat.leb _ _).
    - destruct (hread_fine s n) as (got & d' & -> & _). eauto.
    - set (s1 := match b_in s with INull => set_in s ITorn | _ => s end).
      destruct (hread_fine s1 (c_bfs c)) as (got & d' & -> & _). eauto.
  Qed.
  Lemma read_fine s n : b_in s <> ITorn -> exists s' got, io_read c a s n = RFine s' got.
  Proof.
    intros Ht. unfold io_read.
    assert (Hu : exists s' got, read_unhappy c a s n = RFine s' got).
    { unfold read_unhappy. destruct (tie_flush_fine s) as (s1 & E). rewrite E.
      destruct (tie_flush_in _ _ _ _ E) as [Hi _]. rewrite Hi.
      destruct (b_in s) as [|l|]; [apply decay_fine| |congruence].
      destruct (decay_fine (set_in s1 (IHas [])) (n - length l)) as (s2 & got & ->). eauto. }
    destruct (b_in s) as [|l|] eqn:Ei; [| |congruence]; destruct (Nat.ltb _ _); eauto.
  Qed.
  Lemma cold_fine rd (P : bios -> Prop) :
    (forall s n, P s -> exists s' got, rd s n = RFine s' got /\ P s' /\ (length got <= n)%nat) ->
    forall fuel s n, P s -> (n <= fuel)%nat ->
    exists s' got, read_all_cold rd fuel s n = RFine s' got \/ read_all_cold rd fuel s n = REof s' got.
  Proof.
    intros Hrd. induction fuel as [|fuel IH]; intros s n Hp Hf.
    - destruct n; [|lia]. cbn. eauto.
    - cbn [read_all_cold]. destruct n as [|n]; [eauto|].
      destruct (Hrd s (S n) Hp) as (s1 & got & -> & Hp1 & Hl).
      destruct (Nat.eqb (length got) 0) eqn:E; [eauto|]. apply Nat.eqb_neq in E.
      destruct (IH s1 (S n - length got)%nat Hp1) as (s2 & g2 & [-> | ->]); [lia| |]; eauto.
  Qed.
  Lemma read_step s n : b_in s <> ITorn ->
    exists s' got, io_read c a s n = RFine s' got /\ b_in s' <> ITorn /\ (length got <= n)%nat /\
      got ++ left_over s' = left_over s.
  Proof.
    intros Ht. destruct (read_fine s n Ht) as (s' & got & E). exists s', got.
    destruct (read_accounts c a s n Ht) as [H1 H2]. rewrite E in *. cbn in H1. tauto.
  Qed.
  Lemma read_all_step s n : b_in s <> ITorn ->
    exists s' got, b_in s' <> ITorn /\ got ++ left_over s' = left_over s /\
      ((read_all c a s n = RFine s' got /\ length got = n) \/ (read_all c a s n = REof s' got /\ (length got < n)%nat)).
  Proof.
    intros Ht.
    assert (H : exists s' got, read_all c a s n = RFine s' got \/ read_all c a s n = REof s' got).
    { unfold read_all. assert (Hc : exists s' got,
          read_all_cold (io_read c a) n s n = RFine s' got \/ read_all_cold (io_read c a) n s n = REof s' got).
      { apply cold_fine with (P := fun s => b_in s <> ITorn); auto.
        intros s0 n0 H0. destruct (read_step s0 n0 H0) as (s' & got & H1 & H2 & H3 & _). eauto. }
      destruct (b_in s) as [|l|] eqn:Ei; [| |congruence]; unfold in_room; rewrite Ei.
      - replace (Nat.ltb n 0) with false by (destruct n; reflexivity). exact Hc.
      - destruct (Nat.ltb n (length l)); eauto. }
    destruct H as (s' & got & H). exists s', got.
    destruct (read_all_accounts c a s n Ht) as [H1 H2].
    destruct H as [E|E]; rewrite E in *; cbn in H1; destruct H1 as [H1 H3]; split; auto.
  Qed.

  Lemma write_in s l r : ob_write c a s l = r ->
    match r with Fine s' | Raised s' => left_over s' = left_over s /\ b_in s' = b_in s | _ => True end.
  Proof.
    assert (Hst : forall s0 t, match out_store c s0 t with
       | Fine s' | Raised s' => left_over s' = left_over s0 /\ b_in s' = b_in s0 | _ => True end).
    { intros s0 t. unfold out_store. destruct (b_out s0).
      - destruct (Nat.leb _ _); auto.
      - destruct (Nat.eqb _ _); auto. }
    assert (Hhw : forall s0 t, match handle_write a s0 t with
       | Fine s' | Raised s' => left_over s' = left_over s0 /\ b_in s' = b_in s0 | _ => True end).
    { intros s0 t. unfold handle_write, dev_write. destruct (a _ _) as [k ok]. destruct ok; auto. }
    intros <-. unfold ob_write. destruct (Nat.ltb _ _); [|apply Hst].
    unfold write_unhappy. destruct (b_out s).
    - unfold write_unhappy_alloc. destruct (c_scatter c).
      + specialize (Hhw s (pending s ++ l)). destruct (handle_write _ _ _); cbn; auto.
      + pose proof (Hhw s (pending s)) as H1. destruct (handle_write a s (pending s)) as [s1|s1| |]; cbn; auto.
        pose proof (Hhw s1 l) as H2. destruct (handle_write a s1 l) as [s2|s2| |]; cbn; auto;
          destruct H1 as [H1 H1b], H2 as [H2 H2b]; (split; [etransitivity; [exact H2|exact H1]|congruence]).
    - destruct (Nat.ltb (length l) (c_bfs c)); [|apply Hhw].
      specialize (Hst (out_alloc s) l). destruct (out_store c (out_alloc s) l); auto.
  Qed.
  Lemma write_fine s l : binv c s \/ c_out c = false -> (0 < c_bfs c)%nat ->
    c_out c = true -> exists s', ob_write c a s l = Fine s' /\ binv c s'.
  Proof.
    intros [Hb|Hb] Hp Ho; [|congruence].
    destruct (write_goes subseq c a okrel_sub (dev_good_sub a Hnt) Hp s l Hb) as (s' & E & Hi & _). eauto.
  Qed.
  Lemma take_step s k : b_in s <> ITorn -> exists s' got, io_take s (Nat.min k (length (unread s))) = RFine s' got /\
    b_in s' <> ITorn /\ got ++ left_over s' = left_over s.
  Proof.
    intros Ht. unfold io_take, unread. destruct (b_in s) as [|l|] eqn:Ei; [| |congruence].
    - cbn. rewrite Nat.min_0_r. cbn. exists s, []. repeat split; congruence.
    - set (m := Nat.min k (length l)).
      replace (Nat.leb m (length l)) with true by (symmetry; apply Nat.leb_le; unfold m; lia).
      eexists. eexists. split; [reflexivity|]. split; [cbn; discriminate|].
      unfold left_over, unread. cbn. rewrite Ei, app_assoc, firstn_skipn. reflexivity.
  Qed.
  Lemma refill_step s : b_in s <> ITorn -> unread s = [] -> exists s' m, io_underflow c a s = UFine s' m /\
    b_in s' <> ITorn /\ left_over s' = left_over s /\ (m = true <-> unread s' <> []).
  Proof.
    intros Ht Hu. unfold io_underflow. destruct (tie_flush_fine s) as (s1 & E). rewrite E.
    destruct (tie_flush_in _ _ _ _ E) as [Hi Hd]. unfold underflow.
    set (s2 := match b_in s1 with INull => set_in s1 (IHas []) | _ => s1 end).
    assert (Hd2 : b_dev s2 = b_dev s1) by (unfold s2; destruct (b_in s1); reflexivity). clearbody s2.
    destruct (hread_fine s2 (c_bfs c)) as (got & d' & -> & Hs & Hl & _).
    eexists. eexists. split; [reflexivity|]. split; [cbn; discriminate|]. split.
    - unfold left_over. rewrite Hu. unfold unread. cbn. rewrite Hs, Hd2, Hd. reflexivity.
    - unfold unread. cbn. destruct got; cbn; split; congruence.
  Qed.

  (** The tied flush and reads do not disturb the output side. *)
  Lemma tie_flush_binv s s' : binv c s -> tie_flush c a s = Fine s' -> binv c s'.
  Proof.
    unfold tie_flush, out_flush. intros [Ho Hb]. destruct (c_out c && c_tie c); [|intros E; inversion E; split; subst; auto].
    destruct (Nat.eqb _ _); [intros E; inversion E; split; subst; auto|].
    destruct (handle_write_fine s (pending s)) as (d' & -> & _). cbn. intros E; inversion E. split; cbn; auto. lia.
  Qed.
End Run.

Section History.
  Variables (c : config) (a : answers).
  Hypothesis Hnt : never_throws a.
  Hypothesis HB : (0 < c_bfs c)%nat.
  Definition out_ok (s : bios) : Prop := match b_out s with Some l => (length l <= c_bfs c)%nat | None => True end.

  Lemma decay_out s n s' got : read_unhappy_decay c a s n = RFine s' got -> b_out s' = b_out s.
  Proof.
    unfold read_unhappy_decay. destruct (Nat.leb _ _).
    - destruct (hread_fine a Hnt s n) as (g & d' & -> & _). intros E; inversion E; reflexivity.
    - set (s1 := match b_in s with INull => set_in s ITorn | _ => s end).
      assert (H1 : b_out s1 = b_out s) by (unfold s1; destruct (b_in s); reflexivity). clearbody s1.
      destruct (hread_fine a Hnt s1 (c_bfs c)) as (g & d' & -> & _). intros E; inversion E. exact H1.
  Qed.
  Lemma tie_out s s' : out_ok s -> tie_flush c a s = Fine s' -> out_ok s'.
  Proof.
    unfold tie_flush, out_flush, out_ok. intros Hb.
    destruct (c_out c && c_tie c); [|intros E; inversion E; subst; auto].
    destruct (Nat.eqb _ _); [intros E; inversion E; subst; auto|].
    destruct (handle_write_fine a Hnt s (pending s)) as (d' & -> & _). cbn. intros E; inversion E. cbn. lia.
  Qed.
  Lemma unhappy_out s n s' got : out_ok s -> read_unhappy c a s n = RFine s' got -> out_ok s'.
  Proof.
    intros Ho. unfold read_unhappy. destruct (tie_flush_fine c a Hnt s) as (s1 & E). rewrite E.
    pose proof (tie_out _ _ Ho E) as H1. destruct (b_in s1) as [|l|]; [| |discriminate].
    - intros H. unfold out_ok. rewrite (decay_out _ _ _ _ H). exact H1.
    - destruct (read_unhappy_decay c a (set_in s1 (IHas [])) (n - length l)) as [s2 g2| | | |] eqn:E2; try discriminate.
      intros H. inversion H; subst. unfold out_ok. rewrite (decay_out _ _ _ _ E2). exact H1.
  Qed.
  Lemma read_out s n s' got : out_ok s -> io_read c a s n = RFine s' got -> out_ok s'.
  Proof.
    intros Ho. unfold io_read. destruct (b_in s) as [|l|] eqn:Ei; [| |discriminate].
    - destruct (Nat.ltb _ _); [apply unhappy_out; auto|]. intros E; inversion E; subst; auto.
    - destruct (Nat.ltb _ _); [apply unhappy_out; auto|]. intros E; inversion E; subst; auto.
  Qed.
  Lemma cold_out : forall fuel s n s' got, out_ok s -> b_in s <> ITorn ->
    (read_all_cold (io_read c a) fuel s n = RFine s' got \/ read_all_cold (io_read c a) fuel s n = REof s' got) ->
    out_ok s'.
  Proof.
    induction fuel as [|fuel IH]; intros s n s' got Ho Ht; cbn [read_all_cold].
    - destruct n; [|intros [H|H]; discriminate]. intros [H|H]; inversion H; subst; auto.
    - destruct n as [|n]; [intros [H|H]; inversion H; subst; auto|].
      destruct (read_step c a Hnt s (S n) Ht) as (s1 & g1 & E1 & Ht1 & _). rewrite E1.
      pose proof (read_out _ _ _ _ Ho E1) as Ho1.
      destruct (Nat.eqb _ _); [intros [H|H]; inversion H; subst; auto|].
      destruct (read_all_cold (io_read c a) fuel s1 (S n - length g1)) as [s2 g2|s2 g2|s2 g2| |] eqn:E2;
        intros [H|H]; inversion H; subst; eapply IH; eauto.
  Qed.
  Lemma read_all_out s n s' got : out_ok s -> b_in s <> ITorn ->
    (read_all c a s n = RFine s' got \/ read_all c a s n = REof s' got) -> out_ok s'.
  Proof.
    intros Ho Ht. unfold read_all. destruct (b_in s) as [|l|] eqn:Ei; [| |congruence].
    - destruct (Nat.ltb _ _); [intros [H|H]; discriminate|]. apply cold_out; auto; congruence.
    - destruct (Nat.ltb _ _); [intros [H|H]; inversion H; subst; auto|]. apply cold_out; auto; congruence.
  Qed.

  Lemma run_in_accounts : forall xs s, (c_out c = true \/ Forall no_output xs) -> out_ok s -> b_in s <> ITorn ->
    exists s' got, run_in c a s xs = Some (s', got) /\ got ++ left_over s' = left_over s.
  Proof.
    induction xs as [|x xs IH]; intros s Hc Ho Ht; cbn [run_in].
    - exists s, []. auto.
    - assert (Hgo : forall s1 g1, out_ok s1 -> b_in s1 <> ITorn -> g1 ++ left_over s1 = left_over s ->
        exists s' got, match run_in c a s1 xs with Some (s0, t) => Some (s0, g1 ++ t) | None => None end = Some (s', got)
          /\ got ++ left_over s' = left_over s).
      { intros s1 g1 Ho1 Ht1 H1. destruct (IH s1 ltac:(destruct Hc as [Hc|Hc]; [auto|inversion Hc; auto]) Ho1 Ht1) as (s2 & g2 & -> & H2).
        exists s2, (g1 ++ g2). split; auto. rewrite <- app_assoc, H2. exact H1. }
      destruct x.
      + destruct (read_step c a Hnt s n Ht) as (s1 & g1 & E & Ht1 & _ & H1). rewrite E.
        apply Hgo; auto. apply (read_out _ _ _ _ Ho E).
      + destruct (read_all_step c a Hnt s n Ht) as (s1 & g1 & Ht1 & H1 & [[E _]|[E _]]); rewrite E; apply Hgo; auto;
          eapply read_all_out; eauto.
      + destruct (Nat.eqb (length (unread s)) 0) eqn:E0.
        * apply Nat.eqb_eq in E0. assert (Hu : unread s = []) by (destruct (unread s); [auto|discriminate]).
          destruct (refill_step c a Hnt s Ht Hu) as (s1 & m & E & Ht1 & H1 & _).
          rewrite E. apply Hgo; auto.
          unfold io_underflow in E. destruct (tie_flush_fine c a Hnt s) as (s3 & E3). rewrite E3 in E.
          pose proof (tie_out _ _ Ho E3) as H3. unfold underflow in E.
          set (s4 := match b_in s3 with INull => set_in s3 (IHas []) | _ => s3 end) in *.
          assert (Ho4 : out_ok s4) by (unfold s4, out_ok in *; destruct (b_in s3); auto). clearbody s4.
          destruct (hread_fine a Hnt s4 (c_bfs c)) as (g & d' & E4 & _). rewrite E4 in E. inversion E; subst. exact Ho4.
        * apply Hgo; auto.
      + destruct (take_step s k Ht) as (s1 & g1 & E & Ht1 & H1). rewrite E. apply Hgo; auto.
        unfold io_take in E. destruct (b_in s) as [|l|].
        * destruct (Nat.eqb _ _); inversion E; subst; auto.
        * destruct (Nat.leb _ _); inversion E; subst; auto.
        * destruct (Nat.eqb _ _); inversion E; subst; auto.
      + assert (Hc1 : c_out c = true) by (destruct Hc as [Hc|Hc]; [auto|inversion Hc; contradiction]).
        destruct (write_fine c a Hnt s l) as (s1 & E & Hb1); auto; [left; split; auto|].
        rewrite E. pose proof (write_in c a s l _ E) as [H1 H2]. apply Hgo; auto; [apply Hb1|congruence].
  Qed.
End History.

(** ** read_all on honest devices *)
Section Honest.
  Variables (c : config) (a : answers).
  Hypothesis Hh : honest_reads a.
  Hypothesis HB : (0 < c_bfs c)%nat.
  Lemma honest_nt : never_throws a.
  Proof. intros k n. apply Hh. Qed.

  Lemma hread_honest s n : (0 < n)%nat -> exists got d', handle_read a s n = (set_dev s d', got, true) /\
    got ++ d_src d' = d_src (b_dev s) /\ (got = [] -> d_src (b_dev s) = []).
  Proof.
    intros Hn. destruct (hread_fine a honest_nt s n) as (got & d' & E & Hs & _).
    exists got, d'. split; auto. split; auto. intros ->.
    unfold handle_read, dev_read in E. destruct (Hh (length (d_log (b_dev s))) n) as [H1 H2].
    destruct (a _ _) as [k ok]. cbn in *. subst ok. specialize (H1 Hn). inversion E as [[E1 E2]].
    rewrite E2. destruct (d_src (b_dev s)) as [|z l]; auto.
    exfalso. destruct (Nat.min k n) as [|m] eqn:Em; [destruct k, n; try lia; cbn in Em; lia|]. cbn in E2. discriminate.
  Qed.
  Lemma decay_honest s n : (0 < n)%nat -> forall s' got,
    unread s = [] -> read_unhappy_decay c a s n = RFine s' got -> got = [] -> left_over s = [].
  Proof.
    intros Hn s' got Hu. unfold read_unhappy_decay, left_over. rewrite Hu. cbn [app]. destruct (Nat.leb _ _).
    - destruct (hread_honest s n Hn) as (g & d' & -> & _ & H). intros E G. inversion E; subst. auto.
    - set (s1 := match b_in s with INull => set_in s ITorn | _ => s end).
      assert (Hd : b_dev s1 = b_dev s) by (unfold s1; destruct (b_in s); reflexivity). clearbody s1.
      destruct (hread_honest s1 (c_bfs c) HB) as (g & d' & -> & _ & H). intros E G. inversion E; subst.
      rewrite <- Hd. apply H. destruct g; auto. destruct n; [lia|]. discriminate.
  Qed.
  Lemma read_honest s n : (0 < n)%nat -> b_in s <> ITorn -> forall s' got,
    io_read c a s n = RFine s' got -> got = [] -> left_over s = [].
  Proof.
    intros Hn Ht s' got E G. subst got. unfold io_read in E.
    assert (Hu : (length (unread s) < n)%nat -> read_unhappy c a s n = RFine s' [] -> left_over s = []).
    { intros Hl. unfold read_unhappy. destruct (tie_flush_fine c a honest_nt s) as (s1 & E1). rewrite E1.
      destruct (tie_flush_in _ _ _ _ E1) as [Hi Hd]. 
      assert (Hlo : left_over s1 = left_over s) by (unfold left_over, unread; rewrite Hi, Hd; reflexivity).
      destruct (b_in s1) as [|l|] eqn:Ei; [| |discriminate].
      - intros H. rewrite <- Hlo. eapply decay_honest; eauto. unfold unread. rewrite Ei. reflexivity.
      - destruct (read_unhappy_decay c a (set_in s1 (IHas [])) (n - length l)) as [s2 g2| | | |] eqn:E2; try discriminate.
        intros H. inversion H as [[Hs Hg]]. destruct l; [|discriminate]. cbn in *. subst g2.
        rewrite Nat.sub_0_r in E2.
        pose proof (decay_honest (set_in s1 (IHas [])) n Hn _ _ eq_refl E2 eq_refl) as H3.
        rewrite <- Hlo. unfold left_over, unread in *. cbn in H3. rewrite Ei. exact H3. }
    unfold in_room, unread in *. destruct (b_in s) as [|l|] eqn:Ei; [| |congruence].
    - destruct (Nat.ltb 0 n) eqn:E0; [|apply Nat.ltb_ge in E0; lia]. apply Hu; auto.
    - destruct (Nat.ltb (length l) n) eqn:E0; [apply Nat.ltb_lt in E0; apply Hu; auto|].
      apply Nat.ltb_ge in E0. inversion E as [[E1 E2]]. destruct l; [cbn in E0; lia|]. destruct n; [lia|]. discriminate.
  Qed.
  Lemma cold_honest : forall fuel s n s' got, b_in s <> ITorn ->
    read_all_cold (io_read c a) fuel s n = REof s' got -> left_over s' = [].
  Proof.
    induction fuel as [|fuel IH]; intros s n s' got Ht; cbn [read_all_cold].
    - destruct n; discriminate.
    - destruct n as [|n]; [discriminate|].
      destruct (read_step c a honest_nt s (S n) Ht) as (s1 & g1 & E1 & Ht1 & _ & Hacc). rewrite E1.
      destruct (Nat.eqb (length g1) 0) eqn:E0.
      + apply Nat.eqb_eq in E0. destruct g1; [|discriminate]. intros H; inversion H; subst.
        cbn in Hacc. rewrite Hacc. apply (read_honest s (S n) (Nat.lt_0_succ n) Ht _ _ E1 eq_refl).
      + destruct (read_all_cold (io_read c a) fuel s1 (S n - length g1)) as [s2 g2|s2 g2|s2 g2| |] eqn:E2;
          intros H; inversion H; subst. eapply IH; eauto.
  Qed.
  Lemma read_all_honest s n : b_in s <> ITorn ->
    ((n <= length (left_over s))%nat /\ exists s', read_all c a s n = RFine s' (firstn n (left_over s)) /\
        left_over s' = skipn n (left_over s)) \/
    ((length (left_over s) < n)%nat /\ exists s', read_all c a s n = REof s' (left_over s) /\ left_over s' = []).
  Proof.
    intros Ht. destruct (read_all_step c a honest_nt s n Ht) as (s' & got & Ht' & Hacc & [[E Hl]|[E Hl]]).
    - left. rewrite <- Hacc, app_length. split; [lia|]. exists s'. rewrite E.
      rewrite firstn_app, skipn_app, firstn_all2, skipn_all2 by lia.
      replace (n - length got)%nat with 0%nat by lia. cbn. rewrite app_nil_r. auto.
    - right.
      assert (Hlo : left_over s' = []).
      { unfold read_all in E. destruct (b_in s) as [|l|] eqn:Ei; [| |congruence].
        - destruct (Nat.ltb _ _); [discriminate|]. apply (cold_honest n s n s' got); [rewrite Ei; discriminate|exact E].
        - destruct (Nat.ltb _ _); [discriminate|]. apply (cold_honest n s n s' got); [rewrite Ei; discriminate|exact E]. }
      rewrite Hlo, app_nil_r in Hacc. subst got. split; auto. exists s'. auto.
  Qed.
  (** The device without a buffer. *)
  Lemma raw_cold : forall fuel s n, unread s = [] -> b_in s <> ITorn -> (n <= fuel)%nat ->
    ((n <= length (d_src (b_dev s)))%nat /\ exists s', read_all_cold (raw_read a) fuel s n = RFine s' (firstn n (d_src (b_dev s))) /\
        d_src (b_dev s') = skipn n (d_src (b_dev s))) \/
    ((length (d_src (b_dev s)) < n)%nat /\ exists s', read_all_cold (raw_read a) fuel s n = REof s' (d_src (b_dev s)) /\
        d_src (b_dev s') = []).
  Proof.
    induction fuel as [|fuel IH]; intros s n Hu Ht Hf.
    - destruct n; [|lia]. left. split; [lia|]. exists s. auto.
    - destruct n as [|n]; [left; split; [lia|]; exists s; auto|].
      cbn [read_all_cold]. unfold raw_read at 1 3.
      destruct (hread_honest s (S n)) as (g & d' & E & Hs & H); [lia|]. 
      destruct (hread_fine a honest_nt s (S n)) as (g' & d'' & E' & _ & Hl & _).
      rewrite E in E'. assert (X : g = g') by congruence. subst g'. clear E'. rewrite E.
      destruct (Nat.eqb (length g) 0) eqn:E0.
      + apply Nat.eqb_eq in E0. destruct g; [|discriminate]. specialize (H eq_refl). right. rewrite H.
        split; [cbn; lia|]. eexists. split; [reflexivity|]. cbn. cbn in Hs. congruence.
      + apply Nat.eqb_neq in E0. rewrite <- Hs.
        destruct (IH (set_dev s d') (S n - length g)%nat Hu Ht) as [[H1 (s2 & H2 & H3)]|[H1 (s2 & H2 & H3)]]; [lia| |].
        * left. cbn [b_dev set_dev] in *. rewrite app_length. split; [lia|]. exists s2. rewrite H2.
          rewrite firstn_app, skipn_app. rewrite (firstn_all2 g) by exact Hl. rewrite (skipn_all2 g) by exact Hl. auto.
        * right. cbn [b_dev set_dev] in *. rewrite app_length. split; [lia|]. exists s2. rewrite H2. auto.
  Qed.
End Honest.

(** ** Tied streams *)
Section Tie.
  Variables (c : config) (a : answers).
  Hypothesis Hta : takes_all a.
  Hypothesis Hio : c_out c = true.
  Hypothesis Htie : c_tie c = true.
  (** Every request for input in the new part of the log comes after everything said before. *)
  Definition asks_after (s s' : bios) : Prop :=
    exists evs, d_log (b_dev s') = d_log (b_dev s) ++ evs /\
      (forall pre n post, evs = pre ++ Asked n :: post -> delivered (d_log (b_dev s) ++ pre) = device_got s ++ pending s).
  Lemma nt : never_throws a.
  Proof. intros k n. apply Hta. Qed.
  Lemma tie_delivers s : exists s' evs, tie_flush c a s = Fine s' /\ d_log (b_dev s') = d_log (b_dev s) ++ evs /\
     (forall e, In e evs -> exists l, e = Wrote l) /\ delivered (d_log (b_dev s) ++ evs) = device_got s ++ pending s.
  Proof.
    unfold tie_flush, out_flush. rewrite Hio, Htie. cbn [andb].
    destruct (Nat.eqb (length (pending s)) 0) eqn:E.
    - apply Nat.eqb_eq in E. destruct (pending s) eqn:Ep; [|discriminate].
      exists s, []. rewrite !app_nil_r. repeat split; auto. intros e [].
    - destruct (dev_good_eq a Hta (b_dev s) (pending s)) as (d' & E1 & Hd).
      unfold handle_write. rewrite E1. cbn. unfold dev_write in E1. destruct (a _ _) as [k ok].
      inversion E1; subst. eexists. eexists. split; [reflexivity|]. cbn. split; [reflexivity|]. split.
      + intros e [<-|[]]. eauto.
      + exact Hd.
  Qed.
  Lemma asks_one s evs n : (forall e, In e evs -> exists l, e = Wrote l) ->
    delivered (d_log (b_dev s) ++ evs) = device_got s ++ pending s ->
    forall pre m post, evs ++ [Asked n] = pre ++ Asked m :: post ->
      delivered (d_log (b_dev s) ++ pre) = device_got s ++ pending s.
  Proof.
    intros He Hd pre m post E.
    assert (pre = evs).
    { revert pre E. clear Hd. induction evs as [|e evs IH]; intros pre E.
      - destruct pre as [|p pre]; auto. inversion E. destruct pre; discriminate.
      - destruct pre as [|p pre]; cbn in E; inversion E; subst.
        + destruct (He (Asked m)) as (l & X); [left; auto|discriminate].
        + f_equal. apply IH; auto. intros e0 H0. apply He. right; auto. }
    subst. exact Hd.
  Qed.
  Lemma decay_log s n s' got : read_unhappy_decay c a s n = RFine s' got ->
    exists m, d_log (b_dev s') = d_log (b_dev s) ++ [Asked m].
  Proof.
    unfold read_unhappy_decay. destruct (Nat.leb _ _).
    - destruct (hread_fine a nt s n) as (g & d' & -> & _ & _ & Hl). intros E; inversion E; subst. eauto.
    - set (s1 := match b_in s with INull => set_in s ITorn | _ => s end).
      assert (Hd : b_dev s1 = b_dev s) by (unfold s1; destruct (b_in s); reflexivity). clearbody s1.
      destruct (hread_fine a nt s1 (c_bfs c)) as (g & d' & -> & _ & _ & Hl). intros E; inversion E; subst.
      cbn. rewrite <- Hd. eauto.
  Qed.
  Lemma read_tied s n s' got : io_read c a s n = RFine s' got -> asks_after s s'.
  Proof.
    assert (Hnone : forall i, asks_after s (set_in s i)).
    { intros i. exists []. cbn. rewrite app_nil_r. split; auto. intros pre m post E. destruct pre; discriminate. }
    assert (Hself : asks_after s s).
    { exists []. cbn. rewrite app_nil_r. split; auto. intros pre m post E. destruct pre; discriminate. }
    assert (Hun : read_unhappy c a s n = RFine s' got -> asks_after s s').
    { unfold read_unhappy. destruct (tie_delivers s) as (s1 & evs & -> & Hl & He & Hd).
      assert (Hfin : forall s2 m, d_log (b_dev s2) = d_log (b_dev s1) ++ [Asked m] -> asks_after s s2).
      { intros s2 m H2. exists (evs ++ [Asked m]). rewrite H2, Hl, <- app_assoc. split; auto.
        eapply asks_one; eauto. }
      destruct (b_in s1) as [|l|]; [| |discriminate].
      - intros E. destruct (decay_log _ _ _ _ E) as (m & H). eauto.
      - destruct (read_unhappy_decay c a (set_in s1 (IHas [])) (n - length l)) as [s2 g2| | | |] eqn:E2; try discriminate.
        intros E. inversion E; subst. destruct (decay_log _ _ _ _ E2) as (m & H). eauto. }
    unfold io_read. destruct (b_in s) as [|l|] eqn:Ei; [| |discriminate].
    - destruct (Nat.ltb _ _); [exact Hun|]. intros E; inversion E; subst; auto.
    - destruct (Nat.ltb _ _); [exact Hun|]. intros E; inversion E; subst; auto.
  Qed.
  Lemma underflow_tied s s' m : io_underflow c a s = UFine s' m -> asks_after s s'.
  Proof.
    unfold io_underflow. destruct (tie_delivers s) as (s1 & evs & -> & Hl & He & Hd). unfold underflow.
    set (s2 := match b_in s1 with INull => set_in s1 (IHas []) | _ => s1 end).
    assert (Hd2 : b_dev s2 = b_dev s1) by (unfold s2; destruct (b_in s1); reflexivity). clearbody s2.
    destruct (hread_fine a nt s2 (c_bfs c)) as (g & d' & -> & _ & _ & Hlog). intros E; inversion E; subst.
    exists (evs ++ [Asked (c_bfs c)]). cbn. rewrite Hlog, Hd2, Hl, <- app_assoc. split; auto.
    eapply asks_one; eauto.
  Qed.
End Tie.
