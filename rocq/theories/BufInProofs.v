(** Proofs about failing devices and the input side. *)
From Verif Require Import Base BufModel PrintModel BufSpec BufOutProofs.

(** ** Exceptions on the output side *)
Section Clean.
  Variables (c : config) (a : answers).
  Hypothesis Hclean : throws_clean a.
  Hypothesis Hall : all_or_throw a.
  Hypothesis HB : (0 < c_bfs c)%nat.
  Notation inv := (binv c).

  (** What a step may do: all of it, or nothing and throw. *)
  Definition clean (s : bios) (t : list Z) (r : res bios) : Prop :=
    exists s', inv s' /\ ((r = Fine s' /\ ball s' = ball s ++ t) \/ (r = Raised s' /\ ball s' = ball s)).
  Lemma handle_clean s data : exists d',
    (handle_write a s data = Fine (set_dev s d') /\ delivered (d_log d') = device_got s ++ data) \/
    (handle_write a s data = Raised (set_dev s d') /\ delivered (d_log d') = device_got s).
  Proof.
    unfold handle_write, dev_write. specialize (Hclean (length (d_log (b_dev s))) (length data)).
    specialize (Hall (length (d_log (b_dev s))) (length data)).
    destruct (a _ _) as [k ok]. cbn in *. eexists. destruct ok.
    - left. split; [reflexivity|]. cbn. rewrite delivered_app. cbn.
      rewrite app_nil_r, firstn_all2 by auto. reflexivity.
    - right. split; [reflexivity|]. cbn. rewrite delivered_app. cbn. rewrite Hclean by auto. cbn.
      apply app_nil_r.
  Qed.
  Lemma store_clean s t : inv s -> (length t <= out_room c s)%nat -> clean s t (out_store c s t).
  Proof.
    intros Hi Hl. destruct (store_goes eq c okrel_eq HB s t Hi Hl) as (s' & E & Hi' & Hr).
    exists s'. auto.
  Qed.
  Lemma flush_clean s : inv s -> exists s', inv s' /\ ball s' = ball s /\ (b_out s <> None -> b_out s' <> None) /\
    ((out_flush a s = Fine s' /\ pending s' = []) \/ out_flush a s = Raised s').
  Proof.
    intros [Ho Hi]. unfold out_flush. destruct (pending s) as [|z p] eqn:Ep; cbn [length Nat.eqb].
    - exists s. split; [split; auto|]. auto.
    - destruct (handle_clean s (z :: p)) as (d' & [[-> Hd]|[-> Hd]]); cbn [bindr].
      + exists (set_out (set_dev s d') (Some [])). split; [split; auto; cbn; lia|].
        unfold ball, device_got. cbn. rewrite Ep, app_nil_r. split; [exact Hd|]. split; [discriminate|]. auto.
      + exists (set_dev s d'). split; [split; auto|]. unfold ball, device_got, pending. cbn.
        unfold pending in Ep. rewrite Ep. split; [f_equal; exact Hd|]. auto.
  Qed.
  Lemma put_clean s ch : inv s -> clean s [ch] (ob_put c a s ch).
  Proof.
    intros Hi. unfold ob_put. destruct (Nat.eqb _ _) eqn:E.
    - unfold ob_overflow, out_prepare. destruct (b_out s) as [l|] eqn:Eo.
      + destruct (flush_clean s Hi) as (s' & Hi' & Hb & Hn & [[-> Hp]| ->]); cbn [bindr].
        * destruct (store_clean s' [ch] Hi') as (s'' & Hi2 & H2).
          { unfold out_room. unfold pending in Hp. destruct (b_out s'); [subst; cbn; lia|].
            exfalso. apply Hn; congruence. }
          exists s''. split; auto. rewrite <- Hb. exact H2.
        * exists s'. split; auto.
      + cbn [bindr]. destruct Hi as [Ho _].
        destruct (store_clean (out_alloc s) [ch]) as (s'' & Hi2 & H2); [split; auto; cbn; lia|cbn; lia|].
        exists s''. split; auto.
        replace (ball s) with (ball (out_alloc s)); [exact H2|].
        unfold ball, pending, device_got. cbn. rewrite Eo. reflexivity.
    - apply Nat.eqb_neq in E. apply store_clean; auto. cbn. lia.
  Qed.
  Lemma write_clean s t : c_scatter c = true -> inv s -> clean s t (ob_write c a s t).
  Proof.
    intros Hsc [Ho Hi]. unfold ob_write. destruct (Nat.ltb _ _) eqn:E;
      [|apply store_clean; [split; auto|]; apply Nat.ltb_ge in E; exact E].
    unfold write_unhappy. destruct (b_out s) as [l|] eqn:Eo.
    - unfold write_unhappy_alloc. rewrite Hsc.
      assert (Hp : pending s = l) by (unfold pending; rewrite Eo; reflexivity).
      destruct (handle_clean s (pending s ++ t)) as (d' & [[-> Hd]|[-> Hd]]); cbn [bindr].
      + eexists. split; [|left; split; [reflexivity|]]; [split; auto; cbn; lia|].
        unfold ball, device_got. cbn. rewrite app_nil_r, Hd, app_assoc. reflexivity.
      + eexists. split; [|right; split; [reflexivity|]]; [split; auto; cbn; rewrite Eo; auto|].
        unfold ball, device_got, pending. cbn. f_equal. exact Hd.
    - destruct (Nat.ltb (length t) (c_bfs c)) eqn:E2.
      + apply Nat.ltb_lt in E2.
        destruct (store_clean (out_alloc s) t) as (s'' & Hi2 & H2); [split; auto; cbn; lia|cbn; lia|].
        exists s''. split; auto.
        replace (ball s) with (ball (out_alloc s)); [exact H2|].
        unfold ball, pending, device_got. cbn. rewrite Eo. reflexivity.
      + destruct (handle_clean s t) as (d' & [[-> Hd]|[-> Hd]]).
        * eexists. split; [|left; split; [reflexivity|]]; [split; auto; cbn; rewrite Eo; exact I|].
          unfold ball, device_got, pending. cbn. rewrite Eo, !app_nil_r. exact Hd.
        * eexists. split; [|right; split; [reflexivity|]]; [split; auto; cbn; rewrite Eo; exact I|].
          unfold ball, device_got, pending. cbn. f_equal. exact Hd.
  Qed.
  Lemma oop_clean s x : c_scatter c = true -> inv s -> not_print x -> clean s (said x) (do_oop c a s x).
  Proof.
    intros Hsc Hi Hx. destruct x; cbn [do_oop said not_print] in *; [|apply put_clean; auto|contradiction|].
    - apply write_clean; auto.
    - unfold io_flush. rewrite (proj1 Hi). destruct (flush_clean s Hi) as (s' & Hi' & Hb & _ & [[-> _]| ->]);
        cbn [bindr].
      + exists (if c_in c then in_discard s' else s'). split; [destruct (c_in c); [apply binv_discard|]; auto|].
        left. split; auto. rewrite app_nil_r. destruct (c_in c); [rewrite ball_discard|]; auto.
      + exists s'. split; auto.
  Qed.
  Lemma catch_clean : c_scatter c = true -> forall xs s, inv s -> Forall not_print xs ->
    exists s' t, run_catch c a s xs = Some (s', t) /\ inv s' /\ ball s' = ball s ++ t.
  Proof.
    intros Hsc. induction xs as [|x xs IH]; intros s Hi Hx; cbn [run_catch].
    - exists s, []. rewrite app_nil_r. auto.
    - inversion Hx as [|? ? H1 H2]; subst.
      destruct (oop_clean s x Hsc Hi H1) as (s1 & Hi1 & [[-> Hb]|[-> Hb]]).
      + destruct (IH s1 Hi1 H2) as (s2 & t & -> & Hi2 & Hb2). exists s2, (said x ++ t).
        split; auto. split; auto. rewrite Hb2, Hb, app_assoc. reflexivity.
      + destruct (IH s1 Hi1 H2) as (s2 & t & -> & Hi2 & Hb2). exists s2, t. rewrite Hb2, Hb. auto.
  Qed.
End Clean.

(** ** Input *)
Section Input.
  Variables (c : config) (a : answers).

  (** A result accounts for the input: what was handed over plus what is left is what there was. *)
  Definition accounts (s : bios) (r : rres) : Prop :=
    match r with
    | RFine s' got | REof s' got => got ++ left_over s' = left_over s /\ b_in s' <> ITorn
    | RRaised s' got => got ++ left_over s' = left_over s
    | RSmashed | RStuck => False
    end.

  Lemma hread s n : exists got d',
    (handle_read a s n = (set_dev s d', got, true) \/ (handle_read a s n = (set_dev s d', got, false) /\ got = [])) /\
    got ++ d_src d' = d_src (b_dev s) /\ (length got <= n)%nat /\
    d_log d' = d_log (b_dev s) ++ [Asked n].
  Proof.
    unfold handle_read, dev_read. destruct (a _ _) as [k ok]. destruct ok.
    - exists (firstn (Nat.min k n) (d_src (b_dev s))). eexists. split; [left; reflexivity|].
      cbn [d_src d_log]. split; [|split; [rewrite firstn_length; lia|reflexivity]].
      rewrite firstn_length. rewrite <- (firstn_skipn (Nat.min k n) (d_src (b_dev s))) at 4.
      f_equal. destruct (Nat.le_ge_cases (Nat.min k n) (length (d_src (b_dev s)))) as [H|H].
      + rewrite Nat.min_l by exact H. reflexivity.
      + rewrite Nat.min_r by exact H. rewrite !skipn_all2; auto.
    - exists []. eexists. split; [right; split; reflexivity|]. cbn. repeat split. lia.
  Qed.

  Lemma tie_flush_in s s' : tie_flush c a s = Fine s' -> b_in s' = b_in s /\ d_src (b_dev s') = d_src (b_dev s).
  Proof.
    unfold tie_flush, out_flush. destruct (c_out c && c_tie c); [|intros E; inversion E; auto].
    destruct (Nat.eqb _ _); [intros E; inversion E; auto|].
    unfold handle_write, dev_write. destruct (a _ _) as [k ok]. destruct ok; cbn; intros E; inversion E; auto.
  Qed.
  Lemma tie_flush_raised s s' : tie_flush c a s = Raised s' -> b_in s' = b_in s /\ d_src (b_dev s') = d_src (b_dev s).
  Proof.
    unfold tie_flush, out_flush. destruct (c_out c && c_tie c); [|intros E; inversion E; auto].
    destruct (Nat.eqb _ _); [intros E; inversion E; auto|].
    unfold handle_write, dev_write. destruct (a _ _) as [k ok]. destruct ok; cbn; intros E; inversion E; auto.
  Qed.
  Lemma tie_flush_total s : exists s', tie_flush c a s = Fine s' \/ tie_flush c a s = Raised s'.
  Proof.
    unfold tie_flush, out_flush. destruct (c_out c && c_tie c); [|eauto].
    destruct (Nat.eqb _ _); [eauto|].
    unfold handle_write, dev_write. destruct (a _ _) as [k ok]. destruct ok; cbn; eauto.
  Qed.

  Lemma decay_accounts s n : unread s = [] -> b_in s <> ITorn ->
    accounts s (read_unhappy_decay c a s n) /\
    (match read_unhappy_decay c a s n with RFine _ got => (length got <= n)%nat | REof _ _ => False | _ => True end).
  Proof.
    intros Hu Ht. unfold read_unhappy_decay. destruct (Nat.leb (c_bfs c) n) eqn:E.
    - destruct (hread s n) as (got & d' & Hc & Hs & Hl & _).
      destruct Hc as [-> | [-> ->]]; cbn; unfold left_over, unread in *; cbn; rewrite Hu; cbn; auto.
    - set (s1 := match b_in s with INull => set_in s ITorn | _ => s end).
      assert (Hd : b_dev s1 = b_dev s) by (unfold s1; destruct (b_in s); reflexivity).
      assert (Hu1 : unread s1 = []) by (unfold s1, unread in *; destruct (b_in s) eqn:Eb; cbn; rewrite ?Eb; auto).
      clearbody s1. destruct (hread s1 (c_bfs c)) as (got & d' & Hc & Hs & Hl & _).
      destruct Hc as [-> | [-> ->]]; cbn; unfold left_over, unread in *; cbn; rewrite Hu; cbn.
      + split; [split; [|discriminate]|rewrite firstn_length; lia].
        rewrite app_assoc, firstn_skipn. rewrite <- Hd. exact Hs.
      + split; auto. cbn in Hs. unfold unread in Hu1. rewrite Hu1. cbn. rewrite <- Hd. exact Hs.
  Qed.

  Lemma unhappy_accounts s n : b_in s <> ITorn -> (length (unread s) < n)%nat ->
    accounts s (read_unhappy c a s n) /\
    (match read_unhappy c a s n with RFine _ got => (length got <= n)%nat | REof _ _ => False | _ => True end).
  Proof.
    intros Ht Hn. unfold read_unhappy.
    destruct (tie_flush_total s) as (s1 & [E|E]); rewrite E.
    - destruct (tie_flush_in _ _ E) as [Hi Hd].
      assert (Hlo : left_over s1 = left_over s) by (unfold left_over, unread; rewrite Hi, Hd; reflexivity).
      rewrite <- Hi in Ht. destruct (b_in s1) as [|l|] eqn:Ei; [| |congruence].
      + destruct (decay_accounts s1 n) as [H1 H2]; [unfold unread; rewrite Ei; reflexivity|congruence|].
        split; [|exact H2].
        unfold accounts in *. destruct (read_unhappy_decay c a s1 n); rewrite <- ?Hlo; auto.
      + assert (Hul : unread s = l) by (unfold unread; rewrite <- Hi; reflexivity).
        rewrite Hul in Hn.
        destruct (decay_accounts (set_in s1 (IHas [])) (n - length l)) as [H1 H2]; [reflexivity|cbn; discriminate|].
        assert (Hx : left_over s = l ++ left_over (set_in s1 (IHas []))).
        { rewrite <- Hlo. unfold left_over, unread. rewrite Ei. reflexivity. }
        unfold accounts in *. rewrite Hx.
        destruct (read_unhappy_decay c a (set_in s1 (IHas [])) (n - length l)) as [s2 got|s2 got|s2 got| |]; auto.
        * destruct H1 as [H1 H3]. rewrite <- app_assoc, H1. rewrite app_length. split; [auto|lia].
        * rewrite <- app_assoc, H1. auto.
        * contradiction.
    - destruct (tie_flush_raised _ _ E) as [Hi Hd]. cbn. split; auto.
      unfold left_over, unread. rewrite Hi, Hd. reflexivity.
  Qed.

  Lemma read_accounts s n : b_in s <> ITorn ->
    accounts s (io_read c a s n) /\
    (match io_read c a s n with RFine _ got => (length got <= n)%nat | REof _ _ => False | _ => True end).
  Proof.
    intros Ht. unfold io_read. destruct (b_in s) as [|l|] eqn:Ei; [| |congruence].
    - unfold in_room. rewrite Ei. destruct (Nat.ltb 0 n) eqn:E.
      + apply Nat.ltb_lt in E. apply unhappy_accounts; [congruence|unfold unread; rewrite Ei; cbn; exact E].
      + cbn. split; [split; auto|lia]. congruence.
    - unfold in_room. rewrite Ei. destruct (Nat.ltb (length l) n) eqn:E.
      + apply Nat.ltb_lt in E. apply unhappy_accounts; [congruence|unfold unread; rewrite Ei; exact E].
      + apply Nat.ltb_ge in E. cbn. rewrite firstn_length. split; [split; [|discriminate]|lia].
        unfold left_over, unread. cbn. rewrite Ei. rewrite app_assoc, firstn_skipn. reflexivity.
  Qed.

  Lemma rawread_accounts s n : b_in s <> ITorn -> unread s = [] ->
    accounts s (raw_read a s n) /\
    (match raw_read a s n with RFine s' got => (length got <= n)%nat /\ unread s' = [] | REof _ _ => False | _ => True end).
  Proof.
    intros Ht Hu. unfold raw_read. destruct (hread s n) as (got & d' & Hc & Hs & Hl & _).
    destruct Hc as [-> | [-> ->]]; cbn; unfold left_over, unread in *; cbn; rewrite Hu; cbn; auto.
  Qed.

  (** read_all: fills the range, or throws end_of_file after a read that found nothing. *)
  Lemma cold_accounts rd (P : bios -> Prop) :
    (forall s n, P s -> accounts s (rd s n) /\
       match rd s n with RFine s' got => (length got <= n)%nat /\ P s' | REof _ _ => False | _ => True end) ->
    forall fuel s n, P s -> b_in s <> ITorn -> (n <= fuel)%nat ->
    accounts s (read_all_cold rd fuel s n) /\
    match read_all_cold rd fuel s n with
    | RFine s' got => length got = n /\ P s'
    | REof s' got => (length got < n)%nat /\ P s' | _ => True end.
  Proof.
    intros Hrd. induction fuel as [|fuel IH]; intros s n Hp Ht Hf.
    - destruct n; [|lia]. cbn. auto.
    - cbn [read_all_cold]. destruct n as [|n]; [cbn; auto|].
      destruct (Hrd s (S n) Hp) as [H1 H2]. destruct (rd s (S n)) as [s1 got|s1 got|s1 got| |]; try contradiction; auto.
      cbn in H1. destruct H1 as [H1 H3]. destruct H2 as [H2 H4].
      destruct (Nat.eqb (length got) 0) eqn:E.
      + apply Nat.eqb_eq in E. destruct got; [|discriminate]. cbn in *. split; [auto|]. split; [lia|auto].
      + apply Nat.eqb_neq in E.
        destruct (IH s1 (S n - length got)%nat H4 H3) as [H5 H6]; [lia|].
        destruct (read_all_cold rd fuel s1 (S n - length got)) as [s2 g2|s2 g2|s2 g2| |]; cbn [accounts] in *; try contradiction.
        * destruct H5 as [H5 H7]. rewrite <- app_assoc, H5, app_length. destruct H6. repeat split; auto. lia.
        * rewrite <- app_assoc, H5. auto.
        * destruct H5 as [H5 H7]. rewrite <- app_assoc, H5, app_length. destruct H6. repeat split; auto. lia.
  Qed.
  Lemma read_all_accounts s n : b_in s <> ITorn ->
    accounts s (read_all c a s n) /\
    match read_all c a s n with
    | RFine s' got => length got = n | REof s' got => (length got < n)%nat | _ => True end.
  Proof.
    intros Ht. unfold read_all.
    assert (Hcold : accounts s (read_all_cold (io_read c a) n s n) /\
       match read_all_cold (io_read c a) n s n with
       | RFine s' got => length got = n | REof s' got => (length got < n)%nat | _ => True end).
    { destruct (cold_accounts (io_read c a) (fun s => b_in s <> ITorn)) with (fuel := n) (s := s) (n := n)
        as [H1 H2]; auto.
      - intros s0 n0 H0. destruct (read_accounts s0 n0 H0) as [H1 H2]. split; [exact H1|].
        destruct (io_read c a s0 n0); auto. cbn in H1. tauto.
      - split; [exact H1|]. destruct (read_all_cold _ _ _ _); tauto. }
    destruct (b_in s) as [|l|] eqn:Ei; [| |congruence].
    - replace (Nat.ltb n (in_room s)) with false; [exact Hcold|].
      unfold in_room. rewrite Ei. destruct n; reflexivity.
    - unfold in_room. rewrite Ei. destruct (Nat.ltb n (length l)) eqn:E; [|exact Hcold].
      apply Nat.ltb_lt in E. cbn. rewrite firstn_length. split; [split; [|discriminate]|lia].
      unfold left_over, unread. cbn. rewrite Ei. rewrite app_assoc, firstn_skipn. reflexivity.
  Qed.
End Input.
