(** Proofs about the output side. *)
From Verif Require Import Base BufModel PrintModel BufSpec.

Lemma subseq_refl x : subseq x x.
Proof. induction x; constructor; auto. Qed.
Lemma subseq_trans x y z : subseq x y -> subseq y z -> subseq x z.
Proof.
  intros Hxy Hyz. revert x Hxy. induction Hyz; intros w Hw.
  - inversion Hw; subst; constructor.
  - inversion Hw; subst; try constructor; auto.
  - constructor. auto.
Qed.
Lemma subseq_app x y u v : subseq x y -> subseq u v -> subseq (x ++ u) (y ++ v).
Proof.
  intros Hxy Huv. induction Hxy; cbn [app].
  - induction y; cbn [app]; auto. constructor; auto.
  - constructor; auto.
  - constructor; auto.
Qed.
Lemma subseq_app_r x y u : subseq x y -> subseq (x ++ u) (y ++ u).
Proof. intros H. apply subseq_app; auto. apply subseq_refl. Qed.
Lemma subseq_firstn k x : subseq (firstn k x) x.
Proof.
  revert k. induction x; intros [|k]; cbn; try constructor; auto.
Qed.
Lemma subseq_length x y : subseq x y -> (length x <= length y)%nat.
Proof. induction 1; cbn; lia. Qed.

(** A relation between what came out and what was said: equality, or "a subsequence of". *)
Record okrel (rel : list Z -> list Z -> Prop) : Prop := {
  rel_refl : forall x, rel x x;
  rel_trans : forall x y z, rel x y -> rel y z -> rel x z;
  rel_app : forall x y u, rel x y -> rel (x ++ u) (y ++ u) }.
Lemma okrel_eq : okrel eq.
Proof. constructor; congruence. Qed.
Lemma okrel_sub : okrel subseq.
Proof. constructor; [apply subseq_refl|apply subseq_trans|intros; apply subseq_app_r; auto]. Qed.

Section Generic.
  Context {S : Type}.
  Variables (rel : list Z -> list Z -> Prop) (o : ostream S) (inv : S -> Prop) (all : S -> list Z).
  Hypothesis HR : okrel rel.
  Definition goes (s : S) (t : list Z) (r : res S) : Prop :=
    exists s', r = Fine s' /\ inv s' /\ rel (all s') (all s ++ t).
  Hypothesis Hstore : forall s t, inv s -> (length t <= os_room o s)%nat -> goes s t (os_store o s t).
  Hypothesis Hwrite : forall s t, inv s -> goes s t (os_write o s t).
  Hypothesis Hput : forall s ch, inv s -> goes s [ch] (os_put o s ch).
  Hypothesis Hprep : forall s b, inv s -> os_const o = Some b ->
    exists s', os_prepare o s = Fine s' /\ inv s' /\ rel (all s') (all s) /\ (b <= os_room o s')%nat.

  Lemma goes_fine s : inv s -> goes s [] (Fine s).
  Proof. intros H. exists s. rewrite app_nil_r. repeat split; auto. apply (rel_refl _ HR). Qed.
  Lemma goes_bind s t u r f :
    goes s t r -> (forall s', inv s' -> goes s' u (f s')) -> goes s (t ++ u) (bindr r f).
  Proof.
    intros (s' & -> & Hi & Hr) Hf. cbn. destruct (Hf s' Hi) as (s'' & -> & Hi2 & Hr2).
    exists s''. repeat split; auto. rewrite app_assoc.
    eapply (rel_trans _ HR); [exact Hr2|]. apply (rel_app _ HR). exact Hr.
  Qed.
  Lemma goes_eq s t u r : goes s t r -> t = u -> goes s u r.
  Proof. intros H ->. exact H. Qed.

  Lemma prep_store s t size :
    inv s -> (length t <= size)%nat -> const_fits (os_const o) size = true ->
    goes s t (then! s := (if Nat.ltb size (os_room o s) then Fine s else os_prepare o s) in os_store o s t).
  Proof.
    intros Hi Hl Hc. destruct (Nat.ltb size (os_room o s)) eqn:E.
    - apply Nat.ltb_lt in E. cbn. apply Hstore; auto. lia.
    - destruct (os_const o) as [b|] eqn:Eb; cbn in Hc; [|discriminate].
      apply Nat.ltb_lt in Hc. destruct (Hprep s b Hi eq_refl) as (s' & -> & Hi' & Hr & Hroom).
      cbn. destruct (Hstore s' t Hi') as (s'' & -> & Hi2 & Hr2); [lia|].
      exists s''. repeat split; auto. eapply (rel_trans _ HR); [exact Hr2|]. apply (rel_app _ HR). exact Hr.
  Qed.
  Lemma local_write s t size : inv s -> (length t <= size)%nat -> goes s t (in_local size t (os_write o s t)).
  Proof.
    intros Hi Hl. unfold in_local. apply Nat.leb_le in Hl. rewrite Hl. apply Hwrite. exact Hi.
  Qed.
  Lemma eol_length line : length (eol line) = eol_size line.
  Proof. destruct line; reflexivity. Qed.

  Lemma writes_goes : forall ws s, inv s -> goes s (concat ws) (do_writes (os_write o) s ws).
  Proof.
    induction ws as [|t ws IH]; intros s Hi; [apply goes_fine; auto|]. cbn [concat do_writes]. apply goes_bind; auto.
  Qed.
  Lemma control_goes line s p : inv s -> arg_ok p -> goes s (text_of p ++ eol line) (print_control o line s p).
  Proof.
    intros Hi Hp. destruct p as [t|sz t|sz t|ws]; cbn [text_of print_control arg_ok] in *.
    - destruct line; cbn [eol].
      + destruct (_ <? _) eqn:E.
        * apply Z.ltb_lt in E. apply Hstore; auto. rewrite app_length; cbn [length]. lia.
        * apply goes_bind; auto.
      + rewrite app_nil_r. auto.
    - assert (Hl : (length (t ++ eol line) <= sz + eol_size line)%nat) by (rewrite app_length, eol_length; lia).
      destruct (const_fits _ _) eqn:Ec; [apply prep_store; auto|].
      destruct (Nat.ltb _ _) eqn:E; [|apply local_write; auto].
      apply Nat.ltb_lt in E. apply Hstore; auto. lia.
    - destruct Hp as [Hl0 Hz].
      assert (Hl : (length (t ++ eol line) <= sz + eol_size line)%nat) by (rewrite app_length, eol_length; lia).
      replace (dynamic_size_ok line sz) with true
        by (unfold dynamic_size_ok; destruct line; symmetry; [apply Z.ltb_lt|apply Z.leb_le]; lia).
      destruct (Nat.ltb _ _) eqn:E; [|apply local_write; auto].
      apply Nat.ltb_lt in E. apply Hstore; auto. lia.
    - apply goes_bind; [apply writes_goes; auto|]. intros s' Hi'. destruct line; cbn [eol]; [apply Hput; auto|apply goes_fine; auto].
  Qed.

  Lemma plain_goes line : forall args s, inv s -> Forall arg_ok args -> args <> [] ->
    goes s (printed line args) (print_plain o line s args).
  Proof.
    induction args as [|p rest IH]; intros s Hi Ha Hne; [congruence|].
    inversion Ha as [|? ? Hp Hrest]; subst. destruct rest as [|q rest].
    - cbn [print_plain]. eapply goes_eq; [apply control_goes; auto|].
      unfold printed. cbn. rewrite app_nil_r. reflexivity.
    - change (print_plain o line s (p :: q :: rest))
        with (then! s := print_control o false s p in print_plain o line s (q :: rest)).
      eapply goes_eq.
      + apply goes_bind with (t := text_of p) (u := printed line (q :: rest)).
        * eapply goes_eq; [apply (control_goes false); auto|]. cbn. apply app_nil_r.
        * intros s' Hi'. apply IH; auto. discriminate.
      + unfold printed. cbn [map concat]. rewrite <- !app_assoc. reflexivity.
  Qed.

  (** The joined arguments: their texts together fit the computed bound. *)
  Lemma para_bound : forall args n total, Forall arg_ok args -> para_size args = (n, total) ->
    (n <= length args)%nat /\ ((max_para <= total)%nat \/ (length (partition_text n args) <= total)%nat).
  Proof.
    induction args as [|p rest IH]; intros n total Ha; cbn [para_size].
    - intros E. inversion E; subst. cbn. lia.
    - destruct p as [t|sz t|sz t|ws]; [intros E; inversion E; subst; cbn; lia| |intros E; inversion E; subst; cbn; lia|intros E; inversion E; subst; cbn; lia].
      inversion Ha as [|? ? Hp Hrest]; subst. cbn in Hp.
      destruct (Nat.leb max_para sz) eqn:E1; [intros E; inversion E; subst; split; [apply Nat.le_0_l|right; cbn; apply le_n]|].
      destruct rest as [|q rest].
      + intros E. inversion E; subst. unfold partition_text. cbn [firstn map concat text_of length]. rewrite app_nil_r. lia.
      + destruct (para_size (q :: rest)) as [n' total'] eqn:Ep.
        destruct (IH n' total' Hrest eq_refl) as [Hn Ht].
        apply Nat.leb_gt in E1. unfold max_para in *.
        destruct (_ <=? _) eqn:E2; intros E; inversion E; subst.
        * apply Z.leb_le in E2. split; [cbn [length] in *; lia|]. left. lia.
        * split; [cbn [length] in *; lia|]. destruct Ht as [Ht|Ht]; [left; lia|right].
          unfold partition_text in *. cbn [firstn map concat text_of]. rewrite app_length. lia.
  Qed.
  Lemma multi_bound sz rest n total : Forall arg_ok rest -> multi_size sz rest = (n, total) -> n <> 0%nat ->
    (n <= length rest)%nat /\ (sz + length (partition_text n rest) <= total)%nat.
  Proof.
    intros Ha. unfold multi_size. destruct (Nat.leb max_para sz); [intros E; inversion E; subst; congruence|].
    destruct rest as [|q rest]; [intros E; inversion E; subst; congruence|].
    destruct (para_size (q :: rest)) as [n' total'] eqn:Ep.
    destruct (Nat.leb (max_para - sz) total') eqn:E1; intros E Hn; inversion E; subst; [congruence|].
    destruct (para_bound _ _ _ Ha Ep) as [H1 H2]. apply Nat.leb_gt in E1. unfold max_para in *.
    split; [exact H1|]. lia.
  Qed.

  Lemma multi_goes line : forall args skip s, inv s -> Forall arg_ok args ->
    (skip < length args)%nat ->
    goes s (printed line (skipn skip args)) (print_multi o line skip s args).
  Proof.
    induction args as [|p rest IH]; intros skip s Hi Ha Hs; [cbn in Hs; lia|].
    inversion Ha as [|? ? Hp Hrest]; subst.
    destruct skip as [|k]; [|cbn [print_multi skipn length] in *; apply IH; auto; lia].
    cbn [skipn].
    assert (Hone : goes s (printed line (p :: rest))
              (match rest with
               | [] => print_control o line s p
               | _ :: _ => then! s0 := print_control o false s p in print_multi o line 0 s0 rest
               end)).
    { destruct rest as [|q rest].
      - eapply goes_eq; [apply control_goes; auto|]. unfold printed. cbn. rewrite app_nil_r. reflexivity.
      - eapply goes_eq.
        + apply goes_bind with (t := text_of p) (u := printed line (q :: rest)).
          * eapply goes_eq; [apply (control_goes false); auto|]. cbn. apply app_nil_r.
          * intros s' Hi'. apply (IH 0%nat); auto. cbn; lia.
        + unfold printed. cbn [map concat]. rewrite <- !app_assoc. reflexivity. }
    destruct p as [t|sz t|sz t|ws]; try exact Hone.
    cbn [print_multi]. destruct (multi_size sz rest) as [n total] eqn:Em.
    destruct (Nat.eqb n 0) eqn:En; [exact Hone|]. apply Nat.eqb_neq in En.
    destruct (multi_bound _ _ _ _ Hrest Em En) as [Hn Ht]. cbn [arg_ok] in Hp.
    set (last := Nat.eqb (length rest) n).
    set (size := (total + eol_size (last && line))%nat).
    set (text := t ++ partition_text n rest ++ eol (last && line)).
    assert (Hl : (length text <= size)%nat).
    { unfold text, size. rewrite !app_length, eol_length. lia. }
    assert (Hblock : goes s text (if const_fits (os_const o) size then
                     then! s := (if Nat.ltb size (os_room o s) then Fine s else os_prepare o s) in os_store o s text
                   else in_local size text (os_write o s text))).
    { destruct (const_fits _ _) eqn:Ec; [apply prep_store; auto|apply local_write; auto]. }
    destruct last eqn:El.
    - apply Nat.eqb_eq in El. cbn [andb] in *. eapply goes_eq.
      + apply goes_bind with (u := []); [exact Hblock|]. intros s' Hi'. apply goes_fine. exact Hi'.
      + rewrite app_nil_r. unfold text, printed, partition_text. rewrite <- El, firstn_all.
        cbn [map concat text_of]. rewrite <- !app_assoc. reflexivity.
    - apply Nat.eqb_neq in El. cbn [andb] in *. eapply goes_eq.
      + apply goes_bind with (u := printed line (skipn n rest)); [exact Hblock|].
        intros s' Hi'. apply IH; auto. lia.
      + unfold text, printed, partition_text. cbn [eol]. rewrite app_nil_r.
        cbn [map concat text_of].
        rewrite <- (firstn_skipn n rest) at 3. rewrite map_app, concat_app. rewrite <- !app_assoc. reflexivity.
  Qed.

  Lemma print_goes opt line s args : inv s -> Forall arg_ok args ->
    goes s (printed line args) (print_buffered o opt line s args).
  Proof.
    intros Hi Ha. unfold print_buffered. destruct args as [|p rest].
    - destruct line; [apply Hput; auto|]. apply goes_fine. exact Hi.
    - destruct opt.
      + apply (multi_goes line (p :: rest) 0%nat); auto. cbn; lia.
      + apply plain_goes; auto. discriminate.
  Qed.
End Generic.

(** ** The device *)
Lemma delivered_app l1 l2 : delivered (l1 ++ l2) = delivered l1 ++ delivered l2.
Proof. induction l1 as [|[l|n] l1 IH]; cbn; auto. rewrite IH, app_assoc. reflexivity. Qed.

Definition dev_good (rel : list Z -> list Z -> Prop) (a : answers) : Prop :=
  forall d data, exists d', dev_write a d data = (d', true) /\
    rel (delivered (d_log d')) (delivered (d_log d) ++ data).
Lemma dev_good_eq a : takes_all a -> dev_good eq a.
Proof.
  intros H d data. unfold dev_write. destruct (H (length (d_log d)) (length data)) as [H1 H2].
  destruct (a _ _) as [k ok]. cbn in *. subst ok. eexists. split; [reflexivity|]. cbn.
  rewrite delivered_app. cbn. rewrite app_nil_r, firstn_all2 by exact H1. reflexivity.
Qed.
Lemma dev_good_sub a : never_throws a -> dev_good subseq a.
Proof.
  intros H d data. unfold dev_write. specialize (H (length (d_log d)) (length data)).
  destruct (a _ _) as [k ok]. cbn in *. subst ok. eexists. split; [reflexivity|]. cbn.
  rewrite delivered_app. cbn. rewrite app_nil_r. apply subseq_app; [apply subseq_refl|apply subseq_firstn].
Qed.

(** ** basic_io_buffer *)
Section Bios.
  Variables (rel : list Z -> list Z -> Prop) (c : config) (a : answers).
  Hypothesis HR : okrel rel.
  Hypothesis HA : dev_good rel a.
  Hypothesis HB : (0 < c_bfs c)%nat.
  Definition binv (s : bios) : Prop :=
    c_out c = true /\ match b_out s with Some l => (length l <= c_bfs c)%nat | None => True end.
  Definition ball (s : bios) : list Z := device_got s ++ pending s.
  Notation bgoes := (goes rel binv ball).

  Lemma store_goes s t : binv s -> (length t <= out_room c s)%nat -> bgoes s t (out_store c s t).
  Proof.
    intros [Ho Hi] Hl. unfold out_store, out_room in *. destruct s as [d o i]. cbn in *.
    destruct o as [l|].
    - replace (Nat.leb _ _) with true by (symmetry; apply Nat.leb_le; lia).
      eexists. split; [reflexivity|]. split; [split; auto; cbn; rewrite app_length; lia|].
      unfold ball, pending, device_got. cbn. rewrite app_assoc. apply (rel_refl _ HR).
    - destruct t; [|cbn in Hl; lia]. cbn. eexists. split; [reflexivity|]. split; [split; auto|].
      rewrite app_nil_r. apply (rel_refl _ HR).
  Qed.

  Lemma handle_goes s data : exists d',
    handle_write a s data = Fine (set_dev s d') /\
    rel (delivered (d_log d')) (device_got s ++ data).
  Proof.
    unfold handle_write. destruct (HA (b_dev s) data) as (d' & -> & Hr).
    exists d'. split; auto.
  Qed.

  Lemma write_goes s t : binv s -> bgoes s t (ob_write c a s t).
  Proof.
    intros [Ho Hi]. unfold ob_write. destruct (Nat.ltb _ _) eqn:E;
      [|apply store_goes; [split; auto|]; apply Nat.ltb_ge in E; exact E].
    unfold write_unhappy. destruct (b_out s) as [l|] eqn:Eo.
    - unfold write_unhappy_alloc.
      assert (Hp : pending s = l) by (unfold pending; rewrite Eo; reflexivity).
      destruct (c_scatter c).
      + destruct (handle_goes s (pending s ++ t)) as (d' & -> & Hr). cbn.
        eexists. split; [reflexivity|]. split; [split; auto; cbn; lia|].
        unfold ball, pending, device_got. cbn. rewrite Eo. rewrite app_nil_r, <- app_assoc.
        rewrite Hp in Hr. exact Hr.
      + destruct (handle_goes s (pending s)) as (d' & -> & Hr). cbn [bindr].
        destruct (handle_goes (set_dev s d') t) as (d'' & -> & Hr2). cbn [bindr].
        eexists. split; [reflexivity|]. split; [split; auto; cbn; lia|].
        unfold ball. unfold device_got in Hr2. cbn in Hr2. unfold pending at 1, device_got at 1. cbn.
        rewrite app_nil_r.
        eapply (rel_trans _ HR); [exact Hr2|]. apply (rel_app _ HR). exact Hr.
    - assert (Hall : ball s = device_got s) by (unfold ball, pending; rewrite Eo; apply app_nil_r).
      destruct (Nat.ltb (length t) (c_bfs c)) eqn:E2.
      + apply Nat.ltb_lt in E2.
        destruct (store_goes (out_alloc s) t) as (s' & E3 & Hi3 & Hr3); [split; [auto|cbn; lia]|cbn; lia|].
        exists s'. rewrite E3. split; [reflexivity|]. split; [auto|].
        unfold ball at 2. unfold pending. rewrite Eo, app_nil_r.
        unfold ball at 2 in Hr3. cbn in Hr3. unfold device_got at 1 in Hr3. cbn in Hr3.
        rewrite app_nil_r in Hr3. exact Hr3.
      + destruct (handle_goes s t) as (d' & -> & Hr). eexists. split; [reflexivity|].
        split; [split; auto; cbn; rewrite Eo; exact I|].
        unfold ball at 1. unfold pending, device_got. cbn. rewrite Eo, app_nil_r. rewrite Hall. exact Hr.
  Qed.

  (** Flushing: everything is delivered, the buffer (if there is one) is empty. *)
  Lemma flush_goes s : binv s -> exists s', out_flush a s = Fine s' /\ binv s' /\
    pending s' = [] /\ rel (device_got s') (ball s) /\ (b_out s <> None -> b_out s' <> None).
  Proof.
    intros [Ho Hi]. unfold out_flush. destruct (pending s) as [|z p] eqn:Ep; cbn [length Nat.eqb].
    - exists s. split; [reflexivity|]. split; [split; auto|]. split; [auto|].
      unfold ball. rewrite Ep, app_nil_r. split; [apply (rel_refl _ HR)|auto].
    - destruct (handle_goes s (z :: p)) as (d' & -> & Hr). cbn.
      eexists. split; [reflexivity|]. split; [split; auto; cbn; lia|].
      split; [reflexivity|]. cbn. unfold ball. rewrite Ep. split; [exact Hr|discriminate].
  Qed.
  Lemma prepare_goes s : binv s -> exists s', out_prepare a s = Fine s' /\ binv s' /\
    rel (ball s') (ball s) /\ (c_bfs c <= out_room c s')%nat.
  Proof.
    intros Hi. unfold out_prepare. destruct (b_out s) as [l|] eqn:Eo.
    - destruct (flush_goes s Hi) as (s' & -> & Hi' & Hp & Hr & Hn).
      exists s'. split; [reflexivity|]. split; [auto|]. unfold ball at 1. rewrite Hp, app_nil_r.
      split; [exact Hr|]. unfold out_room. unfold pending in Hp.
      destruct (b_out s') as [l'|]; [subst; cbn; lia|]. exfalso. apply Hn; congruence.
    - destruct Hi as [Ho _]. eexists. split; [reflexivity|]. split; [split; auto; cbn; lia|].
      unfold ball, pending, out_room, device_got. cbn. rewrite Eo. split; [apply (rel_refl _ HR)|lia].
  Qed.
  Lemma put_goes s ch : binv s -> bgoes s [ch] (ob_put c a s ch).
  Proof.
    intros Hi. unfold ob_put. destruct (Nat.eqb _ _) eqn:E.
    - unfold ob_overflow. destruct (prepare_goes s Hi) as (s' & -> & Hi' & Hr & Hroom). cbn.
      destruct (store_goes s' [ch] Hi') as (s'' & -> & Hi2 & Hr2); [cbn; lia|].
      exists s''. split; [reflexivity|]. split; [auto|].
      eapply (rel_trans _ HR); [exact Hr2|]. apply (rel_app _ HR). exact Hr.
    - apply Nat.eqb_neq in E. apply store_goes; auto. cbn. lia.
  Qed.
  Lemma binv_discard s : binv s -> binv (in_discard s).
  Proof. unfold in_discard. destruct (b_in s); auto. Qed.
  Lemma ball_discard s : ball (in_discard s) = ball s.
  Proof. unfold in_discard. destruct (b_in s); reflexivity. Qed.
  Lemma room_discard s : out_room c (in_discard s) = out_room c s.
  Proof. unfold in_discard. destruct (b_in s); reflexivity. Qed.
  Lemma ioprepare_goes s : binv s -> exists s', io_prepare c a s = Fine s' /\ binv s' /\
    rel (ball s') (ball s) /\ (c_bfs c <= out_room c s')%nat.
  Proof.
    intros Hi. unfold io_prepare. rewrite (proj1 Hi).
    destruct (prepare_goes s Hi) as (s' & -> & Hi' & Hr & Hroom).
    destruct (c_in c).
    - exists (in_discard s'). split; [reflexivity|]. split; [apply binv_discard; auto|].
      rewrite ball_discard, room_discard. auto.
    - exists s'. auto.
  Qed.
  Lemma ioflush_goes s : binv s -> exists s', io_flush c a s = Fine s' /\ binv s' /\
    pending s' = [] /\ rel (device_got s') (ball s).
  Proof.
    intros Hi. unfold io_flush. rewrite (proj1 Hi).
    destruct (flush_goes s Hi) as (s' & -> & Hi' & Hp & Hr & _). cbn.
    destruct (c_in c).
    - exists (in_discard s'). split; [reflexivity|]. split; [apply binv_discard; auto|].
      unfold in_discard. destruct (b_in s'); auto.
    - exists s'. auto.
  Qed.
  Lemma close_goes s : binv s -> exists s', io_close c a s = Fine s' /\ binv s' /\
    pending s' = [] /\ rel (device_got s') (ball s).
  Proof.
    intros [Ho Hi]. unfold io_close, close_throw. rewrite Ho.
    assert (Hc : exists s1, (if Nat.eqb (length (pending s)) 0 then Fine s else handle_write a s (pending s)) = Fine s1
              /\ b_out s1 = b_out s /\ rel (device_got s1) (ball s)).
    { destruct (Nat.eqb (length (pending s)) 0) eqn:E.
      - apply Nat.eqb_eq in E. destruct (pending s) eqn:Ep; [|discriminate].
        exists s. unfold ball. rewrite Ep, app_nil_r. split; auto. split; auto. apply (rel_refl _ HR).
      - destruct (handle_goes s (pending s)) as (d' & -> & Hr). eexists. split; [reflexivity|].
        split; [reflexivity|exact Hr]. }
    destruct Hc as (s1 & -> & Eo & Hr). cbn.
    set (s2 := match b_in s1 with INull => s1 | _ => _ end).
    assert (E2 : b_out s2 = b_out s1 /\ b_dev s2 = b_dev s1).
    { unfold s2. destruct (b_in s1), (c_in c); auto. }
    destruct E2 as [E2 E3]. eexists. split; [reflexivity|].
    rewrite E2, Eo. destruct (b_out s) as [l|] eqn:Es.
    - split; [split; auto; cbn; lia|]. split; [reflexivity|]. unfold device_got. cbn. rewrite E3. exact Hr.
    - split; [split; auto; rewrite E2, Eo; exact I|]. split; [unfold pending; rewrite E2, Eo; reflexivity|].
      unfold device_got. rewrite E3. exact Hr.
  Qed.
  Lemma destroy_goes s : binv s -> exists d, io_destroy c a s = Some d /\ rel (delivered (d_log d)) (ball s).
  Proof.
    intros [Ho Hi]. unfold io_destroy, close_throw. rewrite Ho.
    destruct (Nat.eqb (length (pending s)) 0) eqn:E.
    - apply Nat.eqb_eq in E. destruct (pending s) eqn:Ep; [|discriminate].
      eexists. split; [reflexivity|]. unfold ball. rewrite Ep, app_nil_r. apply (rel_refl _ HR).
    - destruct (handle_goes s (pending s)) as (d' & -> & Hr). eexists. split; [reflexivity|]. exact Hr.
  Qed.

  Lemma bprint_goes opt line s args : binv s -> Forall arg_ok args ->
    bgoes s (printed line args) (print_buffered (bios_stream c a) opt line s args).
  Proof.
    intros Hi Ha. apply print_goes; auto; cbn.
    - apply store_goes.
    - apply write_goes.
    - apply put_goes.
    - intros s0 b Hi0 E. inversion E; subst. apply ioprepare_goes. exact Hi0.
  Qed.
  Lemma oop_goes s x : binv s -> oop_ok x -> bgoes s (said x) (do_oop c a s x).
  Proof.
    intros Hi Hx. destruct x; cbn [do_oop said].
    - apply write_goes; auto.
    - apply put_goes; auto.
    - apply bprint_goes; auto.
    - destruct (ioflush_goes s Hi) as (s' & -> & Hi' & Hp & Hr). exists s'. split; [auto|]. split; [auto|].
      unfold ball at 1. rewrite Hp, !app_nil_r. exact Hr.
  Qed.
  Lemma oops_goes : forall xs s, binv s -> Forall oop_ok xs ->
    bgoes s (concat (map said xs)) (do_oops c a s xs).
  Proof.
    induction xs as [|x xs IH]; intros s Hi Hx; cbn [do_oops map concat].
    - apply goes_fine; auto.
    - inversion Hx; subst. apply goes_bind; auto. apply oop_goes; auto.
  Qed.
End Bios.

(** ** temporary_buffer and raw devices *)
Section Tbuf.
  Variables (rel : list Z -> list Z -> Prop) (a : answers).
  Hypothesis HR : okrel rel.
  Hypothesis HA : dev_good rel a.
  Definition tinv (s : tbuf) : Prop := (length (t_buf s) <= tb_size)%nat.
  Definition tall (s : tbuf) : list Z := delivered (d_log (t_dev s)) ++ t_buf s.
  Notation tgoes := (goes rel tinv tall).
  Lemma tb_size_pos : (0 < tb_size)%nat. Proof. unfold tb_size. lia. Qed.

  Lemma tstore_goes s t : tinv s -> (length t <= tb_room s)%nat -> tgoes s t (tb_store s t).
  Proof.
    unfold tinv, tb_store, tb_room. intros Hi Hl.
    replace (Nat.leb _ _) with true by (symmetry; apply Nat.leb_le; lia).
    eexists. split; [reflexivity|]. split; [unfold tinv; cbn; rewrite app_length; lia|].
    unfold tall. cbn. rewrite app_assoc. apply (rel_refl _ HR).
  Qed.
  Lemma tsend_goes s data : exists d', tb_send a s data = Fine (mk_tbuf d' (t_buf s)) /\
    rel (delivered (d_log d')) (delivered (d_log (t_dev s)) ++ data).
  Proof. unfold tb_send. destruct (HA (t_dev s) data) as (d' & -> & Hr). eauto. Qed.
  Lemma twrite_goes s t : tinv s -> tgoes s t (tb_write a s t).
  Proof.
    intros Hi. unfold tb_write. destruct (Nat.leb _ _) eqn:E.
    - unfold tb_write_cold. destruct (tsend_goes s (t_buf s ++ firstn (tb_room s) t)) as (d' & -> & Hr).
      cbn [bindr t_dev]. set (u := skipn (tb_room s) t).
      assert (Hs : t = firstn (tb_room s) t ++ u) by (symmetry; apply firstn_skipn).
      rewrite app_assoc in Hr.
      destruct (Nat.ltb (length u) tb_size) eqn:E2.
      + apply Nat.ltb_lt in E2.
        destruct (tstore_goes (mk_tbuf d' []) u) as (s' & -> & Hi' & Hr'); [unfold tinv; apply Nat.le_0_l|unfold tb_room; change (length (t_buf (mk_tbuf d' []))) with 0%nat; lia|].
        exists s'. split; [auto|]. split; [auto|]. rewrite Hs at 1. rewrite app_assoc.
        eapply (rel_trans _ HR); [exact Hr'|]. apply (rel_app _ HR). unfold tall at 1. cbn. rewrite app_nil_r. exact Hr.
      + destruct (tsend_goes (mk_tbuf d' []) u) as (d'' & -> & Hr'). eexists. split; [reflexivity|].
        split; [unfold tinv; cbn; lia|]. unfold tall at 1. cbn. rewrite app_nil_r. rewrite Hs at 1. rewrite app_assoc.
        eapply (rel_trans _ HR); [exact Hr'|]. apply (rel_app _ HR). exact Hr.
    - apply Nat.leb_gt in E. apply tstore_goes; auto. lia.
  Qed.
  Lemma tput_goes s ch : tinv s -> tgoes s [ch] (tb_put a s ch).
  Proof.
    intros Hi. unfold tb_put. destruct (Nat.eqb _ _) eqn:E.
    - apply Nat.eqb_eq in E. unfold tb_overflow. unfold tb_room, tinv in *.
      replace (Nat.eqb _ _) with true by (symmetry; apply Nat.eqb_eq; lia).
      destruct (tsend_goes s (t_buf s)) as (d' & -> & Hr). cbn [bindr].
      eexists. split; [reflexivity|]. split; [unfold tinv; exact tb_size_pos|].
      unfold tall. cbn. apply (rel_app _ HR). exact Hr.
    - apply Nat.eqb_neq in E. apply tstore_goes; auto. cbn [length]. lia.
  Qed.
  Lemma tflush_goes s : tinv s -> exists s', tb_flush a s = Fine s' /\ t_buf s' = [] /\
    rel (delivered (d_log (t_dev s'))) (tall s).
  Proof.
    intros Hi. unfold tb_flush. destruct (Nat.eqb _ _) eqn:E.
    - apply Nat.eqb_eq in E. destruct (t_buf s) eqn:Eb; [|discriminate]. exists s.
      unfold tall. rewrite Eb, app_nil_r. split; auto. split; auto. apply (rel_refl _ HR).
    - destruct (tsend_goes s (t_buf s)) as (d' & -> & Hr). cbn. eexists. split; [reflexivity|]. auto.
  Qed.
  Lemma tmulti_goes line s args : tinv s -> Forall arg_ok args -> args <> [] ->
    tgoes s (printed line args) (print_multi (tbuf_stream a) line 0 s args).
  Proof.
    intros Hi Ha Hn. change args with (skipn 0 args) at 1. apply multi_goes; auto; cbn.
    - apply tstore_goes.
    - apply twrite_goes.
    - apply tput_goes.
    - intros; discriminate.
    - destruct args; [congruence|cbn; lia].
  Qed.

  Definition dgoes (d : dev) (t : list Z) (r : res dev) : Prop :=
    exists d', r = Fine d' /\ rel (delivered (d_log d')) (delivered (d_log d) ++ t).
  Lemma rawwrite_goes d t : dgoes d t (raw_write a d t).
  Proof. unfold raw_write. destruct (HA d t) as (d' & -> & Hr). exists d'. auto. Qed.
  Lemma rawlocal_goes d t size : (length t <= size)%nat -> dgoes d t (in_local size t (raw_write a d t)).
  Proof. intros Hl. unfold in_local. apply Nat.leb_le in Hl. rewrite Hl. apply rawwrite_goes. Qed.
  Lemma reserve_fits args : Forall arg_ok args -> (length (reserve_text args) <= reserve_total args)%nat.
  Proof.
    unfold reserve_text. induction 1 as [|p l Hp _ IH]; [apply le_n|]. cbn [map concat reserve_total fold_right].
    rewrite app_length. unfold reserve_total in IH. destruct p; cbn [length arg_ok] in *; lia.
  Qed.
  Lemma dynamic_fits args : Forall arg_ok args -> (length (dynamic_text args) <= dynamic_total args)%nat.
  Proof.
    unfold dynamic_text. induction 1 as [|p l Hp _ IH]; [apply le_n|]. cbn [map concat dynamic_total fold_right].
    rewrite app_length. unfold dynamic_total in IH. destruct p; cbn [length arg_ok] in *; lia.
  Qed.
  Lemma fallback_goes scatter line d args : Forall arg_ok args -> Z.of_nat (dynamic_total args) < 2 ^ 64 ->
    dgoes d (printed line args) (print_fallback a scatter line d args).
  Proof.
    intros Ha Hd. unfold print_fallback. destruct args as [|p rest].
    - destruct line; [apply rawwrite_goes|]. exists d. split; auto. cbn. rewrite app_nil_r. apply (rel_refl _ HR).
    - set (args := p :: rest) in *.
      assert (Hne : args <> []) by discriminate. clearbody args. destruct (scatter && forallb plain_arg args) eqn:Esc.
      + replace (Z.of_nat (dynamic_total args) <? 2 ^ 64) with true by (symmetry; apply Z.ltb_lt; exact Hd).
        unfold in_local. rewrite (proj2 (Nat.leb_le _ _) (reserve_fits args Ha)).
        rewrite (proj2 (Nat.leb_le _ _) (dynamic_fits args Ha)). apply rawwrite_goes.
      + destruct (tmulti_goes line (mk_tbuf d []) args) as (s' & -> & Hi & Hr); auto; [unfold tinv; cbn; lia|].
        cbn [bindr]. destruct (tflush_goes s' Hi) as (s'' & -> & Hb & Hr2). eexists. split; [reflexivity|].
        eapply (rel_trans _ HR); [exact Hr2|]. unfold tall at 2 in Hr. cbn in Hr. rewrite app_nil_r in Hr. exact Hr.
  Qed.
  Lemma rawwrites_goes : forall ws d, dgoes d (concat ws) (do_writes (raw_write a) d ws).
  Proof.
    induction ws as [|t ws IH]; intros d; cbn [do_writes concat].
    - exists d. split; auto. rewrite app_nil_r. apply (rel_refl _ HR).
    - destruct (rawwrite_goes d t) as (d' & -> & Hr). cbn [bindr]. destruct (IH d') as (d2 & -> & Hr2). exists d2. split; auto.
      rewrite app_assoc. eapply (rel_trans _ HR); [exact Hr2|]. apply (rel_app _ HR). exact Hr.
  Qed.
  Lemma raw_goes scatter line d args : Forall arg_ok args -> Z.of_nat (dynamic_total args) < 2 ^ 64 ->
    dgoes d (printed line args) (print_raw a scatter line d args).
  Proof.
    intros Ha Hd.
    assert (Hf := fallback_goes scatter line d args Ha Hd).
    assert (Hone : forall p, args = [p] -> printed line args = text_of p ++ eol line).
    { intros p ->. unfold printed. cbn. rewrite app_nil_r. reflexivity. }
    unfold print_raw. destruct args as [|p [|q rest]].
    - destruct line; [exact Hf|]. exists d. split; auto. cbn. rewrite app_nil_r. apply (rel_refl _ HR).
    - rewrite (Hone p eq_refl) in *. inversion Ha as [|? ? Hp _]; subst.
      destruct p as [t|sz t|sz t|ws]; cbn [text_of arg_ok] in *.
      + destruct line; [exact Hf|]. cbn [print_control_raw eol].
        destruct (rawwrite_goes d t) as (d' & -> & Hr). exists d'. rewrite app_nil_r. auto.
      + cbn [print_control_raw]. apply rawlocal_goes. rewrite app_length, eol_length. lia.
      + cbn [print_control_raw].
        replace (dynamic_size_ok line sz) with true
          by (unfold dynamic_size_ok; destruct line; symmetry; [apply Z.ltb_lt|apply Z.leb_le]; lia).
        apply rawlocal_goes. rewrite app_length, eol_length. lia.
      + destruct line; [exact Hf|]. cbn [print_control_raw eol]. rewrite app_nil_r.
        destruct (rawwrites_goes ws d) as (d' & -> & Hr). exists d'. auto.
    - destruct p, line; exact Hf.
  Qed.
End Tbuf.
