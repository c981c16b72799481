(** The properties of transmit: C64 - C66. *)
From Verif Require Import Base BufModel PrintModel BufSpec BufOutProofs BufInProofs TransmitModel TransmitSpec TransmitProofs.

(** ** Which output streams take everything *)
Lemma buffered_takes c a : (0 < c_bfs c)%nat -> takes_all a -> takes (ob_write c a) (buf_ok c) buf_got.
Proof.
  intros Hb Ha o l [Ho Hl]. assert (Hi : binv c o) by (split; auto; unfold pending in Hl; destruct (b_out o); auto).
  destruct (write_goes eq c a okrel_eq (dev_good_eq a Ha) Hb o l Hi) as (o' & E & [Hi1 Hi2] & Hr).
  exists o'. split; auto. split; [split; auto; unfold pending; destruct (b_out o'); cbn; lia|exact Hr].
Qed.
Lemma device_takes a : takes_all a -> takes (raw_write a) (fun _ => True) dev_got.
Proof.
  intros Ha o l _. destruct (dev_good_eq a Ha o l) as (d' & E & Hr). exists d'. unfold raw_write. rewrite E. auto.
Qed.
Lemma device_takes_or_throws a : all_or_throw a -> takes_or_throws (raw_write a) (fun _ => True) dev_got.
Proof.
  intros Ha o l _. destruct (raw_sink a Ha o l I) as [(o' & H1 & H2 & _)|(o' & k & H1 & H2 & _)]; [left|right]; eauto.
Qed.
Lemma takes_weaken {O} (wr : O -> list Z -> res O) ok got : takes wr ok got -> forall o l, ok o ->
    (exists o', wr o l = Fine o' /\ got o' = got o ++ l /\ ok o') \/
    (exists o' k, wr o l = Raised o' /\ got o' = got o ++ firstn k l /\ ok o').
Proof. intros H o l Ho. destruct (H o l Ho) as (o' & H1 & H2 & H3). left. eauto. Qed.
Lemma tot_reorder {O} (wr : O -> list Z -> res O) ok got : takes_or_throws wr ok got -> forall o l, ok o ->
    (exists o', wr o l = Fine o' /\ got o' = got o ++ l /\ ok o') \/
    (exists o' k, wr o l = Raised o' /\ got o' = got o ++ firstn k l /\ ok o').
Proof. intros H o l Ho. destruct (H o l Ho) as [(o' & H1 & H2 & H3)|(o' & k & H1 & H2 & H3)]; [left|right]; eauto. Qed.

Lemma acc_copied {I O} inv (got : O -> list Z) (left : I -> list Z) lossy i o n r :
  acc inv got left lossy i o 0 r -> limited left i n r -> complete left i n r -> 0 <= n < 2 ^ 64 ->
  copied left got i o (Nat.min (Z.to_nat n) (length (left i))) r.
Proof.
  intros Ha Hlim (i' & o' & m & -> & Hc) Hn. destruct Ha as (_ & x & Hx & Ho & Hm). unfold limited in Hlim.
  pose proof (f_equal (@length Z) Hx) as Hl. rewrite app_length in Hl.
  assert (Hlx : length x = Nat.min (Z.to_nat n) (length (left i))).
  { unfold zlen in *. destruct Hc as [Hc|Hc]; [rewrite Hc in *; cbn in *|]; lia. }
  exists i', o'. rewrite <- Hlx. split; [|split].
  - f_equal. rewrite Hm. unfold add64, zlen. rewrite Z.mod_small; lia.
  - rewrite Ho. f_equal. rewrite Hx, firstn_app, Nat.sub_diag, firstn_all, app_nil_r. reflexivity.
  - rewrite Hx, skipn_app, Nat.sub_diag, skipn_all. reflexivity.
Qed.
Lemma acc_copied_all {I O} inv (got : O -> list Z) (left : I -> list Z) lossy i o r :
  acc inv got left lossy i o 0 r -> (exists i' o' n, r = TFine i' o' n /\ left i' = []) -> zlen (left i) < 2 ^ 64 ->
  copied left got i o (length (left i)) r.
Proof.
  intros Ha (i' & o' & m & -> & Hc) Hn. destruct Ha as (_ & x & Hx & Ho & Hm). rewrite Hc, app_nil_r in Hx.
  exists i', o'. rewrite Hx in *. split; [|split].
  - f_equal. rewrite Hm. unfold add64, zlen in *. rewrite Z.mod_small; lia.
  - rewrite Ho, firstn_all. reflexivity.
  - rewrite skipn_all. exact Hc.
Qed.
Lemma takes_never {O} (wr : O -> list Z -> res O) ok got : takes wr ok got -> forall o l o', ok o -> wr o l <> Raised o'.
Proof. intros H o l o' Ho E. destruct (H o l Ho) as (o2 & E2 & _). congruence. Qed.

(** ** C64: transmit copies everything *)
(** The input is the content of memory, a buffered stream in any reachable state, or a device without buffer; the
    output any stream that takes what it is given (buffered_takes and device_takes above).  The call returns, the
    result is the number of characters, the output has got exactly the characters the input still had, in order, and
    the input is at its end. *)
Theorem C64_copies_memory : forall O (wr : O -> list Z -> res O) ok got (text : list Z) o,
  takes wr ok got -> ok o -> zlen text < 2 ^ 64 ->
  copied (fun i => i) got text o (length text) (transmit_contiguous wr text o).
Proof.
  intros O wr ok got text o Ht Ho Hl.
  destruct (contiguous_acc wr ok got (takes_weaken _ _ _ Ht) True (fun _ o l o' => takes_never _ _ _ Ht o l o') text o Ho Hl) as [H1 H2].
  eapply acc_copied_all; [exact H1| |exact Hl]. destruct (H2 I) as (o' & n & E). eauto.
Qed.
Print Assumptions C64_copies_memory.
Theorem C64_copies_buffered : forall O (wr : O -> list Z -> res O) ok got c a s o,
  takes wr ok got -> ok o -> honest_reads a -> (0 < c_bfs c)%nat -> b_in s <> ITorn -> zlen (left_over s) < 2 ^ 64 ->
  copied left_over got s o (length (left_over s)) (transmit_buffered wr c a s o).
Proof.
  intros O wr ok got c a s o Ht Ho Ha Hb Hs Hl.
  destruct (buffered_loop_acc wr ok got (takes_weaken _ _ _ Ht) True (fun _ o l o' => takes_never _ _ _ Ht o l o') c a
    (loop_fuel (d_src (b_dev s))) s o 0) as [H1 H2]; auto; [lia|unfold loop_fuel; lia|].
  eapply acc_copied_all; [exact H1| |exact Hl]. apply H2; auto. split; auto.
Qed.
Print Assumptions C64_copies_buffered.
Theorem C64_copies_unbuffered : forall O (wr : O -> list Z -> res O) ok got a bs d o,
  takes wr ok got -> ok o -> honest_reads a -> (0 < bs)%nat -> zlen (d_src d) < 2 ^ 64 ->
  copied d_src got d o (length (d_src d)) (transmit_raw wr a bs d o).
Proof.
  intros O wr ok got a bs d o Ht Ho Ha Hb Hl.
  destruct (raw_loop_acc wr ok got (takes_weaken _ _ _ Ht) True (fun _ o l o' => takes_never _ _ _ Ht o l o') a bs
    (loop_fuel (d_src d)) d o 0) as [H1 H2]; auto; [lia|unfold loop_fuel; lia|].
  eapply acc_copied_all; [exact H1| |exact Hl]. apply H2; auto. split; auto.
Qed.
Print Assumptions C64_copies_unbuffered.
Lemma takes_all_aot a : takes_all a -> all_or_throw a.
Proof. intros H k n _. apply H. Qed.
Lemma takes_all_never a : takes_all a -> never_throws a.
Proof. intros H k n. apply H. Qed.
(** Between two descriptors the kernel moves the characters, as long as it can; the rest is read and written. *)
Theorem C64_copies_descriptors : forall sf ai ao round bs i o,
  honest_moves sf -> honest_reads ai -> takes_all ao -> (0 < round)%nat -> (0 < bs)%nat ->
  zlen (d_src i) < 2 ^ 64 ->
  copied d_src dev_got i o (length (d_src i)) (zero_copy sf ai ao round bs i o).
Proof.
  intros sf ai ao round bs i o Hsf Hai Hao Hr Hb Hl.
  destruct (zero_copy_acc sf ai ao round bs (takes_all_aot _ Hao) (loop_fuel (d_src i)) i o 0) as [H1 H2];
    [lia|unfold loop_fuel; lia|].
  eapply acc_copied_all; [exact H1| |exact Hl]. apply H2. repeat split; auto using takes_all_never; apply Hai.
Qed.
Print Assumptions C64_copies_descriptors.
(** Buffered streams over descriptors. *)
Theorem C64_copies_buffered_descriptors : forall sf round bs ci co ai ao s x,
  honest_moves sf -> honest_reads ai -> takes_all ao -> (0 < round)%nat -> (0 < bs)%nat ->
  (0 < c_bfs co)%nat -> buf_ok co x -> b_in s <> ITorn -> zlen (left_over s) < 2 ^ 64 ->
  copied left_over buf_got s x (length (left_over s)) (transmit_zero_copy sf round bs ci co ai ao s x).
Proof.
  intros sf round bs ci co ai ao s x Hsf Hai Hao Hr Hb Hc Hx Hs Hl. unfold transmit_zero_copy.
  assert (E : forall (A : Type) (y z : A), match b_in s with ITorn => y | _ => z end = z) by (intros; destruct (b_in s); congruence).
  rewrite E. clear E. change (match b_in s with IHas l => l | _ => [] end) with (unread s).
  unfold send. destruct (buffered_takes co ao Hc Hao x (unread s) Hx) as (x1 & -> & Hx1 & Hg1).
  set (s1 := match b_in s with INull => s | _ => set_in s (IHas []) end).
  assert (Hs1 : unread s1 = [] /\ b_dev s1 = b_dev s) by (unfold s1, unread; destruct (b_in s) eqn:Ei; cbn; rewrite ?Ei; auto; congruence).
  assert (Hi : binv co x1) by (destruct Hx1 as [A B]; split; auto; unfold pending in B; destruct (b_out x1); auto).
  destruct (ioflush_goes eq co ao okrel_eq (dev_good_eq ao Hao) Hc x1 Hi) as (x2 & -> & Hi2 & Hp & Hd).
  destruct (C64_copies_descriptors sf ai ao round bs (b_dev s1) (b_dev x2)) as (i' & o' & -> & Ho & Hi'); auto.
  { rewrite (proj2 Hs1). unfold left_over in Hl. rewrite zlen_app' in Hl. pose proof (zlen_pos (unread s)). lia. }
  rewrite (proj2 Hs1) in *. cbn [with_dev plus]. eexists _, _. split; [|split].
  - f_equal. unfold add64, zlen, left_over in *. rewrite app_length in *. rewrite Z.mod_small; lia.
  - unfold buf_got, device_got, pending in *. cbn. rewrite Hp, app_nil_r. unfold dev_got in Ho. rewrite Ho.
    rewrite Hd. unfold ball, device_got, pending. rewrite Hg1. rewrite !firstn_all. unfold left_over.
    rewrite <- !app_assoc. reflexivity.
  - unfold left_over at 1. cbn. unfold unread in *. cbn. destruct Hs1 as [Hs1 _]. rewrite Hs1. cbn.
    rewrite Hi', !skipn_all. reflexivity.
Qed.
Print Assumptions C64_copies_buffered_descriptors.

(** A buffer half read, more on the device than fits the buffer, a full output buffer: the loop goes round. *)
Example C64_not_vacuous :
  let a := fun k n => if Nat.even k then (n, true) else (1%nat, true) in
  let ao := fun _ n => (n, true) in
  let c := mk_config 4 false true true false in
  let s := mk_bios (mk_dev [] [3; 4; 5; 6; 7; 8; 9]) None (IHas [1; 2]) in
  let x := mk_bios (mk_dev [] []) (Some [70; 71; 72]) INull in
  honest_reads a /\ takes (ob_write c ao) (buf_ok c) buf_got /\ buf_ok c x /\
  exists s' x', transmit_buffered (ob_write c ao) c a s x = TFine s' x' 9 /\
    buf_got x' = [70; 71; 72; 1; 2; 3; 4; 5; 6; 7; 8; 9] /\ length (d_log (b_dev s')) = 4%nat.
Proof.
  cbn zeta. split; [intros k n; destruct (Nat.even k); cbn; lia|].
  split; [apply buffered_takes; [cbn; lia|intros k n; cbn; lia]|]. split; [split; cbn; auto|].
  eexists _, _. split; [vm_compute; reflexivity|]. split; reflexivity.
Qed.

(** The output must take everything it is given: a device that takes a part of a write (as write(2) may) gets
    less than transmit reports, and what it did not take is gone. *)
Theorem C64_short_write_refuted :
  exists a ao d, honest_reads a /\ never_throws ao /\ (forall k n, (0 < n -> 0 < fst (ao k n))%nat) /\
    exists d' o', transmit_raw (raw_write ao) a 4 d (mk_dev [] []) = TFine d' o' 3 /\
      d_src d = [1; 2; 3] /\ d_src d' = [] /\ dev_got o' = [1].
Proof.
  exists (fun _ n => (n, true)), (fun _ _ => (1%nat, true)), (mk_dev [] [1; 2; 3]).
  split; [intros k n; cbn; lia|]. split; [intros k n; reflexivity|]. split; [intros k n; cbn; lia|].
  eexists _, _. split; [vm_compute; reflexivity|]. cbn. auto.
Qed.
Print Assumptions C64_short_write_refuted.

(** ** C65: transmit64 copies at most what was asked for and leaves the rest readable *)
Theorem C65_limited_memory : forall O (wr : O -> list Z -> res O) ok got (text : list Z) o n,
  takes wr ok got -> ok o -> 0 <= n < 2 ^ 64 ->
  copied (fun i => i) got text o (Nat.min (Z.to_nat n) (length text)) (transmit64_contiguous wr text o n).
Proof.
  intros O wr ok got text o n Ht Ho Hn.
  destruct (contiguous64_acc wr ok got (takes_weaken _ _ _ Ht) True (fun _ o l o' => takes_never _ _ _ Ht o l o') text o n Ho Hn) as (H1 & H2 & H3).
  apply (acc_copied _ _ _ _ _ _ _ _ H1 H2 (H3 I) Hn).
Qed.
Print Assumptions C65_limited_memory.
Theorem C65_limited_buffered : forall O (wr : O -> list Z -> res O) ok got c a s o n,
  takes wr ok got -> ok o -> honest_reads a -> (0 < c_bfs c)%nat -> b_in s <> ITorn -> 0 <= n < 2 ^ 64 ->
  copied left_over got s o (Nat.min (Z.to_nat n) (length (left_over s))) (transmit64_buffered wr c a s o n).
Proof.
  intros O wr ok got c a s o n Ht Ho Ha Hb Hs Hn.
  destruct (buffered64_loop_acc wr ok got (takes_weaken _ _ _ Ht) True (fun _ o l o' => takes_never _ _ _ Ht o l o') c a
    (loop_fuel (d_src (b_dev s))) s o 0 n) as (H1 & H2 & H3); auto; [lia|unfold loop_fuel; lia|].
  eapply acc_copied; [exact H1|exact H2| |exact Hn]. apply H3; auto. split; auto.
Qed.
Print Assumptions C65_limited_buffered.
Theorem C65_limited_unbuffered : forall O (wr : O -> list Z -> res O) ok got a bs d o n,
  takes wr ok got -> ok o -> honest_reads a -> (0 < bs)%nat -> 0 <= n < 2 ^ 64 ->
  copied d_src got d o (Nat.min (Z.to_nat n) (length (d_src d))) (transmit64_raw wr a bs d o n).
Proof.
  intros O wr ok got a bs d o n Ht Ho Ha Hb Hn.
  destruct (raw64_loop_acc wr ok got (takes_weaken _ _ _ Ht) True (fun _ o l o' => takes_never _ _ _ Ht o l o') a
    (if n <? Z.of_nat bs then n else Z.of_nat bs)) with (fuel := loop_fuel (d_src d)) (d := d) (o := o) (chars := 0) (n := n)
    as (H1 & H2 & H3); auto; [destruct (n <? Z.of_nat bs) eqn:E; lia|lia|unfold loop_fuel; lia|].
  eapply acc_copied; [exact H1|exact H2| |exact Hn]. apply H3; [split; auto|]. destruct (n <? Z.of_nat bs) eqn:E; lia.
Qed.
Print Assumptions C65_limited_unbuffered.
Theorem C65_limited_descriptors : forall sf ai ao round bs i o n,
  honest_moves sf -> honest_reads ai -> takes_all ao -> (0 < round)%nat -> (0 < bs)%nat ->
  0 <= n < 2 ^ 64 ->
  copied d_src dev_got i o (Nat.min (Z.to_nat n) (length (d_src i))) (zero_copy64 sf ai ao round bs i o n).
Proof.
  intros sf ai ao round bs i o n Hsf Hai Hao Hr Hb Hn.
  destruct (zero_copy64_acc sf ai ao round bs (takes_all_aot _ Hao) (loop_fuel (d_src i)) i o 0 n) as (H1 & H2 & H3);
    [lia|lia|unfold loop_fuel; lia|].
  eapply acc_copied; [exact H1|exact H2| |exact Hn]. apply H3. repeat split; auto using takes_all_never; apply Hai.
Qed.
Print Assumptions C65_limited_descriptors.
Theorem C65_limited_buffered_descriptors : forall sf round bs ci co ai ao s x n,
  honest_moves sf -> honest_reads ai -> takes_all ao -> (0 < round)%nat -> (0 < bs)%nat ->
  (0 < c_bfs co)%nat -> buf_ok co x -> b_in s <> ITorn -> 0 <= n < 2 ^ 64 ->
  copied left_over buf_got s x (Nat.min (Z.to_nat n) (length (left_over s))) (transmit64_zero_copy sf round bs ci co ai ao s x n).
Proof.
  intros sf round bs ci co ai ao s x n Hsf Hai Hao Hr Hb Hc Hx Hs Hn. unfold transmit64_zero_copy.
  assert (E : forall (A : Type) (y z : A), match b_in s with ITorn => y | _ => z end = z) by (intros; destruct (b_in s); congruence).
  rewrite E. clear E. change (match b_in s with IHas l => l | _ => [] end) with (unread s).
  set (diff := if n <=? zlen (unread s) then n else zlen (unread s)). set (k := Z.to_nat diff).
  assert (Hdiff : 0 <= diff <= n /\ diff <= zlen (unread s)).
  { pose proof (zlen_pos (unread s)). unfold diff. destruct (n <=? zlen (unread s)) eqn:E; lia. }
  unfold send. destruct (buffered_takes co ao Hc Hao x (firstn k (unread s)) Hx) as (x1 & -> & Hx1 & Hg1).
  set (s1 := match b_in s with INull => s | _ => set_in s (IHas (skipn k (unread s))) end).
  assert (Hs1 : unread s1 = skipn k (unread s) /\ b_dev s1 = b_dev s).
  { unfold s1, unread in *. destruct (b_in s) eqn:Ei; cbn; rewrite ?Ei; auto; try congruence; rewrite skipn_nil; auto. }
  destruct (n <=? zlen (unread s)) eqn:En.
  - exists s1, x1. assert (Hk : Nat.min (Z.to_nat n) (length (left_over s)) = k).
    { unfold k, diff, left_over, zlen in *. rewrite app_length. lia. }
    rewrite Hk. assert (Hkl : (k <= length (unread s))%nat) by (unfold k, diff, zlen in *; lia).
    split; [f_equal; unfold k; lia|]. unfold left_over. rewrite firstn_app, skipn_app.
    replace (k - length (unread s))%nat with 0%nat by lia. rewrite firstn_O, app_nil_r. split; [exact Hg1|].
    rewrite (proj1 Hs1), (proj2 Hs1). reflexivity.
  - assert (Hkl : (length (unread s) <= k)%nat) by (unfold k, diff, zlen; lia).
    rewrite (firstn_all2 (unread s) Hkl) in *. rewrite (skipn_all2 (unread s) Hkl) in *.
    rewrite sub64 by lia.
    assert (Hi : binv co x1) by (destruct Hx1 as [A B]; split; auto; unfold pending in B; destruct (b_out x1); auto).
    destruct (ioflush_goes eq co ao okrel_eq (dev_good_eq ao Hao) Hc x1 Hi) as (x2 & -> & Hi2 & Hp & Hd).
    destruct (C65_limited_descriptors sf ai ao round bs (b_dev s1) (b_dev x2) (n - diff)) as (i' & o' & -> & Ho & Hi'); auto; [lia|].
    rewrite (proj2 Hs1) in *. cbn [with_dev plus]. eexists _, _.
    set (m := Nat.min (Z.to_nat (n - diff)) (length (d_src (b_dev s)))) in *.
    assert (Hm : Nat.min (Z.to_nat n) (length (left_over s)) = (length (unread s) + m)%nat).
    { unfold m, diff, left_over, zlen in *. rewrite app_length. lia. }
    rewrite Hm. split; [|split].
    + f_equal. unfold add64. unfold diff, zlen in *. rewrite Z.mod_small; [lia|]. unfold m. lia.
    + unfold buf_got, device_got, pending in *. cbn. rewrite Hp, app_nil_r. unfold dev_got in Ho. rewrite Ho.
      rewrite Hd. unfold ball, device_got, pending. rewrite Hg1. unfold left_over. rewrite firstn_app_2.
      rewrite <- !app_assoc. reflexivity.
    + change (left_over (set_dev s1 i')) with (unread s1 ++ d_src i'). rewrite (proj1 Hs1), Hi'.
      unfold left_over. rewrite skipn_app. rewrite (skipn_all2 (unread s)) by lia. cbn [app]. f_equal. lia.
Qed.
Print Assumptions C65_limited_buffered_descriptors.
Example C65_not_vacuous :
  let a := fun k n => (n, true) in
  let c := mk_config 4 false true true false in
  let s := mk_bios (mk_dev [] [3; 4; 5; 6; 7; 8; 9]) None (IHas [1; 2]) in
  exists s' x', transmit64_buffered (raw_write a) c a s (mk_dev [] []) 5 = TFine s' x' 5 /\
    dev_got x' = [1; 2; 3; 4; 5] /\ left_over s' = [6; 7; 8; 9].
Proof. eexists _, _. split; [vm_compute; reflexivity|]. split; reflexivity. Qed.

(** ** C66: a transfer that is interrupted by an exception *)
(** Whatever the input device does (throw, return short, stop early) and wherever the output throws: the output has
    got a prefix [u ++ w] of the input's characters and nothing else, and the characters the output has not got can
    still be read from a buffered input ([w], what the output took of a write that threw, can be read again). *)
Theorem C66_interrupted_buffered : forall O (wr : O -> list Z -> res O) ok got c a s o s' o',
  takes_or_throws wr ok got -> ok o -> b_in s <> ITorn -> transmit_buffered wr c a s o = TRaised s' o' ->
  exists u w v, left_over s = u ++ w ++ v /\ got o' = got o ++ u ++ w /\ left_over s' = w ++ v.
Proof.
  intros O wr ok got c a s o s' o' Ht Ho Hs E.
  destruct (buffered_loop_acc wr ok got (tot_reorder _ _ _ Ht) False (fun f => match f return _ with end) c a
    (loop_fuel (d_src (b_dev s))) s o 0) as [H1 _]; auto; [lia|unfold loop_fuel; lia|].
  unfold transmit_buffered in E. rewrite E in H1. destruct H1 as (_ & x & y & z & Hx & Hg & [Hc|[(_ & u & w & -> & Hc)|[[] _]]]).
  - exists x, [], (y ++ z). rewrite app_nil_r. auto.
  - exists u, w, (y ++ z). rewrite <- app_assoc in Hx. auto.
Qed.
Print Assumptions C66_interrupted_buffered.
Theorem C66_interrupted_limited : forall O (wr : O -> list Z -> res O) ok got c a s o n s' o',
  takes_or_throws wr ok got -> ok o -> b_in s <> ITorn -> 0 <= n < 2 ^ 64 ->
  transmit64_buffered wr c a s o n = TRaised s' o' ->
  exists u w v, left_over s = u ++ w ++ v /\ got o' = got o ++ u ++ w /\ left_over s' = w ++ v /\ zlen u <= n.
Proof.
  intros O wr ok got c a s o n s' o' Ht Ho Hs Hn E.
  destruct (buffered64_loop_acc wr ok got (tot_reorder _ _ _ Ht) False (fun f => match f return _ with end) c a
    (loop_fuel (d_src (b_dev s))) s o 0 n) as (H1 & H2 & _); auto; [lia|unfold loop_fuel; lia|].
  unfold transmit64_buffered in E. rewrite E in H1, H2. unfold limited in H2.
  destruct H1 as (_ & x & y & z & Hx & Hg & [Hc|[(_ & u & w & -> & Hc)|[[] _]]]).
  - exists x, [], (y ++ z). rewrite app_nil_r. cbn [app]. repeat split; auto. rewrite Hx, Hc, !zlen_app' in H2. lia.
  - exists u, w, (y ++ z). rewrite <- app_assoc in Hx. repeat split; auto. rewrite Hx, Hc, !zlen_app' in H2. lia.
Qed.
Print Assumptions C66_interrupted_limited.
(** When the call returns, its result is the number of characters moved, whatever the input device does. *)
Theorem C66_counts_buffered : forall O (wr : O -> list Z -> res O) ok got c a s o,
  takes_or_throws wr ok got -> ok o -> b_in s <> ITorn -> zlen (left_over s) < 2 ^ 64 ->
  match transmit_buffered wr c a s o with
  | TFine s' o' n => copied left_over got s o (Z.to_nat n) (TFine s' o' n)
  | TRaised _ _ => True
  | _ => False
  end.
Proof.
  intros O wr ok got c a s o Ht Ho Hs Hl.
  destruct (buffered_loop_acc wr ok got (tot_reorder _ _ _ Ht) False (fun f => match f return _ with end) c a
    (loop_fuel (d_src (b_dev s))) s o 0) as [H1 _]; auto; [lia|unfold loop_fuel; lia|].
  unfold transmit_buffered. destruct (transmit_buffered_loop _ _ _ _ _ _ _); auto.
  destruct H1 as (_ & x & Hx & Hg & Hn). exists i, o0. rewrite Hx in Hl. rewrite zlen_app' in Hl.
  pose proof (zlen_pos x). pose proof (zlen_pos (left_over i)).
  assert (Hc : chars = zlen x) by (rewrite Hn; unfold add64; rewrite Z.mod_small; lia).
  split; [f_equal; lia|]. rewrite Hc. unfold zlen. rewrite Nat2Z.id, Hx. split.
  - rewrite firstn_app, Nat.sub_diag, firstn_all, app_nil_r. exact Hg.
  - rewrite skipn_app, Nat.sub_diag, skipn_all. reflexivity.
Qed.
Print Assumptions C66_counts_buffered.
(** An input without buffer: the output still gets a prefix only ... *)
Theorem C66_interrupted_unbuffered_partial : forall O (wr : O -> list Z -> res O) ok got a bs d o d' o',
  takes_or_throws wr ok got -> ok o -> transmit_raw wr a bs d o = TRaised d' o' ->
  exists u lost, d_src d = u ++ lost ++ d_src d' /\ got o' = got o ++ u.
Proof.
  intros O wr ok got a bs d o d' o' Ht Ho E.
  destruct (raw_loop_acc wr ok got (tot_reorder _ _ _ Ht) False (fun f => match f return _ with end) a bs
    (loop_fuel (d_src d)) d o 0) as [H1 _]; auto; [lia|unfold loop_fuel; lia|].
  unfold transmit_raw in E. rewrite E in H1. destruct H1 as (_ & x & y & z & Hx & Hg & [Hc|[[[] _]|[_ Hc]]]); auto.
  - exists x, []. rewrite Hc. auto.
  - exists x, y. rewrite Hc. auto.
Qed.
Print Assumptions C66_interrupted_unbuffered_partial.
(** ... but what was read for the write that threw is gone, even if that write took nothing. *)
Theorem C66_unbuffered_refuted :
  exists a ao d, honest_reads a /\ all_or_throw ao /\ throws_clean ao /\
    exists d' o', transmit_raw (raw_write ao) a 2 d (mk_dev [] []) = TRaised d' o' /\
      d_src d = [1; 2; 3; 4; 5] /\ dev_got o' = [1; 2] /\ d_src d' = [5].
Proof.
  exists (fun _ n => (n, true)), (fun k n => match k with 1%nat => (0%nat, false) | _ => (n, true) end), (mk_dev [] [1; 2; 3; 4; 5]).
  split; [intros k n; cbn; lia|]. split; [intros [|[|k]] n; cbn; auto; discriminate|].
  split; [intros [|[|k]] n; cbn; auto; discriminate|].
  eexists _, _. split; [vm_compute; reflexivity|]. cbn. auto.
Qed.
Print Assumptions C66_unbuffered_refuted.
(** The case of the buffered input: an output that throws on its second write. *)
Example C66_not_vacuous :
  let a := fun k n => (n, true) in
  let ao := fun k n => match k with 1%nat => (1%nat, false) | _ => (n, true) end in
  let c := mk_config 3 false true true false in
  let s := mk_bios (mk_dev [] [3; 4; 5; 6; 7; 8; 9]) None (IHas [1; 2]) in
  takes_or_throws (raw_write ao) (fun _ => True) dev_got /\
  exists s' x', transmit_buffered (raw_write ao) c a s (mk_dev [] []) = TRaised s' x' /\
    dev_got x' = [1; 2; 3] /\ left_over s' = [3; 4; 5; 6; 7; 8; 9].
Proof.
  cbn zeta. split; [apply device_takes_or_throws; intros [|[|k]] n; cbn; auto; discriminate|].
  eexists _, _. split; [vm_compute; reflexivity|]. split; reflexivity.
Qed.
