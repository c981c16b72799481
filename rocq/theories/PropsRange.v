(** Property C93: printing ranges with rgvw. *)
From Verif Require Import Base BufModel PrintModel BufSpec RangeSpec RangeModel PropsBuf.
Local Open Scope nat_scope.

Lemma join_cons sep t r : r <> [] -> join sep (t :: r) = t ++ sep ++ join sep r.
Proof. destruct r; [congruence|reflexivity]. Qed.
Lemma join_tail sep t r : join sep (t :: r) = t ++ concat (map (fun x => sep ++ x) r).
Proof.
  revert t. induction r as [|u r IH]; intros t; [cbn; now rewrite app_nil_r|].
  rewrite join_cons by discriminate. rewrite IH. cbn [map concat]. now rewrite <- !app_assoc.
Qed.
Lemma define_loop_ok sep elems : forall k cur, cur + k = length elems ->
  define_loop sep elems k cur = Some (concat (map (fun x => sep ++ x) (skipn cur elems))).
Proof.
  induction k as [|k IH]; intros cur H; cbn [define_loop].
  - rewrite skipn_all2 by lia. reflexivity.
  - destruct (nth_error elems cur) as [t|] eqn:E; [|apply nth_error_None in E; lia].
    rewrite IH by lia. apply nth_error_split in E as (l1 & l2 & -> & L). subst cur.
    rewrite !skipn_app. rewrite Nat.sub_diag. rewrite !skipn_all2 by lia. replace (length l1 + 1 - length l1) with 1 by lia.
    rewrite ?skipn_all. cbn [skipn app map concat]. now rewrite <- !app_assoc.
Qed.
Lemma sized_define_ok sep elems : sized_define sep elems (length elems) = Some (join sep elems).
Proof.
  unfold sized_define. destruct elems as [|t r]; [reflexivity|]. cbn [length Nat.eqb nth_error].
  rewrite define_loop_ok by (cbn; lia). cbn [skipn]. now rewrite join_tail.
Qed.
Lemma join_length sep R elems : Forall (fun t => length t <= R) elems -> length (join sep elems) <= (R + length sep) * length elems.
Proof.
  induction 1 as [|t r Ht _ IH]; [cbn; lia|]. destruct r as [|u r].
  - cbn [join length]. nia.
  - rewrite join_cons by discriminate. rewrite !app_length. change (length (t :: u :: r)) with (S (length (u :: r))). lia.
Qed.

(** C93.  The sized view's text: the elements' texts with the separator between each two, nothing for an empty range; every element is read
    once, none outside the range, and the text fits the size announced unless that product does not fit size_t. *)
Theorem C93_sized_fits : forall w R sep elems, (0 < w)%Z -> Forall (fun t => length t <= R) elems ->
  (Z.of_nat ((R + length sep) * length elems) < 2 ^ w)%Z ->
  sized_arg w R sep elems (length elems) = Some (PDynamic ((R + length sep) * length elems) (join sep elems)) /\
  length (join sep elems) <= (R + length sep) * length elems.
Proof.
  intros w R sep elems Hw Hf Hn. unfold sized_arg. rewrite sized_define_ok.
  assert (E : sized_reserve w R (length sep) (length elems) = Z.of_nat ((R + length sep) * length elems)).
  { unfold sized_reserve. destruct (Nat.eqb_spec (length elems) 0) as [H0|H0]; [rewrite H0; lia|].
    unfold wrap. rewrite <- Nat2Z.inj_add. rewrite (Z.mod_small (Z.of_nat (R + length sep))).
    - rewrite <- Nat2Z.inj_mul. apply Z.mod_small. lia.
    - nia. }
  rewrite E. pose proof (join_length sep R elems Hf) as HL.
  destruct (Z.leb_spec (Z.of_nat (length (join sep elems))) (Z.of_nat ((R + length sep) * length elems))) as [_|H]; [|lia].
  split; [|exact HL]. now rewrite Nat2Z.id.
Qed.
Print Assumptions C93_sized_fits.

(** print(out, rgvw(range, sep)) to a buffered stream, for every range, separator and element type, whichever view is made, with and
    without optimisation: the output is the elements' texts joined by the separator. *)
Theorem C93_print_partial : forall w c a s opt er sized sep elems,
  c_out c = true -> 0 < c_bfs c -> takes_all a -> length (pending s) <= c_bfs c -> Forall arg_ok elems -> (0 < w)%Z ->
  (forall R, er = Some R -> Forall (fun e => length (text_of e) <= R) elems /\
     (Z.of_nat ((R + length sep) * length elems) < 2 ^ w)%Z /\ (Z.of_nat ((R + length sep) * length elems) < 2 ^ 63 - 2)%Z) ->
  exists s', print_rgvw w (bios_stream c a) opt s (rgvw er sized sep elems) = Some (Fine s') /\
    device_got s' ++ pending s' = device_got s ++ pending s ++ join sep (map text_of elems) /\ length (pending s') <= c_bfs c.
Proof.
  intros w c a s opt er sized sep elems Ho Hb Ha Hs He Hw HR.
  assert (HU : exists s', unsized_print (bios_stream c a) opt s sep elems = Fine s' /\
    device_got s' ++ pending s' = device_got s ++ pending s ++ join sep (map text_of elems) /\ length (pending s') <= c_bfs c).
  { clear HR. destruct elems as [|e r].
    - exists s. cbn. rewrite app_nil_r. auto.
    - destruct (C49_buffered c a s opt false [e] Ho Hb Ha Hs) as (s1 & E1 & D1 & L1); [constructor; [exact (Forall_inv He)|constructor]|].
      unfold unsized_print. rewrite E1. cbn [map]. rewrite join_tail.
      assert (HF : forall r s1, Forall arg_ok r -> length (pending s1) <= c_bfs c ->
        exists s', fold_left (fun q e => then! s := q in print_buffered (bios_stream c a) opt false s [PScatter sep; e]) r (Fine s1) = Fine s' /\
          device_got s' ++ pending s' = device_got s1 ++ pending s1 ++ concat (map (fun x => sep ++ x) (map text_of r)) /\ length (pending s') <= c_bfs c).
      { clear - Ho Hb Ha. induction r as [|e r IH]; intros s1 He L1.
        - exists s1. cbn. rewrite app_nil_r. auto.
        - destruct (C49_buffered c a s1 opt false [PScatter sep; e] Ho Hb Ha L1) as (s2 & E2 & D2 & L2);
            [constructor; [exact I|constructor; [exact (Forall_inv He)|constructor]]|].
          destruct (IH s2 (Forall_inv_tail He) L2) as (s' & E' & D' & L'). exists s'. split; [|split; [|exact L']].
          + cbn [fold_left]. match goal with |- fold_left _ _ ?q = _ => replace q with (Fine s2) by (symmetry; exact E2) end. exact E'.
          + rewrite D'. rewrite !app_assoc, D2. cbn [map text_of concat]. rewrite !app_nil_r, <- !app_assoc. reflexivity. }
      destruct (HF r s1 (Forall_inv_tail He) L1) as (s' & E' & D' & L'). exists s'. split; [exact E'|]. split; [|exact L'].
      rewrite D', app_assoc, D1. cbn [map concat]. rewrite !app_nil_r, <- !app_assoc. reflexivity. }
  unfold rgvw. destruct er as [R|].
  2:{ destruct HU as (s' & E & D). exists s'. split; [cbn; now rewrite E|exact D]. }
  destruct sized.
  2:{ destruct HU as (s' & E & D). exists s'. split; [cbn; now rewrite E|exact D]. }
  destruct (HR R eq_refl) as (HF & HN & HM). cbn [print_rgvw].
  destruct (C93_sized_fits w R sep (map text_of elems) Hw) as [EA HL].
  { apply Forall_forall. intros t Ht. apply in_map_iff in Ht as (e & <- & Hin). rewrite Forall_forall in HF. auto. }
  { rewrite map_length. exact HN. }
  rewrite map_length in EA, HL. rewrite EA.
  destruct (C49_buffered c a s opt false [PDynamic ((R + length sep) * length elems) (join sep (map text_of elems))] Ho Hb Ha Hs) as (s' & E' & D' & L').
  { constructor; [|constructor]. split; [exact HL|exact HM]. }
  exists s'. split; [now rewrite E'|]. split; [|exact L']. rewrite D'. cbn [map text_of concat]. now rewrite !app_nil_r.
Qed.
Print Assumptions C93_print_partial.
Example C93_case : join [44; 32]%Z [[49]; [50; 51]; [52]]%Z = [49; 44; 32; 50; 51; 44; 32; 52]%Z /\
  sized_arg 64 3 [44; 32]%Z [[49]; [50; 51]; [52]]%Z 3 = Some (PDynamic 15 [49; 44; 32; 50; 51; 44; 32; 52]%Z).
Proof. split; reflexivity. Qed.

(** What is missing: the announced size is a product that nothing checks.  On a machine with size_t of [w] bits, any number of elements with
    (R+|sep|)*n = 2^w announces no room at all, and the text is stored outside of it as soon as it is not empty. *)
Theorem C93_size_wraps_refuted : forall w R sep elems, (0 < w)%Z -> Z.of_nat ((R + length sep) * length elems) = (2 ^ w)%Z -> join sep elems <> [] ->
  sized_reserve w R (length sep) (length elems) = 0%Z /\ sized_arg w R sep elems (length elems) = None.
Proof.
  intros w R sep elems Hw HN HJ.
  assert (E : sized_reserve w R (length sep) (length elems) = 0%Z).
  { unfold sized_reserve. destruct (Nat.eqb_spec (length elems) 0) as [H0|H0]; [reflexivity|].
    unfold wrap. rewrite Z.mul_mod_idemp_l by lia. rewrite <- Nat2Z.inj_add, <- Nat2Z.inj_mul, HN. apply Z.mod_same. lia. }
  split; [exact E|]. unfold sized_arg. rewrite sized_define_ok, E. cbv zeta.
  destruct (join sep elems); [congruence|]. destruct (Z.leb_spec (Z.of_nat (length (z :: l))) 0) as [H|_]; [cbn in H; lia|reflexivity].
Qed.
Print Assumptions C93_size_wraps_refuted.
(** For example 2^27 one-byte elements that reserve 31 characters, with a separator of one character, on a 32 bit machine. *)
Example C93_wraps_case : Z.of_nat ((31 + 1) * Pos.to_nat (2 ^ 27)) = (2 ^ 32)%Z /\ (0 < 32)%Z.
Proof. split; [|lia]. rewrite Nat2Z.inj_mul, positive_nat_Z. reflexivity. Qed.

(** The branch for elements with a dynamic size subtracts 1 from the separators' total instead of one separator: with an empty separator
    it announces one character too few, and the elements' texts, if they use what they announce, do not fit. *)
Theorem C93_dynamic_short_refuted : forall w sizes elems, (0 < w)%Z -> map (@length Z) elems = sizes -> 0 < list_sum sizes -> (Z.of_nat (list_sum sizes) < 2 ^ w)%Z ->
  dynamic_reserve w 0 sizes = (Z.of_nat (length (join [] elems)) - 1)%Z.
Proof.
  intros w sizes elems Hw <- Hp Hn.
  assert (HJ : length (join [] elems) = list_sum (map (@length Z) elems)).
  { clear. induction elems as [|t r IH]; [reflexivity|]. destruct r as [|u r]; [cbn; lia|]. rewrite join_cons by discriminate.
    rewrite !app_length. cbn [map list_sum fold_right] in *. rewrite IH. cbn. lia. }
  assert (HS : forall l x, fold_left (fun r s => wrap w (r + Z.of_nat s)) l (wrap w x) = wrap w (x + Z.of_nat (list_sum l))).
  { clear - Hw. induction l as [|n l IH]; intros x; cbn [fold_left list_sum fold_right]; [f_equal; lia|].
    replace (wrap w (wrap w x + Z.of_nat n)) with (wrap w (x + Z.of_nat n)) by (unfold wrap; rewrite Z.add_mod_idemp_l by lia; reflexivity). rewrite IH. f_equal. fold (list_sum l). lia. }
  unfold dynamic_reserve. destruct (Nat.eqb_spec (length (map (@length Z) elems)) 0) as [H0|H0].
  { destruct elems; [cbn in Hp; lia|discriminate]. }
  rewrite Z.mul_0_l. replace (wrap w 0 - 1)%Z with (-1)%Z by (unfold wrap; rewrite Z.mod_0_l; lia).
  rewrite HS, HJ. unfold wrap. rewrite Z.mod_small; lia.
Qed.
Print Assumptions C93_dynamic_short_refuted.
