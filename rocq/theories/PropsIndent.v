(** C107-C108: auto_indent and cond. *)
From Coq Require Import String.
From Coq Require Import List.
From Verif Require Import Base NumSpec BufModel PrintModel BufSpec IndentModel IndentSpec IndentProofs.
Local Open Scope nat_scope.

(** ** C107: auto_indent *)
(** Printing auto_indent(text) prints the table of the text, every cell that a tab follows filled up to its column's width. *)
Theorem C107_prints_aligned : forall t p, auto_indent t = Some p -> text_of p = aligned t.
Proof.
  intros t p. unfold auto_indent, calculate, indent_print.
  destruct (calc_loop t 0 0 0 []) as [cont lines] eqn:E.
  destruct (total_width 1 cont) as [tw|]; [|discriminate]. cbn [bindo].
  destruct (checked (tw * Z.of_nat lines)) as [total|]; [|discriminate]. cbn [bindo].
  destruct (loop_main t [] 0 0 [] cont lines (le_n 0) E) as (out & E1 & E2 & _).
  rewrite E1. cbn [bindo]. intros H. inversion H; subst p. cbn [text_of]. rewrite E2.
  apply render_all_aligned. exact (calc_width t cont lines E).
Qed.
Print Assumptions C107_prints_aligned.
(** The process is not terminated, and no width is read outside the container, for texts below 2 GiB. *)
Theorem C107_prints : forall t, (Z.of_nat (length t) < 2 ^ 31)%Z -> exists p, auto_indent t = Some p.
Proof.
  intros t Hl. unfold auto_indent, calculate, indent_print.
  destruct (calc_loop t 0 0 0 []) as [cont lines] eqn:E.
  destruct (calc_sum t 0 0 0 [] cont lines E) as [S1 S2]. cbn [sumw fold_right] in S1. rewrite <- sumw_prefix in S1.
  destruct (calc_total_ok cont lines) as (tw & Et & Ec).
  - intros x [<-|[<-|[]]]; [lia|].
    set (a := prefix cont (length cont)) in *. clearbody a. rewrite Nat2Z.inj_mul.
    assert (Ha : (Z.of_nat (1 + a) <= 2 ^ 31 + 1)%Z) by lia.
    assert (Hb : (Z.of_nat lines <= 2 ^ 31)%Z) by lia.
    apply Z.le_lt_trans with ((2 ^ 31 + 1) * 2 ^ 31)%Z; [|reflexivity].
    apply Z.mul_le_mono_nonneg; lia.
  - rewrite Et. cbn [bindo]. rewrite Ec. cbn [bindo].
    destruct (loop_main t [] 0 0 [] cont lines (le_n 0) E) as (out & E1 & _). rewrite E1. cbn [bindo]. eauto.
Qed.
Print Assumptions C107_prints.
(** In the printed text the k-th tabs of all lines stand in the same column. *)
Theorem C107_tabs_line_up : forall t p l1 l2 k a b, auto_indent t = Some p ->
  In l1 (split 10 (text_of p)) -> In l2 (split 10 (text_of p)) ->
  nth_error (tabs_at 0 l1) k = Some a -> nth_error (tabs_at 0 l2) k = Some b -> a = b.
Proof.
  intros t p l1 l2 k a b Hp H1 H2 Ha Hb. rewrite (C107_prints_aligned t p Hp) in *.
  rewrite (aligned_tabs t l1 k a H1 Ha), (aligned_tabs t l2 k b H2 Hb). reflexivity.
Qed.
Print Assumptions C107_tabs_line_up.
(** The announced size, which is what print reserves, is enough unless the text ends with a tab. *)
Theorem C107_size_partial : forall t sz out, auto_indent t = Some (PDynamic sz out) -> ~ (exists p, t = p ++ [9%Z]) ->
  length out <= sz.
Proof.
  intros t sz out. unfold auto_indent, calculate, indent_print.
  destruct (calc_loop t 0 0 0 []) as [cont lines] eqn:E.
  destruct (total_width 1 cont) as [tw|] eqn:Et; [|discriminate]. cbn [bindo].
  destruct (checked (tw * Z.of_nat lines)) as [total|] eqn:Ec; [|discriminate]. cbn [bindo].
  destruct (loop_main t [] 0 0 [] cont lines (le_n 0) E) as (o & E1 & _ & E3).
  rewrite E1. cbn [bindo]. intros H Hn. assert (Ho : out = o) by congruence. assert (Hs : sz = Z.to_nat total) by congruence.
  subst out. specialize (E3 Hn (fun _ => or_intror eq_refl)). change (prefix cont 0) with 0 in E3.
  unfold checked in Ec. destruct (Z.ltb (tw * Z.of_nat lines) (2 ^ 64)); [|discriminate Ec].
  assert (Ht : total = (tw * Z.of_nat lines)%Z) by congruence. apply total_prefix in Et.
  rewrite Hs, Ht, Et, Nat.sub_0_r in *. apply Nat2Z.inj_le. rewrite Z2Nat.id by lia.
  set (a := prefix cont (length cont)) in *. clearbody a. clear - E3. rewrite Nat.add_0_r in E3.
  apply Nat2Z.inj_le in E3. rewrite Nat2Z.inj_mul in E3. rewrite Nat2Z.inj_add in E3. lia.
Qed.
Print Assumptions C107_size_partial.
(** A text that ends with a tab is printed beyond the reserved space. *)
Theorem C107_size_refuted : ~ (forall t sz out, auto_indent t = Some (PDynamic sz out) -> length out <= sz).
Proof. intros H. specialize (H [97; 9]%Z 0 [97; 9]%Z eq_refl). cbn in H. lia. Qed.
Print Assumptions C107_size_refuted.
Example C107_nonvacuous :
  let t := text "name" ++ [9%Z] ++ text "x" ++ [10%Z] ++ text "i" ++ [9%Z] ++ text "long" in
  exists sz, auto_indent t = Some (PDynamic sz (text "name" ++ [9%Z] ++ text "x" ++ [10%Z] ++ text "i   " ++ [9%Z] ++ text "long"))
    /\ sz = 22 /\ ~ (exists p, t = p ++ [9%Z]).
Proof.
  eexists. split; [reflexivity|]. split; [reflexivity|]. intros [p E].
  apply (f_equal (fun l => last l 0%Z)) in E. rewrite last_last in E. discriminate E.
Qed.

(** ** C108: cond *)
(** cond(pred,t1,t2) prints what t1 prints if pred holds and what t2 prints otherwise, within the size it announces: a print
    with it in any place prints the same text as the print with the chosen argument, whatever the kinds of the two arguments. *)
Theorem C108_prints_chosen : forall same smaller pred t1 t2 before after line,
  printed line (before ++ [cond same smaller pred t1 t2] ++ after) =
  printed line (before ++ [if pred then t1 else t2] ++ after).
Proof.
  intros same smaller pred t1 t2 before after line.
  assert (H : text_of (cond same smaller pred t1 t2) = text_of (if pred then t1 else t2)).
  { destruct same, smaller, pred, t1, t2; cbn; rewrite ?app_nil_r; reflexivity. }
  unfold printed. rewrite !map_app, !concat_app. cbn [map concat]. rewrite H. reflexivity.
Qed.
Print Assumptions C108_prints_chosen.
(** It never prints more than it announces. *)
Theorem C108_within_size : forall same smaller pred t1 t2, arg_ok t1 -> arg_ok t2 ->
  match cond same smaller pred t1 t2 with
  | PReserve sz t | PDynamic sz t => length t <= sz
  | _ => True
  end.
Proof.
  intros same smaller pred t1 t2 H1 H2.
  destruct t1 as [a|s1 a|s1 a|w1], t2 as [b|s2 b|s2 b|w2], same, smaller, pred;
    cbn [cond condition cond_size text_of negb arg_ok] in *; try tauto; try lia;
    destruct (Nat.ltb_spec s1 s2); destruct (Nat.ltb_spec s2 s1); lia.
Qed.
Print Assumptions C108_within_size.
Example C108_nonvacuous :
  cond false true true (PScatter (text "yes")) (PReserve 20 (text "-7")) = PDynamic 3 (text "yes") /\
  printed true [PScatter (text "a"); cond false true false (PScatter (text "yes")) (PReserve 20 (text "-7"))] = text "a-7" ++ [10%Z].
Proof. split; reflexivity. Qed.
