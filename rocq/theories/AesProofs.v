(** Proofs about the AES key expansion and the paddings of CipherModel. *)
From Coq Require Import Btauto.
From Verif Require Import Base ByteSpec HashSpec HashModel HashProofs CipherSpec CipherModel.
Local Open Scope nat_scope.

Definition w4 (w : list Z) : Prop := length w = 4.
Lemma w4_cases w : w4 w -> exists a b c d, w = [a; b; c; d].
Proof. intros H. unfold w4 in H. do 4 (destruct w as [|? w]; [discriminate|]). destruct w; [|discriminate]. repeat eexists. Qed.
Lemma xor4_w4 a b : w4 a -> w4 b -> w4 (xor4 a b).
Proof. unfold w4, xor4. rewrite map_length, combine_length. lia. Qed.
Lemma xor4_assoc a b c : xor4 a (xor4 b c) = xor4 (xor4 a b) c.
Proof. revert b c. induction a as [|x a IH]; intros [|y b] [|z c]; try reflexivity. cbn. f_equal; [now rewrite Z.lxor_assoc|]. apply IH. Qed.
Lemma xor4_comm a b : xor4 a b = xor4 b a.
Proof. revert b. induction a as [|x a IH]; intros [|y b]; try reflexivity. cbn. f_equal; [apply Z.lxor_comm|]. apply IH. Qed.
Lemma xor4_zero w : w4 w -> xor4 w zero4 = w.
Proof. intros H. apply w4_cases in H as (a & b & c & d & ->). cbn. now rewrite !Z.lxor_0_r. Qed.
Lemma xor4_self a : w4 a -> xor4 a a = zero4.
Proof. intros H. apply w4_cases in H as (p & q & r & s & ->). cbn. now rewrite !Z.lxor_nilpotent. Qed.
Lemma xorw_xor4 a b : xorw a b = xor4 a b. Proof. reflexivity. Qed.

(** Words equal as sums in GF(2): solved lane by lane, bit by bit. *)
Ltac w4s := repeat match goal with H : w4 ?w |- _ => is_var w; apply w4_cases in H as (? & ? & ? & ? & ->) end.
Ltac xorbits := apply Z.bits_inj'; intros ? _; rewrite ?Z.lxor_spec, ?Z.bits_0; btauto.
Ltac xorsolve := w4s; cbv [xor4 zero4 map combine fst snd]; repeat (apply f_equal2; [xorbits|]); reflexivity.

Section Sub.
Variable sub : list Z -> list Z.
Hypothesis sub_w4 : forall w, w4 w -> w4 (sub w).

Lemma rot_w4 w : w4 w -> w4 (rot_word w).
Proof. intros H. apply w4_cases in H as (a & b & c & d & ->). reflexivity. Qed.

Lemma common_ok a b c d t : w4 a -> w4 b -> w4 c -> w4 d -> w4 t ->
  xor128 (exp_common [a; b; c; d]) [t; t; t; t] =
  let e := xor4 a t in let f := xor4 b e in let g := xor4 c f in [e; f; g; xor4 d g].
Proof.
  intros Ha Hb Hc Hd Ht. cbv [xor128 exp_common slli4 lane map combine fst snd nth]. cbv zeta.
  change xorw with xor4.
  f_equal; [xorsolve|]. f_equal; [xorsolve|]. f_equal; [xorsolve|]. f_equal. xorsolve.
Qed.

Lemma expand_plus nk m : forall n w, expand sub nk (m + n) w = expand sub nk m (expand sub nk n w).
Proof. induction m as [|m IH]; intros n w; [reflexivity|]. cbn [Nat.add expand]. now rewrite IH. Qed.
Lemma expand_S nk n w : expand sub nk (S n) w =
  let v := expand sub nk n w in let i := length v in
  let temp := nth (i - 1) v [] in
  let temp := if i mod nk =? 0 then xor4 (sub (rot_word temp)) (rcon (i / nk)) else if (6 <? nk) && (i mod nk =? 4) then sub temp else temp in
  v ++ [xor4 (nth (i - nk) v []) temp].
Proof. reflexivity. Qed.
(** One word of the schedule: what comes after a list whose last nk words are known. *)
Lemma expand_1 nk r j pre tail last x : 0 < nk -> length tail = nk -> length pre = nk * r + j -> j < nk -> nth 0 tail [] = x -> nth (nk - 1) tail [] = last ->
  expand sub nk 1 (pre ++ tail) = pre ++ tail ++
    [xor4 x (if j =? 0 then xor4 (sub (rot_word last)) (rcon (S r)) else if (6 <? nk) && (j =? 4) then sub last else last)].
Proof.
  intros Hn Lt Lp Hj Hx Hl. rewrite expand_S. cbn [expand]. cbv zeta. rewrite app_length, Lt, Lp.
  replace (nk * r + j + nk) with (j + S r * nk) by lia. rewrite Nat.mod_add, Nat.mod_small by lia.
  rewrite Nat.div_add, Nat.div_small by lia. cbn [Nat.add].
  replace (nth (j + S r * nk - nk) (pre ++ tail) []) with x.
  2:{ rewrite app_nth2 by lia. rewrite Lp. replace (j + S r * nk - nk - (nk * r + j)) with 0 by lia. now symmetry. }
  replace (nth (j + S r * nk - 1) (pre ++ tail) []) with last.
  2:{ rewrite app_nth2 by lia. rewrite Lp. replace (j + S r * nk - 1 - (nk * r + j)) with (nk - 1) by lia. now symmetry. }
  now rewrite <- app_assoc.
Qed.

Lemma round128 r pre a b c d : length pre = 4 * r -> w4 a -> w4 b -> w4 c -> w4 d ->
  let k := xor128 (exp_common [a; b; c; d]) (let t := xor4 (sub (rot_word d)) (rcon (S r)) in [t; t; t; t]) in
  expand sub 4 4 (pre ++ [a; b; c; d]) = (pre ++ [a; b; c; d]) ++ k /\ length k = 4 /\ Forall w4 k.
Proof.
  intros Lp Ha Hb Hc Hd. cbv zeta. set (t := xor4 (sub (rot_word d)) (rcon (S r))).
  assert (Ht : w4 t) by (apply xor4_w4; [auto using rot_w4|reflexivity]).
  rewrite common_ok by assumption. cbv zeta. set (e := xor4 a t). assert (He : w4 e) by (apply xor4_w4; auto).
  set (f := xor4 b e). assert (Hf : w4 f) by (apply xor4_w4; auto). set (g := xor4 c f). assert (Hg : w4 g) by (apply xor4_w4; auto).
  assert (Hh : w4 (xor4 d g)) by (apply xor4_w4; auto).
  split; [|split; [reflexivity|auto]].
  change 4 with (1 + (1 + (1 + 1))) at 2. rewrite !expand_plus.
  rewrite (expand_1 4 r 0 pre [a; b; c; d] d a) by (auto; try reflexivity; lia).
  cbn [Nat.eqb]. fold t. fold e.
  replace (pre ++ [a; b; c; d] ++ [e]) with ((pre ++ [a]) ++ [b; c; d; e]) by (rewrite <- app_assoc; reflexivity).
  rewrite (expand_1 4 r 1 (pre ++ [a]) [b; c; d; e] e b) by (auto; try reflexivity; rewrite ?app_length; cbn; lia).
  cbn [Nat.eqb Nat.ltb Nat.leb andb]. fold f.
  replace ((pre ++ [a]) ++ [b; c; d; e] ++ [f]) with ((pre ++ [a; b]) ++ [c; d; e; f]) by (rewrite <- !app_assoc; reflexivity).
  rewrite (expand_1 4 r 2 (pre ++ [a; b]) [c; d; e; f] f c) by (auto; try reflexivity; rewrite ?app_length; cbn; lia).
  cbn [Nat.eqb Nat.ltb Nat.leb andb]. fold g.
  replace ((pre ++ [a; b]) ++ [c; d; e; f] ++ [g]) with ((pre ++ [a; b; c]) ++ [d; e; f; g]) by (rewrite <- !app_assoc; reflexivity).
  rewrite (expand_1 4 r 3 (pre ++ [a; b; c]) [d; e; f; g] g d) by (auto; try reflexivity; rewrite ?app_length; cbn; lia).
  cbn [Nat.eqb Nat.ltb Nat.leb andb]. rewrite <- !app_assoc. reflexivity.
Qed.

(** The instruction's lane 3 is the rotated substitution: SubWord commutes with RotWord. *)
Hypothesis sub_rot : forall w, w4 w -> sub (rot_word w) = rot_word (sub w).
Lemma rotw_eq w : rotw w = rot_word w. Proof. reflexivity. Qed.

Lemma exp_128_ok k rc r : length k = 4 -> Forall w4 k -> rcon (S r) = [rc; 0; 0; 0]%Z ->
  exists a b c d, k = [a; b; c; d] /\ w4 a /\ w4 b /\ w4 c /\ w4 d /\
    exp_128 sub k rc = xor128 (exp_common [a; b; c; d]) (let t := xor4 (sub (rot_word d)) (rcon (S r)) in [t; t; t; t]).
Proof.
  intros L F Hr. do 4 (destruct k as [|? k]; [discriminate|]). destruct k; [|discriminate].
  apply Forall_cons_iff in F as [F1 F]. apply Forall_cons_iff in F as [F2 F]. apply Forall_cons_iff in F as [F3 F]. apply Forall_cons_iff in F as [F4 _].
  exists l, l0, l1, l2. split; [reflexivity|]. split; [assumption|]. split; [assumption|]. split; [assumption|]. split; [assumption|]. unfold exp_128, bcast, keygenassist, lane. cbv zeta. cbn [nth].
  rewrite sub_rot by assumption. rewrite Hr. reflexivity.
Qed.
(** So one line of the constructor for a 16 byte key is four words of FIPS 197. *)
Lemma line128 r rc pre k : length pre = 4 * r -> length k = 4 -> Forall w4 k -> rcon (S r) = [rc; 0; 0; 0]%Z ->
  expand sub 4 4 (pre ++ k) = (pre ++ k) ++ exp_128 sub k rc /\ length (exp_128 sub k rc) = 4 /\ Forall w4 (exp_128 sub k rc) /\ length (pre ++ k) = 4 * S r.
Proof.
  intros Lp Lk Fk Hr. destruct (exp_128_ok k rc r Lk Fk Hr) as (a & b & c & d & -> & Ha & Hb & Hc & Hd & E). rewrite E.
  destruct (round128 r pre a b c d Lp Ha Hb Hc Hd) as (E1 & L1 & F1). repeat (split; [assumption|]). rewrite app_length, Lp. cbn; lia.
Qed.
Lemma load128_words key o : o + 16 <= length key -> length (load128 key o) = 4 /\ Forall w4 (load128 key o).
Proof.
  intros H. unfold load128. cbn [seq map]. split; [reflexivity|]. repeat constructor; unfold w4; apply slice_length; lia.
Qed.
Lemma schedule128 key : length key = 16 -> concat (aes128_values sub key) = expand sub 4 40 (load128 key 0).
Proof.
  intros L. destruct (load128_words key 0 ltac:(lia)) as [L0 F0]. unfold aes128_values. cbv zeta. set (k0 := load128 key 0) in *. clearbody k0.
  assert (P0 : length (@nil (list Z)) = 4 * 0) by reflexivity.
  destruct (line128 0 1%Z [] k0 P0 L0 F0 eq_refl) as (E1 & L1 & F1 & P1). set (k1 := exp_128 sub k0 1) in *. clearbody k1. cbn [app] in E1, P1.
  destruct (line128 1 2%Z _ k1 P1 L1 F1 eq_refl) as (E2 & L2 & F2 & P2). set (k2 := exp_128 sub k1 2) in *. clearbody k2.
  destruct (line128 2 4%Z _ k2 P2 L2 F2 eq_refl) as (E3 & L3 & F3 & P3). set (k3 := exp_128 sub k2 4) in *. clearbody k3.
  destruct (line128 3 8%Z _ k3 P3 L3 F3 eq_refl) as (E4 & L4 & F4 & P4). set (k4 := exp_128 sub k3 8) in *. clearbody k4.
  destruct (line128 4 16%Z _ k4 P4 L4 F4 eq_refl) as (E5 & L5 & F5 & P5). set (k5 := exp_128 sub k4 16) in *. clearbody k5.
  destruct (line128 5 32%Z _ k5 P5 L5 F5 eq_refl) as (E6 & L6 & F6 & P6). set (k6 := exp_128 sub k5 32) in *. clearbody k6.
  destruct (line128 6 64%Z _ k6 P6 L6 F6 eq_refl) as (E7 & L7 & F7 & P7). set (k7 := exp_128 sub k6 64) in *. clearbody k7.
  destruct (line128 7 128%Z _ k7 P7 L7 F7 eq_refl) as (E8 & L8 & F8 & P8). set (k8 := exp_128 sub k7 128) in *. clearbody k8.
  destruct (line128 8 27%Z _ k8 P8 L8 F8 eq_refl) as (E9 & L9 & F9 & P9). set (k9 := exp_128 sub k8 27) in *. clearbody k9.
  destruct (line128 9 54%Z _ k9 P9 L9 F9 eq_refl) as (E10 & L10 & F10 & P10). set (k10 := exp_128 sub k9 54) in *. clearbody k10.
  change 40 with (4 + (4 + (4 + (4 + (4 + (4 + (4 + (4 + (4 + 4))))))))). rewrite !expand_plus.
  rewrite E1, E2, E3, E4, E5, E6, E7, E8, E9, E10. cbn [concat]. rewrite app_nil_r, <- !app_assoc. reflexivity.
Qed.

(** ** 24 byte keys. *)
Definition six (A B : list (list Z)) : list (list Z) := A ++ [lane B 0; lane B 1].
Definition good192 (A B : list (list Z)) : Prop := length A = 4 /\ Forall w4 A /\ length B = 4 /\ w4 (lane B 0) /\ w4 (lane B 1).
Lemma line192 r rc pre A B : length pre = 6 * r -> good192 A B -> rcon (S r) = [rc; 0; 0; 0]%Z ->
  let A' := exp_192 sub A B rc in let B' := exp_192_2 A' B in
  expand sub 6 4 (pre ++ six A B) = (pre ++ six A B) ++ A' /\
  expand sub 6 6 (pre ++ six A B) = (pre ++ six A B) ++ six A' B' /\ good192 A' B' /\ length (pre ++ six A B) = 6 * S r.
Proof.
  intros Lp (LA & FA & LB & Be & Bf) Hr. cbv zeta.
  do 4 (destruct A as [|? A]; [discriminate|]). destruct A; [|discriminate]. rename l into a, l0 into b, l1 into c, l2 into d.
  do 4 (destruct B as [|? B]; [discriminate|]). destruct B; [|discriminate]. rename l into e, l0 into f, l1 into x, l2 into y.
  change (w4 e) in Be. change (w4 f) in Bf.
  apply Forall_cons_iff in FA as [Ha FA]. apply Forall_cons_iff in FA as [Hb FA]. apply Forall_cons_iff in FA as [Hc FA]. apply Forall_cons_iff in FA as [Hd _].
  set (t := xor4 (sub (rot_word f)) (rcon (S r))). assert (Ht : w4 t) by (apply xor4_w4; [auto using rot_w4|reflexivity]).
  set (g := xor4 a t). assert (Hg : w4 g) by (apply xor4_w4; auto). set (h := xor4 b g). assert (Hh : w4 h) by (apply xor4_w4; auto).
  set (i := xor4 c h). assert (Hi : w4 i) by (apply xor4_w4; auto). set (j := xor4 d i). assert (Hj : w4 j) by (apply xor4_w4; auto).
  set (k := xor4 e j). assert (Hk : w4 k) by (apply xor4_w4; auto). set (l := xor4 f k). assert (Hl : w4 l) by (apply xor4_w4; auto).
  assert (EA : exp_192 sub [a; b; c; d] [e; f; x; y] rc = [g; h; i; j]).
  { unfold exp_192, bcast, keygenassist, lane. cbv zeta. cbn [nth]. change xorw with xor4. rewrite rotw_eq, <- sub_rot by assumption. rewrite <- Hr. fold t.
    apply common_ok; assumption. }
  rewrite EA.
  assert (EB : exists u v, exp_192_2 [g; h; i; j] [e; f; x; y] = [k; l; u; v]).
  { unfold exp_192_2, bcast, slli4, lane, xor128. cbn [nth combine map fst snd]. change xorw with xor4.
    do 2 eexists. f_equal; [unfold k; rewrite (xor4_comm e j), xor4_zero by assumption; reflexivity|].
    f_equal. unfold l, k. rewrite (xor4_assoc f e j), (xor4_comm (xor4 f e) j). reflexivity. }
  destruct EB as (u & v & EB). rewrite EB. unfold six, lane. cbn [nth app].
  change (expand sub 6 6) with (expand sub 6 (1 + (1 + 4))).
  assert (E4 : expand sub 6 4 (pre ++ [a; b; c; d; e; f]) = (pre ++ [a; b; c; d]) ++ [e; f; g; h; i; j]).
  { change (expand sub 6 4) with (expand sub 6 (1 + (1 + (1 + 1)))). rewrite !expand_plus.
    rewrite (expand_1 6 r 0 pre [a; b; c; d; e; f] f a) by (auto; try reflexivity; lia).
    cbn [Nat.eqb]. fold t. fold g.
    replace (pre ++ [a; b; c; d; e; f] ++ [g]) with ((pre ++ [a]) ++ [b; c; d; e; f; g]) by (rewrite <- app_assoc; reflexivity).
    rewrite (expand_1 6 r 1 (pre ++ [a]) [b; c; d; e; f; g] g b) by (auto; try reflexivity; rewrite ?app_length; cbn; lia).
    cbn [Nat.eqb Nat.ltb Nat.leb andb]. fold h.
    replace ((pre ++ [a]) ++ [b; c; d; e; f; g] ++ [h]) with ((pre ++ [a; b]) ++ [c; d; e; f; g; h]) by (rewrite <- !app_assoc; reflexivity).
    rewrite (expand_1 6 r 2 (pre ++ [a; b]) [c; d; e; f; g; h] h c) by (auto; try reflexivity; rewrite ?app_length; cbn; lia).
    cbn [Nat.eqb Nat.ltb Nat.leb andb]. fold i.
    replace ((pre ++ [a; b]) ++ [c; d; e; f; g; h] ++ [i]) with ((pre ++ [a; b; c]) ++ [d; e; f; g; h; i]) by (rewrite <- !app_assoc; reflexivity).
    rewrite (expand_1 6 r 3 (pre ++ [a; b; c]) [d; e; f; g; h; i] i d) by (auto; try reflexivity; rewrite ?app_length; cbn; lia).
    cbn [Nat.eqb Nat.ltb Nat.leb andb]. fold j. rewrite <- !app_assoc. reflexivity. }
  split; [rewrite E4, <- !app_assoc; reflexivity|]. split.
  - rewrite !expand_plus. rewrite E4.
    rewrite (expand_1 6 r 4 (pre ++ [a; b; c; d]) [e; f; g; h; i; j] j e) by (auto; try reflexivity; rewrite ?app_length; cbn; lia).
    cbn [Nat.eqb Nat.ltb Nat.leb andb]. fold k.
    replace ((pre ++ [a; b; c; d]) ++ [e; f; g; h; i; j] ++ [k]) with ((pre ++ [a; b; c; d; e]) ++ [f; g; h; i; j; k]) by (rewrite <- !app_assoc; reflexivity).
    rewrite (expand_1 6 r 5 (pre ++ [a; b; c; d; e]) [f; g; h; i; j; k] k f) by (auto; try reflexivity; rewrite ?app_length; cbn; lia).
    cbn [Nat.eqb Nat.ltb Nat.leb andb]. fold l. rewrite <- !app_assoc. reflexivity.
  - split; [|rewrite app_length, Lp; cbn; lia]. split; [reflexivity|]. split; [auto|]. split; [reflexivity|]. split; assumption.
Qed.
Lemma four (A : list (list Z)) : length A = 4 -> [lane A 0; lane A 1; lane A 2; lane A 3] = A.
Proof. intros H. do 4 (destruct A as [|? A]; [discriminate|]). destruct A; [|discriminate]. reflexivity. Qed.
Lemma schedule192 key : length key = 24 ->
  concat (aes192_values sub key) = expand sub 6 46 (load128 key 0 ++ [slice key 16 4; slice key 20 4]).
Proof.
  intros L. destruct (load128_words key 0 ltac:(lia)) as [L0 F0]. unfold aes192_values. cbv zeta.
  set (A0 := load128 key 0) in *. clearbody A0.
  assert (G0 : good192 A0 (srli8 (load128 key 8))).
  { split; [exact L0|]. split; [exact F0|]. split; [reflexivity|]. split; unfold w4, srli8, lane, load128; cbn [seq map nth]; apply slice_length; lia. }
  replace [slice key 16 4; slice key 20 4] with [lane (srli8 (load128 key 8)) 0; lane (srli8 (load128 key 8)) 1] by reflexivity.
  set (B0 := srli8 (load128 key 8)) in *. clearbody B0. fold (six A0 B0).
  assert (P0 : length (@nil (list Z)) = 6 * 0) by reflexivity.
  destruct (line192 0 1%Z [] A0 B0 P0 G0 eq_refl) as (_ & E1 & G1 & P1). set (A1 := exp_192 sub A0 B0 1) in *. clearbody A1. set (B1 := exp_192_2 A1 B0) in *. clearbody B1. cbn [app] in E1, P1.
  destruct (line192 1 2%Z _ A1 B1 P1 G1 eq_refl) as (_ & E2 & G2 & P2). set (A2 := exp_192 sub A1 B1 2) in *. clearbody A2. set (B2 := exp_192_2 A2 B1) in *. clearbody B2.
  destruct (line192 2 4%Z _ A2 B2 P2 G2 eq_refl) as (_ & E3 & G3 & P3). set (A3 := exp_192 sub A2 B2 4) in *. clearbody A3. set (B3 := exp_192_2 A3 B2) in *. clearbody B3.
  destruct (line192 3 8%Z _ A3 B3 P3 G3 eq_refl) as (_ & E4 & G4 & P4). set (A4 := exp_192 sub A3 B3 8) in *. clearbody A4. set (B4 := exp_192_2 A4 B3) in *. clearbody B4.
  destruct (line192 4 16%Z _ A4 B4 P4 G4 eq_refl) as (_ & E5 & G5 & P5). set (A5 := exp_192 sub A4 B4 16) in *. clearbody A5. set (B5 := exp_192_2 A5 B4) in *. clearbody B5.
  destruct (line192 5 32%Z _ A5 B5 P5 G5 eq_refl) as (_ & E6 & G6 & P6). set (A6 := exp_192 sub A5 B5 32) in *. clearbody A6. set (B6 := exp_192_2 A6 B5) in *. clearbody B6.
  destruct (line192 6 64%Z _ A6 B6 P6 G6 eq_refl) as (_ & E7 & G7 & P7). set (A7 := exp_192 sub A6 B6 64) in *. clearbody A7. set (B7 := exp_192_2 A7 B6) in *. clearbody B7.
  destruct (line192 7 128%Z _ A7 B7 P7 G7 eq_refl) as (E8 & _). set (A8 := exp_192 sub A7 B7 128) in *. clearbody A8.
  change 46 with (4 + (6 + (6 + (6 + (6 + (6 + (6 + 6))))))). rewrite !expand_plus.
  rewrite E1, E2, E3, E4, E5, E6, E7, E8. cbn [concat]. unfold six. rewrite app_nil_r.
  rewrite <- (four A1), <- (four A3), <- (four A5), <- (four A7) by (apply G1 || apply G3 || apply G5 || apply G7).
  cbv [pd0 pd1 lane nth]. repeat (first [rewrite <- !app_assoc | progress (cbn [app])]). reflexivity.
Qed.

(** ** 32 byte keys: the third round key. *)
Lemma line256 K0 K1 : length K0 = 4 -> length K1 = 4 -> Forall w4 K0 -> Forall w4 K1 ->
  expand sub 8 4 (K0 ++ K1) = K0 ++ K1 ++ exp_256 sub K0 K1 1.
Proof.
  intros L0 L1 F0 F1. do 4 (destruct K0 as [|? K0]; [discriminate|]). destruct K0; [|discriminate]. rename l into a, l0 into b, l1 into c, l2 into d.
  do 4 (destruct K1 as [|? K1]; [discriminate|]). destruct K1; [|discriminate]. rename l into e, l0 into f, l1 into g, l2 into h.
  apply Forall_cons_iff in F0 as [Ha FA]. apply Forall_cons_iff in FA as [Hb FA]. apply Forall_cons_iff in FA as [Hc FA]. apply Forall_cons_iff in FA as [Hd _].
  apply Forall_cons_iff in F1 as [He FA]. apply Forall_cons_iff in FA as [Hf FA]. apply Forall_cons_iff in FA as [Hg FA]. apply Forall_cons_iff in FA as [Hh _].
  set (t := xor4 (sub (rot_word h)) (rcon 1)). assert (Ht : w4 t) by (apply xor4_w4; [auto using rot_w4|reflexivity]).
  unfold exp_256, bcast, keygenassist, lane. cbv zeta. cbn [nth]. change xorw with xor4. rewrite rotw_eq, <- sub_rot by assumption.
  change [1; 0; 0; 0]%Z with (rcon 1). fold t. rewrite common_ok by assumption. cbv zeta.
  set (i := xor4 a t). set (j := xor4 b i). set (k := xor4 c j).
  change (expand sub 8 4) with (expand sub 8 (1 + (1 + (1 + 1)))). rewrite !expand_plus.
  change ([a; b; c; d] ++ [e; f; g; h]) with ([] ++ [a; b; c; d; e; f; g; h]).
  rewrite (expand_1 8 0 0 [] [a; b; c; d; e; f; g; h] h a) by (auto; try reflexivity; lia). cbn [Nat.eqb]. fold t. fold i.
  change ([] ++ [a; b; c; d; e; f; g; h] ++ [i]) with ([a] ++ [b; c; d; e; f; g; h; i]).
  rewrite (expand_1 8 0 1 [a] [b; c; d; e; f; g; h; i] i b) by (auto; try reflexivity; cbn; lia). cbn [Nat.eqb Nat.ltb Nat.leb andb]. fold j.
  change ([a] ++ [b; c; d; e; f; g; h; i] ++ [j]) with ([a; b] ++ [c; d; e; f; g; h; i; j]).
  rewrite (expand_1 8 0 2 [a; b] [c; d; e; f; g; h; i; j] j c) by (auto; try reflexivity; cbn; lia). cbn [Nat.eqb Nat.ltb Nat.leb andb]. fold k.
  change ([a; b] ++ [c; d; e; f; g; h; i; j] ++ [k]) with ([a; b; c] ++ [d; e; f; g; h; i; j; k]).
  rewrite (expand_1 8 0 3 [a; b; c] [d; e; f; g; h; i; j; k] k d) by (auto; try reflexivity; cbn; lia). reflexivity.
Qed.
End Sub.

(** SubWord of FIPS 197. *)
Lemma sub_word_w4 w : w4 w -> w4 (sub_word w). Proof. unfold w4, sub_word. now rewrite map_length. Qed.
Lemma sub_word_rot w : w4 w -> sub_word (rot_word w) = rot_word (sub_word w).
Proof. intros H. apply w4_cases in H as (a & b & c & d & ->). reflexivity. Qed.
Lemma key_words_slices key n : length key = 4 * n -> key_words key = map (fun i => slice key (4 * i) 4) (seq 0 n).
Proof.
  intros H. unfold key_words, blocks. rewrite H. replace (4 * n / 4) with n by (rewrite Nat.mul_comm, Nat.div_mul; lia).
  revert key H. induction n as [|n IH]; intros key H; [reflexivity|]. cbn [pieces seq map]. f_equal.
  rewrite IH by (rewrite skipn_length; lia). rewrite <- seq_shift, map_map. apply map_ext. intros i. unfold slice. f_equal.
  replace (4 * S n) with (S (S (S (S (4 * n))))) in H by lia. do 4 (destruct key as [|? key]; [discriminate|]). replace (4 * S i) with (S (S (S (S (4 * i))))) by lia. reflexivity.
Qed.

(** ** Padding *)
Lemma blit_zeros n m : length m <= n -> blit (repeat 0%Z n) 0 m = m ++ repeat 0%Z (n - length m).
Proof.
  intros H. unfold blit. cbn [firstn app Nat.add]. f_equal. rewrite <- (repeat_length 0%Z (length m)) at 1.
  replace n with (length m + (n - length m)) at 1 by lia. rewrite repeat_app, skipn_app, skipn_all, Nat.sub_diag. reflexivity.
Qed.
Lemma pad_loop_ok w pad : (0 < w)%Z -> forall k fuel (pre rest : list Z) done, length rest = k -> k < fuel ->
  (Z.of_nat (length pre + k + length done) < 2 ^ w)%Z -> 0 < length pre -> 
  pad_loop w fuel (pre ++ rest ++ done) (Z.of_nat (length pre + k) - 1) (Z.of_nat (length pre)) pad = Some (pre ++ repeat pad k ++ done).
Proof.
  intros Hw. induction k as [|k IH]; intros fuel pre rest done Lr Hf HW Hp; (destruct fuel as [|fuel]; [lia|]); cbn [pad_loop].
  - destruct rest; [|discriminate]. rewrite Z.geb_leb. destruct (Z.leb_spec (Z.of_nat (length pre)) (Z.of_nat (length pre + 0) - 1)); [lia|]. reflexivity.
  - rewrite Z.geb_leb. destruct (Z.leb_spec (Z.of_nat (length pre)) (Z.of_nat (length pre + S k) - 1)); [|lia].
    rewrite !app_length, Lr. destruct (Z.ltb_spec (Z.of_nat (length pre + S k) - 1) (Z.of_nat (length pre + (S k + length done)))); [|lia].
    destruct (exists_last (l := rest)) as (r0 & z & ->); [destruct rest; [discriminate|congruence]|].
    rewrite app_length in Lr. cbn in Lr.
    assert (EU : upd (pre ++ (r0 ++ [z]) ++ done) (Z.to_nat (Z.of_nat (length pre + S k) - 1)) pad = pre ++ r0 ++ pad :: done).
    { replace (Z.to_nat (Z.of_nat (length pre + S k) - 1)) with (length (pre ++ r0)) by (rewrite app_length; lia).
      unfold upd. rewrite <- !app_assoc. rewrite (app_assoc pre r0).
      rewrite firstn_app, firstn_all, Nat.sub_diag. cbn [firstn]. rewrite app_nil_r. rewrite skipn_app. rewrite skipn_all2 by lia.
      replace (S (length (pre ++ r0)) - length (pre ++ r0)) with 1 by lia. cbn [skipn app]. rewrite <- app_assoc. reflexivity. }
    rewrite EU. replace (wrap w (Z.of_nat (length pre + S k) - 1 - 1)) with (Z.of_nat (length pre + k) - 1)%Z.
    2:{ unfold wrap. rewrite Z.mod_small; lia. }
    rewrite (IH fuel pre r0 (pad :: done)) by (cbn [length] in *; lia). f_equal. f_equal.
    change (repeat pad (S k)) with (pad :: repeat pad k). rewrite repeat_cons, <- !app_assoc. reflexivity.
Qed.
