(** Proofs about CipherModel. *)
From Coq Require Import Btauto.
From Verif Require Import Base ByteSpec LebeModel ByteProofs HashSpec HashModel HashProofs HashCtxProofs CipherSpec CipherModel.
Local Open Scope nat_scope.

(** ** ChaCha20 *)
Lemma list16 (s : list Z) : length s = 16 -> exists a b c d e f g h i j k l m n o p, s = [a; b; c; d; e; f; g; h; i; j; k; l; m; n; o; p].
Proof. intros H. do 16 (destruct s as [|? s]; [discriminate|]). destruct s; [|discriminate]. repeat eexists. Qed.

Lemma scalar_qr s q : length s = 16 ->
  In q [(0, 4, 8, 12); (1, 5, 9, 13); (2, 6, 10, 14); (3, 7, 11, 15); (0, 5, 10, 15); (1, 6, 11, 12); (2, 7, 8, 13); (3, 4, 9, 14)] ->
  (let '(x, y, z, w) := q in chachaqr s x y z w) = quarterround s q.
Proof.
  intros H Hq. apply list16 in H as (a & b & c & d & e & f & g & h & i & j & k & l & m & n & o & p & ->).
  assert (EA : forall x y, wadd 32 x y = w32 x y) by reflexivity. assert (ER : forall x n, std_rotl 32 x n = rotl 32 n x) by reflexivity.
  repeat (destruct Hq as [<-|Hq];
    [cbv [chachaqr upd get firstn skipn app nth quarterround quarter map seq Nat.eqb]; rewrite !EA, !ER; reflexivity|]). destruct Hq.
Qed.
Lemma quarterround_length s q : length (quarterround s q) = 16.
Proof. unfold quarterround. destruct q as [[[x y] z] w]. destruct (quarter _ _ _ _) as [[[a b] c] d]. now rewrite map_length. Qed.

Lemma scalar_two_rounds s : length s = 16 -> chacha_two_rounds s = inner_block s.
Proof.
  intros H. unfold chacha_two_rounds, inner_block. cbn [fold_left]. cbv zeta.
  rewrite (scalar_qr s (0, 4, 8, 12)) by (auto; cbn; tauto).
  rewrite (scalar_qr _ (1, 5, 9, 13)) by (try apply quarterround_length; cbn; tauto).
  rewrite (scalar_qr _ (2, 6, 10, 14)) by (try apply quarterround_length; cbn; tauto).
  rewrite (scalar_qr _ (3, 7, 11, 15)) by (try apply quarterround_length; cbn; tauto).
  rewrite (scalar_qr _ (0, 5, 10, 15)) by (try apply quarterround_length; cbn; tauto).
  rewrite (scalar_qr _ (1, 6, 11, 12)) by (try apply quarterround_length; cbn; tauto).
  rewrite (scalar_qr _ (2, 7, 8, 13)) by (try apply quarterround_length; cbn; tauto).
  rewrite (scalar_qr _ (3, 4, 9, 14)) by (try apply quarterround_length; cbn; tauto).
  reflexivity.
Qed.
Lemma inner_block_length s : length (inner_block s) = 16.
Proof. unfold inner_block. cbn [fold_left]. apply quarterround_length. Qed.

Lemma iter_eq {A} (P : A -> Prop) (f g : A -> A) : (forall x, P x -> f x = g x /\ P (g x)) -> forall n x, P x -> Nat.iter n f x = Nat.iter n g x /\ P (Nat.iter n g x).
Proof.
  intros H. induction n as [|n IH]; intros x Hx; [auto|]. destruct (IH x Hx) as [E HP].
  assert (ES : forall h : A -> A, Nat.iter (S n) h x = h (Nat.iter n h x)) by reflexivity. rewrite !ES, E. apply H. exact HP.
Qed.
Lemma store32 host v : (0 <= v < 2 ^ 32)%Z -> bytes_of host 4 (if endian_eqb host little then v else byte_swap 4 v) = le_bytes 4 v.
Proof. intros H. apply (store_swapped host little 4); [cbn; tauto|exact H]. Qed.
Lemma wadd_bound x y : (0 <= wadd 32 x y < 2 ^ 32)%Z. Proof. apply Z.mod_pos_bound. lia. Qed.

Lemma chacha_scalar_ok host s : length s = 16 -> chacha_scalar host s = chacha20_block s.
Proof.
  intros H. unfold chacha_scalar, chacha20_block. cbv zeta.
  destruct (iter_eq (fun s => length s = 16) chacha_two_rounds inner_block) with (n := 10) (x := s) as [E L]; auto.
  { intros x Hx. split; [apply scalar_two_rounds; exact Hx|apply inner_block_length]. }
  rewrite E. set (t := Nat.iter 10 inner_block s) in *. clearbody t. f_equal.
  unfold sum_words. rewrite map_map.
  apply nth_ext with (d := []) (d' := []).
  { rewrite !map_length, seq_length, combine_length. lia. }
  intros i Hi. rewrite map_length, seq_length in Hi.
  rewrite (nth_indep _ [] (chacha_out host t s 0)) by (rewrite map_length, seq_length; lia). rewrite map_nth, seq_nth by lia.
  rewrite (nth_indep _ [] (le_bytes 4 ((fst (0%Z, 0%Z) + snd (0%Z, 0%Z)) mod 2 ^ 32))) by (rewrite map_length, combine_length; lia).
  rewrite (map_nth (fun p => le_bytes 4 ((fst p + snd p) mod 2 ^ 32)%Z) (combine s t) (0%Z, 0%Z)). rewrite combine_nth by lia. cbn [fst snd Nat.add].
  unfold chacha_out. cbv zeta. rewrite store32 by apply wadd_bound. unfold wadd, get, wrap. f_equal. f_equal. lia.
Qed.

(** The rotation as a sum. *)
Lemma rot_sum x l r : (0 < l)%Z -> (0 < r)%Z -> (l + r = 32)%Z -> (0 <= x < 2 ^ 32)%Z -> wadd 32 (wshl 32 x l) (Z.shiftr x r) = rotl 32 l x.
Proof.
  intros Hl Hr E Hx. unfold rotl, wadd, wshl, wrap. replace (32 - l)%Z with r by lia.
  rewrite Z.shiftr_div_pow2, Z.shiftl_mul_pow2 by lia.
  assert (E1 : ((x * 2 ^ l) mod 2 ^ 32 = (x mod 2 ^ r) * 2 ^ l)%Z).
  { replace 32%Z with (r + l)%Z by lia. rewrite Z.pow_add_r by lia. now rewrite Z.mul_mod_distr_r by lia. }
  rewrite E1. assert (H1 : (0 <= x mod 2 ^ r < 2 ^ r)%Z) by (apply Z.mod_pos_bound; lia).
  assert (H2 : (0 <= x / 2 ^ r < 2 ^ l)%Z).
  { split; [apply Z.div_pos; lia|]. apply Z.div_lt_upper_bound; [lia|]. rewrite <- Z.pow_add_r by lia. replace (r + l)%Z with 32%Z by lia. lia. }
  assert (HB : forall n, (l <= n)%Z -> Z.testbit (x / 2 ^ r) n = false).
  { intros n Hn. rewrite <- (Z.mod_small (x / 2 ^ r) (2 ^ l)) by lia. apply Z.mod_pow2_bits_high. lia. }
  assert (HL : Z.land ((x mod 2 ^ r) * 2 ^ l) (x / 2 ^ r) = 0%Z).
  { apply Z.bits_inj'. intros n Hn. rewrite Z.land_spec, Z.bits_0. destruct (Z.ltb_spec n l).
    - rewrite Z.mul_pow2_bits_low by lia. reflexivity.
    - rewrite HB by lia. apply andb_false_r. }
  rewrite Z.mod_small.
  - rewrite <- Z.lxor_lor by exact HL. now apply Z.add_nocarry_lxor.
  - replace 32%Z with (r + l)%Z by lia. rewrite Z.pow_add_r by lia. nia.
Qed.
Lemma word_lxor x y : (0 <= x < 2 ^ 32)%Z -> (0 <= y < 2 ^ 32)%Z -> (0 <= Z.lxor x y < 2 ^ 32)%Z.
Proof.
  intros Hx Hy. assert (0 <= Z.lxor x y)%Z by (apply Z.lxor_nonneg; lia). split; [lia|].
  destruct (Z.eq_dec (Z.lxor x y) 0) as [->|]; [lia|]. apply Z.log2_lt_pow2; [lia|].
  apply Z.le_lt_trans with (Z.max (Z.log2 x) (Z.log2 y)); [apply Z.log2_lxor; lia|].
  apply Z.max_lub_lt.
  - destruct (Z.eq_dec x 0) as [->|]; [cbn; lia|]. apply Z.log2_lt_pow2; lia.
  - destruct (Z.eq_dec y 0) as [->|]; [cbn; lia|]. apply Z.log2_lt_pow2; lia.
Qed.
Lemma rotl_bound x n : (0 < n < 32)%Z -> (0 <= x < 2 ^ 32)%Z -> (0 <= rotl 32 n x < 2 ^ 32)%Z.
Proof. intros Hn Hx. rewrite <- (rot_sum x n (32 - n)) by lia. apply wadd_bound. Qed.

(** One lane of the vector quarter round. *)
Definition lane_qr (a b c d : Z) : Z * Z * Z * Z :=
  let a := wadd 32 a b in let d := Z.lxor d a in let d := wadd 32 (wshl 32 d 16) (Z.shiftr d 16) in
  let c := wadd 32 c d in let b := Z.lxor b c in let b := wadd 32 (wshl 32 b 12) (Z.shiftr b 20) in
  let a := wadd 32 a b in let d := Z.lxor d a in let d := wadd 32 (wshl 32 d 8) (Z.shiftr d 24) in
  let c := wadd 32 c d in let b := Z.lxor b c in let b := wadd 32 (wshl 32 b 7) (Z.shiftr b 25) in
  (a, b, c, d).
Notation W x := (0 <= x < 2 ^ 32)%Z (only parsing).
Lemma w32_wadd x y : wadd 32 x y = w32 x y. Proof. reflexivity. Qed.
Lemma lane_qr_ok a b c d : W a -> W b -> W c -> W d ->
  lane_qr a b c d = quarter a b c d /\ (let '(a', b', c', d') := quarter a b c d in W a' /\ W b' /\ W c' /\ W d').
Proof.
  intros Ha Hb Hc Hd. unfold lane_qr, quarter. cbv zeta. change w32 with (wadd 32).
  assert (rs : forall x l r, (0 < l)%Z -> (0 < r)%Z -> (l + r = 32)%Z -> W x -> wadd 32 (wshl 32 x l) (Z.shiftr x r) = rotl 32 l x) by exact rot_sum.
  assert (HW : forall x y, W (wadd 32 x y)) by (intros; apply wadd_bound).
  set (a1 := wadd 32 a b). assert (W a1) by apply HW.
  assert (X1 : W (Z.lxor d a1)) by (apply word_lxor; assumption).
  rewrite (rs (Z.lxor d a1) 16%Z 16%Z) by (lia || assumption). set (d1 := rotl 32 16 (Z.lxor d a1)). assert (W d1) by (apply rotl_bound; [lia|assumption]).
  set (c1 := wadd 32 c d1). assert (W c1) by apply HW.
  assert (X2 : W (Z.lxor b c1)) by (apply word_lxor; assumption).
  rewrite (rs (Z.lxor b c1) 12%Z 20%Z) by (lia || assumption). set (b1 := rotl 32 12 (Z.lxor b c1)). assert (W b1) by (apply rotl_bound; [lia|assumption]).
  set (a2 := wadd 32 a1 b1). assert (W a2) by apply HW.
  assert (X3 : W (Z.lxor d1 a2)) by (apply word_lxor; assumption).
  rewrite (rs (Z.lxor d1 a2) 8%Z 24%Z) by (lia || assumption). set (d2 := rotl 32 8 (Z.lxor d1 a2)). assert (W d2) by (apply rotl_bound; [lia|assumption]).
  set (c2 := wadd 32 c1 d2). assert (W c2) by apply HW.
  assert (X4 : W (Z.lxor b1 c2)) by (apply word_lxor; assumption).
  rewrite (rs (Z.lxor b1 c2) 7%Z 25%Z) by (lia || assumption).
  split; [reflexivity|]. repeat split; try lia. all: apply rotl_bound; [lia|assumption].
Qed.

(** ** The vector version. *)
Definition flat (r : rows) : list Z := let '(a, b, c, d) := r in a ++ b ++ c ++ d.
Definition rows_ok (r : rows) : Prop :=
  let '(a, b, c, d) := r in length a = 4 /\ length b = 4 /\ length c = 4 /\ length d = 4 /\ Forall (word 32) (flat r).
Lemma list4 {A} (s : list A) : length s = 4 -> exists a b c d, s = [a; b; c; d].
Proof. intros H. do 4 (destruct s as [|? s]; [discriminate|]). destruct s; [|discriminate]. repeat eexists. Qed.

(** The words of each row in the mirrored order 0 3 2 1. *)
Definition mirror4 (v : list Z) : list Z := match v with [a; b; c; d] => [a; d; c; b] | _ => v end.
Definition mirror (s : list Z) : list Z := mirror4 (slice s 0 4) ++ mirror4 (slice s 4 4) ++ mirror4 (slice s 8 4) ++ mirror4 (slice s 12 4).
Definition q1 (q : Z * Z * Z * Z) := fst (fst (fst q)).
Definition q2 (q : Z * Z * Z * Z) := snd (fst (fst q)).
Definition q3 (q : Z * Z * Z * Z) := snd (fst q).
Definition q4 (q : Z * Z * Z * Z) := snd q.
Lemma simd_odd_lanes a0 a1 a2 a3 b0 b1 b2 b3 c0 c1 c2 c3 d0 d1 d2 d3 :
  simd_odd ([a0; a1; a2; a3], [b0; b1; b2; b3], [c0; c1; c2; c3], [d0; d1; d2; d3]) =
  let u := lane_qr a0 b0 c0 d0 in let v := lane_qr a1 b1 c1 d1 in let w := lane_qr a2 b2 c2 d2 in let x := lane_qr a3 b3 c3 d3 in
  ([q1 u; q1 v; q1 w; q1 x], [q2 u; q2 v; q2 w; q2 x], [q3 u; q3 v; q3 w; q3 x], [q4 u; q4 v; q4 w; q4 x]).
Proof. cbv [simd_odd lane_qr vadd vxor vrot vshl vshr lanes2 map combine fst snd q1 q2 q3 q4]. reflexivity. Qed.
Lemma qr_proj s x y z w : quarterround s (x, y, z, w) =
  let q := quarter (nth x s 0%Z) (nth y s 0%Z) (nth z s 0%Z) (nth w s 0%Z) in
  map (fun i => if i =? x then q1 q else if i =? y then q2 q else if i =? z then q3 q else if i =? w then q4 q else nth i s 0%Z) (seq 0 16).
Proof. unfold quarterround. cbv zeta. destruct (quarter _ _ _ _) as [[[a b] c] d]. reflexivity. Qed.
Definition columns (s : list Z) : list Z := fold_left quarterround [(0, 4, 8, 12); (1, 5, 9, 13); (2, 6, 10, 14); (3, 7, 11, 15)] s.
Definition diagonals (s : list Z) : list Z := fold_left quarterround [(0, 5, 10, 15); (1, 6, 11, 12); (2, 7, 8, 13); (3, 4, 9, 14)] s.
Ltac qr_step := rewrite qr_proj; cbv zeta; cbv [nth map seq Nat.eqb].
Lemma columns_lanes a0 a1 a2 a3 b0 b1 b2 b3 c0 c1 c2 c3 d0 d1 d2 d3 :
  columns [a0; a1; a2; a3; b0; b1; b2; b3; c0; c1; c2; c3; d0; d1; d2; d3] =
  let u := quarter a0 b0 c0 d0 in let v := quarter a1 b1 c1 d1 in let w := quarter a2 b2 c2 d2 in let x := quarter a3 b3 c3 d3 in
  [q1 u; q1 v; q1 w; q1 x; q2 u; q2 v; q2 w; q2 x; q3 u; q3 v; q3 w; q3 x; q4 u; q4 v; q4 w; q4 x].
Proof. unfold columns. cbn [fold_left]. do 4 qr_step. reflexivity. Qed.
Lemma diagonals_lanes a0 a1 a2 a3 b0 b1 b2 b3 c0 c1 c2 c3 d0 d1 d2 d3 :
  diagonals [a0; a1; a2; a3; b0; b1; b2; b3; c0; c1; c2; c3; d0; d1; d2; d3] =
  let u := quarter a0 b1 c2 d3 in let v := quarter a1 b2 c3 d0 in let w := quarter a2 b3 c0 d1 in let x := quarter a3 b0 c1 d2 in
  [q1 u; q1 v; q1 w; q1 x; q2 x; q2 u; q2 v; q2 w; q3 w; q3 x; q3 u; q3 v; q4 v; q4 w; q4 x; q4 u].
Proof. unfold diagonals. cbn [fold_left]. do 4 qr_step. reflexivity. Qed.
Lemma simd_even_lanes a0 a1 a2 a3 b0 b1 b2 b3 c0 c1 c2 c3 d0 d1 d2 d3 :
  simd_even ([a0; a1; a2; a3], [b0; b1; b2; b3], [c0; c1; c2; c3], [d0; d1; d2; d3]) =
  let u := lane_qr a0 b3 c2 d1 in let v := lane_qr a1 b0 c3 d2 in let w := lane_qr a2 b1 c0 d3 in let x := lane_qr a3 b2 c1 d0 in
  ([q1 u; q1 v; q1 w; q1 x], [q2 v; q2 w; q2 x; q2 u], [q3 w; q3 x; q3 u; q3 v], [q4 x; q4 u; q4 v; q4 w]).
Proof.
  unfold simd_even. cbv [shuffle map get nth]. rewrite simd_odd_lanes. cbv zeta iota. cbv [nth]. reflexivity.
Qed.
Lemma lane_ok a b c d : word 32 a -> word 32 b -> word 32 c -> word 32 d -> let q := lane_qr a b c d in
  q = quarter a b c d /\ word 32 (q1 q) /\ word 32 (q2 q) /\ word 32 (q3 q) /\ word 32 (q4 q).
Proof. intros Ha Hb Hc Hd. destruct (lane_qr_ok a b c d Ha Hb Hc Hd) as [E H]. cbv zeta. rewrite E. split; [reflexivity|]. exact H. Qed.

(** What the vector rounds compute: the rounds of the mirrored state, mirrored. *)
Lemma rows_cases (P : rows -> Prop) :
  (forall a0 a1 a2 a3 b0 b1 b2 b3 c0 c1 c2 c3 d0 d1 d2 d3, Forall (word 32) [a0; a1; a2; a3; b0; b1; b2; b3; c0; c1; c2; c3; d0; d1; d2; d3] ->
     P ([a0; a1; a2; a3], [b0; b1; b2; b3], [c0; c1; c2; c3], [d0; d1; d2; d3])) -> forall r, rows_ok r -> P r.
Proof.
  intros H [[[a b] c] d] (La & Lb & Lc & Ld & F).
  apply list4 in La as (a0 & a1 & a2 & a3 & ->). apply list4 in Lb as (b0 & b1 & b2 & b3 & ->).
  apply list4 in Lc as (c0 & c1 & c2 & c3 & ->). apply list4 in Ld as (d0 & d1 & d2 & d3 & ->). apply H. exact F.
Qed.
Ltac lanes u := destruct u as (? & ? & ? & ? & ?).
Ltac all_words H := repeat (let W := fresh "W" in apply Forall_cons_iff in H as [W H]).
Lemma odd_mirror : forall r, rows_ok r -> rows_ok (simd_odd r) /\ flat (simd_odd r) = mirror (columns (mirror (flat r))).
Proof.
  apply (rows_cases (fun r => rows_ok (simd_odd r) /\ flat (simd_odd r) = mirror (columns (mirror (flat r))))).
  intros a0 a1 a2 a3 b0 b1 b2 b3 c0 c1 c2 c3 d0 d1 d2 d3 F. all_words F.
  rewrite simd_odd_lanes. cbv [flat app mirror mirror4 slice firstn skipn]. rewrite columns_lanes. cbv zeta. cbv [flat app mirror mirror4 slice firstn skipn].
  destruct (lane_ok a0 b0 c0 d0) as (E0 & X); try assumption. destruct (lane_ok a1 b1 c1 d1) as (E1 & Y); try assumption.
  destruct (lane_ok a2 b2 c2 d2) as (E2 & U); try assumption. destruct (lane_ok a3 b3 c3 d3) as (E3 & V); try assumption.
  rewrite E0, E1, E2, E3 in *. split; [|reflexivity].
  repeat (split; [reflexivity|]). cbv [flat app]. repeat (constructor; [tauto|]). constructor.
Qed.
Lemma even_mirror : forall r, rows_ok r -> rows_ok (simd_even r) /\ flat (simd_even r) = mirror (diagonals (mirror (flat r))).
Proof.
  apply (rows_cases (fun r => rows_ok (simd_even r) /\ flat (simd_even r) = mirror (diagonals (mirror (flat r))))).
  intros a0 a1 a2 a3 b0 b1 b2 b3 c0 c1 c2 c3 d0 d1 d2 d3 F. all_words F.
  rewrite simd_even_lanes. cbv [flat app mirror mirror4 slice firstn skipn]. rewrite diagonals_lanes. cbv zeta. cbv [flat app mirror mirror4 slice firstn skipn].
  destruct (lane_ok a0 b3 c2 d1) as (E0 & X); try assumption. destruct (lane_ok a1 b0 c3 d2) as (E1 & Y); try assumption.
  destruct (lane_ok a2 b1 c0 d3) as (E2 & U); try assumption. destruct (lane_ok a3 b2 c1 d0) as (E3 & V); try assumption.
  rewrite E0, E1, E2, E3 in *. split; [|reflexivity].
  repeat (split; [reflexivity|]). cbv [flat app]. repeat (constructor; [tauto|]). constructor.
Qed.
Lemma mirror_mirror s : length s = 16 -> mirror (mirror s) = s.
Proof. intros H. apply list16 in H as (a & b & c & d & e & f & g & h & i & j & k & l & m & n & o & p & ->). reflexivity. Qed.
Lemma mirror_length s : length s = 16 -> length (mirror s) = 16.
Proof. intros H. apply list16 in H as (a & b & c & d & e & f & g & h & i & j & k & l & m & n & o & p & ->). reflexivity. Qed.
Lemma columns_length s : length (columns s) = 16. Proof. unfold columns. cbn [fold_left]. apply quarterround_length. Qed.
Lemma two_mirror r : rows_ok r -> rows_ok (simd_even (simd_odd r)) /\ flat (simd_even (simd_odd r)) = mirror (inner_block (mirror (flat r))).
Proof.
  intros H. destruct (odd_mirror r H) as [H1 E1]. destruct (even_mirror _ H1) as [H2 E2]. split; [exact H2|].
  rewrite E2, E1, mirror_mirror by apply columns_length. reflexivity.
Qed.
Lemma ten_mirror n r : rows_ok r -> rows_ok (Nat.iter n simd_four_rounds r) /\
  flat (Nat.iter n simd_four_rounds r) = mirror (Nat.iter (2 * n) inner_block (mirror (flat r))).
Proof.
  intros H. assert (L0 : length (flat r) = 16).
  { destruct r as [[[a b] c] d]. destruct H as (La & Lb & Lc & Ld & _). unfold flat. rewrite !app_length. lia. }
  induction n as [|n [IH1 IH2]].
  - split; [exact H|]. change (Nat.iter 0 simd_four_rounds r) with r. change (Nat.iter (2 * 0) inner_block (mirror (flat r))) with (mirror (flat r)).
    now rewrite mirror_mirror.
  - assert (ES : Nat.iter (S n) simd_four_rounds r = simd_four_rounds (Nat.iter n simd_four_rounds r)) by reflexivity.
    assert (ET : Nat.iter (2 * S n) inner_block (mirror (flat r)) = inner_block (inner_block (Nat.iter (2 * n) inner_block (mirror (flat r))))).
    { replace (2 * S n) with (S (S (2 * n))) by lia. reflexivity. }
    rewrite ES, ET. clear ES ET. remember (Nat.iter n simd_four_rounds r) as X. clear HeqX. unfold simd_four_rounds.
    destruct (two_mirror _ IH1) as [H1 E1]. destruct (two_mirror _ H1) as [H2 E2]. split; [exact H2|].
    rewrite E2, E1. rewrite mirror_mirror by apply inner_block_length. rewrite IH2.
    assert (HL : length (Nat.iter (2 * n) inner_block (mirror (flat r))) = 16).
    { destruct n; [change (length (mirror (flat r)) = 16); now apply mirror_length|]. replace (2 * S n) with (S (S (2 * n))) by lia.
      match goal with |- length (Nat.iter (S ?k) ?f ?x) = _ => change (length (f (Nat.iter k f x)) = 16) end. apply inner_block_length. }
    now rewrite mirror_mirror by exact HL.
Qed.

Definition words_of (s : list Z) : Prop := length s = 16 /\ Forall (word 32) s.
Lemma chacha_simd_ok host s : words_of s ->
  chacha_simd host s = concat (map (le_bytes 4) (sum_words 32 s (mirror (Nat.iter 10 inner_block (mirror s))))).
Proof.
  intros [L F]. unfold chacha_simd. cbv zeta.
  pose (r := (slice s 0 4, slice s 4 4, slice s 8 4, slice s 12 4)).
  assert (Hr : rows_ok r /\ flat r = s).
  { apply list16 in L as (a & b & c & d & e & f & g & h & i & j & k & l & m & n & o & p & ->). unfold r. cbv [slice firstn skipn].
    split; [|reflexivity]. repeat (split; [reflexivity|]). exact F. }
  destruct Hr as [Hr Er]. destruct (ten_mirror 5 r Hr) as [H5 E5]. fold r. change (2 * 5) with 10 in E5. rewrite Er in E5.
  remember (Nat.iter 5 simd_four_rounds r) as R. clear HeqR. rewrite <- E5. clear E5 r Hr Er.
  apply list16 in L as (a & b & c & d & e & f & g & h & i & j & k & l & m & n & o & p & ->).
  revert R H5. apply (rows_cases (fun R => (let '(a0, b0, c0, d0) := R in
     store_row host (vadd a0 (slice [a; b; c; d; e; f; g; h; i; j; k; l; m; n; o; p] 0 4)) ++
     store_row host (vadd b0 (slice [a; b; c; d; e; f; g; h; i; j; k; l; m; n; o; p] 4 4)) ++
     store_row host (vadd c0 (slice [a; b; c; d; e; f; g; h; i; j; k; l; m; n; o; p] 8 4)) ++
     store_row host (vadd d0 (slice [a; b; c; d; e; f; g; h; i; j; k; l; m; n; o; p] 12 4))) =
     concat (map (le_bytes 4) (sum_words 32 [a; b; c; d; e; f; g; h; i; j; k; l; m; n; o; p] (flat R))))).
  intros a0 a1 a2 a3 b0 b1 b2 b3 c0 c1 c2 c3 d0 d1 d2 d3 _.
  cbv [slice firstn skipn vadd lanes2 map combine fst snd store_row concat flat app sum_words].
  rewrite !store32 by apply wadd_bound. unfold wadd, wrap. rewrite !(Z.add_comm _ a), !(Z.add_comm _ b), !(Z.add_comm _ c), !(Z.add_comm _ d),
    !(Z.add_comm _ e), !(Z.add_comm _ f), !(Z.add_comm _ g), !(Z.add_comm _ h), !(Z.add_comm _ i), !(Z.add_comm _ j), !(Z.add_comm _ k), !(Z.add_comm _ l),
    !(Z.add_comm _ m), !(Z.add_comm _ n), !(Z.add_comm _ o), !(Z.add_comm _ p).
  reflexivity.
Qed.
