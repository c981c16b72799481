(** The tables of roundtrip.h are precise enough: for every exponent of the format and every
    significand, the product with the rounded power of ten has the same integer part as the
    product with the exact one.

    Between two neighbours a/b < c/d of a Farey sequence (c*b - a*d = 1) every fraction has a
    denominator of at least b + d.  So if the exact factor and the rounded one both lie in
    [a/b, c/d), no multiple n < b + d of one reaches an integer that the same multiple of the
    other does not.  Such neighbours are computed (float) or looked up (double) for each exponent, and checked. *)
From Verif Require Import Base FloatTables FloatModel FloatCertTable.

Lemma div_char n d q : 0 < d -> (q * d <= n < (q + 1) * d <-> n / d = q).
Proof.
  intros Hd. split.
  - intros [H1 H2]. symmetry. apply (Z.div_unique_pos n d q (n - q * d)); lia.
  - intros <-. pose proof (Z.mul_div_le n d Hd). pose proof (Z.mul_succ_div_gt n d Hd). lia.
Qed.

Lemma farey_aux a b c d P D G H n : 0 < b -> 0 < d -> 0 < D -> 0 < H -> 0 < n < b + d ->
  c * b - a * d = 1 ->
  a * D <= b * P -> d * G < c * H -> n * P / D < n * G / H -> False.
Proof.
  intros Hb Hd HD HH Hn F L1 U2 LT.
  set (s := n * G / H) in *.
  assert (S1 : s * H <= n * G) by (pose proof (Z.mul_div_le (n * G) H HH); unfold s; lia).
  assert (S2 : n * P < s * D).
  { pose proof (Z.mul_succ_div_gt (n * P) D HD). nia. }
  assert (A1 : a * n < s * b).
  { assert (a * n * D < s * b * D); [|nia]. 
    assert (n * (a * D) <= n * (b * P)) by (apply Z.mul_le_mono_nonneg_l; lia).
    assert (b * (n * P) < b * (s * D)) by (apply Z.mul_lt_mono_pos_l; lia). lia. }
  assert (A2 : s * d < c * n).
  { assert (s * d * H < c * n * H); [|nia].
    assert (d * (s * H) <= d * (n * G)) by (apply Z.mul_le_mono_nonneg_l; lia).
    assert (n * (d * G) < n * (c * H)) by (apply Z.mul_lt_mono_pos_l; lia). lia. }
  assert (n = b * (c * n - s * d) + d * (s * b - a * n)).
  { transitivity (n * (c * b - a * d)); [rewrite F; lia|ring]. }
  nia.
Qed.

Lemma farey_same a b c d P D G H n : 0 < b -> 0 < d -> 0 < D -> 0 < H -> 0 < n < b + d ->
  c * b - a * d = 1 ->
  a * D <= b * P -> a * H <= b * G -> d * P < c * D -> d * G < c * H -> n * P / D = n * G / H.
Proof.
  intros. destruct (Z.lt_trichotomy (n * P / D) (n * G / H)) as [L|[E|L]]; [|assumption|]; exfalso.
  - apply (farey_aux a b c d P D G H n); assumption.
  - apply (farey_aux a b c d G H P D n); assumption.
Qed.

(** The search for the neighbours of p/q with b + d > N; x = p*b - a*q and y = c*q - p*d. *)
Fixpoint farey (fuel : nat) (N a b c d x y : Z) : Z * Z * Z * Z :=
  match fuel with
  | O => (a, b, c, d)
  | S fuel =>
      if N <? b + d then (a, b, c, d)
      else if y <=? x then
        let t := Z.min (x / y) ((N - b) / d) in
        farey fuel N (a + t * c) (b + t * d) c d (x - t * y) y
      else
        let t := if x =? 0 then (N - d) / b else Z.min ((y - 1) / x) ((N - d) / b) in
        farey fuel N a b (c + t * a) (d + t * b) x (y - t * x)
  end.
Definition neighbours (N p q : Z) : Z * Z * Z * Z :=
  let a := p / q in farey 200 N a 1 (a + 1) 1 (p - a * q) ((a + 1) * q - p).

(** [N] is an exclusive bound of the multiples. *)
Definition same_floor (N P D G H : Z) : bool :=
  (P * H =? G * D) ||
  (let '(a, b, c, d) := neighbours N G H in
   (0 <? b) && (0 <? d) && (c * b - a * d =? 1) && (N <=? b + d) &&
   (a * D <=? b * P) && (a * H <=? b * G) && (d * P <? c * D) && (d * G <? c * H)).

Lemma same_floor_sound N P D G H n : same_floor N P D G H = true -> 0 < D -> 0 < H -> 0 < n < N ->
  n * P / D = n * G / H.
Proof.
  unfold same_floor. intros E HD HH Hn. apply orb_prop in E as [E|E].
  - apply Z.eqb_eq in E. set (s := n * G / H). apply div_char; [assumption|].
    assert (B : s * H <= n * G < (s + 1) * H) by (apply div_char; [assumption|reflexivity]).
    clearbody s. assert (X : n * P * H = n * G * D) by nia.
    split.
    + apply (Z.mul_le_mono_pos_r _ _ H); [assumption|]. rewrite X. nia.
    + apply (Z.mul_lt_mono_pos_r H); [assumption|]. rewrite X. nia.
  - destruct (neighbours N G H) as [[[a b] c] d].
    rewrite !andb_true_iff, !Z.ltb_lt, !Z.leb_le, Z.eqb_eq in E.
    destruct E as [[[[[[[? ?] ?] ?] ?] ?] ?] ?].
    apply (farey_same a b c d); lia.
Qed.

(** ** double *)
Definition kof (kappa e2 : Z) : Z := kappa - Z.shiftr (e2 * 1262611) 22.
Definition betaof (k e2 : Z) : Z := e2 + Z.shiftr (k * 1741647) 19.
(** 2^(e2-1) * 10^k as a fraction *)
Definition fnum (e2 k : Z) : Z := 2 ^ Z.max (e2 - 1) 0 * 10 ^ Z.max k 0.
Definition fden (e2 k : Z) : Z := 2 ^ Z.max (1 - e2) 0 * 10 ^ Z.max (- k) 0.
Definition fits32 (x : Z) : bool := (- 2 ^ 31 <=? x) && (x <? 2 ^ 31).

Definition e2_range (lo hi : Z) : list Z := map (fun i => lo + Z.of_nat i) (seq 0 (Z.to_nat (hi - lo + 1))).
Lemma e2_range_in lo hi e : lo <= e <= hi -> In e (e2_range lo hi).
Proof.
  intros H. apply in_map_iff. exists (Z.to_nat (e - lo)). split; [lia|].
  apply in_seq. lia.
Qed.

(** The entry hi * 2^64 + lo of the power 10^k is off by less than 1 from 10^k * 2^(127 - L k). *)
Definition L (k : Z) : Z := Z.shiftr (k * 1741647) 19.
Definition xnum (k : Z) : Z := 2 ^ Z.max (127 - L k) 0 * 10 ^ Z.max k 0.
Definition xden (k : Z) : Z := 2 ^ Z.max (L k - 127) 0 * 10 ^ Z.max (- k) 0.
Definition near (k G : Z) : Prop :=
  (G - 1) * xden k < xnum k < (G + 1) * xden k /\ (0 <= k <= 55 -> xnum k = G * xden k).

(** k >= 0, p = 5^k *)
Definition up_ok (k p G : Z) : bool :=
  let u := 127 + k - L k in
  if 0 <=? u then Z.shiftl p u =? G
  else (56 <=? k) && (Z.shiftl G (- u) <=? p) && (p <? Z.shiftl (G + 1) (- u)).
(** j = - k > 0, p = 5^j *)
Definition down_ok (j p G : Z) : bool :=
  let u := 127 - j - L (- j) in let q := G * p in let x := Z.shiftl 1 u in
  (0 <=? u) && (x <=? q) && (q - p <? x).

Lemma ten_split j : 0 <= j -> 10 ^ j = 2 ^ j * 5 ^ j.
Proof. intros H. rewrite <- Z.pow_mul_l. reflexivity. Qed.

Lemma up_near k G : 0 <= k -> up_ok k (5 ^ k) G = true -> near k G.
Proof.
  intros Hk. unfold up_ok, near, xnum, xden. cbv zeta.
  rewrite (Z.max_l k 0), (Z.max_r (- k) 0) by lia. rewrite Z.pow_0_r, Z.mul_1_r, ten_split by assumption.
  assert (H5 : 0 < 5 ^ k) by (apply Z.pow_pos_nonneg; lia).
  assert (H2 : 0 < 2 ^ k) by (apply Z.pow_pos_nonneg; lia).
  destruct (Z.leb_spec 0 (127 + k - L k)) as [U|U].
  - rewrite Z.eqb_eq, Z.shiftl_mul_pow2 by assumption. intros E.
    assert (X : 2 ^ Z.max (127 - L k) 0 * (2 ^ k * 5 ^ k) = G * 2 ^ Z.max (L k - 127) 0).
    { rewrite <- E. rewrite Z.mul_assoc, <- Z.pow_add_r by lia.
      rewrite (Z.mul_comm (5 ^ k)), <- Z.mul_assoc, (Z.mul_comm (5 ^ k)), Z.mul_assoc, <- Z.pow_add_r by lia.
      f_equal. f_equal. lia. }
    rewrite X. assert (0 < 2 ^ Z.max (L k - 127) 0) by (apply Z.pow_pos_nonneg; lia). split; [nia|reflexivity].
  - rewrite !andb_true_iff, !Z.leb_le, Z.ltb_lt, !Z.shiftl_mul_pow2 by lia. intros [[K U1] U2].
    assert (A : 0 < 2 ^ k * 2 ^ Z.max (127 - L k) 0) by (apply Z.mul_pos_pos; [assumption|apply Z.pow_pos_nonneg; lia]).
    assert (X : 2 ^ Z.max (L k - 127) 0 = 2 ^ (- (127 + k - L k)) * (2 ^ k * 2 ^ Z.max (127 - L k) 0)).
    { rewrite <- !Z.pow_add_r by lia. f_equal. lia. }
    rewrite X. set (w := 2 ^ (- (127 + k - L k))) in *. set (v := 2 ^ k * 2 ^ Z.max (127 - L k) 0) in *.
    assert (W : 0 < w) by (apply Z.pow_pos_nonneg; lia).
    replace (2 ^ Z.max (127 - L k) 0 * (2 ^ k * 5 ^ k)) with (5 ^ k * v) by (unfold v; ring).
    clearbody v w. split; [|lia]. split; [|rewrite Z.mul_assoc; apply Z.mul_lt_mono_pos_r; assumption].
    rewrite Z.mul_assoc. apply Z.mul_lt_mono_pos_r; [assumption|]. lia.
Qed.

Lemma down_near j G : 0 < j -> down_ok j (5 ^ j) G = true -> near (- j) G.
Proof.
  intros Hk. unfold down_ok, near, xnum, xden. cbv zeta.
  rewrite (Z.max_r (- j) 0), (Z.max_l (- - j) 0) by lia. rewrite Z.pow_0_r, Z.mul_1_r, Z.opp_involutive, ten_split by lia.
  assert (H5 : 0 < 5 ^ j) by (apply Z.pow_pos_nonneg; lia).
  assert (H2 : 0 < 2 ^ j) by (apply Z.pow_pos_nonneg; lia).
  rewrite !andb_true_iff, !Z.leb_le, Z.ltb_lt. intros [[U U1] U2].
  rewrite Z.shiftl_mul_pow2, Z.mul_1_l in U1, U2 by assumption.
  rewrite (Z.max_r (L (- j) - 127) 0), (Z.max_l (127 - L (- j)) 0) by lia. rewrite Z.pow_0_r, Z.mul_1_l.
  assert (X : 2 ^ (127 - L (- j)) = 2 ^ j * 2 ^ (127 - j - L (- j))).
  { rewrite <- Z.pow_add_r by lia. f_equal. lia. }
  rewrite X. set (w := 2 ^ (127 - j - L (- j))) in *. clearbody w.
  split; [|lia]. split.
  - replace ((G - 1) * (2 ^ j * 5 ^ j)) with (2 ^ j * (G * 5 ^ j - 5 ^ j)) by ring. apply Z.mul_lt_mono_pos_l; assumption.
  - replace ((G + 1) * (2 ^ j * 5 ^ j)) with (2 ^ j * (G * 5 ^ j + 5 ^ j)) by ring. apply Z.mul_lt_mono_pos_l; [assumption|lia].
Qed.

Definition word2 (e : Z * Z) : Z := fst e * 2 ^ 64 + snd e.
Fixpoint up_run (k p : Z) (t : list (Z * Z)) : bool :=
  match t with [] => true | e :: t => up_ok k p (word2 e) && up_run (k + 1) (5 * p) t end.
Fixpoint down_run (t : list (Z * Z)) : bool * (Z * Z) :=
  match t with
  | [] => (true, (0, 1))
  | e :: t => let '(ok, (j, p)) := down_run t in let j := j + 1 in let p := 5 * p in
              (down_ok j p (word2 e) && ok, (j, p))
  end.
Lemma up_run_at t : forall k i e, 0 <= k -> up_run k (5 ^ k) t = true -> nth_error t i = Some e ->
  near (k + Z.of_nat i) (word2 e).
Proof.
  induction t as [|x t IH]; intros k i e Hk R E; [destruct i; discriminate|].
  cbn [up_run] in R. apply andb_prop in R as [R1 R2]. destruct i as [|i]; cbn [nth_error] in E.
  - injection E as <-. rewrite Z.add_0_r. apply up_near; assumption.
  - replace (k + Z.of_nat (S i)) with (k + 1 + Z.of_nat i) by lia. apply IH; [lia| |assumption].
    replace (5 ^ (k + 1)) with (5 * 5 ^ k); [assumption|]. rewrite Z.pow_add_r by lia. change (5 ^ 1) with 5. ring.
Qed.
Lemma down_run_at t : snd (down_run t) = (zlen t, 5 ^ zlen t) /\
  (fst (down_run t) = true -> forall i e, nth_error t i = Some e -> near (Z.of_nat i - zlen t) (word2 e)).
Proof.
  induction t as [|x t [IH1 IH2]]; [split; [reflexivity|intros _ [|i] e E; discriminate]|].
  cbn [down_run]. destruct (down_run t) as [ok [j p]]. cbn [fst snd] in *. injection IH1 as -> ->.
  assert (Ln : zlen (x :: t) = zlen t + 1) by (unfold zlen; cbn [length]; lia).
  assert (P0 : 0 <= zlen t) by (unfold zlen; lia).
  assert (Pw : 5 * 5 ^ zlen t = 5 ^ (zlen t + 1)) by (rewrite Z.pow_add_r by lia; change (5 ^ 1) with 5; ring).
  rewrite Ln, Pw. split; [reflexivity|]. intros R i e E. apply andb_prop in R as [R1 R2].
  destruct i as [|i]; cbn [nth_error] in E.
  - injection E as <-. replace (Z.of_nat 0 - (zlen t + 1)) with (- (zlen t + 1)) by lia. apply down_near; [lia|assumption].
  - replace (Z.of_nat (S i) - (zlen t + 1)) with (Z.of_nat i - zlen t) by lia. apply IH2; assumption.
Qed.

Lemma pow10_checked : fst (down_run (firstn 292 pow10_float64_tb)) && up_run 0 1 (skipn 292 pow10_float64_tb) = true.
Proof. vm_cast_no_check (eq_refl true). Qed.

Lemma table_near k e : -292 <= k -> nth_error pow10_float64_tb (Z.to_nat (k + 292)) = Some e -> near k (word2 e).
Proof.
  intros Hk E. pose proof pow10_checked as C. apply andb_prop in C as [C1 C2].
  assert (Ln : length (firstn 292 pow10_float64_tb) = 292%nat) by reflexivity.
  rewrite <- (firstn_skipn 292 pow10_float64_tb) in E.
  destruct (Z_lt_le_dec k 0) as [N|N].
  - rewrite nth_error_app1 in E by lia.
    pose proof (proj2 (down_run_at (firstn 292 pow10_float64_tb)) C1 _ _ E) as R.
    unfold zlen in R. rewrite Ln in R. replace (Z.of_nat (Z.to_nat (k + 292)) - Z.of_nat 292) with k in R by lia. assumption.
  - rewrite nth_error_app2 in E by lia. rewrite Ln in E.
    pose proof (up_run_at _ 0 _ _ ltac:(lia) C2 E) as R.
    replace (0 + Z.of_nat (Z.to_nat (k + 292) - 292)) with k in R by lia. assumption.
Qed.

(** The same in terms of the factor 2^(e2-1) * 10^k and the shifted entry. *)
Lemma near_factor e2 k G : let b := betaof k e2 in b <= 128 -> near k G ->
  let P := fnum e2 k in let D := fden e2 k in let H := 2 ^ (128 - b) in
  (G - 1) * D < H * P < (G + 1) * D /\ (0 <= k <= 55 -> H * P = G * D).
Proof.
  intros b Hb N P D H. unfold near in N.
  assert (Y0 : 0 < xden k) by (apply Z.mul_pos_pos; apply Z.pow_pos_nonneg; lia).
  assert (D0 : 0 < D) by (apply Z.mul_pos_pos; apply Z.pow_pos_nonneg; lia).
  assert (X : H * P * xden k = xnum k * D).
  { unfold H, P, D, xden, xnum, fnum, fden.
    transitivity (2 ^ (128 - b + Z.max (e2 - 1) 0 + Z.max (L k - 127) 0) * (10 ^ Z.max k 0 * 10 ^ Z.max (- k) 0)).
    { rewrite !Z.pow_add_r by lia. ring. }
    transitivity (2 ^ (Z.max (127 - L k) 0 + Z.max (1 - e2) 0) * (10 ^ Z.max k 0 * 10 ^ Z.max (- k) 0)).
    { f_equal. f_equal. unfold b, betaof. fold (L k). lia. }
    rewrite !Z.pow_add_r by lia. ring. }
  set (Y := xden k) in *. set (XN := xnum k) in *. clearbody Y XN P D H. destruct N as [[N1 N2] N3].
  split.
  - split; apply (Z.mul_lt_mono_pos_r Y); try assumption; rewrite X.
    + replace ((G - 1) * D * Y) with ((G - 1) * Y * D) by ring. apply Z.mul_lt_mono_pos_r; assumption.
    + replace ((G + 1) * D * Y) with ((G + 1) * Y * D) by ring. apply Z.mul_lt_mono_pos_r; assumption.
  - intros K. specialize (N3 K). apply (Z.mul_reg_r _ _ Y); [lia|]. rewrite X, N3. ring.
Qed.

Definition check64 (e2 : Z) (cert : Z * Z * Z * Z) : bool :=
  let k := kof 2 e2 in
  let b := betaof k e2 in
  fits32 (e2 * 1262611) && fits32 (k * 1741647) && (6 <=? b) && (b <=? 9) && (-292 <=? k) &&
  match nth_error pow10_float64_tb (Z.to_nat (k + 292)) with
  | None => false
  | Some (hi, lo) =>
      (0 <=? hi) && (hi <? 2 ^ 64) && (0 <=? lo) && (lo <? 2 ^ 64) &&
      (let G := hi * 2 ^ 64 + lo in let H := 2 ^ (128 - b) in
       ((e2 =? 0) || (H * 50 <=? G - 1)) && (G + 1 <=? H * 500) &&
       (if (0 <=? k) && (k <=? 55) then true
        else let '(a, b, c, d) := cert in
          (0 <? b) && (0 <? d) && (c * b - a * d =? 1) && (2 ^ 54 <=? b + d) &&
          if (-23 <=? k) && (k <? 0) then
            (let P := fnum e2 k in let D := fden e2 k in
             (a * D <=? b * P) && (H * a <=? b * G) && (d * P <? c * D) && (d * G <? H * c))
          else (H * a <=? b * (G - 1)) && (d * (G + 1) <? H * c)))
  end &&
  (* where is_integral_end_point and is_integral_mid_point draw their lines; e2 - 1 + k is
     the power of two of the factor, k its power of five *)
  (if e2 <? -2 then (0 <=? k) && (e2 - 1 + k <? 0)
   else if e2 <=? 9 then (0 <=? k) && (0 <=? e2 - 1 + k)
   else if e2 <=? 86 then (k <=? 0) && (-23 <=? k) && (0 <=? e2 - 1 + k)
   else (k <=? -24) && (0 <=? e2 - 1 + k)) &&
  implb (-4 <=? e2) (-1 <=? e2 - 1 + k).

Fixpoint check_run (e2 : Z) (t : list (Z * Z * Z * Z)) : bool :=
  match t with [] => true | c :: t => check64 e2 c && check_run (e2 + 1) t end.
Lemma check_run_at t : forall e2 i, check_run e2 t = true -> (i < length t)%nat ->
  exists c, check64 (e2 + Z.of_nat i) c = true.
Proof.
  induction t as [|x t IH]; intros e2 i R Hi; cbn [length] in Hi; [lia|].
  cbn [check_run] in R. apply andb_prop in R as [R1 R2]. destruct i as [|i].
  - exists x. rewrite Z.add_0_r. assumption.
  - destruct (IH (e2 + 1) i R2 ltac:(lia)) as (c & E). exists c. rewrite <- E. f_equal. lia.
Qed.
Lemma check64_run : check_run (-1074) cert64_tb = true.
Proof. vm_cast_no_check (eq_refl true). Qed.
Lemma check64_all e2 : -1074 <= e2 <= 971 -> exists c, check64 e2 c = true.
Proof.
  intros H. destruct (check_run_at cert64_tb (-1074) (Z.to_nat (e2 + 1074)) check64_run) as (c & E).
  { change (length cert64_tb) with 2046%nat. lia. }
  exists c. rewrite <- E. f_equal. lia.
Qed.

Lemma fden_pos' e2 k : 0 < fden e2 k.
Proof. apply Z.mul_pos_pos; apply Z.pow_pos_nonneg; lia. Qed.

(** What the checks say together. *)
Lemma same64 e2 hi lo c : check64 e2 c = true ->
  let k := kof 2 e2 in let b := betaof k e2 in
  nth_error pow10_float64_tb (Z.to_nat (k + 292)) = Some (hi, lo) ->
  let P := fnum e2 k in let D := fden e2 k in
  (forall n, 0 < n < 2 ^ 54 -> n * P / D = n * (hi * 2 ^ 64 + lo) / 2 ^ (128 - b)) /\
  100 * D <= 2 * P /\ (e2 <> 0 -> 100 * D < 2 * P) /\ 2 * P < 1000 * D.
Proof.
  intros C k b T P D. unfold check64 in C. cbv zeta in C. fold k in C. fold b in C. fold P in C. fold D in C.
  rewrite T in C. rewrite !andb_true_iff in C. destruct C as [[[[[[[_ _] C3] C4] C5] [_ [[C6 C7] C8]]] _] _].
  rewrite Z.leb_le in *. rewrite orb_true_iff, Z.eqb_eq, Z.leb_le in C6.
  pose proof (near_factor e2 k (hi * 2 ^ 64 + lo) ltac:(fold b; lia) (table_near k (hi, lo) C5 T)) as N.
  cbv zeta in N. fold b P D in N.
  pose proof (fden_pos' e2 k : 0 < D) as D0.
  assert (H0 : 0 < 2 ^ (128 - b)) by (apply Z.pow_pos_nonneg; lia).
  set (G := hi * 2 ^ 64 + lo) in *. set (H := 2 ^ (128 - b)) in *.
  destruct N as [[N1 N2] N3].
  assert (W : e2 <> 0 -> 100 * D < 2 * P).
  { intros E. destruct C6 as [C6|C6]; [contradiction|]. clear - N1 C6 D0 H0.
    assert (H * (50 * D) < H * P); [|apply Z.mul_lt_mono_pos_l in H1; lia].
    assert (H * 50 * D <= (G - 1) * D) by (apply Z.mul_le_mono_nonneg_r; lia). lia. }
  split; [|split; [|split; [assumption|]]].
  - clear C6 C7 W. intros n Hn. destruct (Z.leb_spec 0 k) as [K1|K1]; destruct (Z.leb_spec k 55) as [K2|K2]; cbn [andb] in C8; try lia.
    1: { specialize (N3 ltac:(lia)). set (s := n * G / H). apply div_char; [assumption|].
      assert (B : s * H <= n * G < (s + 1) * H) by (apply div_char; [assumption|reflexivity]).
      clearbody s. assert (X : n * P * H = n * G * D) by (rewrite <- Z.mul_assoc, (Z.mul_comm P), N3; ring).
      split.
      + apply (Z.mul_le_mono_pos_r _ _ H); [assumption|]. rewrite X.
        replace (s * D * H) with (s * H * D) by ring. apply Z.mul_le_mono_nonneg_r; lia.
      + apply (Z.mul_lt_mono_pos_r H); [assumption|]. rewrite X.
        replace ((s + 1) * D * H) with ((s + 1) * H * D) by ring. apply Z.mul_lt_mono_pos_r; lia. }
    all: destruct c as [[[a b'] c] d]; rewrite !andb_true_iff, !Z.ltb_lt, Z.eqb_eq, Z.leb_le in C8;
      destruct C8 as [[[[B1 B2] B3] B4] B5];
      destruct ((-23 <=? k) && (k <? 0)); rewrite !andb_true_iff, ?Z.leb_le, ?Z.ltb_lt in B5.
    1,3: apply (farey_same a b' c d); lia.
    all: apply (farey_same a b' c d); try lia; destruct B5 as [B5 B6].
    1,3: apply (Z.mul_le_mono_pos_l _ _ H); [assumption|];
       assert (X1 : H * a * D <= b' * (G - 1) * D) by (apply Z.mul_le_mono_nonneg_r; lia);
       assert (X2 : b' * ((G - 1) * D) < b' * (H * P)) by (apply Z.mul_lt_mono_pos_l; lia); lia.
    all: apply (Z.mul_lt_mono_pos_l H); [assumption|];
       assert (X1 : d * (G + 1) * D < H * c * D) by (apply Z.mul_lt_mono_pos_r; lia);
       assert (X2 : d * (H * P) < d * ((G + 1) * D)) by (apply Z.mul_lt_mono_pos_l; lia); lia.
  - destruct (Z.eq_dec e2 0) as [E|E]; [|specialize (W E); lia]. unfold P, D, k. rewrite E. vm_compute. discriminate.
  - clear - N2 C7 D0 H0. assert (H * P < H * (500 * D)); [|apply Z.mul_lt_mono_pos_l in H1; lia].
    assert ((G + 1) * D <= H * 500 * D) by (apply Z.mul_le_mono_nonneg_r; lia). lia.
Qed.

(** float: one word per power of ten *)
Definition check32 (e2 : Z) : bool :=
  let k := kof 1 e2 in
  let b := betaof k e2 in
  let P := fnum e2 k in
  let D := fden e2 k in
  fits32 (e2 * 1262611) && fits32 (k * 1741647) && (3 <=? b) && (b <=? 6) && (-31 <=? k) &&
  (10 * D + (if e2 =? 0 then 0 else 1) <=? 2 * P) && (2 * P <? 100 * D) &&
  match nth_error pow10_float32_tb (Z.to_nat (k + 31)) with
  | None => false
  | Some pw =>
      (0 <=? pw) && (pw <? 2 ^ 64) &&
      (Z.shiftr pw (63 - b) =? 2 * P / D) &&
      same_floor (2 ^ 25) P D pw (2 ^ (64 - b))
  end &&
  (if e2 <? -1 then (0 <=? k) && (e2 - 1 + k <? 0)
   else if e2 <=? 6 then (0 <=? k) && (0 <=? e2 - 1 + k)
   else if e2 <=? 39 then (k <=? 0) && (-10 <=? k) && (0 <=? e2 - 1 + k)
   else (k <=? -11) && (0 <=? e2 - 1 + k)) &&
  implb (-2 <=? e2) (-1 <=? e2 - 1 + k).

Lemma check32_all : forallb check32 (e2_range (-149) 104) = true.
Proof. vm_cast_no_check (eq_refl true). Qed.

(** The tables of inverses of powers of five. *)
Definition mod5_ok (w : Z) (t : list (Z * Z)) : bool :=
  forallb (fun j => match nth_error t j with
    | Some (hi, lo) => (hi * 5 ^ Z.of_nat j mod 2 ^ w =? 1) && (lo =? (2 ^ w - 1) / 5 ^ Z.of_nat j)
    | None => false end) (seq 0 (length t)).
Lemma mod5_64 : mod5_ok 64 float64_mod5_tb = true.
Proof. vm_compute. reflexivity. Qed.
Lemma mod5_32 : mod5_ok 32 float_mod5_tb = true.
Proof. vm_compute. reflexivity. Qed.
