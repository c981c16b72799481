(** Proofs about single characters of the GB18030 converter. *)
From Verif Require Import Base ByteSpec UtfSpec UtfModel UtfProofs GbSpec GbTables GbModel GbTrie GbCheck.

(** ** The tables *)
Lemma table_trie t i : table_at t i = at_ (trie (concat t)) i.
Proof. unfold table_at. rewrite at_trie. reflexivity. Qed.
Lemma table_walk f t n : walk f 0 (Z.to_nat n) (concat t) = true -> forall i, 0 <= i < n ->
  exists v, table_at t i = Some v /\ f v i = true.
Proof.
  intros W i Hi. destruct (walk_spec f (Z.to_nat n) 0 _ W (Z.to_nat i) ltac:(lia)) as (v & E & F).
  exists v. unfold table_at. destruct (Z.ltb_spec i 0); [lia|]. split; [exact E|]. rewrite <- F. f_equal. lia.
Qed.
Lemma nth_error_skipn {A} n : forall (l : list A) i, nth_error (skipn n l) i = nth_error l (n + i).
Proof. induction n as [|n IH]; intros l i; [reflexivity|]. destruct l as [|x l]; [destruct i; reflexivity|]. cbn [skipn Nat.add nth_error]. apply IH. Qed.
Lemma table_walk_from f t u0 n k : walk f u0 (Z.to_nat n) (skipn (Z.to_nat k) (concat t)) = true -> 0 <= k -> forall u, u0 <= u < u0 + n ->
  exists v, table_at t (u - u0 + k) = Some v /\ f v u = true.
Proof.
  intros W Hk u Hu. destruct (walk_spec f (Z.to_nat n) u0 _ W (Z.to_nat (u - u0)) ltac:(lia)) as (v & E & F).
  exists v. unfold table_at. destruct (Z.ltb_spec (u - u0 + k) 0); [lia|]. rewrite nth_error_skipn in E.
  replace (Z.to_nat (u - u0 + k)) with (Z.to_nat k + Z.to_nat (u - u0))%nat by lia. split; [exact E|]. rewrite <- F. f_equal. lia.
Qed.

Lemma in_range_spec lo hi x : in_range lo hi x = true <-> lo <= x <= hi.
Proof. unfold in_range. rewrite Bool.andb_true_iff, !Z.leb_le. lia. Qed.
Lemma in_sorted_spec l u : in_sorted l u = true -> exists a b, In (a, b) l /\ a <= u <= b.
Proof.
  induction l as [|[a b] l IH]; cbn [in_sorted]; [discriminate|]. destruct (Z.ltb_spec u a); [discriminate|]. destruct (Z.leb_spec u b).
  - intros _. exists a, b. split; [left; reflexivity|lia].
  - intros E. destruct (IH E) as (a' & b' & I' & B). exists a', b'. split; [right; exact I'|exact B].
Qed.
Fixpoint sorted_from (k : Z) (l : list (Z * Z)) : bool :=
  match l with [] => true | (a, b) :: l' => (k <? a) && (a <=? b) && sorted_from b l' end.
Lemma sorted_low l : forall k, sorted_from k l = true -> forall a b, In (a, b) l -> k < a.
Proof.
  induction l as [|[x y] l IH]; intros k H a b Hin; [destruct Hin|]. cbn [sorted_from] in H. apply Bool.andb_true_iff in H as [H1 H2]. apply Bool.andb_true_iff in H1 as [H0 H1].
  apply Z.ltb_lt in H0. apply Z.leb_le in H1. destruct Hin as [E|Hin].
  - assert (x = a) by congruence. lia.
  - pose proof (IH y H2 a b Hin). lia.
Qed.
Lemma in_sorted_complete l : forall k u, sorted_from k l = true -> (exists a b, In (a, b) l /\ a <= u <= b) -> in_sorted l u = true.
Proof.
  induction l as [|[x y] l IH]; intros k u H (a & b & Hin & B); [destruct Hin|]. cbn [sorted_from] in H. apply Bool.andb_true_iff in H as [H1 H2]. apply Bool.andb_true_iff in H1 as [H0 H1].
  apply Z.ltb_lt in H0. apply Z.leb_le in H1. cbn [in_sorted]. destruct Hin as [E|Hin].
  - assert (x = a /\ y = b) as [-> ->] by (split; congruence). destruct (Z.ltb_spec u a); [lia|]. destruct (Z.leb_spec u b); [reflexivity|lia].
  - pose proof (sorted_low l y H2 a b Hin). destruct (Z.ltb_spec u x); [lia|]. destruct (Z.leb_spec u y); [reflexivity|]. apply (IH y); [exact H2|]. exists a, b. auto.
Qed.
Lemma lost_spec u : in_sorted lost u = true <-> is_lost u.
Proof. split; [apply in_sorted_spec|]. intros H. apply (in_sorted_complete _ 0); [reflexivity|exact H]. Qed.

(** ** The encoder *)
Lemma wrap_sub_lt c e d : 0 <= c < 2 ^ 32 -> 0 <= e -> 0 <= d -> e + d <= 2 ^ 32 -> (wrap 32 (c - e) <? d) = ((e <=? c) && (c <? e + d)).
Proof.
  intros Hc He Hd Hs. unfold wrap. change (2 ^ 32) with 4294967296 in *. destruct (Z.leb_spec e c).
  - rewrite Z.mod_small by lia. cbn [andb]. destruct (Z.ltb_spec (c - e) d), (Z.ltb_spec c (e + d)); lia || reflexivity.
  - replace (c - e) with (c - e + 4294967296 + (-1) * 4294967296) by lia. rewrite Z.mod_add by lia. rewrite Z.mod_small by lia. cbn [andb]. apply Z.ltb_ge. lia.
Qed.
Definition piece_code (uni : Z -> option Z) (arith : bool) (off c : Z) : option (list Z) :=
  if arith then Some (four_bytes (c + off)) else option_map entry_bytes (uni (c + off)).

Definition ranges_ok := forall a b c d, In (a, b, c, d) gb_ranges -> 0 <= a <= b /\ b <= 0x110000 /\ linear_18030_base <= c <= 3000000.
(** One step of the loop. *)
Lemma encode_step uni e0 e1 e2 e3 n0 n1 n2 n3 rs c sum : 0 <= c < 0x110000 -> 0 <= e0 <= e1 -> e1 <= n0 <= 0x110000 ->
  linear_18030_base <= e2 <= 3000000 -> 0 <= sum <= 65536 -> e0 <= c -> sum + e1 - e0 <= e1 ->
  encode_loop uni ((e0, e1, e2, e3) :: (n0, n1, n2, n3) :: rs) c sum =
  if c <? e1 then piece_code uni true (e2 - linear_18030_base - e0) c
  else if c <? n0 then piece_code uni false (- (sum + e1 - e0)) c
  else encode_loop uni ((n0, n1, n2, n3) :: rs) c (sum + e1 - e0).
Proof.
  intros Hc He Hn H2 Hs Hl Hi. change linear_18030_base with 1687218 in *.
  assert (W1 : wrap 32 (e1 - e0) = e1 - e0) by (apply Z.mod_small; lia).
  assert (W2 : wrap 32 (sum + (e1 - e0)) = sum + e1 - e0) by (unfold wrap; rewrite Z.mod_small; lia).
  assert (W3 : wrap 32 (n0 - e1) = n0 - e1) by (apply Z.mod_small; lia).
  cbn [encode_loop]. cbv zeta. rewrite W1, W2, W3. rewrite !wrap_sub_lt by lia. replace (e0 + (e1 - e0)) with e1 by lia. replace (e1 + (n0 - e1)) with n0 by lia.
  destruct (Z.leb_spec e0 c); [|lia]. cbn [andb]. destruct (Z.ltb_spec c e1).
  - unfold piece_code. change linear_18030_base with 1687218. f_equal. f_equal. unfold wrap. rewrite (Z.mod_small (c - e0 + e2)) by lia. rewrite Z.mod_small by lia. lia.
  - destruct (Z.leb_spec e1 c); [|lia]. cbn [andb]. destruct (Z.ltb_spec c n0); [|reflexivity]. unfold piece_code, lookup_bytes. f_equal. f_equal. unfold wrap. rewrite Z.mod_small by lia. lia.
Qed.
Lemma encode_last uni e0 e1 e2 e3 c sum : 0 <= c < 0x110000 -> 0 <= e0 <= e1 -> e1 = 0x110000 -> linear_18030_base <= e2 <= 3000000 -> e0 <= c ->
  encode_loop uni [(e0, e1, e2, e3)] c sum = piece_code uni true (e2 - linear_18030_base - e0) c.
Proof.
  intros Hc He He1 H2 Hl. change linear_18030_base with 1687218 in *.
  assert (W1 : wrap 32 (e1 - e0) = e1 - e0) by (apply Z.mod_small; lia).
  cbn [encode_loop]. cbv zeta. rewrite W1. rewrite !wrap_sub_lt by lia. replace (e0 + (e1 - e0)) with e1 by lia.
  destruct (Z.leb_spec e0 c); [|lia]. cbn [andb]. destruct (Z.ltb_spec c e1); [|lia].
  unfold piece_code. change linear_18030_base with 1687218. f_equal. f_equal. unfold wrap. rewrite (Z.mod_small (c - e0 + e2)) by lia. rewrite Z.mod_small by lia. lia.
Qed.

(** Every code point is in a piece, and is encoded by it. *)
Lemma encode_piece uni c : 0x80 <= c < 0x110000 ->
  exists lo hi arith off, In (lo, hi, arith, off) pieces /\ lo <= c < hi /\ encode_with uni c = piece_code uni arith off c.
Proof.
  intros Hc. unfold encode_with, encode_unhappy. destruct (Z.ltb_spec c 0x80); [lia|]. destruct (Z.ltb_spec c 0x110000); [|lia].
  destruct (Z.ltb_spec c 0x0452).
  { exists 0x80, 0x452, false, (-128). split; [left; reflexivity|]. split; [lia|]. unfold piece_code, lookup_bytes. f_equal. f_equal. unfold wrap. rewrite Z.mod_small by lia. lia. }
  unfold gb_ranges. cbv zeta.
  Local Ltac step := rewrite encode_step by (change linear_18030_base with 1687218; lia || (vm_compute; split; discriminate)).
  Ltac here := eexists _, _, _, _; split; [|split; [|reflexivity]]; [unfold pieces; repeat (first [left; reflexivity|right])|lia].
  do 11 (step; match goal with |- context[if c <? ?x then piece_code _ true _ _ else _] => destruct (Z.ltb_spec c x); [here|] end;
         match goal with |- context[if c <? ?x then piece_code _ false _ _ else _] => destruct (Z.ltb_spec c x); [here|] end).
  step. destruct (Z.ltb_spec c 0x10000); [here|]. rewrite encode_last by (change linear_18030_base with 1687218; lia || (vm_compute; split; discriminate)). here.
Qed.

Definition piece_ok (p : Z * Z * bool * Z) : bool :=
  let '(lo, hi, arith, off) := p in in_range 0 (hi + off) (lo + off) && (hi + off <=? if arith then 1587600 else 32781).
Lemma pieces_ok lo hi arith off : In (lo, hi, arith, off) pieces -> 0 <= lo + off <= hi + off /\ hi + off <= if arith then 1587600 else 32781.
Proof.
  intros Hin. assert (C : forallb piece_ok pieces = true) by reflexivity. rewrite forallb_forall in C. specialize (C _ Hin). cbn [piece_ok] in C.
  apply Bool.andb_true_iff in C as [C1 C2]. apply in_range_spec in C1. apply Z.leb_le in C2. lia.
Qed.

(** The bytes of a number. *)
Lemma four_bytes_spec n : 0 <= n < 1587600 ->
  exists a b c d, four_bytes n = [a; b; c; d] /\ lead a /\ gb_digit b /\ lead c /\ gb_digit d /\ gb_number a b c d = n.
Proof.
  intros Hn. unfold four_bytes, wrap. cbv zeta. change (2 ^ 8) with 256.
  pose proof (Z.div_mod n 10 ltac:(lia)) as D1. pose proof (Z.mod_pos_bound n 10 ltac:(lia)) as M1. set (q1 := n / 10) in *. set (r1 := n mod 10) in *.
  pose proof (Z.div_mod q1 126 ltac:(lia)) as D2. pose proof (Z.mod_pos_bound q1 126 ltac:(lia)) as M2. set (q2 := q1 / 126) in *. set (r2 := q1 mod 126) in *.
  pose proof (Z.div_mod q2 10 ltac:(lia)) as D3. pose proof (Z.mod_pos_bound q2 10 ltac:(lia)) as M3. set (q3 := q2 / 10) in *. set (r3 := q2 mod 10) in *.
  clearbody q1 r1 q2 r2 q3 r3. exists (0x81 + q3), (0x30 + r3), (0x81 + r2), (0x30 + r1).
  rewrite !Z.mod_small by lia. unfold lead, gb_digit, gb_number. repeat split; lia.
Qed.
Lemma land_byte v : Z.land v 255 = v mod 256. Proof. exact (Z.land_ones v 8 ltac:(lia)). Qed.
Lemma entry_wf_spec v : entry_wf v = true ->
  (exists a b, entry_bytes v = [a; b] /\ lead a /\ trail b) \/
  (exists a b c d, entry_bytes v = [a; b; c; d] /\ lead a /\ gb_digit b /\ lead c /\ gb_digit d).
Proof.
  unfold entry_wf, entry_bytes. cbv zeta. rewrite !land_byte. destruct (Z.ltb_spec v 65536) as [L|L]; intros W.
  - apply Bool.andb_true_iff in W as [W W3]. apply Bool.andb_true_iff in W as [W1 W2]. apply in_range_spec in W1, W2. apply Bool.negb_true_iff, Z.eqb_neq in W3.
    rewrite Z.shiftr_div_pow2 in * by lia. change (2 ^ 8) with 256 in *. pose proof (Z.div_mod v 256 ltac:(lia)).
    assert (E : (wrap 16 v =? v) = true) by (apply Z.eqb_eq; unfold wrap; apply Z.mod_small; change (2 ^ 16) with 65536; lia). rewrite E. left.
    eexists _, _. split; [reflexivity|]. unfold lead, trail. lia.
  - apply Bool.andb_true_iff in W as [W W4]. apply Bool.andb_true_iff in W as [W W3]. apply Bool.andb_true_iff in W as [W1 W2]. apply in_range_spec in W1, W2, W3, W4.
    assert (E : (wrap 16 v =? v) = false). { apply Z.eqb_neq. unfold wrap. pose proof (Z.mod_pos_bound v (2 ^ 16) ltac:(lia)) as M. change (2 ^ 16) with 65536 in *. lia. }
    rewrite E. right. eexists _, _, _, _. split; [reflexivity|]. unfold lead, gb_digit. auto.
Qed.
Lemma entry_at i : 0 <= i < 32781 -> exists v, table_at uni_to_gb i = Some v /\ entry_wf v = true.
Proof. intros Hi. exact (table_walk (fun v _ => entry_wf v) uni_to_gb 32781 all_wf i Hi). Qed.

Lemma encode_big c : 0x110000 <= c -> gb_encode c = Some gb_replacement.
Proof. intros H. unfold gb_encode, encode_with, encode_unhappy. destruct (Z.ltb_spec c 0x80); [lia|]. destruct (Z.ltb_spec c 0x110000); [lia|]. reflexivity. Qed.
Lemma encode_ascii c : 0 <= c < 0x80 -> gb_encode c = Some [c].
Proof. intros H. unfold gb_encode, encode_with. destruct (Z.ltb_spec c 0x80); [|lia]. unfold wrap. rewrite Z.mod_small by (change (2 ^ 8) with 256; lia). reflexivity. Qed.

(** Two or four bytes from 0x80 on, always well-formed. *)
Lemma encode_form c : 0x80 <= c -> exists bs, gb_encode c = Some bs /\
  ((exists a b, bs = [a; b] /\ lead a /\ trail b) \/ (exists a b x d, bs = [a; b; x; d] /\ lead a /\ gb_digit b /\ lead x /\ gb_digit d)).
Proof.
  intros Hc. destruct (Z_lt_dec c 0x110000) as [L|L].
  2: { exists gb_replacement. split; [apply encode_big; lia|]. right. eexists _, _, _, _. split; [reflexivity|]. unfold lead, gb_digit. lia. }
  destruct (encode_piece (table_at uni_to_gb) c ltac:(lia)) as (lo & hi & arith & off & Hin & B & E). pose proof (pieces_ok _ _ _ _ Hin) as P.
  unfold gb_encode. rewrite E. unfold piece_code. destruct arith.
  - destruct (four_bytes_spec (c + off) ltac:(lia)) as (a & b & x & d & F & H1 & H2 & H3 & H4 & _). exists (four_bytes (c + off)). split; [reflexivity|]. right. exists a, b, x, d. auto.
  - destruct (entry_at (c + off) ltac:(lia)) as (v & V & W). rewrite V. exists (entry_bytes v). split; [reflexivity|]. apply entry_wf_spec, W.
Qed.
Lemma encode_total c : 0 <= c -> exists bs, gb_encode c = Some bs /\ gb_char bs.
Proof.
  intros Hc. destruct (Z_lt_dec c 0x80) as [L|L].
  - exists [c]. split; [apply encode_ascii; lia|]. constructor. lia.
  - destruct (encode_form c ltac:(lia)) as (bs & E & [(a & b & -> & H1 & H2)|(a & b & x & d & -> & H1 & H2 & H3 & H4)]); eexists; (split; [exact E|constructor; assumption]).
Qed.

(** ** The decoder *)
Lemma advance_ext u4 u4' u2 u2' s : (forall i, u4 i = u4' i) -> (forall i, u2 i = u2' i) -> advance_checked u4 u2 s = advance_checked u4' u2' s.
Proof.
  intros H4 H2. assert (L : forall i, lookup_uni4 u4 i = lookup_uni4 u4' i) by (intros i; unfold lookup_uni4; rewrite H4; reflexivity).
  assert (X : forall rs i sum, index_loop u4 rs i sum = index_loop u4' rs i sum).
  { induction rs as [|[[[e0 e1] e2] e3] rs IH]; intros i sum; [reflexivity|]. cbn [index_loop]. cbv zeta. destruct rs as [|[[[n0 n1] n2] n3] rs]; [reflexivity|]. rewrite L, IH. reflexivity. }
  unfold advance_checked, index_code. destruct (nth_error s 0); [|reflexivity]. destruct (nth_error s 1); [|reflexivity]. rewrite H2.
  destruct (nth_error s 2); [|reflexivity]. destruct (nth_error s 3); [|reflexivity]. rewrite X. reflexivity.
Qed.
Lemma advance_trie s : gb_advance s = advance_checked (at_ (trie (concat gb_to_uni4))) (at_ (trie (concat gb_to_uni2))) s.
Proof. apply advance_ext; intros i; apply table_trie. Qed.

Lemma range_sub_le i e d : 0 <= i < 2 ^ 32 -> 0 <= e -> 0 <= d -> e + d < 2 ^ 32 -> (wrap 32 (i - e) <=? d) = ((e <=? i) && (i <=? e + d)).
Proof.
  intros Hi He Hd Hs. pose proof (wrap_sub_lt i e (d + 1) Hi He ltac:(lia) ltac:(lia)) as Q.
  replace (wrap 32 (i - e) <=? d) with (wrap 32 (i - e) <? d + 1); [rewrite Q; f_equal; destruct (Z.ltb_spec i (e + (d + 1))), (Z.leb_spec i (e + d)); lia || reflexivity|].
  destruct (Z.ltb_spec (wrap 32 (i - e)) (d + 1)), (Z.leb_spec (wrap 32 (i - e)) d); lia || reflexivity.
Qed.
Lemma lookup_uni4_total i : 0 <= i -> exists u, lookup_uni4 (table_at gb_to_uni4) i = Some u /\ scalar u.
Proof.
  intros Hi. unfold lookup_uni4. destruct (Z.leb_spec 5974 i); [exists 0xFFFD; split; [reflexivity|split; lia]|].
  destruct (table_walk _ gb_to_uni4 5974 four_scalar i ltac:(lia)) as (v & V & W). exists v. split; [exact V|]. unfold is_scalar in W.
  apply Bool.andb_true_iff in W as [W1 W2]. apply in_range_spec in W1. apply Bool.negb_true_iff in W2. split; [lia|]. intros N. rewrite (proj2 (in_range_spec _ _ _)) in W2 by lia. discriminate.
Qed.
Definition range_ok (r : Z * Z * Z * Z) : bool :=
  let '(e0, _, e2, e3) := r in (0 <=? e0) && (0 <=? e2) && (e2 <=? e3) && (e3 <? 2 ^ 31) && (e0 + (e3 - e2) <=? 0x10FFFF) && ((e0 + (e3 - e2) <? 0xD800) || (0xDFFF <? e0)).
Lemma ranges_checked : forallb range_ok gb_ranges = true. Proof. reflexivity. Qed.
Lemma index_total i : 0 <= i < 2 ^ 32 -> exists u, index_code (table_at gb_to_uni4) i = Some u /\ scalar u.
Proof.
  intros Hi. unfold index_code. pose proof ranges_checked as R. revert R. generalize gb_ranges as rs. generalize (wrap 32 (linear_18030_base + 820)) as sum.
  assert (D : exists u, Some 0xFFFD = Some u /\ scalar u) by (exists 0xFFFD; split; [reflexivity|split; lia]).
  intros sum rs. revert sum. induction rs as [|[[[e0 e1] e2] e3] rs IH]; intros sum R; [exact D|].
  cbn [forallb] in R. apply Bool.andb_true_iff in R as [R0 R]. unfold range_ok in R0. rewrite !Bool.andb_true_iff, Bool.orb_true_iff in R0.
  destruct R0 as [[[[[A1 A2] A3] A4] A5] A6]. rewrite !Z.ltb_lt in A6. zbool. change (2 ^ 31) with 2147483648 in *. change (2 ^ 32) with 4294967296 in *.
  cbn [index_loop]. cbv zeta. assert (W : wrap 32 (e3 - e2) = e3 - e2) by (apply Z.mod_small; change (2 ^ 32) with 4294967296; lia). rewrite W.
  rewrite range_sub_le by (change (2 ^ 32) with 4294967296; lia). destruct (Z.leb_spec e2 i); cbn [andb].
  - destruct (Z.leb_spec i (e2 + (e3 - e2))).
    + exists (i - e2 + e0). split; [f_equal; apply Z.mod_small; change (2 ^ 32) with 4294967296; lia|]. split; lia.
    + destruct rs as [|[[[n0 n1] n2] n3] rs]; [exact D|]. destruct ((e3 <? i) && (i <? n2)); [|apply IH, R].
      apply lookup_uni4_total. unfold wrap. apply Z.mod_pos_bound. lia.
  - destruct rs as [|[[[n0 n1] n2] n3] rs]; [exact D|]. destruct ((e3 <? i) && (i <? n2)); [|apply IH, R].
    apply lookup_uni4_total. unfold wrap. apply Z.mod_pos_bound. lia.
Qed.
Lemma uni2_total a b : lead a -> 0x40 <= b < 0xFF -> b <> 0x7F -> exists u, table_at gb_to_uni2 (wrap 32 ((a - 0x81) * 190 + ((if 0x7F <? b then b - 1 else b) - 0x40))) = Some u /\ scalar u.
Proof.
  unfold lead. intros Ha Hb N. assert (B : 0 <= (a - 0x81) * 190 + ((if 0x7F <? b then b - 1 else b) - 0x40) < 23940) by (destruct (Z.ltb_spec 0x7F b); lia).
  unfold wrap. rewrite Z.mod_small by (change (2 ^ 32) with 4294967296; lia).
  destruct (table_walk _ gb_to_uni2 23940 two_scalar _ B) as (v & V & W). exists v. split; [exact V|]. unfold is_scalar in W.
  apply Bool.andb_true_iff in W as [W1 W2]. apply in_range_spec in W1. apply Bool.negb_true_iff in W2. split; [lia|]. intros X. rewrite (proj2 (in_range_spec _ _ _)) in W2 by lia. discriminate.
Qed.

(** One step of the search by number. *)
Lemma index_step u4 e0 e1 e2 e3 n0 n1 n2 n3 rs i sum : 0 <= i < 2 ^ 31 -> 0 <= e0 <= e1 -> e1 <= 0x110000 -> 0 <= e2 <= e3 -> e3 < 2 ^ 31 -> e2 <= i -> n2 <= i ->
  e3 < n2 -> index_loop u4 ((e0, e1, e2, e3) :: (n0, n1, n2, n3) :: rs) i sum = index_loop u4 ((n0, n1, n2, n3) :: rs) i (wrap 32 (sum + (e1 - e0))).
Proof.
  intros Hi H0 H1 H2 H3 Hl Hn Hx. change (2 ^ 31) with 2147483648 in *. cbn [index_loop]. cbv zeta.
  assert (W : wrap 32 (e3 - e2) = e3 - e2) by (apply Z.mod_small; change (2 ^ 32) with 4294967296; lia).
  assert (W1 : wrap 32 (e1 - e0) = e1 - e0) by (apply Z.mod_small; change (2 ^ 32) with 4294967296; lia).
  rewrite W, W1. rewrite range_sub_le by (change (2 ^ 32) with 4294967296; lia). destruct (Z.leb_spec i (e2 + (e3 - e2))); [lia|]. rewrite Bool.andb_false_r.
  destruct (Z.ltb_spec i n2); [lia|]. rewrite Bool.andb_false_r. reflexivity.
Qed.
Lemma index_hit u4 e0 e1 e2 e3 rs i sum : 0 <= i < 2 ^ 31 -> 0 <= e0 <= 0x110000 -> 0 <= e2 <= i -> i <= e3 < 2 ^ 31 ->
  index_loop u4 ((e0, e1, e2, e3) :: rs) i sum = Some (i - e2 + e0).
Proof.
  intros Hi H0 H1 H2. change (2 ^ 31) with 2147483648 in *. cbn [index_loop]. cbv zeta.
  assert (W : wrap 32 (e3 - e2) = e3 - e2) by (apply Z.mod_small; change (2 ^ 32) with 4294967296; lia).
  rewrite W. rewrite range_sub_le by (change (2 ^ 32) with 4294967296; lia). destruct (Z.leb_spec i (e2 + (e3 - e2))); [|lia]. destruct (Z.leb_spec e2 i); [|lia]. cbn [andb].
  unfold wrap. rewrite Z.mod_small by (change (2 ^ 32) with 4294967296; lia). reflexivity.
Qed.
Lemma ranges_value : gb_ranges = ltac:(let x := eval vm_compute in gb_ranges in exact x). Proof. reflexivity. Qed.
Lemma index_arith u4 lo hi off c : In (lo, hi, true, off) pieces -> lo <= c < hi -> index_code u4 (c + off + linear_18030_base) = Some c.
Proof.
  intros Hin B. unfold index_code. change linear_18030_base with 1687218. rewrite ranges_value. unfold pieces in Hin. cbn [In] in Hin.
  Ltac istep := rewrite index_step by (change (2 ^ 31) with 2147483648; lia).
  repeat (destruct Hin as [E|Hin]; [first [discriminate E|
    assert (lo = lo /\ hi = hi /\ off = off) as _ by auto; injection E as <- <- <-; repeat istep; rewrite index_hit by (change (2 ^ 31) with 2147483648; lia); f_equal; lia]|]). destruct Hin.
Qed.

(** What decoding a well-formed character of four bytes does. *)
Lemma linear_number a b c d : lead a -> gb_digit b -> lead c -> gb_digit d -> linear_18030 a b c d = gb_number a b c d + linear_18030_base.
Proof.
  unfold lead, gb_digit, linear_18030, gb_number. intros. change linear_18030_base with 1687218. unfold wrap. rewrite Z.mod_small by (change (2 ^ 32) with 4294967296; lia). lia.
Qed.
Ltac zcase := match goal with
  | |- context[?a <? ?b] => destruct (Z.ltb_spec a b); try lia
  | |- context[?a =? ?b] => destruct (Z.eqb_spec a b); try lia
  | |- context[?a <=? ?b] => destruct (Z.leb_spec a b); try lia end.
Lemma wrap8_sub a b : 0 <= a < 256 -> 0 <= b < 256 -> wrap 8 (a - b) = if a <? b then a - b + 256 else a - b.
Proof.
  intros Ha Hb. unfold wrap. change (2 ^ 8) with 256. destruct (Z.ltb_spec a b); [|apply Z.mod_small; lia].
  replace (a - b) with (a - b + 256 + (-1) * 256) at 1 by lia. rewrite Z.mod_add by lia. apply Z.mod_small. lia.
Qed.
Lemma advance_four u4 u2 a b c d : lead a -> gb_digit b -> lead c -> gb_digit d ->
  advance_checked u4 u2 [a; b; c; d] = option_map (fun u => Some (u, 4%nat)) (index_code u4 (linear_18030 a b c d)).
Proof.
  unfold lead, gb_digit. intros Ha Hb Hc Hd. unfold advance_checked. cbn [nth_error length Nat.ltb Nat.leb].
  assert (W1 : wrap 8 (b - 0x40) = b + 192) by (rewrite wrap8_sub by lia; zcase). assert (W2 : wrap 8 (c - 0x81) = c - 0x81) by (rewrite wrap8_sub by lia; zcase).
  assert (W3 : wrap 8 (d - 0x30) = d - 0x30) by (rewrite wrap8_sub by lia; zcase). rewrite W1, W2, W3. repeat (zcase; cbn [orb andb]). reflexivity.
Qed.
Lemma advance_mono u4 u2 s t u n : advance_checked u4 u2 s = Some (Some (u, n)) -> advance_checked u4 u2 (s ++ t) = Some (Some (u, n)).
Proof.
  unfold advance_checked. destruct s as [|a s]; [discriminate|]. cbn [nth_error app length].
  destruct (a <? 0x80); [auto|]. destruct (a =? 0x80); [auto|]. destruct (a =? 0xFF); [auto|].
  destruct s as [|b s]; [discriminate|]. cbn [nth_error app length Nat.ltb Nat.leb].
  destruct (b =? 0x7F); [auto|]. destruct (wrap 8 (b - 0x40) <? 0xFF - 0x40); [auto|]. destruct ((b <? 0x30) || (b =? 0xFF)); [auto|].
  destruct s as [|c s]; [discriminate|]. destruct s as [|d s]; [discriminate|]. cbn [nth_error app length Nat.ltb Nat.leb]. auto.
Qed.
(** The version without end checks agrees when four bytes are there. *)
Lemma advance_agree u4 u2 s : (4 <= length s)%nat -> advance_checked u4 u2 s = option_map Some (advance_unchecked u4 u2 s).
Proof.
  unfold advance_checked, advance_unchecked. destruct s as [|a [|b [|c [|d s]]]]; cbn [length]; try lia. intros _. cbn [nth_error Nat.ltb Nat.leb].
  destruct (a <? 0x80); [reflexivity|]. destruct (a =? 0x80); [reflexivity|]. destruct (a =? 0xFF); [reflexivity|].
  destruct (b =? 0x7F); [reflexivity|]. destruct (wrap 8 (b - 0x40) <? 0xFF - 0x40); [destruct (u2 _); reflexivity|]. destruct ((b <? 0x30) || (b =? 0xFF)); [reflexivity|].
  destruct (0xFF - 0x81 <=? wrap 8 (c - 0x81)); [reflexivity|]. destruct (0x40 - 0x30 <=? wrap 8 (d - 0x30)); [reflexivity|]. destruct (index_code _ _); reflexivity.
Qed.

(** ** There and back *)
Definition apart (p : Z * Z * bool * Z) : bool :=
  let '(lo, hi, arith, _) := p in if arith then forallb (fun r => (hi <=? fst r) || (snd r <? lo)) lost else true.
Lemma arith_kept lo hi off c : In (lo, hi, true, off) pieces -> lo <= c < hi -> ~ is_lost c.
Proof.
  intros Hin B (a & b & L & R). assert (C : forallb apart pieces = true) by reflexivity. rewrite forallb_forall in C. specialize (C _ Hin). cbn [apart] in C.
  rewrite forallb_forall in C. specialize (C _ L). cbn [fst snd] in C. apply Bool.orb_true_iff in C as [C|C]; zbool; lia.
Qed.
Lemma back_entry c lo hi off : In (lo, hi, false, off) pieces -> lo <= c < hi -> scalar c ->
  exists v x, table_at uni_to_gb (c + off) = Some v /\ gb_advance (entry_bytes v) = Some (Some (x, length (entry_bytes v))) /\ (x = c <-> ~ is_lost c).
Proof.
  intros Hin B [_ Sc]. pose proof pieces_back as C. rewrite forallb_forall in C. specialize (C _ Hin). cbn [check_piece] in C. pose proof (pieces_ok _ _ _ _ Hin) as P. cbn iota in P.
  destruct (table_walk_from _ uni_to_gb lo (hi - lo) (lo + off) C ltac:(lia) c ltac:(lia)) as (v & V & F). replace (c - lo + (lo + off)) with (c + off) in V by lia.
  unfold back_ok in F. assert (N : surrogate c = false). { unfold surrogate. destruct (in_range 0xD800 0xDFFF c) eqn:E; [|reflexivity]. apply in_range_spec in E. lia. }
  rewrite N in F. cbv zeta in F. rewrite <- advance_trie in F. destruct (gb_advance (entry_bytes v)) as [[[x n]|]|] eqn:A; try discriminate.
  destruct (Nat.eqb_spec n (length (entry_bytes v))) as [->|]; [|discriminate]. exists v, x. split; [exact V|]. split; [exact A|].
  destruct (Z.eqb_spec x c) as [->|Nx].
  - apply Bool.negb_true_iff in F. split; [|reflexivity]. intros _ L. apply lost_spec in L. congruence.
  - split; [contradiction|]. intros L. exfalso. apply L, lost_spec, F.
Qed.
Lemma four_back u4 u2 lo hi off c : In (lo, hi, true, off) pieces -> lo <= c < hi -> advance_checked u4 u2 (four_bytes (c + off)) = Some (Some (c, 4%nat)).
Proof.
  intros Hin B. pose proof (pieces_ok _ _ _ _ Hin) as P. cbn iota in P. destruct (four_bytes_spec (c + off) ltac:(lia)) as (a & b & x & d & -> & H1 & H2 & H3 & H4 & N).
  rewrite advance_four by assumption. rewrite linear_number by assumption. rewrite N. rewrite (index_arith u4 lo hi off c Hin B). reflexivity.
Qed.

(** ** One step of decoding, for all bytes *)
(** Which bytes are consumed, and what stands for them. *)
Inductive gb_step : list Z -> Z -> list Z -> Prop :=
| step_ascii b t : 0 <= b < 0x80 -> gb_step (b :: t) b t
| step_euro t : gb_step (0x80 :: t) 0x20AC t
| step_ff t : gb_step (0xFF :: t) 0xFFFD t
| step_two a b u t : lead a -> trail b -> scalar u -> gb_step (a :: b :: t) u t
| step_bad2 a b t : lead a -> ~ trail b -> ~ (0x30 <= b <= 0x3F) -> gb_step (a :: b :: t) 0xFFFD t
| step_bad3 a b c d t : lead a -> 0x30 <= b <= 0x3F -> ~ lead c -> gb_step (a :: b :: c :: d :: t) 0xFFFD (d :: t)
| step_bad4 a b c d t : lead a -> 0x30 <= b <= 0x3F -> lead c -> ~ (0x30 <= d <= 0x3F) -> gb_step (a :: b :: c :: d :: t) 0xFFFD t
| step_four a b c d u t : lead a -> 0x30 <= b <= 0x3F -> lead c -> 0x30 <= d <= 0x3F -> scalar u -> gb_step (a :: b :: c :: d :: t) u t.

Lemma advance_cases_gb s : Forall is_byte s -> s <> [] ->
  (exists u n, gb_advance s = Some (Some (u, n)) /\ gb_step s u (skipn n s) /\ (1 <= n <= 4)%nat /\ (n <= length s)%nat) \/ (gb_advance s = Some None /\ gb_unfinished s).
Proof.
  intros Hs Ne. destruct s as [|a s]; [contradiction|]. inversion Hs as [|? ? Ha Hs1]; subst. unfold is_byte in Ha. clear Hs Ne.
  unfold gb_advance, advance_checked. cbn [nth_error].
  Ltac hit u n k := left; exists u, n; split; [reflexivity|]; split; [k|cbn [length]; lia].
  destruct (Z.ltb_spec a 0x80); [hit a 1%nat ltac:(constructor; lia)|]. destruct (Z.eqb_spec a 0x80) as [-> |]; [hit 0x20AC 1%nat ltac:(constructor)|].
  destruct (Z.eqb_spec a 0xFF) as [-> |]; [hit 0xFFFD 1%nat ltac:(constructor)|]. assert (La : lead a) by (unfold lead; lia).
  destruct s as [|b s]; [right; split; [reflexivity|exact La]|]. inversion Hs1 as [|? ? Hb Hs2]; subst. unfold is_byte in Hb. cbn [length nth_error Nat.ltb Nat.leb].
  destruct (Z.eqb_spec b 0x7F) as [-> |]; [hit 0xFFFD 2%nat ltac:(apply step_bad2; [exact La|unfold trail; lia|lia])|].
  rewrite wrap8_sub by lia. destruct (Z.ltb_spec b 0x40).
  2: { destruct (Z.ltb_spec (b - 0x40) (0xFF - 0x40)).
    - destruct (uni2_total a b La ltac:(lia) ltac:(lia)) as (u & E & Su). cbv zeta. rewrite E. cbn [option_map]. hit u 2%nat ltac:(apply step_two; [exact La|unfold trail; lia|exact Su]).
    - destruct (Z.ltb_spec b 0x30); [lia|]. destruct (Z.eqb_spec b 0xFF); [|lia]. cbn [orb]. hit 0xFFFD 2%nat ltac:(apply step_bad2; [exact La|unfold trail; lia|lia]). }
  destruct (Z.ltb_spec (b - 0x40 + 256) (0xFF - 0x40)); [lia|].
  destruct (Z.ltb_spec b 0x30); cbn [orb]; [hit 0xFFFD 2%nat ltac:(apply step_bad2; [exact La|unfold trail; lia|lia])|]. destruct (Z.eqb_spec b 0xFF); [lia|]. cbn [orb].
  destruct s as [|c s]; [right; split; [reflexivity|split; [exact La|lia]]|]. inversion Hs2 as [|? ? Hc Hs3]; subst. unfold is_byte in Hc.
  destruct s as [|d s]; [right; split; [reflexivity|repeat split; try exact La; try lia; unfold lead in La; lia]|]. inversion Hs3 as [|? ? Hd Hs4]; subst. unfold is_byte in Hd.
  cbn [length nth_error Nat.ltb Nat.leb]. destruct (Z.leb_spec (0xFF - 0x81) (wrap 8 (c - 0x81))) as [Wc|Wc].
  { rewrite wrap8_sub in Wc by lia. hit 0xFFFD 3%nat ltac:(apply step_bad3; [exact La|lia|unfold lead; destruct (Z.ltb_spec c 0x81); lia]). }
  assert (Lc : lead c) by (rewrite wrap8_sub in Wc by lia; unfold lead; destruct (Z.ltb_spec c 0x81); lia).
  destruct (Z.leb_spec (0x40 - 0x30) (wrap 8 (d - 0x30))) as [Wd|Wd].
  { rewrite wrap8_sub in Wd by lia. hit 0xFFFD 4%nat ltac:(apply step_bad4; [exact La|lia|exact Lc|destruct (Z.ltb_spec d 0x30); lia]). }
  assert (Ld : 0x30 <= d <= 0x3F) by (rewrite wrap8_sub in Wd by lia; destruct (Z.ltb_spec d 0x30); lia).
  destruct (index_total (linear_18030 a b c d)) as (u & E & Su); [unfold linear_18030, wrap; apply Z.mod_pos_bound; reflexivity|]. rewrite E. cbn [option_map].
  hit u 4%nat ltac:(apply step_four; try assumption; lia).
Qed.
