(** Text of a floating point number: the stores amount to one text. *)
From Verif Require Import Base Outcome NumSpec NumFacts IntPrintModel IntPrintProofs JeaiiiProofs IntPrintCorrect IntSizeProofs
  FloatTables FloatModel FloatTextModel.

(** ** stores *)
Lemma split_buf (buf : list Z) pos n : 0 <= pos -> 0 <= n -> pos + n <= zlen buf ->
  exists pre mid post, buf = pre ++ mid ++ post /\ zlen pre = pos /\ zlen mid = n.
Proof.
  intros Hp Hn H. exists (firstn (Z.to_nat pos) buf), (firstn (Z.to_nat n) (skipn (Z.to_nat pos) buf)),
    (skipn (Z.to_nat n) (skipn (Z.to_nat pos) buf)).
  rewrite !firstn_skipn. split; [reflexivity|]. unfold zlen in *.
  rewrite !firstn_length, skipn_length. lia.
Qed.
Lemma put_split pre mid post l : zlen l = zlen mid -> put (pre ++ mid ++ post) (zlen pre) l = Done (pre ++ l ++ post).
Proof.
  unfold put, zlen. intros H.
  destruct (Z.leb_spec 0 (Z.of_nat (length pre))); [|lia]. rewrite !app_length.
  destruct (Z.leb_spec (Z.of_nat (length pre) + Z.of_nat (length l))
    (Z.of_nat (length pre + (length mid + length post)))); [|lia]. cbn [andb].
  rewrite Nat2Z.id. rewrite firstn_app, Nat.sub_diag, firstn_O, app_nil_r, firstn_all.
  rewrite skipn_app, (skipn_all2 pre) by lia. cbn [app].
  replace (length pre + length l - length pre)%nat with (length mid) by lia.
  rewrite skipn_app, skipn_all, Nat.sub_diag. reflexivity.
Qed.
Lemma put_split' pre mid post l pos : zlen pre = pos -> zlen l = zlen mid -> put (pre ++ mid ++ post) pos l = Done (pre ++ l ++ post).
Proof. intros <-. apply put_split. Qed.
Lemma get_split pre mid post pos n : zlen pre = pos -> zlen mid = n -> get (pre ++ mid ++ post) pos n = Done mid.
Proof.
  intros <- <-. unfold get, zlen.
  destruct (Z.leb_spec 0 (Z.of_nat (length pre))); [|lia]. destruct (Z.leb_spec 0 (Z.of_nat (length mid))); [|lia].
  rewrite !app_length.
  destruct (Z.leb_spec (Z.of_nat (length pre) + Z.of_nat (length mid))
    (Z.of_nat (length pre + (length mid + length post)))); [|lia]. cbn [andb]. rewrite !Nat2Z.id.
  rewrite skipn_app, skipn_all, Nat.sub_diag. cbn [app skipn].
  rewrite firstn_app, Nat.sub_diag, firstn_all, firstn_O, app_nil_r. reflexivity.
Qed.
Lemma put_none buf pos l : pos < 0 \/ zlen buf < pos + zlen l -> put buf pos l = Undefined.
Proof.
  intros H. unfold put. destruct (Z.leb_spec 0 pos); [|reflexivity].
  destruct (Z.leb_spec (pos + zlen l) (zlen buf)); [lia|reflexivity].
Qed.
Lemma zlen_app {A} (a b : list A) : zlen (a ++ b) = zlen a + zlen b.
Proof. unfold zlen. rewrite app_length. lia. Qed.
Lemma zlen_nonneg {A} (a : list A) : 0 <= zlen a.
Proof. unfold zlen. lia. Qed.

Lemma put_cases buf pos l : (0 <= pos /\ pos + zlen l <= zlen buf) \/ put buf pos l = Undefined.
Proof.
  destruct (Z_lt_ge_dec pos 0); [right; apply put_none; lia|].
  destruct (Z_le_gt_dec (pos + zlen l) (zlen buf)); [left; lia|right; apply put_none; lia].
Qed.
Lemma put_app buf pos a b q : q = pos + zlen a -> obind (put buf pos a) (fun buf => put buf q b) = put buf pos (a ++ b).
Proof.
  intros ->. destruct (put_cases buf pos (a ++ b)) as [[H1 H2]|H].
  - rewrite zlen_app in H2. pose proof (zlen_nonneg a). pose proof (zlen_nonneg b).
    destruct (split_buf buf pos (zlen a) H1 ltac:(lia) ltac:(lia)) as (pre & mid & r & -> & P & M).
    rewrite (put_split' pre mid r a pos P) by congruence. cbn [obind].
    rewrite !zlen_app in H2.
    destruct (split_buf r 0 (zlen b) ltac:(lia) ltac:(lia) ltac:(lia)) as (z & mid' & post & -> & P' & M').
    assert (z = []) by (destruct z; [reflexivity|unfold zlen in P'; cbn [length] in P'; lia]). subst z. cbn [app].
    rewrite (app_assoc pre a). rewrite put_split'; [|rewrite zlen_app; lia|lia].
    rewrite (app_assoc mid mid'). rewrite put_split'; [|lia|rewrite !zlen_app; lia].
    rewrite <- !app_assoc. reflexivity.
  - rewrite H. destruct (put_cases buf pos a) as [[H1 H2]|Hn]; [|rewrite Hn; reflexivity].
    pose proof (zlen_nonneg a).
    destruct (split_buf buf pos (zlen a) H1 ltac:(lia) ltac:(lia)) as (pre & mid & r & -> & P & M).
    rewrite (put_split' pre mid r a pos P) by congruence. cbn [obind].
    apply put_none. right. destruct (Z_le_gt_dec (pos + zlen (a ++ b)) (zlen (pre ++ mid ++ r))) as [L|L].
    + unfold put in H. destruct (Z.leb_spec 0 pos); [|lia].
      destruct (Z.leb_spec (pos + zlen (a ++ b)) (zlen (pre ++ mid ++ r))); [discriminate|lia].
    + rewrite !zlen_app in *. lia.
Qed.
Lemma emit_app a b st : obind (emit a st) (emit b) = emit (a ++ b) st.
Proof.
  unfold emit. rewrite <- (put_app (fst st) (snd st) a b (snd st + zlen a) eq_refl).
  destruct (put (fst st) (snd st) a) as [x| |]; cbn [obind fst snd]; try reflexivity.
  destruct (put x (snd st + zlen a) b); cbn [obind]; try reflexivity. rewrite zlen_app. do 2 f_equal. lia.
Qed.
Lemma obind_assoc {A B C} (o : outcome A) (f : A -> outcome B) (g : B -> outcome C) :
  obind (obind o f) g = obind o (fun x => obind (f x) g).
Proof. destruct o; reflexivity. Qed.
Lemma emit_nil st : 0 <= snd st <= zlen (fst st) -> emit [] st = Done st.
Proof.
  intros H. unfold emit, put. change (zlen []) with 0. destruct (Z.leb_spec 0 (snd st)); [|lia].
  destruct (Z.leb_spec (snd st + 0) (zlen (fst st))); [|lia]. cbn [andb obind].
  destruct st as [b p]. cbn [fst snd]. rewrite Nat.add_0_r. cbn [app]. rewrite firstn_skipn. do 2 f_equal. lia.
Qed.
Lemma emit_put l buf pos q : q = pos + zlen l -> obind (put buf pos l) (fun buf => Done (buf, q)) = emit l (buf, pos).
Proof. intros ->. reflexivity. Qed.
(** A digit text written one place too far, then [e] of its digits moved back and a mark put in the gap. *)
Lemma put_shift buf pos ds c e : 0 < e <= zlen ds ->
  (let! b := put buf (pos + 1) ds in let! m := get b (pos + 1) e in let! b := put b pos m in put b (pos + e) [c]) =
  if 0 <=? pos then put buf pos (firstn (Z.to_nat e) ds ++ [c] ++ skipn (Z.to_nat e) ds)
  else (let! b := put buf (pos + 1) ds in let! m := get b (pos + 1) e in Undefined).
Proof.
  intros He. destruct (Z.leb_spec 0 pos) as [Hp|Hp].
  2: { destruct (put buf (pos + 1) ds) as [b| |]; cbn [obind]; try reflexivity.
       destruct (get b (pos + 1) e) as [m| |]; cbn [obind]; try reflexivity. rewrite put_none by lia. reflexivity. }
  assert (L1 : zlen (firstn (Z.to_nat e) ds) = e) by (unfold zlen in *; rewrite firstn_length; lia).
  assert (L2 : zlen (skipn (Z.to_nat e) ds) = zlen ds - e) by (unfold zlen in *; rewrite skipn_length; lia).
  assert (LT : zlen (firstn (Z.to_nat e) ds ++ [c] ++ skipn (Z.to_nat e) ds) = zlen ds + 1).
  { rewrite !zlen_app, L1, L2. change (zlen [c]) with 1. lia. }
  destruct (Z_le_gt_dec (pos + 1 + zlen ds) (zlen buf)) as [H|H].
  2: { rewrite !put_none; [reflexivity| |]; right; [rewrite LT|]; lia. }
  destruct (split_buf buf pos (1 + zlen ds) Hp ltac:(lia) ltac:(lia)) as (pre & mid & post & -> & P & M).
  destruct mid as [|x mid]; [unfold zlen in M; cbn [length] in M; lia|].
  assert (M' : zlen mid = zlen ds) by (unfold zlen in *; cbn [length] in M; lia).
  replace (pre ++ (x :: mid) ++ post) with ((pre ++ [x]) ++ mid ++ post) by (rewrite <- app_assoc; reflexivity).
  rewrite put_split' by (rewrite ?zlen_app; change (zlen [x]) with 1; lia). cbn [obind].
  set (A := firstn (Z.to_nat e) ds) in *. set (B := skipn (Z.to_nat e) ds) in *.
  assert (DS : ds ++ post = A ++ B ++ post) by (rewrite app_assoc; unfold A, B; rewrite firstn_skipn; reflexivity).
  rewrite DS. rewrite get_split by (rewrite ?zlen_app; change (zlen [x]) with 1; lia). cbn [obind].
  assert (exists y A', [x] ++ A = A' ++ [y] /\ zlen A' = e) as (y & A' & EA & LA).
  { destruct (@exists_last _ ([x] ++ A) ltac:(discriminate)) as (A' & y & EA). exists y, A'. split; [assumption|].
    assert (zlen ([x] ++ A) = zlen (A' ++ [y])) as F by congruence. rewrite !zlen_app in F. change (zlen [x]) with 1 in F. change (zlen [y]) with 1 in F. lia. }
  replace ((pre ++ [x]) ++ A ++ B ++ post) with (pre ++ A' ++ [y] ++ B ++ post).
  2: { rewrite <- (app_assoc pre [x]). f_equal. rewrite (app_assoc [x] A), EA, <- app_assoc. reflexivity. }
  rewrite put_split' by lia. cbn [obind]. rewrite (app_assoc pre A).
  rewrite put_split'; [|rewrite zlen_app; lia|reflexivity].
  replace ((pre ++ [x]) ++ mid ++ post) with (pre ++ (x :: mid) ++ post) by (rewrite <- app_assoc; reflexivity).
  rewrite put_split'; [|assumption|rewrite LT; lia]. rewrite <- !app_assoc. reflexivity.
Qed.

(** ** digits *)
Definition dtext (n len : Z) : list Z := map (digit_char false) (digs 10 (Z.to_nat len) n).
Lemma dtext_len n len : 0 <= len -> zlen (dtext n len) = len.
Proof. intros H. unfold dtext, zlen. rewrite map_length, digs_length. lia. Qed.

Lemma jeaiii_hash_spec k u len : 1 <= k <= 9 -> 0 <= u < 2 ^ 32 -> digit_count 10 u len -> len <= k + 1 ->
  jeaiii_hash k u len = Some (dtext u len).
Proof.
  intros Hk Hu D Hl. destruct D as (D1 & D2 & D3). unfold jeaiii_hash, dtext.
  destruct (Z.leb_spec 1 len); [|lia]. destruct (Z.leb_spec len k); cbn [andb].
  - rewrite jeaiii_c_spec; try lia; replace (len - 1 + 1) with len by lia; auto; lia.
  - assert (len = k + 1) by lia. subst len. replace (k + 1 - 1) with k in D3 by lia.
    rewrite jeaiii_c_spec; auto; lia.
Qed.
Definition digits_bound (w : Z) : Z := if w =? 64 then 17 else 9.
Lemma main_len_ryu_spec w n len buf pos : w = 32 \/ w = 64 -> 0 <= n < 10 ^ digits_bound w -> digit_count 10 n len ->
  jeaiii_main_len_ryu w n len buf pos = put buf pos (dtext n len).
Proof.
  intros Hw Hn D. unfold jeaiii_main_len_ryu, digits_bound in *. destruct Hw as [-> | ->].
  - change (32 =? 64) with false in *. cbv iota in Hn |- *. change (10 ^ 9) with 1000000000 in Hn.
    assert (L : len <= 9) by (apply (digit_count_lt 10 n 9 len); try lia; exact D).
    rewrite jeaiii_hash_spec; try lia; try exact D. reflexivity.
  - change (64 =? 64) with true in *. cbv iota in Hn |- *. change (10 ^ 17) with 100000000000000000 in Hn.
    assert (L : len <= 17) by (apply (digit_count_lt 10 n 17 len); try lia; exact D).
    rewrite Z.shiftr_div_pow2 by lia.
    assert (Hh : wrap 32 (n / 2 ^ 32) = n / 2 ^ 32).
    { unfold wrap. apply Z.mod_small. split; [apply Z.div_pos; lia|]. apply Z.div_lt_upper_bound; lia. }
    rewrite Hh. destruct (Z.eqb_spec (n / 2 ^ 32) 0) as [E|E].
    + assert (n < 2 ^ 32). { apply Z.div_small_iff in E; lia. }
      unfold wrap. rewrite Z.mod_small by lia. rewrite jeaiii_hash_spec; try lia; try exact D. 2:{ apply (digit_count_lt 10 n 10 len); try lia; exact D. }
      reflexivity.
    + assert (2 ^ 32 <= n).
      { destruct (Z_lt_ge_dec n (2 ^ 32)); [|lia]. exfalso. apply E. apply Z.div_small. lia. }
      set (a := n / 1000000000).
      assert (Ha : 1 <= a < 100000000).
      { unfold a. split; [apply Z.div_le_lower_bound; lia|apply Z.div_lt_upper_bound; lia]. }
      assert (Da : digit_count 10 a (len - 9)).
      { change a with (n / 10 ^ 9). apply digit_count_div; [lia|exact D|exact (proj1 Ha)]. }
      assert (L9 : 1 <= len - 9) by apply Da.
      unfold wrap. rewrite !Z.mod_small by lia.
      rewrite jeaiii_hash_spec; try lia; try exact Da. cbn [lift obind].
      rewrite jeaiii_c8_mod. cbn [lift obind].
      rewrite put_app by (rewrite dtext_len; lia). f_equal. unfold dtext. rewrite <- map_app. f_equal.
      replace (Z.to_nat len) with (Z.to_nat (len - 9) + 9)%nat by lia. rewrite digs_app by lia. reflexivity.
Qed.
Lemma chars_len_ryu_spec w n : w = 32 \/ w = 64 -> 0 <= n < 10 ^ digits_bound w -> digit_count 10 n (chars_len_ryu w n).
Proof.
  intros Hw Hn. unfold chars_len_ryu, digits_bound in *. destruct Hw as [-> | ->].
  - change (32 =? 64) with false in *. apply chars_len10_spec. exact Hn.
  - change (64 =? 64) with true in *. apply chars_len10_spec. exact Hn.
Qed.
Lemma emit_in l st st' : emit l st = Done st' -> 0 <= snd st' <= zlen (fst st').
Proof.
  unfold emit. intros E. destruct (put_cases (fst st) (snd st) l) as [[P1 P2]|P]; [|rewrite P in E; discriminate].
  destruct (split_buf (fst st) (snd st) (zlen l) ltac:(lia) ltac:(apply zlen_nonneg) ltac:(lia)) as (pre & mid & post & EB & A & B).
  rewrite EB, (put_split' pre mid post l (snd st) A) in E by congruence. cbn [obind] in E.
  injection E as <-. cbn [fst snd]. rewrite !zlen_app. pose proof (zlen_nonneg post). pose proof (zlen_nonneg l). lia.
Qed.
Lemma fill_zeros_spec n : forall st, 0 <= snd st <= zlen (fst st) -> fill_zeros n st = emit (repeat 48 n) st.
Proof.
  induction n as [|n IH]; intros st H; cbn [fill_zeros repeat]; [symmetry; apply emit_nil; assumption|].
  change (48 :: repeat 48 n) with ([48] ++ repeat 48 n). rewrite <- emit_app.
  destruct (emit [48] st) as [x| |] eqn:E; cbn [obind]; try reflexivity. apply IH. exact (emit_in _ _ _ E).
Qed.
Lemma emit_then_zeros l n st : obind (emit l st) (fill_zeros n) = emit (l ++ repeat 48 n) st.
Proof.
  rewrite <- emit_app. destruct (emit l st) as [x| |] eqn:E; cbn [obind]; try reflexivity.
  apply fill_zeros_spec. exact (emit_in _ _ _ E).
Qed.
