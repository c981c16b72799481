(** Streams over memory maps (include/fast_io_hosted/platforms/omap.h). *)
From Verif Require Import Base OmapModel.
Local Open Scope nat_scope.

(** Characters of [cs] bytes. *)
Definition characters (cs : nat) (x : list (list Z)) : Prop := Forall (fun c => length c = cs) x.

Lemma concat_length cs x : characters cs x -> length (concat x) = cs * length x.
Proof.
  induction 1 as [|c x H _ IH]; [cbn; lia|]. cbn [concat length]. rewrite app_length, IH, H. lia.
Qed.
Lemma characters_app cs x y : characters cs (x ++ y) <-> characters cs x /\ characters cs y.
Proof. unfold characters. apply Forall_app. Qed.

(** A stream in the middle of its work: [k] characters of a mapping of [n] bytes written or read, [off] the offset. *)
Definition At (cs off n k : nat) (s : stream) : Prop :=
  begin_ptr s = off /\ curr_ptr s = off + cs * k /\ end_ptr s = off + cs * (n / cs) /\ k <= n / cs.

Lemma left cs off n k s : cs <> 0 -> At cs off n k s -> (end_ptr s - curr_ptr s) / cs = n / cs - k.
Proof.
  intros C (_ & -> & -> & K). replace (off + cs * (n / cs) - (off + cs * k)) with ((n / cs - k) * cs) by nia. apply Nat.div_mul. exact C.
Qed.

Lemma store (m x y : list Z) (off : nat) : off + length x + length y <= length m ->
  firstn (off + length x) (firstn off m ++ x ++ skipn (off + length x) m) ++ y ++ skipn (off + length x + length y) (firstn off m ++ x ++ skipn (off + length x) m)
  = firstn off m ++ (x ++ y) ++ skipn (off + length (x ++ y)) m.
Proof.
  intros L. assert (F : length (firstn off m) = off) by (rewrite firstn_length; lia).
  assert (A : firstn (off + length x) (firstn off m ++ x ++ skipn (off + length x) m) = firstn off m ++ x).
  { rewrite firstn_app, F. replace (off + length x - off) with (length x) by lia. rewrite firstn_all2 by lia.
    rewrite firstn_app, Nat.sub_diag, firstn_O, app_nil_r, firstn_all. reflexivity. }
  rewrite A. rewrite <- !app_assoc. do 3 f_equal.
  rewrite app_assoc, skipn_app. rewrite app_length, F. rewrite skipn_all2 by (rewrite app_length, F; lia). cbn [app].
  replace (off + length x + length y - (off + length x)) with (length y) by lia. rewrite app_length.
  assert (SK : forall b a (l : list Z), skipn a (skipn b l) = skipn (b + a) l).
  { induction b as [|b IH]; intros a l; [reflexivity|]. destruct l as [|z l]; [rewrite !skipn_nil; reflexivity|]. cbn [skipn Nat.add]. apply IH. }
  rewrite SK. f_equal. lia.
Qed.

Lemma writes_spec cs off n m0 : cs <> 0 -> length m0 = n ->
  forall xs y s m, characters cs (concat xs) -> characters cs y -> At cs off n (length y) s ->
  off + cs * length (y ++ concat xs) <= n -> m = firstn off m0 ++ concat y ++ skipn (off + length (concat y)) m0 ->
  exists s', writes cs xs s m = Returns (s', firstn off m0 ++ concat (y ++ concat xs) ++ skipn (off + length (concat (y ++ concat xs))) m0) /\
    At cs off n (length (y ++ concat xs)) s'.
Proof.
  intros C L. induction xs as [|x xs IH]; intros y s m X Y A R ->; cbn [writes concat].
  - exists s. rewrite app_nil_r. auto.
  - cbn [concat] in X, R. apply characters_app in X as (X1 & X2). rewrite !app_length in R.
    assert (K : length y + length x <= n / cs) by (apply Nat.div_le_lower_bound; nia).
    unfold write. cbv zeta. rewrite (left cs off n _ s C A). destruct (Nat.ltb_spec (n / cs - length y) (length x)) as [H|_]; [lia|].
    pose proof (concat_length cs x X1) as LX. pose proof (concat_length cs y Y) as LY.
    set (m := firstn off m0 ++ concat y ++ skipn (off + length (concat y)) m0).
    assert (LM : length m = n) by (unfold m; rewrite !app_length, firstn_length, skipn_length; nia).
    assert (AC : curr_ptr s = off + length (concat y)) by (rewrite LY; apply A).
    assert (FF : (1 <=? length x) && (length m <? curr_ptr s + cs * length x) = false).
    { apply andb_false_iff. right. apply Nat.ltb_ge. rewrite LM, AC, LY. nia. }
    rewrite FF. destruct (IH (y ++ x) (Stream (begin_ptr s) (curr_ptr s + cs * length x) (end_ptr s))
      (firstn (curr_ptr s) m ++ concat x ++ skipn (curr_ptr s + cs * length x) m) X2) as (s' & P & Q).
    + apply characters_app. auto.
    + destruct A as (A1 & A2 & A3 & A4). unfold At. cbn [begin_ptr curr_ptr end_ptr]. rewrite app_length. repeat split; auto; nia.
    + rewrite !app_length. lia.
    + rewrite AC, <- LX. unfold m. rewrite concat_app. apply store. rewrite L, LX, LY. nia.
    + exists s'. rewrite <- app_assoc in P, Q. auto.
Qed.

(** * C149: what is written to a memory map stream is in the mapping *)

(** Without an offset: if all of it fits it is in the mapping, in order, from the beginning, the rest of the mapping as it
    was, and written_bytes says how much it is; *)
Theorem C149_text : forall cs mapping xs, cs <> 0 -> characters cs (concat xs) -> cs * length (concat xs) <= length mapping ->
  exists s, writes cs xs (open_map cs (length mapping) 0) mapping =
    Returns (s, concat (concat xs) ++ skipn (length (concat (concat xs))) mapping) /\ written_bytes cs s = length (concat (concat xs)).
Proof.
  intros cs m xs C X R.
  destruct (writes_spec cs 0 (length m) m C eq_refl xs [] (open_map cs (length m) 0) m X (Forall_nil _)) as (s & A & B1 & B2 & _); [..|].
  - unfold At, open_map. cbn [begin_ptr curr_ptr end_ptr length]. repeat split; lia.
  - exact R.
  - reflexivity.
  - exists s. split; [exact A|]. unfold written_bytes. rewrite B1, B2. cbn [app Nat.add]. rewrite Nat.sub_0_r. rewrite (concat_length cs _ X).
    rewrite (Nat.mul_comm cs), Nat.div_mul by exact C. reflexivity.
Qed.
Print Assumptions C149_text.

(** and if a piece does not fit, the program ends, with the pieces before it in the mapping and nothing of it. Bytes outside
    of the mapping are never touched. *)
Theorem C149_full : forall cs mapping xs x ys, cs <> 0 -> characters cs (concat xs) ->
  cs * length (concat xs) <= length mapping -> length mapping / cs < length (concat xs) + length x ->
  writes cs (xs ++ x :: ys) (open_map cs (length mapping) 0) mapping =
    Terminates (concat (concat xs) ++ skipn (length (concat (concat xs))) mapping).
Proof.
  intros cs m xs x ys C X R F.
  destruct (writes_spec cs 0 (length m) m C eq_refl xs [] (open_map cs (length m) 0) m X (Forall_nil _)) as (s & A & B).
  - unfold At, open_map. cbn [begin_ptr curr_ptr end_ptr length]. repeat split; lia.
  - exact R.
  - reflexivity.
  - assert (W : forall s0 m0 s1 m1 us vs, writes cs us s0 m0 = Returns (s1, m1) -> writes cs (us ++ vs) s0 m0 = writes cs vs s1 m1).
    { intros s0 m0 s1 m1 us vs. revert s0 m0. induction us as [|u us IH]; intros s0 m0 E; cbn [writes app] in *; [injection E as -> ->; reflexivity|].
      destruct (write cs u s0 m0) as [[s2 m2]| |]; [apply IH; exact E|discriminate|discriminate]. }
    rewrite (W _ _ _ _ _ _ A). cbn [writes]. unfold write. cbv zeta. rewrite (left cs 0 (length m) _ s C B). cbn [app].
    destruct (Nat.ltb_spec (length m / cs - length (concat xs)) (length x)) as [H|H]; [reflexivity|destruct B as (_ & _ & _ & B4); cbn [app] in B4; lia].
Qed.
Print Assumptions C149_full.

(** With an offset it is the same as long as the text ends before the mapping does; *)
Theorem C149_offset_partial : forall cs mapping offset xs, cs <> 0 -> characters cs (concat xs) -> offset + cs * length (concat xs) <= length mapping ->
  exists s, writes cs xs (open_map cs (length mapping) offset) mapping =
    Returns (s, firstn offset mapping ++ concat (concat xs) ++ skipn (offset + length (concat (concat xs))) mapping) /\
    written_bytes cs s = length (concat (concat xs)).
Proof.
  intros cs m off xs C X R.
  destruct (writes_spec cs off (length m) m C eq_refl xs [] (open_map cs (length m) off) m X (Forall_nil _)) as (s & A & B1 & B2 & _); [..|].
  - unfold At, open_map. cbn [begin_ptr curr_ptr end_ptr length]. repeat split; lia.
  - exact R.
  - cbn [concat app length]. rewrite Nat.add_0_r. symmetry. apply firstn_skipn.
  - exists s. split; [exact A|]. unfold written_bytes. rewrite B1, B2. cbn [app]. rewrite (concat_length cs _ X).
    replace (off + cs * length (concat xs) - off) with (length (concat xs) * cs) by lia. rewrite Nat.div_mul by exact C. lia.
Qed.
Print Assumptions C149_offset_partial.

(** but the end of the buffer is [offset] too far: what does not fit is written behind the mapping instead of ending the
    program, for every offset. *)
Theorem C149_offset_refuted : forall cs mapping offset x, cs <> 0 -> characters cs x -> x <> [] ->
  length mapping < offset + cs * length x -> length x <= length mapping / cs ->
  writes cs [x] (open_map cs (length mapping) offset) mapping = Outside.
Proof.
  intros cs m off x C X N O F. cbn [writes]. unfold write. cbv zeta.
  assert (A : At cs off (length m) 0 (open_map cs (length m) off)) by (unfold At, open_map; cbn [begin_ptr curr_ptr end_ptr]; repeat split; lia).
  rewrite (left cs off (length m) 0 _ C A). destruct (Nat.ltb_spec (length m / cs - 0) (length x)) as [H|_]; [lia|].
  unfold open_map. cbn [curr_ptr]. assert (T : (1 <=? length x) && (length m <? off + cs * length x) = true).
  { apply andb_true_iff. split; [apply Nat.leb_le; destruct x; [contradiction|cbn [length]; lia]|apply Nat.ltb_lt; exact O]. }
  rewrite T. reflexivity.
Qed.
Print Assumptions C149_offset_refuted.

Example C149_example : writes 2 [[[1; 2]]; [[3; 4]; [5; 6]]]%Z (open_map 2 7 0) (repeat 0 7)%Z =
    Returns (Stream 0 6 6, [1; 2; 3; 4; 5; 6; 0]%Z) /\
  writes 2 [[[1; 2]]; [[3; 4]; [5; 6]]; [[7; 8]]]%Z (open_map 2 7 0) (repeat 0 7)%Z = Terminates [1; 2; 3; 4; 5; 6; 0]%Z /\
  writes 1 [[[1]; [2]; [3]]]%Z (open_map 1 4 2) (repeat 0 4)%Z = Outside.
Proof. repeat split; reflexivity. Qed.

(** * C150: reading a memory map stream gives the mapping *)

Lemma reads_spec cs off m : cs <> 0 -> forall ns k s, At cs off (length m) k s -> off + cs * (length m / cs) <= length m \/
  off + cs * (k + fold_right Nat.add 0 ns) <= length m ->
  exists xs s' j, reads cs ns s m = Returns (xs, s') /\ At cs off (length m) j s' /\ k <= j /\
    concat xs = firstn (cs * (j - k)) (skipn (off + cs * k) m) /\ j - k <= fold_right Nat.add 0 ns /\
    (j - k < fold_right Nat.add 0 ns -> j = length m / cs).
Proof.
  intros C. induction ns as [|n ns IH]; intros k s A R; cbn [reads fold_right].
  - exists [], s, k. rewrite Nat.sub_diag, Nat.mul_0_r, firstn_O. repeat split; auto; [apply A..|lia].
  - unfold read. cbv zeta. rewrite (left cs off _ k s C A). set (q := length m / cs) in *.
    set (t := if q - k <? n then q - k else n). assert (T : t <= n /\ k + t <= q /\ (t < n -> k + t = q)).
    { destruct A as (_ & _ & _ & A4). fold q in A4. unfold t. destruct (Nat.ltb_spec (q - k) n); lia. }
    destruct T as (T1 & T2 & T3). assert (AC : curr_ptr s = off + cs * k) by apply A.
    assert (R1 : off + cs * (k + t) <= length m) by (cbn [fold_right] in R; destruct R as [R|R]; nia).
    assert (FF : (1 <=? t) && (length m <? curr_ptr s + cs * t) = false) by (apply andb_false_iff; right; apply Nat.ltb_ge; nia).
    rewrite FF. destruct (IH (k + t) (Stream (begin_ptr s) (curr_ptr s + cs * t) (end_ptr s))) as (xs & s' & j & P & Q & J & V & G & H).
    + destruct A as (A1 & A2 & A3 & A4). unfold At. cbn [begin_ptr curr_ptr end_ptr]. repeat split; auto; nia.
    + cbn [fold_right] in R. destruct R as [R|R]; [left; exact R|right; nia].
    + rewrite P. exists (firstn (cs * t) (skipn (curr_ptr s) m) :: xs), s', j. split; [reflexivity|]. split; [exact Q|]. split; [lia|].
      split; [|split; [lia|]].
      * cbn [concat]. rewrite V, AC. rewrite <- (firstn_skipn (cs * t) (firstn (cs * (j - k)) (skipn (off + cs * k) m))).
        rewrite firstn_firstn, Nat.min_l by nia. f_equal. rewrite skipn_firstn_comm.
        replace (cs * (j - k) - cs * t) with (cs * (j - (k + t))) by nia. f_equal.
        assert (SK : forall b a (l : list Z), skipn a (skipn b l) = skipn (b + a) l).
        { induction b as [|b IHb]; intros a l; [reflexivity|]. destruct l as [|z l]; [rewrite !skipn_nil; reflexivity|]. cbn [skipn Nat.add]. apply IHb. }
        rewrite SK. f_equal. lia.
      * intros LT. destruct (Nat.lt_ge_cases t n) as [W|W]; [|apply H; lia]. specialize (T3 W). destruct Q as (_ & _ & _ & Q4). fold q in Q4. lia.
Qed.

(** Without an offset reads of any sizes give the characters of the mapping, in order, none left out; as many as asked for,
    fewer only at the end. *)
Theorem C150_text : forall cs mapping ns, cs <> 0 -> exists xs s j, reads cs ns (open_map cs (length mapping) 0) mapping = Returns (xs, s) /\
  concat xs = firstn (cs * j) mapping /\ j = Nat.min (fold_right Nat.add 0 ns) (length mapping / cs).
Proof.
  intros cs m ns C. destruct (reads_spec cs 0 m C ns 0 (open_map cs (length m) 0)) as (xs & s & j & A & B & _ & E & G & H).
  - unfold At, open_map. cbn [begin_ptr curr_ptr end_ptr]. repeat split; lia.
  - left. cbn [Nat.add]. apply Nat.mul_div_le. exact C.
  - exists xs, s, j. rewrite Nat.sub_0_r in *. rewrite Nat.mul_0_r in E. cbn [Nat.add skipn] in E. split; [exact A|]. split; [exact E|].
    destruct B as (_ & _ & _ & B). destruct (Nat.lt_ge_cases j (fold_right Nat.add 0 ns)) as [W|W]; [specialize (H W)|]; lia.
Qed.
Print Assumptions C150_text.

(** With an offset it is so as long as no more is asked for than there is; *)
Theorem C150_offset_partial : forall cs mapping offset ns, cs <> 0 -> offset + cs * fold_right Nat.add 0 ns <= length mapping ->
  exists xs s, reads cs ns (open_map cs (length mapping) offset) mapping = Returns (xs, s) /\
  concat xs = firstn (cs * fold_right Nat.add 0 ns) (skipn offset mapping).
Proof.
  intros cs m off ns C R. destruct (reads_spec cs off m C ns 0 (open_map cs (length m) off)) as (xs & s & j & A & B & _ & E & G & H).
  - unfold At, open_map. cbn [begin_ptr curr_ptr end_ptr]. repeat split; lia.
  - right. exact R.
  - exists xs, s. split; [exact A|]. rewrite Nat.sub_0_r in *. rewrite Nat.mul_0_r, Nat.add_0_r in E. rewrite E. do 2 f_equal.
    assert (fold_right Nat.add 0 ns <= length m / cs) by (apply Nat.div_le_lower_bound; [exact C|lia]).
    destruct (Nat.lt_ge_cases j (fold_right Nat.add 0 ns)) as [W|W]; [specialize (H W)|]; lia.
Qed.
Print Assumptions C150_offset_partial.

(** reading to the end goes on behind the mapping, for every offset. *)
Theorem C150_offset_refuted : forall cs mapping offset n, cs <> 0 -> length mapping < offset + cs * n -> n <> 0 -> n <= length mapping / cs ->
  reads cs [n] (open_map cs (length mapping) offset) mapping = Outside.
Proof.
  intros cs m off n C O N F. cbn [reads]. unfold read. cbv zeta.
  assert (A : At cs off (length m) 0 (open_map cs (length m) off)) by (unfold At, open_map; cbn [begin_ptr curr_ptr end_ptr]; repeat split; lia).
  rewrite (left cs off (length m) 0 _ C A). destruct (Nat.ltb_spec (length m / cs - 0) n) as [H|_]; [lia|].
  unfold open_map. cbn [curr_ptr]. assert (T : (1 <=? n) && (length m <? off + cs * n) = true).
  { apply andb_true_iff. split; [apply Nat.leb_le; lia|apply Nat.ltb_lt; exact O]. }
  rewrite T. reflexivity.
Qed.
Print Assumptions C150_offset_refuted.

Example C150_example : reads 2 [1; 5] (open_map 2 7 0) [1; 2; 3; 4; 5; 6; 7]%Z = Returns ([[1; 2]; [3; 4; 5; 6]]%Z, Stream 0 6 6) /\
  reads 1 [1; 1] (open_map 1 4 2) [1; 2; 3; 4]%Z = Returns ([[3]; [4]]%Z, Stream 2 4 6) /\
  reads 1 [1; 2] (open_map 1 4 2) [1; 2; 3; 4]%Z = Outside.
Proof. repeat split; reflexivity. Qed.
