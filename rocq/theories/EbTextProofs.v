(** Proofs about texts converted to and from UTF-EBCDIC. *)
From Verif Require Import Base ByteSpec UtfSpec UtfModel UtfProofs UtfLoopProofs UtfSizeProofs EbSpec EbModel EbProofs.

(** ** Decoding one character *)
Definition horner (r : Z) (fs : list Z) : Z := fold_left (fun r f => r * 32 + (f - 0xA0)) fs r.
Lemma horner_split fs : forall r, horner r fs = r * 32 ^ Z.of_nat (length fs) + horner 0 fs.
Proof.
  induction fs as [|f fs IH]; intros r; [cbn; lia|]. change (horner (r * 32 + (f - 160)) fs = r * 32 ^ Z.of_nat (length (f :: fs)) + horner (0 * 32 + (f - 160)) fs).
  rewrite (IH (r * 32 + (f - 160))), (IH (0 * 32 + (f - 160))). cbn [length]. rewrite Nat2Z.inj_succ, Z.pow_succ_r by lia. ring.
Qed.
Lemma horner_bound fs : Forall follows fs -> 0 <= horner 0 fs < 32 ^ Z.of_nat (length fs).
Proof.
  induction 1 as [|f fs Hf H IH]; [cbn; lia|]. change (horner 0 (f :: fs)) with (horner (0 * 32 + (f - 160)) fs). rewrite horner_split. cbn [length]. rewrite Nat2Z.inj_succ, Z.pow_succ_r by lia.
  unfold follows in Hf. set (P := 32 ^ Z.of_nat (length fs)) in *. nia.
Qed.
Lemma follows_shift b : is_byte b -> (Z.shiftr b 5 =? 5) = true <-> follows b.
Proof. intros H. unfold is_byte in H. rewrite (shr b 5 32) by (lia || reflexivity). rewrite Z.eqb_eq. unfold follows. split; lia. Qed.
Lemma lor_low k a b : 0 <= k -> 0 <= b < 2 ^ k -> Z.lor (Z.shiftl a k) b = a * 2 ^ k + b.
Proof. intros Hk Hb. rewrite Z.shiftl_mul_pow2 by exact Hk. apply (lor_const a b k); assumption. Qed.
Lemma follow_all n : forall fs t i k res, length fs = n -> (k + n <= 6)%nat -> Forall follows fs -> 0 <= res < 32 ^ Z.of_nat k ->
  eb_follow i n res (map page (fs ++ t)) = Some (inr (horner res fs)).
Proof.
  induction n as [|n IH]; intros fs t i k res L K H R; destruct fs as [|f fs]; try discriminate; [reflexivity|]. cbn [length] in L. inversion H as [|? ? Hf Hfs]; subst. cbn [app map eb_follow]. cbv zeta.
  assert (Bf : is_byte f) by (unfold follows, is_byte in *; lia). fold (unpage (page f)). rewrite unpage_page by exact Bf. rewrite (proj2 (follows_shift f Bf) Hf). cbn [negb].
  assert (P6 : 32 ^ Z.of_nat k <= 32 ^ 5) by (apply Z.pow_le_mono_r; lia). change (32 ^ 5) with 33554432 in P6.
  unfold wrap. rewrite Z.mod_small. 2: { rewrite Z.shiftl_mul_pow2 by lia. change (2 ^ 5) with 32. change (2 ^ 32) with 4294967296. lia. }
  rewrite (land31 f). rewrite (lor_low 5) by (lia || (apply Z.mod_pos_bound; lia)). change (2 ^ 5) with 32.
  replace (f mod 32) with (f - 160). 2: { unfold follows in Hf. apply (Z.mod_unique f 32 5); lia. }
  rewrite (IH fs t (S i) (S k)); [reflexivity|lia|lia|exact Hfs|]. rewrite Nat2Z.inj_succ, Z.pow_succ_r by lia. unfold follows in Hf. lia.
Qed.
Lemma follow_broken : forall fs x t i n k res, (length fs < n)%nat -> (k + n <= 6)%nat -> Forall follows fs -> ~ follows x -> is_byte x -> 0 <= res < 32 ^ Z.of_nat k ->
  eb_follow i n res (map page (fs ++ x :: t)) = Some (inl (i + length fs)%nat).
Proof.
  induction fs as [|f fs IH]; intros x t i n k res L K H Nx Bx R; (destruct n as [|n]; [cbn in L; lia|]); cbn [app map eb_follow]; cbv zeta.
  - fold (unpage (page x)). rewrite unpage_page by exact Bx. destruct (Z.shiftr x 5 =? 5) eqn:E; [apply follows_shift in E; [contradiction|exact Bx]|]. cbn [negb length]. rewrite Nat.add_0_r. reflexivity.
  - inversion H as [|? ? Hf Hfs]; subst. assert (Bf : is_byte f) by (unfold follows, is_byte in *; lia). fold (unpage (page f)). rewrite unpage_page by exact Bf. rewrite (proj2 (follows_shift f Bf) Hf). cbn [negb].
    assert (P6 : 32 ^ Z.of_nat k <= 32 ^ 5) by (apply Z.pow_le_mono_r; lia). change (32 ^ 5) with 33554432 in P6.
    unfold wrap. rewrite Z.mod_small. 2: { rewrite Z.shiftl_mul_pow2 by lia. change (2 ^ 5) with 32. change (2 ^ 32) with 4294967296. lia. }
    rewrite (land31 f). rewrite (lor_low 5) by (lia || (apply Z.mod_pos_bound; lia)). change (2 ^ 5) with 32.
    replace (f mod 32) with (f - 160). 2: { unfold follows in Hf. apply (Z.mod_unique f 32 5); lia. }
    cbn [length] in *. rewrite (IH x t (S i) n (S k)); [f_equal; f_equal; lia|lia|lia|exact Hfs|exact Nx|exact Bx|]. rewrite Nat2Z.inj_succ, Z.pow_succ_r by lia. unfold follows in Hf. lia.
Qed.

Lemma i8_length_range b : (1 <= i8_length b <= 7)%nat.
Proof. unfold i8_length. repeat match goal with |- context[?a <? ?b] => destruct (a <? b) end; lia. Qed.
Lemma i8_length_lead b : 0xA0 <= b -> (2 <= i8_length b <= 7)%nat.
Proof. intros H. unfold i8_length. destruct (Z.ltb_spec b 0xA0); [lia|]. repeat match goal with |- context[?a <? ?b] => destruct (a <? b) end; lia. Qed.
Lemma adv_single b s : is_byte b -> b < 0xA0 -> eb_advance (map page (b :: s)) = Some (Some (b, 1%nat)).
Proof.
  intros B H. cbn [map eb_advance]. cbv zeta. rewrite shadow_page by exact B. fold (unpage (page b)). rewrite unpage_page by exact B. unfold is_byte in B. unfold shadow8.
  destruct (Z.ltb_spec b 0x20); [reflexivity|]. destruct (Z.ltb_spec b 0x7F); [reflexivity|]. destruct (Z.ltb_spec b 0xA0); [reflexivity|lia].
Qed.
Lemma adv_stray b s : follows b -> eb_advance (map page (b :: s)) = Some (Some (0xFFFD, 1%nat)).
Proof.
  intros F. assert (B : is_byte b) by (unfold follows, is_byte in *; lia). cbn [map eb_advance]. cbv zeta. rewrite shadow_page by exact B. unfold follows in F. unfold shadow8.
  destruct (Z.ltb_spec b 0x20); [lia|]. destruct (Z.ltb_spec b 0x7F); [lia|]. destruct (Z.ltb_spec b 0xA0); [lia|]. destruct (Z.ltb_spec b 0xC0); [reflexivity|lia].
Qed.
Lemma shadow_lead b : is_byte b -> 0xC0 <= b -> tbl utfebcdic_shadow_flags (page b) = Z.of_nat (i8_length b).
Proof.
  intros B H. rewrite shadow_page by exact B. unfold shadow8.
  destruct (Z.ltb_spec b 0x20); [lia|]. destruct (Z.ltb_spec b 0x7F); [lia|]. destruct (Z.ltb_spec b 0xA0); [lia|]. destruct (Z.ltb_spec b 0xC0); [lia|reflexivity].
Qed.
(** What remains after the tests on the first byte. *)
Definition finish (b : Z) (r : option (nat + Z)) : option (option (Z * nat)) :=
  match r with
  | None => None
  | Some (inl i) => Some (Some (0xFFFD, i))
  | Some (inr res) =>
      let n := Z.of_nat (i8_length b) in
      if n =? 2 then Some (Some (Z.lor (Z.shiftl (Z.land b 0x1F) 5) res, 2%nat))
      else if n =? 3 then Some (Some (Z.lor (Z.shiftl (Z.land b 0xF) 10) res, 3%nat))
      else if n =? 4 then Some (Some (Z.lor (Z.shiftl (Z.land b 7) 15) res, 4%nat))
      else if n =? 5 then Some (Some (Z.lor (Z.shiftl (Z.land b 1) 20) res, 5%nat))
      else Some (Some (0xFFFD, i8_length b))
  end.
Lemma adv_lead b s : is_byte b -> 0xC0 <= b -> eb_advance (map page (b :: s)) =
  if (length (b :: s) <? i8_length b)%nat then Some None else finish b (eb_follow 1 (i8_length b - 1) 0 (map page s)).
Proof.
  intros B H. cbn [map eb_advance]. cbv zeta. rewrite (shadow_lead b B H). fold (unpage (page b)). rewrite unpage_page by exact B. pose proof (i8_length_lead b ltac:(lia)) as R.
  destruct (Z.ltb_spec (Z.of_nat (i8_length b)) 2); [lia|]. destruct (Z.eqb_spec (Z.of_nat (i8_length b)) 9); [lia|]. rewrite Nat2Z.id. unfold finish, zlen. cbv zeta. cbn [length]. rewrite map_length.
  destruct (Z.ltb_spec (Z.of_nat (S (length s))) (Z.of_nat (i8_length b))), (Nat.ltb_spec (S (length s)) (i8_length b)); try lia; reflexivity.
Qed.
Lemma adv_unfinished b s : is_byte b -> 0xC0 <= b -> (length (b :: s) < i8_length b)%nat -> eb_advance (map page (b :: s)) = Some None.
Proof. intros B H L. rewrite adv_lead by assumption. apply Nat.ltb_lt in L. rewrite L. reflexivity. Qed.
Lemma adv_whole b fs t : is_byte b -> 0xC0 <= b -> length (b :: fs) = i8_length b -> Forall follows fs ->
  eb_advance (map page (b :: fs ++ t)) = finish b (Some (inr (horner 0 fs))).
Proof.
  intros B H L F. rewrite adv_lead by assumption. pose proof (i8_length_lead b ltac:(lia)) as R. cbn [length] in *. rewrite app_length.
  destruct (Nat.ltb_spec (S (length fs + length t)) (i8_length b)); [lia|]. rewrite (follow_all _ fs t 1 0 0); [reflexivity|lia|lia|exact F|cbn; lia].
Qed.
Lemma adv_char b fs t : is_byte b -> 0xC0 <= b < 0xFC -> length (b :: fs) = i8_length b -> Forall follows fs ->
  eb_advance (map page (b :: fs ++ t)) = Some (Some (i8_value b fs, i8_length b)).
Proof.
  intros B H L F. rewrite adv_whole by (assumption || lia). unfold finish, i8_value. fold horner. change (fold_left (fun r f : Z => r * 32 + (f - 160)) fs) with (fun r => horner r fs). cbv beta zeta.
  pose proof (horner_bound fs F) as R. unfold i8_length in *. unfold is_byte in B.
  destruct (Z.ltb_spec b 0xA0); [lia|]. destruct (Z.ltb_spec b 0xE0); [|destruct (Z.ltb_spec b 0xF0); [|destruct (Z.ltb_spec b 0xF8); [|destruct (Z.ltb_spec b 0xFC); [|lia]]]];
    cbn [length] in L; assert (Lf : length fs = (pred (S (length fs)))) by reflexivity; rewrite L in Lf; cbn [pred] in Lf; rewrite Lf in *; cbn [Z.of_nat Pos.of_succ_nat Pos.succ Z.eqb Pos.eqb] in *.
  - rewrite (land_mask b 5 31) by (lia || reflexivity). rewrite lor_low by (lia || exact R). change (2 ^ 5) with 32 in *. change (32 ^ 1) with 32 in *. replace (b mod 32) with (b - 192); [rewrite (horner_split fs (b - 192)), Lf; reflexivity|]. apply (Z.mod_unique b 32 6); lia.
  - rewrite (land_mask b 4 15) by (lia || reflexivity). rewrite lor_low by (lia || exact R). change (2 ^ 4) with 16 in *. change (2 ^ 10) with (32 ^ 2). replace (b mod 16) with (b - 224); [rewrite (horner_split fs (b - 224)), Lf; reflexivity|]. apply (Z.mod_unique b 16 14); lia.
  - rewrite (land_mask b 3 7) by (lia || reflexivity). rewrite lor_low by (lia || exact R). change (2 ^ 3) with 8 in *. change (2 ^ 15) with (32 ^ 3). replace (b mod 8) with (b - 240); [rewrite (horner_split fs (b - 240)), Lf; reflexivity|]. apply (Z.mod_unique b 8 30); lia.
  - rewrite (land_mask b 1 1) by (lia || reflexivity). rewrite lor_low by (lia || exact R). rewrite (horner_split fs (b mod 2)), Lf. reflexivity.
Qed.
Lemma adv_long b fs t : is_byte b -> 0xFC <= b -> length (b :: fs) = i8_length b -> Forall follows fs ->
  eb_advance (map page (b :: fs ++ t)) = Some (Some (0xFFFD, i8_length b)).
Proof.
  intros B H L F. rewrite adv_whole by (assumption || lia). unfold finish. cbv zeta. unfold i8_length in *. unfold is_byte in B.
  destruct (Z.ltb_spec b 0xA0); [lia|]. destruct (Z.ltb_spec b 0xE0); [lia|destruct (Z.ltb_spec b 0xF0); [lia|destruct (Z.ltb_spec b 0xF8); [lia|destruct (Z.ltb_spec b 0xFC); [lia|]]]]. destruct (b <? 0xFE); reflexivity.
Qed.
Lemma adv_broken b fs x t : is_byte b -> 0xC0 <= b -> (i8_length b <= length (b :: fs ++ x :: t))%nat -> (length (b :: fs) < i8_length b)%nat -> Forall follows fs -> ~ follows x -> is_byte x ->
  eb_advance (map page (b :: fs ++ x :: t)) = Some (Some (0xFFFD, length (b :: fs))).
Proof.
  intros B H L0 L F Nx Bx. rewrite adv_lead by assumption. pose proof (i8_length_lead b ltac:(lia)) as R. destruct (Nat.ltb_spec (length (b :: fs ++ x :: t)) (i8_length b)); [lia|].
  cbn [length] in *. rewrite (follow_broken fs x t 1 _ 0 0); [reflexivity|lia|lia|exact F|exact Nx|exact Bx|cbn; lia].
Qed.

(** ** The reading of a text *)
Definition eb_puts (cw : Z) (cs : list Z) : list Z := flat_map (eb_put cw) cs.
Lemma skip_app {A} (p r : list A) n : n = length p -> skipn n (p ++ r) = r.
Proof. intros ->. apply skipn_app_exact. reflexivity. Qed.
Lemma loop_of_reading cw t cs left : i8_reading t cs left -> Forall is_byte t -> forall f, (length t <= f)%nat ->
  eb_loop f cw (map page t) = Some (eb_puts cw cs, map page left).
Proof.
  assert (Step : forall b s code n p r cs left f, (forall f, (length r <= f)%nat -> eb_loop f cw (map page r) = Some (eb_puts cw cs, map page left)) ->
    b :: s = p ++ r -> n = length p -> (0 < n)%nat -> (length (b :: s) <= f)%nat -> eb_advance (map page (b :: s)) = Some (Some (code, n)) ->
    eb_loop f cw (map page (b :: s)) = Some (eb_puts cw (code :: cs), map page left)).
  { intros b s code n p r cs' left' f IH E Hn N L A. destruct f as [|f]; [cbn in L; lia|].
    assert (Q : eb_loop (S f) cw (map page (b :: s)) = match eb_advance (map page (b :: s)) with None => None | Some None => Some ([], map page (b :: s)) | Some (Some (c, adv)) => emit_eb (eb_put cw c) (eb_loop f cw (skipn adv (map page (b :: s)))) end) by reflexivity.
    rewrite Q, A, E, map_app, skip_app by (rewrite map_length; exact Hn). rewrite IH. { reflexivity. } rewrite E, app_length in L. lia. }
  induction 1 as [|b s H L|b t cs left H R IH|b t cs left H R IH|b fs t cs left H L F R IH|b fs t cs left H L F R IH|b fs x t cs left H L F Nx L2 R IH]; intros B f Lf; try (cbn [app] in B); try (inversion B as [|? ? Bb Bt]; subst).
  - destruct f; reflexivity.
  - destruct f as [|f]; [cbn in Lf; lia|]. change (eb_loop (S f) cw (map page (b :: s))) with (match eb_advance (map page (b :: s)) with None => None | Some None => Some ([], map page (b :: s)) | Some (Some (c, adv)) => emit_eb (eb_put cw c) (eb_loop f cw (skipn adv (map page (b :: s)))) end).
    rewrite adv_unfinished by assumption. reflexivity.
  - apply (Step b t b 1%nat [b] t); [intros g Hg; apply IH; assumption|reflexivity|reflexivity|lia|exact Lf|apply adv_single; assumption].
  - apply (Step b t 0xFFFD 1%nat [b] t); [intros g Hg; apply IH; assumption|reflexivity|reflexivity|lia|exact Lf|apply adv_stray; assumption].
  - pose proof (i8_length_range b). apply Forall_app in Bt as [_ Bt]. apply (Step b (fs ++ t) _ (i8_length b) (b :: fs) t); [intros g Hg; apply IH; assumption|reflexivity|symmetry; exact L|lia|exact Lf|apply adv_char; assumption].
  - pose proof (i8_length_range b). apply Forall_app in Bt as [_ Bt]. apply (Step b (fs ++ t) _ (i8_length b) (b :: fs) t); [intros g Hg; apply IH; assumption|reflexivity|symmetry; exact L|lia|exact Lf|apply adv_long; assumption].
  - apply Forall_app in Bt as [_ Bt]. assert (Bx : is_byte x) by (inversion Bt; assumption).
    apply (Step b (fs ++ x :: t) _ (length (b :: fs)) (b :: fs) (x :: t)); [intros g Hg; apply IH; assumption|reflexivity|reflexivity|cbn; lia|exact Lf|apply adv_broken; assumption].
Qed.
Lemma to_utf_of_reading cw t cs left : i8_reading t cs left -> Forall is_byte t -> eb_to_utf cw (map page t) = Some (eb_puts cw cs, map page left).
Proof. intros R B. unfold eb_to_utf. apply (loop_of_reading cw t cs left R B). rewrite map_length. lia. Qed.
(** The following bytes at the head of a text. *)
Lemma split_follows n : forall s, (n <= length s)%nat -> Forall is_byte s ->
  (exists fs t, s = fs ++ t /\ length fs = n /\ Forall follows fs) \/ (exists fs x t, s = fs ++ x :: t /\ (length fs < n)%nat /\ Forall follows fs /\ ~ follows x /\ is_byte x).
Proof.
  induction n as [|n IH]; intros s L B; [left; exists [], s; auto|]. destruct s as [|x s]; [cbn in L; lia|]. inversion B as [|? ? Bx Bs]; subst.
  assert (D : follows x \/ ~ follows x) by (unfold follows; lia). destruct D as [D|D].
  - destruct (IH s ltac:(cbn in L; lia) Bs) as [(fs & t & -> & Lf & F)|(fs & y & t & -> & Lf & F & Ny & By)].
    + left. exists (x :: fs), t. cbn. auto.
    + right. exists (x :: fs), y, t. cbn. split; [reflexivity|]. split; [lia|]. auto.
  - right. exists [], x, s. cbn. split; [reflexivity|]. split; [lia|]. auto.
Qed.
Lemma reading_total t : Forall is_byte t -> exists cs left, i8_reading t cs left.
Proof.
  remember (length t) as n eqn:En. revert t En. induction n as [n IH] using lt_wf_ind. intros t En B. destruct t as [|b s]; [exists [], []; constructor|].
  inversion B as [|? ? Bb Bs]; subst. unfold is_byte in Bb. cbn [length] in IH.
  destruct (Z.ltb_spec b 0xA0). { destruct (IH (length s) ltac:(lia) s eq_refl Bs) as (cs & left & R). exists (b :: cs), left. constructor; assumption. }
  destruct (Z.ltb_spec b 0xC0). { destruct (IH (length s) ltac:(lia) s eq_refl Bs) as (cs & left & R). exists (0xFFFD :: cs), left. apply i8_stray; [unfold follows; lia|assumption]. }
  pose proof (i8_length_lead b ltac:(lia)) as Lb. destruct (Nat.ltb_spec (length (b :: s)) (i8_length b)) as [L|L]; [exists [], (b :: s); apply i8_unfinished; assumption|].
  cbn [length] in L. destruct (split_follows (i8_length b - 1) s ltac:(lia) Bs) as [(fs & t & -> & Lf & F)|(fs & x & t & -> & Lf & F & Nx & Bx)].
  - apply Forall_app in Bs as [_ Bt]. destruct (IH (length t) ltac:(rewrite app_length; lia) t eq_refl Bt) as (cs & left & R). destruct (Z.ltb_spec b 0xFC).
    + exists (i8_value b fs :: cs), left. apply (i8_char b fs t); [lia|cbn [length]; lia|exact F|exact R].
    + exists (0xFFFD :: cs), left. apply (i8_long b fs t); [lia|cbn [length]; lia|exact F|exact R].
  - apply Forall_app in Bs as [_ Bt]. destruct (IH (length (x :: t)) ltac:(rewrite app_length; cbn [length]; lia) (x :: t) eq_refl Bt) as (cs & left & R).
    exists (0xFFFD :: cs), left. apply (i8_broken b fs x t); try assumption; cbn [length app]; lia.
Qed.
Lemma reading_text cs : Forall (fun c => 0 <= c < 0x110000) cs -> forall p q, i8_reading p [] q \/ (p = [] /\ q = []) -> i8_reading (flat_map i8 cs ++ p) cs q.
Proof.
  induction 1 as [|c cs Hc H IH]; intros p q P; [cbn; destruct P as [P|[-> ->]]; [exact P|constructor]|]. cbn [flat_map]. destruct (i8_form c Hc) as (b & fs & E & Bb & F & L & V). rewrite E, <- app_assoc.
  specialize (IH p q P). destruct V as [(Hb & -> & ->)|(Hb & V)].
  - cbn [app]. apply i8_single; assumption.
  - rewrite V. apply i8_char; assumption.
Qed.
(** Readings of a text in two parts. *)
Lemma reading_app t cs left : i8_reading t cs left -> forall u cs' left', i8_reading (left ++ u) cs' left' -> i8_reading (t ++ u) (cs ++ cs') left'.
Proof.
  induction 1 as [|b s H L|b t cs left H R IH|b t cs left H R IH|b fs t cs left H L F R IH|b fs t cs left H L F R IH|b fs x t cs left H L F Nx L2 R IH]; intros u cs' left' R'; rewrite <- ?app_assoc; cbn [app]; try assumption.
  - apply i8_single; auto.
  - apply i8_stray; auto.
  - apply (i8_char b fs (t ++ u)); auto.
  - apply (i8_long b fs (t ++ u)); auto.
  - apply (i8_broken b fs x (t ++ u)); try assumption; [rewrite !app_length in *; cbn [length] in *; rewrite app_length; lia|]. apply (IH u); assumption.
Qed.
Lemma reading_left t cs left : i8_reading t cs left -> left = [] \/ exists b s, left = b :: s /\ 0xC0 <= b /\ (length (b :: s) < i8_length b)%nat.
Proof. induction 1; auto. right. exists b, s. auto. Qed.
Lemma reading_suffix t cs left : i8_reading t cs left -> exists p, t = p ++ left.
Proof.
  induction 1 as [|b s H L|b t cs left H R IH|b t cs left H R IH|b fs t cs left H L F R IH|b fs t cs left H L F R IH|b fs x t cs left H L F Nx L2 R IH]; try (destruct IH as (p & ->)).
  - exists []. reflexivity.
  - exists []. reflexivity.
  - exists (b :: p). reflexivity.
  - exists (b :: p). reflexivity.
  - exists ((b :: fs) ++ p). apply app_assoc.
  - exists ((b :: fs) ++ p). apply app_assoc.
  - exists ((b :: fs) ++ p). apply app_assoc.
Qed.
Lemma reading_codes t cs left : i8_reading t cs left -> Forall is_byte t -> Forall (fun c => 0 <= c < 2 ^ 21) cs /\ (length cs + length left <= length t)%nat.
Proof.
  assert (K : 0 <= 0xFFFD < 2 ^ 21) by (change (2 ^ 21) with 2097152; lia).
  induction 1 as [|b s H L|b t cs left H R IH|b t cs left H R IH|b fs t cs left H L F R IH|b fs t cs left H L F R IH|b fs x t cs left H L F Nx L2 R IH]; intros B; try (cbn [app] in B); try (inversion B as [|? ? Bb Bt]; subst); cbn [length].
  - auto.
  - split; [constructor|lia].
  - destruct (IH Bt) as [C N]. split; [constructor; [unfold is_byte in Bb; change (2 ^ 21) with 2097152; lia|exact C]|lia].
  - destruct (IH Bt) as [C N]. split; [constructor; assumption|lia].
  - apply Forall_app in Bt as [_ Bt]. destruct (IH Bt) as [C N]. split; [constructor; [|exact C]|cbn [app length]; rewrite app_length; lia].
    unfold i8_value. cbv zeta. change (fold_left (fun r f : Z => r * 32 + (f - 160)) fs) with (fun r => horner r fs). cbv beta. rewrite horner_split. pose proof (horner_bound fs F) as P.
    unfold i8_length in L. destruct (Z.ltb_spec b 0xA0); [lia|].
    destruct (Z.ltb_spec b 0xE0); [|destruct (Z.ltb_spec b 0xF0); [|destruct (Z.ltb_spec b 0xF8); [|destruct (Z.ltb_spec b 0xFC); [|lia]]]];
      cbn [length] in L; assert (Lf : length fs = (pred (S (length fs)))) by reflexivity; rewrite L in Lf; cbn [pred] in Lf; rewrite Lf in *; clear Lf L; cbn [Z.of_nat Pos.of_succ_nat Pos.succ] in *;
      change (32 ^ 1) with 32 in *; change (32 ^ 2) with 1024 in *; change (32 ^ 3) with 32768 in *; change (32 ^ 4) with 1048576 in *; change (2 ^ 21) with 2097152.
    + lia.
    + lia.
    + lia.
    + pose proof (Z.mod_pos_bound b 2 ltac:(lia)). lia.
  - apply Forall_app in Bt as [_ Bt]. destruct (IH Bt) as [C N]. split; [constructor; assumption|cbn [app length]; rewrite app_length; lia].
  - apply Forall_app in Bt as [_ Bt]. destruct (IH Bt) as [C N]. split; [constructor; assumption|]. cbn [app length] in *. rewrite app_length. cbn [length]. lia.
Qed.

(** ** Chunks *)
Definition pending8 (p : list Z) : Prop := p = [] \/ exists b s, p = b :: s /\ 0xC0 <= b /\ (length (b :: s) < i8_length b)%nat.
Lemma pending_reading p : pending8 p -> i8_reading p [] p.
Proof. intros [->|(b & s & -> & H & L)]; [constructor|apply i8_unfinished; assumption]. Qed.
Lemma state_sound cw p u o st : pending8 p -> Forall is_byte p -> Forall is_byte u -> eb_state cw (map page p) (map page u) = Some (o, st) ->
  exists cs left, i8_reading (p ++ u) cs left /\ o = eb_puts cw cs /\ st = map page left.
Proof.
  intros P Bp Bu E. destruct P as [->|(b & s & -> & H & L)].
  { cbn [map eb_state app] in *. destruct (reading_total u Bu) as (cs & left & R). rewrite (to_utf_of_reading cw u cs left R Bu) in E. exists cs, left. split; [exact R|]. split; congruence. }
  destruct u as [|x u]. { cbn [map eb_state] in E. exists [], (b :: s). rewrite app_nil_r. split; [apply i8_unfinished; assumption|]. assert (o = []) by congruence. assert (st = page b :: map page s) by congruence. subst. split; reflexivity. }
  remember (x :: u) as U eqn:EU. assert (E' : eb_state cw (map page (b :: s)) (map page U) =
    let bytes := map page ((b :: s) ++ firstn (Nat.min (length U) (8 - length (b :: s))) U) in
    match eb_advance bytes with None => None | Some None => Some ([], bytes) | Some (Some (code, adv)) =>
      if (adv <? length (b :: s))%nat then None else emit_eb (eb_put cw code) (eb_to_utf cw (skipn (adv - length (b :: s)) (map page U))) end).
  { rewrite EU. cbv zeta. rewrite map_app, <- firstn_map. rewrite <- (map_length page (b :: s)), <- (map_length page (x :: u)). reflexivity. }
  rewrite E' in E. clear E'. cbv zeta in E. clear EU x u. set (tk := Nat.min (length U) (8 - length (b :: s))) in *. set (w := (b :: s) ++ firstn tk U) in *.
  assert (Hw : (b :: s) ++ U = w ++ skipn tk U) by (unfold w; rewrite <- app_assoc, firstn_skipn; reflexivity).
  assert (Bw : Forall is_byte ((b :: s) ++ U)) by (apply Forall_app; auto). assert (Bb : is_byte b) by (inversion Bp; assumption).
  pose proof (i8_length_lead b ltac:(lia)) as Lb. assert (Lw : length w = (length (b :: s) + tk)%nat) by (unfold w; rewrite app_length, firstn_length; unfold tk; lia).
  destruct (Nat.ltb_spec (length w) (i8_length b)) as [Lt|Lt].
  { assert (Tk : tk = length U) by (unfold tk in *; lia). assert (Ew : w = (b :: s) ++ U) by (unfold w; rewrite Tk, firstn_all; reflexivity). rewrite Ew in *. cbn [app] in E. rewrite adv_unfinished in E by assumption.
    exists [], ((b :: s) ++ U). split; [apply i8_unfinished; assumption|]. cbn [app]. assert (o = []) by congruence. assert (st = map page (b :: s ++ U)) by congruence. subst. split; reflexivity. }
  assert (Bt : Forall is_byte (s ++ firstn tk U)) by (rewrite Hw in Bw; apply Forall_app in Bw as [Bw _]; unfold w in Bw; cbn [app] in Bw; inversion Bw; assumption).
  assert (Fin : forall code fs r, (b :: s) ++ U = (b :: fs) ++ r -> eb_advance (map page w) = Some (Some (code, length (b :: fs))) ->
    (forall cs left, i8_reading r cs left -> i8_reading ((b :: s) ++ U) (code :: cs) left) -> exists cs left, i8_reading ((b :: s) ++ U) cs left /\ o = eb_puts cw cs /\ st = map page left).
  { intros code fs r Er A K. rewrite A in E. destruct (Nat.ltb_spec (length (b :: fs)) (length (b :: s))) as [La|La]; [discriminate|].
    assert (Sk : skipn (length (b :: fs) - length (b :: s)) U = r).
    { assert (Q : skipn (length (b :: fs)) ((b :: s) ++ U) = r) by (rewrite Er; apply skip_app; reflexivity). rewrite skipn_app, skipn_all2 in Q by exact La. exact Q. }
    rewrite skipn_map, Sk in E. assert (Br : Forall is_byte r) by (rewrite Er in Bw; apply Forall_app in Bw; apply Bw).
    destruct (reading_total r Br) as (cs & left & R). rewrite (to_utf_of_reading cw r cs left R Br) in E. unfold emit_eb in E. cbn [option_map fst snd] in E. exists (code :: cs), left. split; [apply K, R|]. split; [|congruence]. unfold eb_puts in *. cbn [flat_map]. congruence. }
  assert (Es : w = b :: (s ++ firstn tk U)) by reflexivity.
  destruct (split_follows (i8_length b - 1) (s ++ firstn tk U)) as [(fs & t & Et & Lf & F)|(fs & x & t & Et & Lf & F & Nx & Bx)].
  { rewrite Es in Lt. cbn [length] in Lt. lia. } { exact Bt. }
  - rewrite Et in Es. assert (Er : (b :: s) ++ U = (b :: fs) ++ (t ++ skipn tk U)) by (rewrite Hw, Es, app_assoc; reflexivity). assert (Ln : length (b :: fs) = i8_length b) by (cbn [length]; lia).
    destruct (Z.ltb_spec b 0xFC).
    + apply (Fin (i8_value b fs) fs _ Er); [rewrite Es, Ln; apply adv_char; (assumption || lia)|]. intros cs left R. rewrite Er. apply i8_char; (assumption || lia).
    + apply (Fin 0xFFFD fs _ Er); [rewrite Es, Ln; apply adv_long; (assumption || lia)|]. intros cs left R. rewrite Er. apply i8_long; (assumption || lia).
  - rewrite Et in Es. assert (Er : (b :: s) ++ U = (b :: fs) ++ ((x :: t) ++ skipn tk U)) by (rewrite Hw, Es, app_assoc; reflexivity).
    rewrite Es in Lt. apply (Fin 0xFFFD fs _ Er); [rewrite Es; apply adv_broken; (assumption || (cbn [length]; lia))|]. intros cs left R. rewrite Er. apply (i8_broken b fs x (t ++ skipn tk U)); try assumption; [cbn [length]; lia|].
    change ((b :: fs) ++ x :: t ++ skipn tk U) with ((b :: fs) ++ (x :: t) ++ skipn tk U). rewrite app_assoc, app_length. change ((b :: fs) ++ x :: t) with (b :: fs ++ x :: t). lia.
Qed.
Lemma chunks_sound cw chunks : forall p r, pending8 p -> Forall is_byte p -> Forall (Forall is_byte) chunks -> eb_chunks cw (map page p) (map (map page) chunks) = Some r ->
  exists cs left, i8_reading (p ++ concat chunks) cs left /\ r = (eb_puts cw cs, map page left).
Proof.
  induction chunks as [|u chunks IH]; intros p r P Bp Bc E.
  - cbn [map eb_chunks concat] in *. exists [], p. rewrite app_nil_r. split; [apply pending_reading, P|]. change (eb_puts cw []) with (@nil Z). congruence.
  - inversion Bc as [|? ? Bu Bc']; subst. cbn [map eb_chunks] in E. destruct (eb_state cw (map page p) (map page u)) as [[o st]|] eqn:Es; [|discriminate].
    destruct (state_sound cw p u o st P Bp Bu Es) as (cs & left & R & -> & ->). unfold emit_eb in E. destruct (eb_chunks cw (map page left) (map (map page) chunks)) as [r'|] eqn:Er; [|discriminate].
    destruct (reading_suffix _ _ _ R) as (q & Q). assert (Bl : Forall is_byte left) by (assert (B : Forall is_byte (p ++ u)) by (apply Forall_app; auto); rewrite Q in B; apply Forall_app in B; apply B).
    destruct (IH left r' (reading_left _ _ _ R) Bl Bc' Er) as (cs' & left' & R' & ->). cbn [option_map fst snd] in E. exists (cs ++ cs'), left'. cbn [concat]. rewrite app_assoc. split; [apply (reading_app _ _ _ R), R'|].
    unfold eb_puts in *. rewrite flat_map_app. congruence.
Qed.
(** A text cut in two. *)
Lemma cut_text cs : Forall (fun c => 0 <= c < 0x110000) cs -> forall t rest, t ++ rest = flat_map i8 cs ->
  exists cs1 cs2 p, cs = cs1 ++ cs2 /\ t = flat_map i8 cs1 ++ p /\ p ++ rest = flat_map i8 cs2 /\ pending8 p.
Proof.
  induction 1 as [|c cs Hc H IH]; intros t rest E.
  - apply app_eq_nil in E as [-> ->]. exists [], [], []. repeat split. left. reflexivity.
  - cbn [flat_map] in E. destruct (Nat.ltb_spec (length t) (length (i8 c))) as [L|L].
    + exists [], (c :: cs), t. split; [reflexivity|]. split; [reflexivity|]. split; [exact E|]. destruct t as [|b t]; [left; reflexivity|right]. destruct (i8_form c Hc) as (b' & fs & Ei & Bb & F & Ln & V). rewrite Ei in *. assert (b = b') by (cbn [app] in E; congruence). subst b'.
      exists b, t. split; [reflexivity|]. rewrite Ln in L. split; [|exact L]. destruct V as [(Hb & -> & _)|(Hb & _)]; [|lia]. cbn [length] in *. lia.
    + assert (Et : t = i8 c ++ skipn (length (i8 c)) t). { rewrite <- (firstn_skipn (length (i8 c)) t) at 1. f_equal. assert (Q : firstn (length (i8 c)) (t ++ rest) = firstn (length (i8 c)) (i8 c ++ flat_map i8 cs)) by (rewrite E; reflexivity).
        rewrite !firstn_app in Q. replace (length (i8 c) - length t)%nat with O in Q by lia. rewrite Nat.sub_diag in Q. cbn [firstn] in Q. rewrite !app_nil_r in Q. rewrite Q. apply firstn_all. }
      rewrite Et, <- app_assoc in E. apply app_inv_head in E. destruct (IH _ _ E) as (cs1 & cs2 & p & -> & E2 & E3 & P). exists (c :: cs1), cs2, p. split; [reflexivity|]. split; [|split; assumption].
      rewrite Et at 1. rewrite E2. cbn [flat_map]. apply app_assoc.
Qed.
Lemma i8_bytes c : 0 <= c < 0x110000 -> Forall is_byte (i8 c).
Proof. intros H. destruct (i8_form c H) as (b & fs & -> & Bb & F & _). constructor; [exact Bb|]. eapply Forall_impl; [|exact F]. intros f Hf. unfold follows, is_byte in *. lia. Qed.
Lemma text_bytes8 cs : Forall (fun c => 0 <= c < 0x110000) cs -> Forall is_byte (flat_map i8 cs).
Proof. intros H. apply Forall_flat_map. eapply Forall_impl; [|exact H]. exact i8_bytes. Qed.
Lemma state_text cw p u rest cs : Forall (fun c => 0 <= c < 0x110000) cs -> pending8 p -> p ++ u ++ rest = flat_map i8 cs -> eb_state cw (map page p) (map page u) <> None.
Proof.
  intros Hcs P E. pose proof (text_bytes8 cs Hcs) as B. rewrite <- E in B. apply Forall_app in B as [Bp B]. apply Forall_app in B as [Bu Br].
  destruct P as [->|(b & s & -> & H & L)].
  { cbn [map eb_state]. destruct (reading_total u Bu) as (ds & left & R). rewrite (to_utf_of_reading cw u ds left R Bu). discriminate. }
  destruct u as [|x u]; [cbn [map eb_state]; discriminate|]. remember (x :: u) as U eqn:EU.
  assert (E' : eb_state cw (map page (b :: s)) (map page U) =
    let bytes := map page ((b :: s) ++ firstn (Nat.min (length U) (8 - length (b :: s))) U) in
    match eb_advance bytes with None => None | Some None => Some ([], bytes) | Some (Some (code, adv)) =>
      if (adv <? length (b :: s))%nat then None else emit_eb (eb_put cw code) (eb_to_utf cw (skipn (adv - length (b :: s)) (map page U))) end).
  { rewrite EU. cbv zeta. rewrite map_app, <- firstn_map. rewrite <- (map_length page (b :: s)), <- (map_length page (x :: u)). reflexivity. }
  rewrite E'. clear E' EU x u. cbv zeta. set (tk := Nat.min (length U) (8 - length (b :: s))). set (w := (b :: s) ++ firstn tk U).
  assert (Bb : is_byte b) by (inversion Bp; assumption).
  destruct (Nat.ltb_spec (length w) (i8_length b)) as [Lt|Lt]; [unfold w in *; cbn [app] in *; rewrite adv_unfinished by assumption; discriminate|].
  assert (Hw : w ++ (skipn tk U ++ rest) = flat_map i8 cs) by (rewrite <- E; unfold w; rewrite <- app_assoc; f_equal; rewrite app_assoc, firstn_skipn; reflexivity).
  destruct cs as [|c cs]; [cbn in E; discriminate|]. inversion Hcs as [|? ? Hc Hcs']; subst. cbn [flat_map] in E, Hw. destruct (i8_form c Hc) as (b' & fs & Ei & _ & F & Ln & V). rewrite Ei in *. assert (b = b') by (cbn [app] in E; congruence). subst b'.
  assert (V' : 0xC0 <= b < 0xFC) by (destruct V as [(V & _)|(V & _)]; lia). clear V.
  assert (Et : w = (b :: fs) ++ skipn (length (b :: fs)) w). { rewrite <- (firstn_skipn (length (b :: fs)) w) at 1. f_equal. assert (Q : firstn (length (b :: fs)) (w ++ skipn tk U ++ rest) = firstn (length (b :: fs)) ((b :: fs) ++ flat_map i8 cs)) by (rewrite Hw; reflexivity).
    rewrite (firstn_app _ w), (firstn_app _ (b :: fs)) in Q. replace (length (b :: fs) - length w)%nat with O in Q by lia. rewrite Nat.sub_diag in Q. cbn [firstn] in Q. rewrite !app_nil_r in Q. rewrite Q. apply firstn_all. }
  rewrite Et. cbn [app]. rewrite adv_char by assumption. destruct (Nat.ltb_spec (i8_length b) (length (b :: s))) as [La|La]; [lia|]. rewrite skipn_map.
  set (r := skipn (i8_length b - length (b :: s)) U). assert (Brr : Forall is_byte r). { assert (Q : Forall is_byte (firstn (i8_length b - length (b :: s)) U ++ r)) by (unfold r; rewrite firstn_skipn; exact Bu). apply Forall_app in Q. apply Q. }
  destruct (reading_total r Brr) as (ds & left & R). rewrite (to_utf_of_reading cw r ds left R Brr). discriminate.
Qed.
Lemma chunks_text cw chunks : forall p cs, Forall (fun c => 0 <= c < 0x110000) cs -> pending8 p -> p ++ concat chunks = flat_map i8 cs ->
  eb_chunks cw (map page p) (map (map page) chunks) = Some (eb_puts cw cs, []).
Proof.
  induction chunks as [|u chunks IH]; intros p cs H P E.
  - cbn [concat map eb_chunks] in *. rewrite app_nil_r in E. pose proof (reading_text cs H [] [] (or_intror (conj eq_refl eq_refl))) as R. rewrite app_nil_r in R.
    pose proof (pending_reading p P) as R'. rewrite E in R'. pose proof (to_utf_of_reading cw _ _ _ R (text_bytes8 cs H)) as A. pose proof (to_utf_of_reading cw _ _ _ R' (text_bytes8 cs H)) as A'. rewrite E. rewrite A in A'. symmetry. exact A'.
  - cbn [concat map eb_chunks] in *. pose proof (state_text cw p u (concat chunks) cs H P E) as N. destruct (eb_state cw (map page p) (map page u)) as [[o st]|] eqn:Es; [clear N|contradiction].
    pose proof (text_bytes8 cs H) as B. rewrite <- E in B. apply Forall_app in B as [Bp B]. apply Forall_app in B as [Bu Br].
    destruct (state_sound cw p u o st P Bp Bu Es) as (ds & left & R & -> & ->). rewrite app_assoc in E. destruct (cut_text cs H (p ++ u) (concat chunks) E) as (cs1 & cs2 & q & -> & E1 & E2 & Q).
    apply Forall_app in H as [H1 H2]. assert (Bpu : Forall is_byte (p ++ u)) by (apply Forall_app; auto).
    pose proof (reading_text cs1 H1 q q (or_introl (pending_reading q Q))) as R1. rewrite <- E1 in R1. pose proof (to_utf_of_reading cw _ _ _ R Bpu) as A. rewrite (to_utf_of_reading cw _ _ _ R1 Bpu) in A.
    assert (Eo : eb_puts cw ds = eb_puts cw cs1) by congruence. assert (El : map page left = map page q) by congruence. rewrite El, Eo, (IH q cs2 H2 Q E2). unfold emit_eb, eb_puts. cbn [option_map fst snd]. rewrite flat_map_app. reflexivity.
Qed.

(** ** Encoding *)
Lemma from8_dec f : forall s, Forall is_byte s -> eb_from8 f s = (flat_map eb_encode (fst (u8_loop f 32 true s)), snd (u8_loop f 32 true s)).
Proof.
  induction f as [|f IH]; intros s B; [reflexivity|]. destruct s as [|b s]; [reflexivity|]. cbn [eb_from8 u8_loop]. inversion B as [|? ? Bb Bs]; subst. unfold is_byte in Bb. destruct (Z.ltb_spec b 0x80).
  - rewrite (IH s Bs). destruct (u8_loop f 32 true s) as [o r]. cbn [fst snd flat_map sw]. f_equal. unfold eb_encode at 2. destruct (Z.ltb_spec b 0xA0); [reflexivity|lia].
  - destruct (utf8_advance (b :: s)) as [[code s2]|] eqn:A; [|reflexivity]. rewrite (IH s2) by exact (advance_bytes _ _ _ B A). destruct (u8_loop f 32 true s2) as [o r]. reflexivity.
Qed.
Lemma encode_text cs : Forall (fun c => 0 <= c < 0x110000) cs -> flat_map eb_encode cs = ebcdic_text page cs.
Proof. unfold ebcdic_text. induction 1 as [|c cs Hc H IH]; [reflexivity|]. cbn [flat_map]. rewrite encode_i8, IH by exact Hc. reflexivity. Qed.
Lemma ebcdic_flat cs : ebcdic_text page cs = map page (flat_map i8 cs).
Proof. unfold ebcdic_text. induction cs as [|c cs IH]; [reflexivity|]. cbn [flat_map]. rewrite map_app, IH. reflexivity. Qed.
Lemma invalid_feff : eb_invalid = map page (i8 0xFEFF). Proof. reflexivity. Qed.
Lemma from16_text cs : Forall scalar cs -> eb_from16 (utf_text 16 cs) = (flat_map eb_encode cs, []).
Proof.
  induction 1 as [|c cs Hc H IH]; [reflexivity|]. change (utf_text 16 (c :: cs)) with (utf16 c ++ utf_text 16 cs). unfold utf16. destruct (Z.ltb_spec c 65536) as [L|L]; cbn [app eb_from16]; cbv zeta.
  - destruct Hc as [Hc N]. rewrite surr_false by (unfold is_u16; lia). rewrite IH. reflexivity.
  - assert (Hh : hi_unit (55296 + (c - 65536) / 1024)) by (unfold hi_unit; destruct Hc; lia). assert (Hl : lo_unit (56320 + (c - 65536) mod 1024)) by (unfold lo_unit; lia).
    rewrite surr_true by (unfold hi_unit in Hh; lia). rewrite high_true, low_true by assumption. rewrite surr_pair by assumption.
    replace (65536 + (55296 + (c - 65536) / 1024 - 55296) * 1024 + (56320 + (c - 65536) mod 1024 - 56320)) with c by lia. rewrite IH. reflexivity.
Qed.
Lemma scalar_code cs : Forall scalar cs -> Forall (fun c => 0 <= c < 0x110000) cs.
Proof. intros H. eapply Forall_impl; [|exact H]. intros c [Hc _]. lia. Qed.
Lemma to_eb_text a cs : In a [8; 16; 32] -> Forall scalar cs -> utf_to_eb a (utf_text a cs) = (ebcdic_text page cs, []).
Proof.
  intros Ha H. rewrite <- (encode_text cs (scalar_code cs H)). unfold utf_to_eb. destruct Ha as [<-|[<-|[<-|[]]]]; cbn [Z.eqb Pos.eqb].
  - assert (B : Forall is_byte (utf_text 8 cs)) by (apply text_bytes, H). rewrite from8_dec by exact B. fold (dec8 32 true (utf_text 8 cs)). pose proof (dec8_text 32 true cs [] ltac:(cbn; auto) H ltac:(constructor)) as D. rewrite app_nil_r in D. rewrite D. cbn [dec8 u8_loop length fst snd]. rewrite app_nil_r.
    rewrite text_units by (cbn; auto). rewrite text32. reflexivity.
  - apply from16_text, H.
  - rewrite text32. reflexivity.
Qed.
Lemma put_utf_eb cw u : In cw [8; 16; 32] -> scalar u -> eb_put cw u = utf_units cw u.
Proof.
  intros Hd [Hu _]. unfold eb_put. rewrite <- (units_spec cw u Hd Hu). destruct (Z.eqb_spec cw 32) as [->|]; [|reflexivity]. rewrite units_spec by (auto; lia). reflexivity.
Qed.
Lemma puts_eb cw cs : In cw [8; 16; 32] -> Forall scalar cs -> eb_puts cw cs = utf_text cw cs.
Proof. intros Hw H. unfold eb_puts, utf_text. induction H as [|c cs Hc H IH]; [reflexivity|]. cbn [flat_map]. rewrite put_utf_eb, IH by assumption. reflexivity. Qed.
(** Any source. *)
Lemma i8_len c : (length (i8 c) <= 5)%nat.
Proof. unfold i8. repeat match goal with |- context[?a <? ?b] => destruct (a <? b) end; cbn [length]; lia. Qed.
Lemma ebcdic_len cs : (length (ebcdic_text page cs) <= 5 * length cs)%nat.
Proof. rewrite ebcdic_flat, map_length. induction cs as [|c cs IH]; [cbn; lia|]. cbn [flat_map length]. rewrite app_length. pose proof (i8_len c). lia. Qed.
Lemma encode_any c : 0 <= c < 2 ^ 32 -> eb_encode c = map page (i8 (if c <? 0x110000 then c else 0xFEFF)).
Proof.
  intros H. destruct (Z.ltb_spec c 0x110000); [apply encode_i8; lia|]. rewrite <- invalid_feff. unfold eb_encode. cbv zeta.
  repeat match goal with |- context[if ?a <? ?b then _ else _] => destruct (Z.ltb_spec a b); [lia|] end. reflexivity.
Qed.
Lemma from16_any s : Forall is_u16 s -> exists cs left, eb_from16 s = (ebcdic_text page cs, left) /\ Forall (fun c => 0 <= c < 0x110000) cs /\ (length cs <= length s)%nat.
Proof.
  remember (length s) as n eqn:En. revert s En. induction n as [n IH] using lt_wf_ind. intros s En Hs. destruct s as [|a s]; [exists [], []; repeat split; [constructor|cbn; lia]|].
  inversion Hs as [|? ? Ha Hs1]; subst. cbn [length] in *. cbn [eb_from16]. cbv zeta. unfold is_u16 in Ha.
  assert (One : forall c s', 0 <= c < 0x110000 -> Forall is_u16 s' -> (length s' <= length s)%nat ->
    exists cs left, (let '(o1, r1) := eb_from16 s' in (map page (i8 c) ++ o1, r1)) = (ebcdic_text page cs, left) /\ Forall (fun c => 0 <= c < 0x110000) cs /\ (length cs <= S (length s))%nat).
  { intros c s' Hc Hs' L. destruct (IH (length s') ltac:(lia) s' eq_refl Hs') as (cs & left & E & C & N). rewrite E. exists (c :: cs), left. split; [reflexivity|]. split; [constructor; assumption|cbn [length]; lia]. }
  destruct (is_surrogate a) eqn:Es.
  - destruct (is_high a) eqn:Eh.
    + destruct s as [|b s]; [exists [], [a]; repeat split; [constructor|cbn; lia]|]. inversion Hs1 as [|? ? Hb Hs2]; subst. destruct (is_low b) eqn:El.
      * rewrite (high_spec a Ha) in Eh. rewrite (low_spec b Hb) in El. apply Bool.andb_true_iff in Eh as [E1 E2]. apply Bool.andb_true_iff in El as [E3 E4]. apply Z.leb_le in E1, E2, E3, E4.
        rewrite surr_pair by (unfold hi_unit, lo_unit; lia). rewrite encode_i8 by lia. apply One; [lia|exact Hs2|cbn; lia].
      * rewrite invalid_feff. apply One; [lia|exact Hs2|cbn; lia].
    + rewrite invalid_feff. apply One; [lia|exact Hs1|lia].
  - rewrite encode_i8 by lia. apply One; [lia|exact Hs1|lia].
Qed.
Lemma to_eb_any a s : In a [8; 16; 32] -> Forall (fun u => 0 <= u < 2 ^ a) s ->
  exists cs left, utf_to_eb a s = (ebcdic_text page cs, left) /\ Forall (fun c => 0 <= c < 0x110000) cs /\ (length cs <= length s)%nat.
Proof.
  intros Ha H. unfold utf_to_eb. destruct Ha as [<-|[<-|[<-|[]]]]; cbn [Z.eqb Pos.eqb].
  - assert (B : Forall is_byte s) by (eapply Forall_impl; [|exact H]; intros b Hb; cbv beta in Hb; unfold is_byte; change (2 ^ 8) with 256 in Hb; lia).
    rewrite from8_dec by exact B. fold (dec8 32 true s). destruct (dec8_scalars 32 s ltac:(cbn; auto) B) as (cs & Sc & L & E). rewrite E, text32. exists cs, (snd (dec8 32 true s)). split; [rewrite encode_text by (apply scalar_code, Sc); reflexivity|]. split; [apply scalar_code, Sc|exact L].
  - apply from16_any. eapply Forall_impl; [|exact H]. intros b Hb. cbv beta in Hb. unfold is_u16. change (2 ^ 16) with 65536 in Hb. lia.
  - exists (map (fun c => if c <? 0x110000 then c else 0xFEFF) s), []. split; [|split].
    + unfold eb_from32. f_equal. unfold ebcdic_text. induction H as [|c s Hc H IH]; [reflexivity|]. cbn [map flat_map]. rewrite IH. rewrite encode_any by exact Hc. reflexivity.
    + apply Forall_map. eapply Forall_impl; [|exact H]. intros c Hc. cbv beta in Hc. destruct (Z.ltb_spec c 0x110000); lia.
    + rewrite map_length. lia.
Qed.
