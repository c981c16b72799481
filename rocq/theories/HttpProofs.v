(** Proofs about HttpModel: the scanner. *)
From Coq Require Import List Bool PeanoNat Lia.
From Verif Require Import Base HttpModel HttpSpec.
Import ListNotations.
Local Open Scope nat_scope.

(** One character at a time.  sw: still in the switch on the state carried over from the previous buffer. *)
Inductive mres := More (st : nat) | Done (rest : list Z) | Bad.
Definition restart (c : Z) : nat := if (c =? 13)%Z then 1 else 0.
Fixpoint mach (sw : bool) (st : nat) (s : list Z) : mres :=
  match s with
  | [] => More st
  | c :: r =>
      match st with
      | 1 => if (c =? 10)%Z then mach sw 2 r else if sw then mach false (restart c) r else Bad
      | 2 => if (c =? 13)%Z then mach sw 3 r else mach false 0 r
      | 3 => if (c =? 10)%Z then Done r else if sw then mach false (restart c) r else Bad
      | _ => mach false (restart c) r
      end
  end.

Lemma find_ch_spec : forall ch n s a b, find_ch ch n s = (a, b) -> s = a ++ b /\ Forall (fun c => (c =? ch)%Z = n) a /\ match b with [] => True | c :: _ => (c =? ch)%Z = negb n end.
Proof.
  intros ch n. induction s as [| c r IH]; intros a b; cbn [find_ch].
  - intro E. injection E as <- <-. repeat split; constructor.
  - destruct (Bool.eqb (c =? ch)%Z n) eqn:Ec.
    + destruct (find_ch ch n r) as [a' b'] eqn:Er. intro E. injection E as <- <-. destruct (IH a' b' eq_refl) as [-> [F G]]. repeat split; [| exact G].
      constructor; [apply eqb_prop; exact Ec | exact F].
    + intro E. injection E as <- <-. repeat split; [constructor |]. destruct (c =? ch)%Z, n; cbn in *; congruence.
Qed.
Lemma find_ch_app : forall ch n a b, Forall (fun c => (c =? ch)%Z = n) a -> match b with [] => True | c :: _ => (c =? ch)%Z = negb n end -> find_ch ch n (a ++ b) = (a, b).
Proof.
  intros ch n a b F G. induction F as [| c a Hc F IH]; cbn [app].
  - destruct b as [| c b]; [reflexivity |]. cbn [find_ch]. rewrite G. destruct n; reflexivity.
  - cbn [find_ch]. rewrite Hc, eqb_reflx, IH. reflexivity.
Qed.

Lemma mach_skip : forall a s sw, Forall (fun c => (c =? 13)%Z = false) a -> mach sw 0 (a ++ s) = mach (match a with [] => sw | _ => false end) 0 s.
Proof.
  intros a s sw F. revert sw. induction F as [| c a Hc F IH]; intro sw; [reflexivity |]. cbn [app mach]. unfold restart. rewrite Hc, IH. destruct a; reflexivity.
Qed.
Lemma mach_app_more : forall p sw st st' q, mach sw st p = More st' ->
  exists sw', mach sw st (p ++ q) = mach sw' st' q /\ (sw = false -> sw' = false).
Proof.
  induction p as [| c p IH]; intros sw st st' q; cbn [mach app]; [intro E; injection E as <-; exists sw; auto |].
  assert (G : forall k, mach false k p = More st' -> exists sw', mach false k (p ++ q) = mach sw' st' q /\ (sw = false -> sw' = false)).
  { intros k E. destruct (IH _ _ _ q E) as [s' [E1 E2]]. exists s'. split; [exact E1 | intros _; apply E2; reflexivity]. }
  destruct st as [| [| [| [| k]]]]; try (apply G).
  - destruct (c =? 10)%Z; [apply IH |]. destruct sw; [apply G | discriminate].
  - destruct (c =? 13)%Z; [apply IH | apply G].
  - destruct (c =? 10)%Z; [discriminate |]. destruct sw; [apply G | discriminate].
Qed.
Lemma mach_app_done : forall p sw st r q, mach sw st p = Done r -> mach sw st (p ++ q) = Done (r ++ q).
Proof.
  induction p as [| c p IH]; intros sw st r q; cbn [mach app]; [discriminate |].
  destruct st as [| [| [| [| k]]]]; try (apply IH).
  - destruct (c =? 10)%Z; [apply IH |]. destruct sw; [apply IH | discriminate].
  - destruct (c =? 13)%Z; apply IH.
  - destruct (c =? 10)%Z; [intro E; injection E as <-; reflexivity |]. destruct sw; [apply IH | discriminate].
Qed.
Lemma mach_app_bad : forall p st q, mach false st p = Bad -> mach false st (p ++ q) = Bad.
Proof.
  induction p as [| c p IH]; intros st q; cbn [mach app]; [discriminate |].
  destruct st as [| [| [| [| k]]]]; try (apply IH).
  - destruct (c =? 10)%Z; [apply IH | auto].
  - destruct (c =? 13)%Z; apply IH.
  - destruct (c =? 10)%Z; [discriminate | auto].
Qed.
(** Where the strict machine accepts, the lenient one does the same. *)
Lemma mach_mono : forall s sw st, mach false st s <> Bad -> mach sw st s = mach false st s.
Proof.
  induction s as [| c s IH]; intros sw st H; [reflexivity |]. cbn [mach] in *.
  destruct st as [| [| [| [| k]]]]; try reflexivity.
  - destruct (c =? 10)%Z; [apply IH; exact H | congruence].
  - destruct (c =? 13)%Z; [apply IH; exact H | reflexivity].
  - destruct (c =? 10)%Z; [reflexivity | congruence].
Qed.
Lemma mach_done_suffix : forall s sw st r, mach sw st s = Done r -> exists p, s = p ++ r.
Proof.
  induction s as [| c s IH]; intros sw st r; cbn [mach]; [discriminate |].
  assert (G : forall w k, mach w k s = Done r -> exists p, c :: s = p ++ r) by (intros w k E; destruct (IH _ _ _ E) as [p ->]; exists (c :: p); reflexivity).
  destruct st as [| [| [| [| k]]]]; try (apply G).
  - destruct (c =? 10)%Z; [apply G |]. destruct sw; [apply G | discriminate].
  - destruct (c =? 13)%Z; apply G.
  - destruct (c =? 10)%Z; [intro E; injection E as <-; exists [c]; reflexivity |]. destruct sw; [apply G | discriminate].
Qed.
Lemma mach_state : forall s sw st st', st <= 3 -> mach sw st s = More st' -> st' <= 3.
Proof.
  assert (R : forall c, restart c <= 3) by (intro c; unfold restart; destruct (c =? 13)%Z; lia).
  induction s as [| c s IH]; intros sw st st' H; cbn [mach]; [intro E; injection E as <-; exact H |].
  destruct st as [| [| [| [| k]]]]; try lia.
  - apply IH. apply R.
  - destruct (c =? 10)%Z; [apply IH; lia |]. destruct sw; [apply IH; apply R | discriminate].
  - destruct (c =? 13)%Z; apply IH; lia.
  - destruct (c =? 10)%Z; [discriminate |]. destruct sw; [apply IH; apply R | discriminate].
Qed.

(** What a call gives, in terms of the machine. *)
Definition agrees (cap : nat) (b : hbuf) (pre s : list Z) (m : mres) (r : result) : Prop :=
  match m with
  | More st => match try_copy cap b (pre ++ s) with
               | Some b' => r_code r = Partial /\ left_over r = [] /\ r_state r = st /\ r_buf r = b'
               | None => r_code r = Invalid
               end
  | Done rest => exists p, s = p ++ rest /\
               match try_copy cap b (pre ++ p) with
               | Some b' => r_code r = fst (determine b') /\ left_over r = rest /\ r_buf r = snd (determine b')
               | None => r_code r = Invalid
               end
  | Bad => r_code r = Invalid
  end.
Lemma agrees_partial : forall cap b pre old st, agrees cap b pre [] (More st) (store_partial cap b pre [] old st).
Proof. intros. unfold agrees, store_partial. rewrite app_nil_r. destruct (try_copy cap b pre); cbn; auto. Qed.
Lemma agrees_done : forall cap b pre rest st, agrees cap b pre rest (Done rest) (store_done cap b pre rest st).
Proof.
  intros. unfold agrees, store_done. exists []. split; [reflexivity |]. rewrite app_nil_r. destruct (try_copy cap b pre) as [b' |]; [| reflexivity].
  destruct (determine b'); cbn; auto.
Qed.
Lemma agrees_shift : forall cap b pre s p m r, agrees cap b (pre ++ p) s m r -> agrees cap b pre (p ++ s) m r.
Proof.
  intros cap b pre s p m r. unfold agrees. destruct m as [st | rest |]; [rewrite app_assoc; auto | | auto].
  intros [q [-> H]]. exists (p ++ q). split; [apply app_assoc |]. rewrite app_assoc. exact H.
Qed.
Lemma loop_agrees : forall fuel cap b pre rest, length rest < fuel -> agrees cap b pre rest (mach false 0 rest) (loop fuel cap b pre rest).
Proof.
  induction fuel as [| fuel IH]; intros cap b pre rest Hf; [lia |]. cbn [loop].
  destruct (find_ch cr false rest) as [sk r] eqn:Ef. destruct (find_ch_spec _ _ _ _ _ Ef) as [-> [F G]].
  rewrite app_length in Hf. rewrite mach_skip by exact F. replace (match sk with [] => false | _ => false end) with false by (destruct sk; reflexivity).
  apply agrees_shift. destruct r as [| c0 r]; [apply agrees_partial |].
  cbn [negb] in G. change cr with 13%Z in G. cbn [mach]. unfold restart at 1. rewrite G.
  change (c0 :: r) with ([c0] ++ r). apply agrees_shift.
  destruct r as [| c1 r1]; [apply agrees_partial |]. change lf with 10%Z. change cr with 13%Z. cbn [mach].
  destruct (c1 =? 10)%Z eqn:E1; cbn [negb]; [| reflexivity].
  change (c1 :: r1) with ([c1] ++ r1). apply agrees_shift.
  destruct r1 as [| c2 r2]; [apply agrees_partial |]. cbn [mach].
  destruct (c2 =? 13)%Z eqn:E2; cbn [negb].
  - change (c2 :: r2) with ([c2] ++ r2). apply agrees_shift.
    destruct r2 as [| c3 r3]; [apply agrees_partial |]. cbn [mach].
    destruct (c3 =? 10)%Z eqn:E3; cbn [negb]; [| reflexivity].
    change (c3 :: r3) with ([c3] ++ r3). apply agrees_shift. apply agrees_done.
  - assert (Hm : mach false 0 r2 = mach false 0 (c2 :: r2)) by (cbn [mach]; unfold restart; rewrite E2; reflexivity).
    rewrite Hm. apply IH. cbn in *. lia.
Qed.
Lemma loop_restart : forall cap b pre c r, agrees cap b pre (c :: r) (mach false (restart c) r) (loop (S (length (c :: r))) cap b pre (c :: r)).
Proof. intros. change (mach false (restart c) r) with (mach false 0 (c :: r)). apply loop_agrees. lia. Qed.
Lemma from3_agrees : forall cap b pre c r st, agrees cap b pre (c :: r) (mach true 3 (c :: r)) (from3 cap b pre (c :: r) st).
Proof.
  intros. unfold from3. cbn [mach]. change lf with 10%Z. destruct (c =? 10)%Z; [| apply loop_restart].
  change (c :: r) with ([c] ++ r). apply agrees_shift. apply agrees_done.
Qed.
Lemma from2_agrees : forall cap b pre c r st, agrees cap b pre (c :: r) (mach true 2 (c :: r)) (from2 cap b pre (c :: r) st).
Proof.
  intros. unfold from2. cbn [mach]. change cr with 13%Z. destruct (c =? 13)%Z eqn:E.
  - change (c :: r) with ([c] ++ r). apply agrees_shift. destruct r as [| d r]; [apply agrees_partial |]. apply from3_agrees.
  - pose proof (loop_restart cap b pre c r) as L. unfold restart in L. rewrite E in L. exact L.
Qed.
Lemma from1_agrees : forall cap b pre c r st, agrees cap b pre (c :: r) (mach true 1 (c :: r)) (from1 cap b pre (c :: r) st).
Proof.
  intros. unfold from1. cbn [mach]. change lf with 10%Z. destruct (c =? 10)%Z eqn:E; [| apply loop_restart].
  change (c :: r) with ([c] ++ r). apply agrees_shift. destruct r as [| d r]; [apply agrees_partial |]. apply from2_agrees.
Qed.
Lemma scan_agrees : forall cap st chunk b, chunk <> [] -> st <= 3 -> agrees cap b [] chunk (mach true st chunk) (http_scan cap st chunk b).
Proof.
  intros cap st chunk b Hc Hs. unfold http_scan. destruct chunk as [| c r]; [congruence |].
  destruct st as [| [| [| [| k]]]]; try lia.
  - change (mach true 0 (c :: r)) with (mach false 0 (c :: r)). apply loop_agrees. lia.
  - apply from1_agrees.
  - apply from2_agrees.
  - apply from3_agrees.
Qed.

Definition with_text (b : hbuf) (s : list Z) : hbuf := mk_hbuf s (request_end b) (code_start b) (code_end b) (reason_start b) (reason_end b).
Lemma try_copy_spec : forall cap b s, length (stored b) <= cap ->
  try_copy cap b s = if length (stored b ++ s) <=? cap then Some (with_text b (stored b ++ s)) else None.
Proof.
  intros cap b s H. unfold try_copy, with_text. rewrite app_length.
  destruct (Nat.ltb_spec (cap - length (stored b)) (length s)), (Nat.leb_spec (length (stored b) + length s) cap); try reflexivity; lia.
Qed.

(** The run: what the contiguous machine accepts is accepted however it is cut up. *)
Lemma run_accepts : forall cap chunks st b rest, st <= 3 -> mach false st (concat chunks) = Done rest -> length (stored b) <= cap ->
  exists p, concat chunks = p ++ rest /\
    if length (stored b ++ p) <=? cap then
      fst (fst (http_run cap st b chunks)) = fst (determine (with_text b (stored b ++ p)))
      /\ snd (fst (http_run cap st b chunks)) = snd (determine (with_text b (stored b ++ p)))
      /\ (fst (fst (http_run cap st b chunks)) <> Partial -> snd (http_run cap st b chunks) = rest)
    else fst (fst (http_run cap st b chunks)) = Invalid.
Proof.
  assert (DP : forall b, fst (determine b) <> Partial).
  { intro b. unfold determine. destruct (stored b) as [| c s]; [discriminate |]. destruct (c =? sp)%Z; [discriminate |].
    destruct (find_ch sp false (c :: s)) as [w1 [| x1 r1]]; [discriminate |]. destruct (find_ch sp true r1) as [g1 [| x2 r2]]; [discriminate |].
    destruct (find_ch sp false (x2 :: r2)) as [w2 [| x3 r3]]; [discriminate |]. destruct (find_ch sp true (x3 :: r3)) as [g2 [| x4 r4]]; [discriminate |].
    destruct (find_ch cr false (x4 :: r4)) as [w3 [| x5 r5]]; discriminate. }
  intros cap. induction chunks as [| c cs IH]; intros st b rest Hst Hm Hb; [discriminate |].
  cbn [concat] in *. destruct c as [| c0 c].
  - destruct (IH st b rest Hst Hm Hb) as [p [E H]]. exists p. split; [exact E |]. cbn [http_run http_scan r_code r_state r_buf]. exact H.
  - set (ch := c0 :: c) in *. assert (Hch : ch <> []) by discriminate.
    pose proof (scan_agrees cap st ch b Hch Hst) as A.
    destruct (mach false st ch) as [st' | r |] eqn:Em.
    + rewrite (mach_mono ch true st) in A by (rewrite Em; discriminate). rewrite Em in A. unfold agrees in A. cbn [app] in A.
      destruct (mach_app_more _ _ _ _ (concat cs) Em) as [sw' [E1 E2]]. rewrite (E2 eq_refl), Hm in E1. symmetry in E1.
      rewrite try_copy_spec in A by exact Hb. cbn [http_run].
      destruct (Nat.leb_spec (length (stored b ++ ch)) cap) as [Hf | Hf].
      * destruct A as [Ac [Al [As Ab]]]. rewrite Ac, As, Ab.
        destruct (IH st' (with_text b (stored b ++ ch)) rest (mach_state _ _ _ _ Hst Em) E1 Hf) as [p [E H]].
        exists (ch ++ p). split; [rewrite E; apply app_assoc |]. cbn [stored with_text] in H. unfold with_text in *. cbn [request_end code_start code_end reason_start reason_end] in H.
        rewrite app_assoc. exact H.
      * rewrite A. destruct (mach_done_suffix _ _ _ _ E1) as [p E]. exists (ch ++ p). split; [rewrite E; apply app_assoc |].
        destruct (Nat.leb_spec (length (stored b ++ ch ++ p)) cap) as [G | G]; [rewrite !app_length in *; lia | reflexivity].
    + rewrite (mach_mono ch true st) in A by (rewrite Em; discriminate). rewrite Em in A. destruct A as [p [Ep A]]. cbn [app] in A.
      rewrite (mach_app_done _ _ _ _ (concat cs) Em) in Hm. injection Hm as <-. exists p. split; [rewrite Ep; rewrite <- app_assoc; reflexivity |].
      rewrite try_copy_spec in A by exact Hb. cbn [http_run]. destruct (Nat.leb_spec (length (stored b ++ p)) cap) as [Hf | Hf].
      * destruct A as [Ac [Al Ab]]. pose proof (DP (with_text b (stored b ++ p))) as N. rewrite Ac, Al, Ab.
        destruct (fst (determine (with_text b (stored b ++ p)))); [| congruence |]; repeat split; reflexivity.
      * rewrite A. reflexivity.
    + rewrite (mach_app_bad _ _ _ Em) in Hm. discriminate.
Qed.

(** Soundness: the text accepted is the text up to the first blank line. *)
Definition pending (st : nat) : list Z := match st with 1 => [13%Z] | 2 => [13%Z; 10%Z] | 3 => [13%Z; 10%Z; 13%Z] | _ => [] end.
Lemma abl_other : forall c s, (c =? 13)%Z = false -> after_blank_line (c :: s) = after_blank_line s.
Proof. intros c s H. cbn [after_blank_line]. destruct s as [| b [| c' [| d r]]]; try reflexivity. rewrite H. reflexivity. Qed.
Lemma abl_cr_other : forall c s, (c =? 10)%Z = false -> after_blank_line (13%Z :: c :: s) = after_blank_line (c :: s).
Proof. intros c s H. cbn [after_blank_line]. destruct s as [| c' [| d r]]; try reflexivity. rewrite H. reflexivity. Qed.
Lemma abl_restart : forall c s, after_blank_line (c :: s) = after_blank_line (pending (restart c) ++ s).
Proof. intros c s. unfold restart. destruct (Z.eqb_spec c 13) as [-> | N]; [reflexivity |]. apply abl_other. now apply Z.eqb_neq. Qed.
Lemma abl_crlf_other : forall c s, (c =? 13)%Z = false -> after_blank_line (13%Z :: 10%Z :: c :: s) = after_blank_line s.
Proof.
  intros c s H. transitivity (after_blank_line (10%Z :: c :: s)).
  - cbn [after_blank_line]. destruct s as [| d r]; [reflexivity |]. rewrite H. reflexivity.
  - rewrite abl_other by reflexivity. apply abl_other. exact H.
Qed.
Lemma abl_crlfcr_other : forall c s, (c =? 10)%Z = false -> after_blank_line (13%Z :: 10%Z :: 13%Z :: c :: s) = after_blank_line (pending (restart c) ++ s).
Proof.
  intros c s H. transitivity (after_blank_line (10%Z :: 13%Z :: c :: s)); [cbn [after_blank_line]; rewrite H; reflexivity |].
  rewrite abl_other by reflexivity. rewrite abl_cr_other by exact H. apply abl_restart.
Qed.
Lemma mach_sound : forall s sw st, st <= 3 ->
  match mach sw st s with
  | Done r => after_blank_line (pending st ++ s) = Some r
  | More st' => forall q, after_blank_line (pending st ++ s ++ q) = after_blank_line (pending st' ++ q)
  | Bad => True
  end.
Proof.
  assert (R : forall c, restart c <= 3) by (intro c; unfold restart; destruct (c =? 13)%Z; lia).
  induction s as [| c s IH]; intros sw st Hs; [cbn [mach]; intro q; reflexivity |].
  assert (G : forall w k, k <= 3 -> (forall q, after_blank_line (pending st ++ (c :: s) ++ q) = after_blank_line (pending k ++ s ++ q)) ->
    match mach w k s with Done r => after_blank_line (pending st ++ c :: s) = Some r | More st' => forall q, after_blank_line (pending st ++ (c :: s) ++ q) = after_blank_line (pending st' ++ q) | Bad => True end).
  { intros w k Hk E. pose proof (IH w k Hk) as I. destruct (mach w k s); [intro q; rewrite E; apply I | | exact Logic.I].
    pose proof (E []) as E0. rewrite !app_nil_r in E0. rewrite E0. exact I. }
  cbn [mach]. destruct st as [| [| [| [| k]]]]; try lia.
  - apply G; [apply R |]. intro q. cbn [pending app]. apply abl_restart.
  - destruct (Z.eqb_spec c 10) as [-> | N].
    + apply G; [lia |]. intro q. reflexivity.
    + destruct sw; [| exact Logic.I]. apply G; [apply R |]. intro q. cbn [pending app]. rewrite abl_cr_other by (now apply Z.eqb_neq). apply abl_restart.
  - destruct (Z.eqb_spec c 13) as [-> | N].
    + apply G; [lia |]. intro q. reflexivity.
    + apply G; [lia |]. intro q. cbn [pending app]. apply abl_crlf_other. now apply Z.eqb_neq.
  - destruct (Z.eqb_spec c 10) as [-> | N]; [reflexivity |].
    destruct sw; [| exact Logic.I]. apply G; [apply R |]. intro q. cbn [pending app]. apply abl_crlfcr_other. now apply Z.eqb_neq.
Qed.
Lemma determine_stored : forall b, stored (snd (determine b)) = stored b.
Proof.
  intro b. unfold determine. destruct (stored b) as [| c s] eqn:E; [exact E |]. destruct (c =? sp)%Z; [exact E |].
  destruct (find_ch sp false (c :: s)) as [w1 [| x1 r1]]; [exact E |]. destruct (find_ch sp true r1) as [g1 [| x2 r2]]; [reflexivity |].
  destruct (find_ch sp false (x2 :: r2)) as [w2 [| x3 r3]]; [reflexivity |]. destruct (find_ch sp true (x3 :: r3)) as [g2 [| x4 r4]]; [reflexivity |].
  destruct (find_ch cr false (x4 :: r4)) as [w3 [| x5 r5]]; reflexivity.
Qed.
Lemma run_sound : forall cap chunks st b b' rest, st <= 3 -> length (stored b) <= cap ->
  http_run cap st b chunks = (Ok, b', rest) ->
  exists p, stored b' = stored b ++ p /\ concat chunks = p ++ rest /\ length (stored b') <= cap
    /\ after_blank_line (pending st ++ concat chunks) = Some rest /\ b' = snd (determine (with_text b (stored b ++ p))) /\ fst (determine (with_text b (stored b ++ p))) = Ok.
Proof.
  intros cap. induction chunks as [| c cs IH]; intros st b b' rest Hst Hb; cbn [http_run concat]; [discriminate |].
  destruct c as [| c0 c]; [cbn [http_scan r_code r_state r_buf]; apply IH; assumption |].
  set (ch := c0 :: c). assert (Hch : ch <> []) by discriminate. pose proof (scan_agrees cap st ch b Hch Hst) as A. pose proof (mach_sound ch true st Hst) as M.
  destruct (mach true st ch) as [st' | r |] eqn:Em; unfold agrees in A.
  - cbn [app] in A. rewrite try_copy_spec in A by exact Hb. destruct (Nat.leb_spec (length (stored b ++ ch)) cap) as [Hf | Hf].
    + destruct A as [Ac [Al [As Ab]]]. rewrite Ac, As, Ab. intro H.
      destruct (IH st' (with_text b (stored b ++ ch)) b' rest (mach_state _ _ _ _ Hst Em) Hf H) as [p [E1 [E2 [E3 [E4 [E5 E6]]]]]]. exists (ch ++ p).
      cbn [stored with_text] in *. unfold with_text in *. cbn [request_end code_start code_end reason_start reason_end] in *. rewrite <- !app_assoc in *.
      split; [exact E1 |]. split; [rewrite E2; reflexivity |]. split; [exact E3 |]. split; [rewrite M; exact E4 |]. split; [exact E5 | exact E6].
    + rewrite A. intro H. discriminate.
  - destruct A as [p [Ep A]]. cbn [app] in A. rewrite try_copy_spec in A by exact Hb. destruct (Nat.leb_spec (length (stored b ++ p)) cap) as [Hf | Hf].
    + destruct A as [Ac [Al Ab]]. rewrite Ac, Al, Ab. destruct (fst (determine (with_text b (stored b ++ p)))) eqn:Ed; intro H.
      * injection H as <- <-. exists p. rewrite determine_stored. cbn [stored with_text]. split; [reflexivity |]. split; [rewrite Ep, <- app_assoc; reflexivity |].
        split; [exact Hf |]. split; [| split; [reflexivity | exact Ed]].
        clear - M Hst Em. change (c0 :: c ++ concat cs) with (ch ++ concat cs). pose proof (mach_sound (ch ++ concat cs) true st Hst) as N. rewrite (mach_app_done _ _ _ _ _ Em) in N. exact N.
      * exfalso. revert Ed. clear. generalize (with_text b (stored b ++ p)). intro bb. unfold determine. destruct (stored bb) as [| x s]; [discriminate |]. destruct (x =? sp)%Z; [discriminate |].
        destruct (find_ch sp false (x :: s)) as [w1 [| x1 r1]]; [discriminate |]. destruct (find_ch sp true r1) as [g1 [| x2 r2]]; [discriminate |].
        destruct (find_ch sp false (x2 :: r2)) as [w2 [| x3 r3]]; [discriminate |]. destruct (find_ch sp true (x3 :: r3)) as [g2 [| x4 r4]]; [discriminate |].
        destruct (find_ch cr false (x4 :: r4)) as [w3 [| x5 r5]]; discriminate.
      * discriminate.
    + rewrite A. intro H. discriminate.
  - rewrite A. intro H. discriminate.
Qed.
