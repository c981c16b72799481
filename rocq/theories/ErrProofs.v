(** Proofs about errors. *)
From Coq Require Import String.
From Coq Require Import List.
From Verif Require Import Base ErrTables ErrSpec ErrModel.
Local Open Scope Z_scope.

Definition errno_names : list string := map fst codes_of_errno.
(** The header, and the number that stands for "no errno". *)
Definition windows_header (E : errno_numbers) : Prop :=
  header_ok errno_names E /\ (forall n, In n errno_names -> E n <> Some (eother_value E)) /\ eother_value E <> 0.

Lemma wrap_id w x : 0 <= x < 2 ^ w -> wrap w x = x.
Proof. intros H. unfold wrap. apply Z.mod_small, H. Qed.
Lemma signed_wrap w x : 0 < w -> - 2 ^ (w - 1) <= x < 2 ^ (w - 1) -> to_signed w (wrap w x) = x.
Proof.
  intros Hw H. unfold to_signed. unfold wrap at 1. unfold wrap. rewrite Z.mod_mod by (apply Z.pow_nonzero; lia).
  assert (P : 2 ^ w = 2 * 2 ^ (w - 1)) by (replace w with (Z.succ (w - 1)) at 1 by lia; apply Z.pow_succ_r; lia).
  cbv zeta. destruct (Z.ltb_spec x 0).
  - rewrite <- (Z.mod_add x 1) by lia. rewrite (Z.mod_small (x + 1 * 2 ^ w)) by lia.
    destruct (Z.ltb_spec (x + 1 * 2 ^ w) (2 ^ (w - 1))); lia.
  - rewrite Z.mod_small by lia. destruct (Z.ltb_spec x (2 ^ (w - 1))); lia.
Qed.

(** Tables without repetitions. *)
Fixpoint distinct {A} (eqb : A -> A -> bool) (l : list A) : bool :=
  match l with [] => true | x :: l' => if existsb (eqb x) l' then false else distinct eqb l' end.
Lemma distinct_ok {A} (eqb : A -> A -> bool) (Heq : forall x y, eqb x y = true <-> x = y) l : distinct eqb l = true -> NoDup l.
Proof.
  induction l as [|x l IH]; intros H; constructor; cbn [distinct] in H; destruct (existsb (eqb x) l) eqn:Ex; try discriminate; auto.
  intros Hin. rewrite <- not_true_iff_false in Ex. apply Ex. apply existsb_exists. exists x. split; [exact Hin|]. now apply Heq.
Qed.
Lemma codes_distinct : NoDup (concat (map snd codes_of_errno)).
Proof. apply (distinct_ok Z.eqb Z.eqb_eq). vm_compute. reflexivity. Qed.
Lemma names_distinct : NoDup errno_names.
Proof. apply (distinct_ok String.eqb String.eqb_eq). vm_compute. reflexivity. Qed.
Lemma texts_distinct : NoDup (map snd errno_texts).
Proof. apply (distinct_ok String.eqb String.eqb_eq). vm_compute. reflexivity. Qed.
Lemma text_names_distinct : NoDup (map (fun e => fst (fst e)) errno_texts).
Proof. apply (distinct_ok String.eqb String.eqb_eq). vm_compute. reflexivity. Qed.

Lemma in_concat_snd (l : list (string * list Z)) n cs w : In (n, cs) l -> In w cs -> In w (concat (map snd l)).
Proof. intros H Hw. apply in_concat. exists cs. split; [|exact Hw]. apply in_map_iff. exists (n, cs). auto. Qed.

Lemma errno_in_found E l : NoDup (concat (map snd l)) -> forall n cs w x, In (n, cs) l -> In w cs -> E n = Some x ->
  errno_in l E w = x.
Proof.
  induction l as [|(m, ds) l IH]; cbn [map concat snd]; intros ND n cs w x Hin Hw HE; [destruct Hin|].
  assert (ND2 : NoDup (concat (map snd l))).
  { clear - ND. induction ds as [|d ds IHd]; [exact ND|]. apply IHd. cbn [app] in ND. now inversion ND. }
  assert (DJ : In w ds -> ~ In w (concat (map snd l))).
  { clear - ND. induction ds as [|d ds IHd]; intros Hd Hc; [destruct Hd|]. cbn [app] in ND. inversion ND as [|? ? A B]; subst.
    destruct Hd as [->|Hd]; [apply A, in_app_iff; auto|]. exact (IHd B Hd Hc). }
  cbn [errno_in]. destruct Hin as [Eq|Hin].
  - injection Eq as -> ->. rewrite HE. assert (X : existsb (Z.eqb w) cs = true) by (apply existsb_exists; exists w; split; [exact Hw|apply Z.eqb_refl]).
    now rewrite X.
  - destruct (E m) as [y|]; [|eauto]. destruct (existsb (Z.eqb w) ds) eqn:X; [|eauto]. exfalso.
    apply existsb_exists in X. destruct X as (w' & Hw' & Ew). apply Z.eqb_eq in Ew. subst w'.
    exact (DJ Hw' (in_concat_snd l n cs w Hin Hw)).
Qed.
Lemma errno_in_source E l w : errno_in l E w = eother_value E \/ exists n cs, In (n, cs) l /\ In w cs /\ E n = Some (errno_in l E w).
Proof.
  induction l as [|(m, ds) l IH]; [left; reflexivity|]. cbn [errno_in].
  assert (T : errno_in l E w = eother_value E \/ exists n cs, In (n, cs) ((m, ds) :: l) /\ In w cs /\ E n = Some (errno_in l E w)).
  { destruct IH as [->|(n & cs & A & B & C)]; [auto|]. right. exists n, cs. cbn [In]. auto. }
  destruct (E m) as [y|] eqn:Em; [|exact T]. destruct (existsb (Z.eqb w) ds) eqn:X; [|exact T]. right. exists m, ds.
  apply existsb_exists in X. destruct X as (w' & Hw' & Ew). apply Z.eqb_eq in Ew. subst w'. cbn [In]. auto.
Qed.
Lemma name_in n cs : In (n, cs) codes_of_errno -> In n errno_names.
Proof. intros H. apply in_map_iff. exists (n, cs). auto. Qed.
Lemma no_zero_code n cs : In (n, cs) codes_of_errno -> ~ In 0 cs.
Proof.
  intros H Hz. assert (X : existsb (Z.eqb 0) (concat (map snd codes_of_errno)) = true).
  { apply existsb_exists. exists 0. split; [exact (in_concat_snd _ n cs 0 H Hz)|reflexivity]. }
  vm_compute in X. discriminate.
Qed.

Lemma to_errno_stands E w x : stands_for E w x -> win32_code_to_errno E w = x.
Proof.
  intros [|nm cs w' x' A B C]; [reflexivity|]. unfold win32_code_to_errno.
  destruct (Z.eqb_spec w' 0) as [->|]; [exfalso; exact (no_zero_code nm cs A B)|].
  exact (errno_in_found E codes_of_errno codes_distinct nm cs w' x' A B C).
Qed.
Lemma to_errno_source E w : stands_for E w (win32_code_to_errno E w) \/ win32_code_to_errno E w = eother_value E.
Proof.
  unfold win32_code_to_errno. destruct (Z.eqb_spec w 0) as [->|Hnz]; [left; constructor|].
  destruct (errno_in_source E codes_of_errno w) as [->|(n & cs & A & B & C)]; [auto|]. left. exact (stands_listed E n cs w _ A B C).
Qed.
Lemma stands_not_eother E w x : windows_header E -> stands_for E w x -> x <> eother_value E.
Proof.
  intros (_ & HO & HZ) [|nm cs w' x' A B C]; [auto|]. intros ->. exact (HO nm (name_in nm cs A) C).
Qed.
Lemma equals_spec E w x : windows_header E -> win32_code_equals_errno E w x = true <-> stands_for E w x.
Proof.
  intros HE. unfold win32_code_equals_errno. cbv zeta. destruct (Z.eqb_spec (win32_code_to_errno E w) (eother_value E)) as [Eq|N].
  - split; [discriminate|]. intros H. exfalso. apply (stands_not_eother E w x HE H). rewrite <- Eq. symmetry. now apply to_errno_stands.
  - rewrite Z.eqb_eq. split; [|apply to_errno_stands]. intros <-. destruct (to_errno_source E w); [assumption|contradiction].
Qed.

Lemma code_in_found E l : NoDup (map fst l) -> (forall n m x, In n (map fst l) -> In m (map fst l) -> E n = Some x -> E m = Some x -> n = m) ->
  forall n w x, In (n, w) l -> E n = Some x -> code_in l E x = w.
Proof.
  induction l as [|(m, u) l IH]; cbn [map fst]; intros ND INJ n w x Hin HE; [destruct Hin|]. inversion ND as [|? ? A B]; subst.
  cbn [code_in]. destruct Hin as [Eq|Hin].
  - injection Eq as -> ->. rewrite HE, Z.eqb_refl. reflexivity.
  - assert (Hn : In n (map fst l)) by (apply in_map_iff; exists (n, w); auto).
    assert (R : code_in l E x = w) by (apply (IH B) with (n := n); auto; intros a b z Ha Hb; apply INJ; right; assumption).
    destruct (E m) as [y|] eqn:Em; [|exact R]. destruct (Z.eqb_spec y x) as [->|]; [|exact R].
    exfalso. assert (n = m) by (apply (INJ n m x); cbn [In]; auto). subst. contradiction.
Qed.

(** Compiled cases of the text table. *)
Definition case_of (E : errno_numbers) (n : string) (g : option string) (x : Z) : Prop :=
  E n = Some x /\ match g with None => True | Some m => E m <> Some x end.
(** A header for which the table compiles. *)
Definition texts_header (E : errno_numbers) : Prop :=
  (forall n g t m h u x, In (n, g, t) errno_texts -> In (m, h, u) errno_texts -> case_of E n g x -> case_of E m h x -> n = m) /\
  forall n g t, In (n, g, t) errno_texts -> E n <> Some 0.
Lemma text_case E l errn : errno_text_in l E errn = "Unknown"%string /\ (forall n g t, In (n, g, t) l -> ~ case_of E n g errn) \/
  exists n g, In (n, g, errno_text_in l E errn) l /\ case_of E n g errn.
Proof.
  induction l as [|((m, h), u) l IH]; [left; split; [reflexivity|intros n g t []]|]. cbn [errno_text_in].
  assert (T : ~ case_of E m h errn -> errno_text_in l E errn = "Unknown"%string /\ (forall n g t, In (n, g, t) ((m, h, u) :: l) -> ~ case_of E n g errn) \/
    exists n g, In (n, g, errno_text_in l E errn) ((m, h, u) :: l) /\ case_of E n g errn).
  { intros Hno. destruct IH as [(A & B)|(n & g & A & B)].
    - left. split; [exact A|]. intros n g t [Eq|Hin]; [injection Eq as <- <- <-; exact Hno|exact (B n g t Hin)].
    - right. exists n, g. split; [right; exact A|exact B]. }
  unfold case_of in T at 1. destruct (E m) as [x|] eqn:Em; [|apply T; intros (A & _); discriminate]. cbv zeta.
  destruct (Z.eqb_spec x errn) as [->|Hne]; [|rewrite andb_false_r; apply T; intros (A & _); congruence].
  rewrite andb_true_r. destruct h as [k|].
  - destruct (E k) as [y|] eqn:Ek.
    + destruct (Z.eqb_spec errn y) as [->|Hy]; cbn [negb].
      * apply T. intros (_ & A). now apply A.
      * right. exists m, (Some k). split; [left; reflexivity|]. split; [exact Em|]. rewrite Ek. congruence.
    + right. exists m, (Some k). split; [left; reflexivity|]. split; [exact Em|]. rewrite Ek. discriminate.
  - right. exists m, None. split; [left; reflexivity|]. split; [exact Em|trivial].
Qed.
Lemma same_entry n g t h u : In (n, g, t) errno_texts -> In (n, h, u) errno_texts -> t = u.
Proof.
  pose proof text_names_distinct as ND. revert ND. generalize errno_texts. induction l as [|((m, k), v) l IH]; cbn [map fst]; intros ND H1 H2; [destruct H1|].
  inversion ND as [|? ? A B]; subst. destruct H1 as [E1|H1], H2 as [E2|H2]; auto.
  - congruence.
  - injection E1 as -> -> ->. exfalso. apply A. apply in_map_iff. exists (n, h, u). auto.
  - injection E2 as -> -> ->. exfalso. apply A. apply in_map_iff. exists (n, g, t). auto.
Qed.
