(** Fast access to long tables, used only in proofs by computation. *)
From Verif Require Import Base.

Inductive tree := Leaf | Node (l : tree) (v : option Z) (r : tree).
Fixpoint get (p : positive) (t : tree) : option Z :=
  match t with
  | Leaf => None
  | Node l v r => match p with xH => v | xO q => get q l | xI q => get q r end
  end.
Fixpoint put1 (p : positive) (x : Z) (t : tree) : tree :=
  match p with
  | xH => match t with Leaf => Node Leaf (Some x) Leaf | Node l _ r => Node l (Some x) r end
  | xO q => match t with Leaf => Node (put1 q x Leaf) None Leaf | Node l v r => Node (put1 q x l) v r end
  | xI q => match t with Leaf => Node Leaf None (put1 q x Leaf) | Node l v r => Node l v (put1 q x r) end
  end.
Lemma get_leaf p : get p Leaf = None. Proof. destruct p; reflexivity. Qed.
Lemma get_put1 p q x t : get p (put1 q x t) = if Pos.eqb p q then Some x else get p t.
Proof.
  revert p t. induction q as [q IH|q IH|]; intros p t; destruct t as [|l v r]; destruct p as [p|p|]; cbn [put1 get Pos.eqb];
    rewrite ?IH, ?get_leaf; try reflexivity; destruct p; reflexivity.
Qed.
Fixpoint build (l : list Z) (p : positive) (t : tree) : tree :=
  match l with [] => t | x :: l' => build l' (Pos.succ p) (put1 p x t) end.
Lemma get_build l : forall p t q, get q (build l p t) =
  if (p <=? q)%positive && (Z.pos q <? Z.pos p + Z.of_nat (length l)) then nth_error l (Pos.to_nat q - Pos.to_nat p) else get q t.
Proof.
  induction l as [|x l IH]; intros p t q; cbn [build length].
  - destruct (Pos.leb_spec p q); cbn [andb]; [|reflexivity]. destruct (Z.ltb_spec (Z.pos q) (Z.pos p + Z.of_nat 0)); [lia|reflexivity].
  - rewrite IH, get_put1.
    destruct (Pos.eqb_spec q p) as [->|N].
    + destruct (Pos.leb_spec (Pos.succ p) p); [lia|]. cbn [andb]. destruct (Pos.leb_spec p p); [|lia]. cbn [andb].
      destruct (Z.ltb_spec (Z.pos p) (Z.pos p + Z.of_nat (S (length l)))); [|lia]. rewrite Nat.sub_diag. reflexivity.
    + destruct (Pos.leb_spec (Pos.succ p) q); destruct (Pos.leb_spec p q); try lia; cbn [andb]; [|reflexivity].
      destruct (Z.ltb_spec (Z.pos q) (Z.pos (Pos.succ p) + Z.of_nat (length l))); destruct (Z.ltb_spec (Z.pos q) (Z.pos p + Z.of_nat (S (length l)))); try lia; [|reflexivity].
      replace (Pos.to_nat q - Pos.to_nat p)%nat with (S (Pos.to_nat q - Pos.to_nat (Pos.succ p))) by lia. reflexivity.
Qed.
(** The table of a list: index 0 is stored at 1. *)
Definition trie (l : list Z) : tree := build l 1 Leaf.
Definition at_ (t : tree) (i : Z) : option Z := match i with Z0 => get 1 t | Zpos p => get (Pos.succ p) t | Zneg _ => None end.
Lemma at_trie l i : at_ (trie l) i = if i <? 0 then None else nth_error l (Z.to_nat i).
Proof.
  unfold at_, trie. destruct i as [|p|p].
  - rewrite get_build. destruct (Pos.leb_spec 1 1); [|lia]. cbn [andb]. change (0 <? 0) with false. cbn iota.
    destruct (Z.ltb_spec 1 (1 + Z.of_nat (length l))); [reflexivity|]. rewrite get_leaf. symmetry. apply nth_error_None. lia.
  - rewrite get_build. destruct (Pos.leb_spec 1 (Pos.succ p)); [|lia]. cbn [andb]. destruct (Z.ltb_spec (Z.pos p) 0); [lia|].
    replace (Pos.to_nat (Pos.succ p) - Pos.to_nat 1)%nat with (Z.to_nat (Z.pos p)) by lia.
    destruct (Z.ltb_spec (Z.pos (Pos.succ p)) (1 + Z.of_nat (length l))); [reflexivity|]. rewrite get_leaf. symmetry. apply nth_error_None. lia.
  - destruct (Z.ltb_spec (Z.neg p) 0); [reflexivity|lia].
Qed.

(** A check of [n] consecutive entries. *)
Fixpoint walk (f : Z -> Z -> bool) (u : Z) (n : nat) (l : list Z) : bool :=
  match n with
  | O => true
  | S n' => match l with [] => false | v :: l' => if f v u then walk f (u + 1) n' l' else false end
  end.
Lemma walk_spec f n : forall u l, walk f u n l = true -> forall i, (i < n)%nat ->
  exists v, nth_error l i = Some v /\ f v (u + Z.of_nat i) = true.
Proof.
  induction n as [|n IH]; intros u l H i Hi; [lia|]. destruct l as [|v l]; [discriminate|]. cbn [walk] in H.
  destruct (f v u) eqn:E; [|discriminate]. destruct i as [|i].
  - exists v. split; [reflexivity|]. rewrite Z.add_0_r. exact E.
  - destruct (IH _ _ H i ltac:(lia)) as (w & W1 & W2). exists w. split; [exact W1|]. rewrite <- W2. f_equal. lia.
Qed.
