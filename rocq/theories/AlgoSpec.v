(** What the algorithms of <algorithm> and <memory> promise, in words of positions and lists. *)
From Coq Require Import List.
From Verif Require Import Base.
Import ListNotations.
Local Open Scope nat_scope.

Section Spec.
Context {A : Type}.

(** the elements of [first, last) *)
Definition range (m : list A) (first last : nat) : list A := firstn (last - first) (skipn first m).

(** r is the first position of [first, last) whose element is as asked, or last if there is none *)
Definition first_that (P : A -> Prop) (m : list A) (first last r : nat) : Prop :=
  first <= r <= last
  /\ (forall i x, first <= i < r -> nth_error m i = Some x -> ~ P x)
  /\ (r < last -> exists x, nth_error m r = Some x /\ P x).

(** r is the last position of [first, last) whose element is as asked, or last if there is none *)
Definition last_that (P : A -> Prop) (m : list A) (first last r : nat) : Prop :=
  (r = last /\ forall i x, first <= i < last -> nth_error m i = Some x -> ~ P x)
  \/ (first <= r < last /\ (exists x, nth_error m r = Some x /\ P x)
      /\ forall i x, r < i < last -> nth_error m i = Some x -> ~ P x).

(** n elements from src have been put at dst (converted by f), as they were before, and nothing else has changed *)
Definition copied (f : A -> A) (m m' : list A) (src dst n : nat) : Prop :=
  length m' = length m
  /\ (forall i, i < n -> nth_error m' (dst + i) = option_map f (nth_error m (src + i)))
  /\ (forall j, j < dst \/ dst + n <= j -> nth_error m' j = nth_error m j).

(** the dictionary order *)
Definition before (lt : A -> A -> Prop) (l1 l2 : list A) : Prop :=
  (exists y t, l2 = l1 ++ y :: t)
  \/ (exists p x y t1 t2, l1 = p ++ x :: t1 /\ l2 = p ++ y :: t2 /\ lt x y).
End Spec.
