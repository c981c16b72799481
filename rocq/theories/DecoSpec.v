(** What is asked of a decorator (DecoModel.v: decorator). *)
From Verif Require Import Base DecoModel.
Local Open Scope nat_scope.

(** Converting a text in two pieces is converting it at once: the decorator keeps what it needs in its state. *)
Definition chunked {St} (d : decorator St) : Prop :=
  (forall s, conv d s [] = (s, [])) /\
  (forall s a b, conv d s (a ++ b) = let '(s1, x) := conv d s a in let '(s2, y) := conv d s1 b in (s2, x ++ y)).
(** It writes no more than it announces for this many units. *)
Definition announced {St} (d : decorator St) : Prop :=
  forall s a n, length a <= n -> length (snd (conv d s a)) <= size d n.
(** A full buffer of the device converts to something. *)
Definition lively {St} (bfs : nat) (d : decorator St) : Prop :=
  forall s a, length a = bfs -> snd (conv d s a) <> [].
(** A device that delivers [content], in some pieces. *)
Definition delivers (content : list Z) (d : device) : Prop := concat d = content /\ Forall (fun p => p <> []) d.
