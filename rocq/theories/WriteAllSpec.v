(** What users expect of write_all, write_some and their scatter versions. *)
From Verif Require Import Base BufModel WriteAllModel.

Definition out_of (s : wst) : list Z := delivered (d_log (w_dev s)) ++ w_buf s.

(** A schedule that makes progress: asked to take something it takes at least one. *)
Definition progresses (a : sched) : Prop := forall k n, (0 < n)%nat -> (0 < a k n)%nat.

(** A way to deliver elements of the given kind, other than through a buffer. *)
Definition direct (cp : caps) (smtp : bool) : bool :=
  (smtp && (has_write_all cp || has_scatter_write_all cp || has_write_some cp || has_scatter_write_some cp))
  || has_write_all_bytes cp || has_write_some_bytes cp.

(** The part of the scatter list before position [i], offset [p]. *)
Definition upto (scatters : list (list Z)) (i p : nat) : list Z :=
  concat (firstn i scatters) ++ firstn p (nth i scatters []).

(** A status: [i],[p] is where [k] characters end; a full scatter is never left half open. *)
Definition status_ok (scatters : list (list Z)) (k i p : nat) : Prop :=
  (i <= length scatters)%nat /\ upto scatters i p = firstn k (concat scatters) /\ (k <= length (concat scatters))%nat /\
  (i = length scatters -> p = 0%nat) /\ ((i < length scatters)%nat -> (p < length (nth i scatters []))%nat).

(** A stream through which scattered bytes can be delivered completely. *)
Definition can_scatter (cp : caps) : bool :=
  has_scatter_write_all_bytes cp || has_write_all_bytes cp || has_write_some_bytes cp.
