(** What users expect of calls on streams shared through a mutex. *)
From Verif Require Import Base BufModel PrintModel BufSpec TransmitModel LockModel LockSpec SharedModel.

(** The streams a call works on. *)
Definition touches (x : shared_call) (m : nat) : Prop :=
  match x with
  | SWrite n _ | SPrint n _ _ _ | SFlush n | SRead n _ => n = m
  | STransmit o i => o = m \/ i = m
  end.
(** Output calls. *)
Definition is_output (x : shared_call) : Prop := match x with SRead _ _ | STransmit _ _ => False | _ => True end.
Definition call_ok (x : shared_call) : Prop := match x with SPrint _ _ _ args => Forall arg_ok args | _ => True end.
(** The text the call outputs on stream [m]. *)
Definition text_on (m : nat) (x : shared_call) : list Z :=
  match x with
  | SWrite n l => if Nat.eqb n m then l else []
  | SPrint n _ line args => if Nat.eqb n m then printed line args else []
  | _ => []
  end.
Definition nth_call (T : nat -> list shared_call) (o : nat * nat) : option shared_call := nth_error (T (fst o)) (snd o).
Definition text_of_call (T : nat -> list shared_call) (m : nat) (o : nat * nat) : list Z :=
  match nth_call T o with Some x => text_on m x | None => [] end.
(** The result of a call on the stream inside, as an outcome. *)
Definition out_outcome (r : res bios) : outcome :=
  match r with Fine _ => ORet [] 0 | Raised _ => OThrow | _ => ODead end.
