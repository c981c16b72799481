(** What users expect of transmit, stated without the loops. *)
From Verif Require Import Base BufModel PrintModel BufSpec TransmitModel.

(** An output stream: [wr] is its write, [got o] all the characters it was given, delivered or pending; [ok] holds
    of its reachable states.  It takes everything it is given. *)
Definition takes {O} (wr : O -> list Z -> res O) (ok : O -> Prop) (got : O -> list Z) : Prop :=
  forall o l, ok o -> exists o', wr o l = Fine o' /\ ok o' /\ got o' = got o ++ l.
(** It takes everything it is given, or throws after taking a part from the front. *)
Definition takes_or_throws {O} (wr : O -> list Z -> res O) (ok : O -> Prop) (got : O -> list Z) : Prop :=
  forall o l, ok o ->
    (exists o', wr o l = Fine o' /\ ok o' /\ got o' = got o ++ l) \/
    (exists o' k, wr o l = Raised o' /\ ok o' /\ got o' = got o ++ firstn k l).
(** A buffered output stream and a device without buffer as such streams. *)
Definition buf_ok (c : config) (o : bios) : Prop := c_out c = true /\ (length (pending o) <= c_bfs c)%nat.
Definition buf_got (o : bios) : list Z := device_got o ++ pending o.
Definition dev_got (d : dev) : list Z := delivered (d_log d).

(** The kernel moves at least one character whenever sendfile succeeds before the end of the input. *)
Definition honest_moves (sf : answers) : Prop := forall k n, snd (sf k n) = true -> (0 < n -> 0 < fst (sf k n))%nat.

(** [copied left got i o r n]: the call [r] moved exactly the first [n] characters of the input. *)
Definition copied {I O} (left : I -> list Z) (got : O -> list Z) (i : I) (o : O) (n : nat) (r : tres I O) : Prop :=
  exists i' o', r = TFine i' o' (Z.of_nat n) /\ got o' = got o ++ firstn n (left i) /\ left i' = skipn n (left i).
