(** What errors mean: conditions reported by different parts of a system, and when two reports are of the same condition. *)
From Coq Require Import String.
From Coq Require Import List.
From Verif Require Import Base ErrTables.
Local Open Scope Z_scope.

(** The numbers an <errno.h> gives to the names it defines. *)
Definition errno_numbers := string -> option Z.
(** A header for which the tables compile: listed names have different numbers, none of them zero. *)
Definition header_ok (names : list string) (E : errno_numbers) : Prop :=
  (forall n m x, In n names -> In m names -> E n = Some x -> E m = Some x -> n = m) /\
  (forall n, In n names -> E n <> Some 0) /\ forall n x, E n = Some x -> 0 <= x < 2 ^ 15.

(** Who reports, and what. *)
Inductive condition := Posix (x : Z) | Windows (w : Z) | Nt (s : Z) | Parse (c : Z).
Definition condition_ok (c : condition) : Prop :=
  match c with
  | Posix x => - 2 ^ 31 <= x < 2 ^ 31
  | Windows w => 0 <= w < 2 ^ 32
  | Nt s => 0 <= s < 2 ^ 32
  | Parse c => 0 <= c < 256
  end.

(** The errno that stands for a Windows error; success for success. *)
Inductive stands_for (E : errno_numbers) : Z -> Z -> Prop :=
| stands_ok : stands_for E 0 0
| stands_listed n cs w x : In (n, cs) codes_of_errno -> In w cs -> E n = Some x -> stands_for E w x.

(** Two reports of one condition; [dos s] is the Windows error of an NT status, as RtlNtStatusToDosError tells. *)
Inductive same (E : errno_numbers) (dos : Z -> Z) : condition -> condition -> Prop :=
| same_refl c : same E dos c c
| same_wp w x : stands_for E w x -> same E dos (Windows w) (Posix x)
| same_pw w x : stands_for E w x -> same E dos (Posix x) (Windows w)
| same_nw s : same E dos (Nt s) (Windows (dos s))
| same_wn s : same E dos (Windows (dos s)) (Nt s)
| same_np s x : stands_for E (dos s) x -> same E dos (Nt s) (Posix x)
| same_pn s x : stands_for E (dos s) x -> same E dos (Posix x) (Nt s).

(** The description of an errno: the one written for the name that has this number. *)
Inductive described (E : errno_numbers) : Z -> string -> Prop :=
| described_ok : described E 0 "Success"
| described_listed n g t x : In (n, g, t) errno_texts -> E n = Some x ->
    match g with None => True | Some m => E m <> Some x end -> described E x t.
