(** What opening a file does: open(2) and fopen, and the table of open modes in the sources (mode.h 321-405, posix.h 237-275).
    Independent of the model. *)
From Coq Require Import String List Ascii.
From Verif Require Import Base.
Import ListNotations.
Open Scope Z_scope.

(** What is at the path: nothing, a regular file with its contents, a symbolic link to such a thing. *)
Inductive node := Missing | File (contents : list Z) | Link (target : node).
(** The outcome: refused (with the file system unchanged), or the file with its contents after the call and the rights of
    the new descriptor. *)
Record rights := mk_rights { can_read : bool; can_write : bool; appends : bool }.
Inductive opened := Refused | Opened (contents : list Z) (r : rights).

(** open(2) on Linux for the flags used here; not O_PATH, O_TMPFILE, O_DIRECTORY.  Flag values of x86-64. *)
Definition flag (flags bit : Z) : bool := Z.testbit flags bit.
Definition access_rights (flags : Z) : rights :=
  let acc := flags mod 4 in
  mk_rights (negb (acc =? 1)) (negb (acc =? 0)) (flag flags 10).
Fixpoint open2 (flags : Z) (n : node) : opened :=
  match n with
  | Missing => if flag flags 6 then Opened [] (access_rights flags) else Refused
  | File c =>
      if flag flags 6 && flag flags 7 then Refused
      else Opened (if flag flags 9 then [] else c) (access_rights flags)
  | Link t =>
      if (flag flags 6 && flag flags 7) || flag flags 17 then Refused else open2 flags t
  end.

(** The table: what happens when the file exists and when it does not. *)
Inductive when_there := Keep | Destroy | Error.
Record row := mk_row { there : when_there; absent_creates : bool; row_rights : rights }.
(** in, out, app, trunc, excl: the combinations of the table. *)
Definition table (i o a t x : bool) : option row :=
  match i, o, a, t, x with
  | true, false, false, false, false => Some (mk_row Keep false (mk_rights true false false))            (* "r" *)
  | false, true, false, _, false => Some (mk_row Destroy true (mk_rights false true false))              (* "w" *)
  | false, _, true, false, false => Some (mk_row Keep true (mk_rights false true true))                  (* "a" *)
  | true, true, false, false, false => Some (mk_row Keep false (mk_rights true true false))              (* "r+" *)
  | true, true, false, true, false => Some (mk_row Destroy true (mk_rights true true false))             (* "w+" *)
  | true, _, true, false, false => Some (mk_row Keep true (mk_rights true true true))                    (* "a+" *)
  | false, true, false, _, true => Some (mk_row Error true (mk_rights false true false))                 (* "wx" *)
  | false, _, true, false, true => Some (mk_row Error true (mk_rights false true true))                  (* "ax" *)
  | true, true, false, true, true => Some (mk_row Error true (mk_rights true true false))                (* "w+x" *)
  | true, _, true, false, true => Some (mk_row Error true (mk_rights true true true))                    (* "a+x" *)
  | _, _, _, _, _ => None
  end.
Definition obeys (r : row) (file : option (list Z)) : opened :=
  match file with
  | None => if absent_creates r then Opened [] (row_rights r) else Refused
  | Some c => match there r with Keep => Opened c (row_rights r) | Destroy => Opened [] (row_rights r) | Error => Refused end
  end.

(** fopen: the first letter, and whether '+' and 'x' occur (glibc; 'b' has no effect). *)
Fixpoint mentions (ch : ascii) (s : string) : bool :=
  match s with EmptyString => false | String c r => Ascii.eqb c ch || mentions ch r end.
Definition fopen_row (mode : string) : option row :=
  match mode with
  | String c rest =>
      let plus := mentions "+" rest in
      let x := mentions "x" rest in
      if Ascii.eqb c "r" then Some (mk_row Keep false (mk_rights true plus false))
      else if Ascii.eqb c "w" then Some (mk_row (if x then Error else Destroy) true (mk_rights plus true false))
      else if Ascii.eqb c "a" then Some (mk_row (if x then Error else Keep) true (mk_rights plus true true))
      else None
  | EmptyString => None
  end.
