(** What users expect of file objects: every object is a handle to an open file, or empty.  No descriptors here. *)
From Verif Require Import Base HandleModel.

(** Objects ([None]: not constructed or destroyed; [Some None]: empty) and handles held outside of objects. *)
Record hstate := mk_hstate { hobj : nat -> option (option nat); hraw : nat -> option nat }.
Definition file_of (s : hstate) (x : nat) : option nat := match hobj s x with Some f => f | None => None end.
Definition h_obj (s : hstate) (x : nat) (v : option (option nat)) : hstate := mk_hstate (upd (hobj s) x v) (hraw s).
Definition h_raw (s : hstate) (r : nat) (v : option nat) : hstate := mk_hstate (hobj s) (upd (hraw s) r v).
Definition answered {A} (a : option A) : bool := match a with Some _ => true | None => false end.

(** The effect on the files the objects refer to, and whether an exception is thrown. *)
Definition hstep (s : hstate) (o : fop) : hstate * bool :=
  match o with
  | FEmpty x => (h_obj s x (Some None), false)
  | FOpen x d a => if answered a then (h_obj s x (Some (Some d)), false) else (s, true)
  (* a copy refers to the same open file; there is no copy of an empty object *)
  | FCopy x y a =>
      match file_of s y with
      | Some f => if answered a then (h_obj s x (Some (Some f)), false) else (s, true)
      | None => (s, true)
      end
  | FCopyAssign x y ok =>
      match file_of s y with
      | Some f => if ok then (h_obj s x (Some (Some f)), false) else (s, true)
      | None => (s, true)
      end
  (* a moved-from object is empty *)
  | FMove x y | FMoveAssign x y => (h_obj (h_obj s x (Some (file_of s y))) y (Some None), false)
  | FRelease r x => (h_obj (h_raw s r (file_of s x)) x (Some None), false)
  | FAdopt x r | FReset x (Some r) => (h_raw (h_obj s x (Some (hraw s r))) r None, false)
  | FReset x None => (h_obj s x (Some None), false)
  (* after close the object is empty, even if the system reports an error *)
  | FClose x ok => match file_of s x with Some _ => (h_obj s x (Some None), negb ok) | None => (s, false) end
  | FDestroy x => (h_obj s x None, false)
  | FPipe x y d e a => if answered a then (h_obj (h_obj s x (Some (Some d))) y (Some (Some e)), false) else (s, true)
  | FElse r d _ => (h_raw s r (Some d), false)
  | FElseClose r => (h_raw s r None, false)
  end.
Fixpoint hrun (s : hstate) (l : list fop) : hstate * list bool :=
  match l with
  | [] => (s, [])
  | o :: l => let '(s, e) := hstep s o in let '(s, es) := hrun s l in (s, e :: es)
  end.
Definition hstart : hstate := mk_hstate (fun _ => None) (fun _ => None).

(** Programs use objects during their lifetime and do not overwrite the only copy of a descriptor they hold. *)
Definition alive (s : hstate) (x : nat) : Prop := hobj s x <> None.
Definition proper (s : hstate) (o : fop) : Prop :=
  match o with
  | FEmpty x | FOpen x _ _ => ~ alive s x
  | FCopy x y _ | FMove x y => ~ alive s x /\ alive s y
  | FCopyAssign x y _ | FMoveAssign x y => alive s x /\ alive s y
  | FRelease r x => alive s x /\ hraw s r = None
  | FAdopt x r => ~ alive s x
  | FReset x r => alive s x
  | FClose x _ | FDestroy x => alive s x
  | FPipe x y _ _ _ => ~ alive s x /\ ~ alive s y /\ x <> y
  | FElse r _ _ => hraw s r = None
  | FElseClose r => True
  end.
(** The kernel hands out descriptors that are not in use. *)
Definition kernel_ok (k : kern) (o : fop) : Prop :=
  match o with
  | FOpen _ _ (Some fd) | FCopy _ _ (Some fd) | FElse _ _ fd => tab k fd = None
  | FPipe _ _ _ _ (Some (f, g)) => tab k f = None /\ tab k g = None /\ f <> g
  | _ => True
  end.
(** The file behind a descriptor in the kernel's table, and so the file each object refers to. *)
Definition behind (s : fstate) (fd : option nat) : option nat := match fd with Some fd => tab (ker s) fd | None => None end.
Definition view (s : fstate) : hstate :=
  mk_hstate (fun x => match objs s x with Some fd => Some (behind s fd) | None => None end) (fun r => behind s (raws s r)).
Definition same (h h' : hstate) : Prop := (forall x, hobj h x = hobj h' x) /\ (forall r, hraw h r = hraw h' r).

(** A history: every operation proper and every answer of the kernel possible.  [extra] is a further condition. *)
Fixpoint history (extra : hstate -> fop -> Prop) (s : fstate) (l : list fop) : Prop :=
  match l with
  | [] => True
  | o :: l => proper (view s) o /\ kernel_ok (ker s) o /\ extra (view s) o /\ history extra (fst (fstep s o)) l
  end.
(** No copy is assigned to an empty object. *)
Definition no_assign_to_empty (h : hstate) (o : fop) : Prop :=
  match o with FCopyAssign x y _ => file_of h x <> None | _ => True end.
Definition anything (h : hstate) (o : fop) : Prop := True.

(** The holders of descriptors. *)
Inductive holder := HObj (x : nat) | HRaw (r : nat).
Definition holds (s : fstate) (h : holder) (fd : nat) : Prop :=
  match h with HObj x => objs s x = Some (Some fd) | HRaw r => raws s r = Some fd end.
