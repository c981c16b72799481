(** What users expect of child processes. *)
From Verif Require Import Base HandleModel ProcModel.

(** ** Process objects: each waits for its own child only *)
Section Spec.
Variable stat : nat -> Z.
Definition qstep (s : pstate) (o : pop) : pstate * presult :=
  let wait_own := fun x => match pid_of s x with Some p => collect s p | None => s end in
  match o with
  | PEmpty x => (set_proc s x (Some None), PDone)
  | PSpawn x p ok => if ok then (set_proc (mk_pstate (upd (kids s) p true) (procs s)) x (Some (Some p)), PDone) else (s, PThrew)
  | PMove x y => (set_proc (set_proc s x (Some (pid_of s y))) y (Some None), PDone)
  | PMoveAssign x y _ =>
      let s := wait_own x in (set_proc (set_proc s x (Some (pid_of s y))) y (Some None), PDone)
  | PWait x _ =>
      match pid_of s x with
      | Some p => (set_proc (collect s p) x (Some None), PGot (stat p))
      | None => (s, PThrew)                            (* nothing to wait for *)
      end
  | PDetach x => (set_proc s x (Some None), PDone)
  | PDestroy x _ => (set_proc (wait_own x) x None, PDone)
  | PElseFork p => (mk_pstate (upd (kids s) p true) (procs s), PDone)
  | PElseWait p => if kids s p then (collect s p, PGot (stat p)) else (s, PThrew)
  end.
Fixpoint qrun (s : pstate) (l : list pop) : pstate * list presult :=
  match l with
  | [] => (s, [])
  | o :: l => let '(s, e) := qstep s o in let '(s, es) := qrun s l in (s, e :: es)
  end.
End Spec.
Definition palive (s : pstate) (x : nat) : Prop := procs s x <> None.
(** Objects are used during their lifetime; other code waits for its own children only. *)
Definition pproper (s : pstate) (o : pop) : Prop :=
  match o with
  | PEmpty x | PSpawn x _ _ => ~ palive s x
  | PMove x y => ~ palive s x /\ palive s y
  | PMoveAssign x y _ => palive s x /\ palive s y /\ x <> y
  | PWait x _ | PDetach x | PDestroy x _ => palive s x
  | PElseFork _ => True
  | PElseWait p => forall x, pid_of s x <> Some p
  end.
(** The kernel's answers: a new child gets a pid not in use, waiting for any child collects one if there is one. *)
Definition any_child (s : pstate) (a : option nat) : Prop :=
  match a with Some p => kids s p = true | None => forall p, kids s p = false end.
Definition pkernel_ok (s : pstate) (o : pop) : Prop :=
  match o with
  | PSpawn _ p true | PElseFork p => kids s p = false
  | PMoveAssign _ _ a | PWait _ a | PDestroy _ a => any_child s a
  | _ => True
  end.
Fixpoint phistory (extra : pstate -> pop -> Prop) (stat : nat -> Z) (s : pstate) (l : list pop) : Prop :=
  match l with
  | [] => True
  | o :: l => pproper s o /\ pkernel_ok s o /\ extra s o /\ phistory extra stat (fst (pstep stat s o)) l
  end.
(** Empty objects are waited for, assigned to and destroyed only when there are no children at all. *)
Definition no_empty_wait (s : pstate) (o : pop) : Prop :=
  match o with
  | PMoveAssign x _ _ | PWait x _ | PDestroy x _ => pid_of s x = None -> forall p, kids s p = false
  | _ => True
  end.
Definition any_history (s : pstate) (o : pop) : Prop := True.
Definition psame (s t : pstate) : Prop := (forall p, kids s p = kids t p) /\ (forall x, procs s x = procs t x).

(** ** The standard streams *)
(** The file the child should have as its stream [fd]; [end_of] selects the end of a pipe. *)
Definition wanted (c : child) (red : redirection) (fd : nat) (null : nat) : option nat :=
  match red with
  | RDefault => ctab c fd
  | RPipe p => match (if Nat.eqb fd 0 then fst (cpipe c p) else snd (cpipe c p)) with Some f => ctab c f | None => ctab c fd end
  | RFd f => ctab c f
  | RNull => Some null
  end.
(** The descriptor of the parent a stream of the child is taken from, and the end of a pipe the child has no use for. *)
Definition source (c : child) (red : redirection) (fd : nat) : option nat :=
  match red with
  | RDefault => Some fd
  | RPipe p => if Nat.eqb fd 0 then fst (cpipe c p) else snd (cpipe c p)
  | RFd f => Some f
  | RNull => None
  end.
Definition closed_end (c : child) (red : redirection) (fd : nat) : option nat :=
  match red with RPipe p => if Nat.eqb fd 0 then snd (cpipe c p) else fst (cpipe c p) | _ => None end.
(** Redirections without crossings: each stream is taken from itself, from a descriptor other than 0, 1 and 2, from a
    fresh pipe or from the null device. *)
Definition plain_source (c : child) (red : redirection) (fd : nat) : Prop :=
  match red with
  | RDefault | RNull => True
  | RFd f => ctab c f <> None /\ (f = fd \/ (3 <= f)%nat)
  | RPipe p => exists r w, cpipe c p = (Some r, Some w) /\ (3 <= r)%nat /\ (3 <= w)%nat /\ ctab c r <> None /\ ctab c w <> None
  end.
Definition is_pipe (red : redirection) (p : nat) : Prop := red = RPipe p.
(** The pipes of different streams are different, except that out and err may share one. *)
Definition unshared (rin rout rerr : redirection) : Prop :=
  forall p, rin = RPipe p -> rout <> RPipe p /\ rerr <> RPipe p.
Definition from_closed (c : child) (r1 : redirection) (n1 : nat) (r2 : redirection) (n2 : nat) : Prop :=
  exists f, closed_end c r1 n1 = Some f /\ source c r2 n2 = Some f.
(** No stream is taken from an end the child closes. *)
Definition apart (c : child) (rin rout rerr : redirection) : Prop :=
  forall r1 n1 r2 n2, In (r1, n1) [(rin, 0); (rout, 1); (rerr, 2)]%nat -> In (r2, n2) [(rin, 0); (rout, 1); (rerr, 2)]%nat ->
    ~ from_closed c r1 n1 r2 n2.
Definition std_open (c : child) : Prop := forall n, (n < 3)%nat -> ctab c n <> None.
(** The descriptor the kernel gives to the null device: one that is not open (then). *)
Definition unused (c : child) (rin rout rerr : redirection) (a : nat) : Prop :=
  ctab c a = None \/ exists r n, In (r, n) [(rin, 0); (rout, 1); (rerr, 2)]%nat /\ closed_end c r n = Some a.
