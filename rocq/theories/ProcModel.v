(** Model of child processes: posix_process objects and the standard streams of a child.
    Source: include/fast_io_hosted/process_revamp/posix.h 84-230, 400-446 (Linux). *)
From Verif Require Import Base HandleModel.

(** ** Process objects *)
(** A child exists from fork until its status is collected; [stat p] is the status it exits with (the time at which
    it exits does not matter: waitpid waits). *)
Record pstate := mk_pstate { kids : nat -> bool; procs : nat -> option (option nat) }.
Definition pid_of (s : pstate) (x : nat) : option nat := match procs s x with Some p => p | None => None end.
Definition set_proc (s : pstate) (x : nat) (v : option (option nat)) : pstate := mk_pstate (kids s) (upd (procs s) x v).
Definition collect (s : pstate) (p : nat) : pstate := mk_pstate (upd (kids s) p false) (procs s).
(** waitpid(pid,...): the collected child; [None] is ECHILD.  waitpid(-1,...) waits for any child: [a] is the one the
    kernel chooses. *)
Definition waitpid (s : pstate) (pid : option nat) (a : option nat) : option nat :=
  match pid with
  | Some p => if kids s p then Some p else None
  | None => a
  end.
Definition after_wait (s : pstate) (r : option nat) : pstate := match r with Some p => collect s p | None => s end.

Inductive pop :=
| PEmpty (x : nat)
| PSpawn (x p : nat) (ok : bool)                 (* posix_process x(...): fork gives the pid p *)
| PMove (x y : nat)
| PMoveAssign (x y : nat) (a : option nat)
| PWait (x : nat) (a : option nat)               (* wait(x) *)
| PDetach (x : nat)                              (* detach(x) *)
| PDestroy (x : nat) (a : option nat)
| PElseFork (p : nat)                            (* other code starts a child *)
| PElseWait (p : nat).                           (* other code waits for its child *)
Inductive presult := PDone | PGot (status : Z) | PThrew.
Section Proc.
Variable stat : nat -> Z.
Definition pstep (s : pstate) (o : pop) : pstate * presult :=
  match o with
  | PEmpty x => (set_proc s x (Some None), PDone)                                       (* 405 *)
  | PSpawn x p ok =>                                                                    (* 410-416, 84-97, 195-207 *)
      if ok then (set_proc (mk_pstate (upd (kids s) p true) (procs s)) x (Some (Some p)), PDone) else (s, PThrew)
  | PMove x y => (set_proc (set_proc s x (Some (pid_of s y))) y (Some None), PDone)     (* 424-427 *)
  | PMoveAssign x y a =>                                                                (* 428-434, 112-119 *)
      let s := after_wait s (waitpid s (pid_of s x) a) in
      (set_proc (set_proc s x (Some (pid_of s y))) y (Some None), PDone)
  | PWait x a =>                                                                        (* 263-268, 99-110 *)
      match waitpid s (pid_of s x) a with
      | Some p => (set_proc (collect s p) x (Some None), PGot (stat p))
      | None => (s, PThrew)
      end
  | PDetach x => (set_proc s x (Some None), PDone)                                      (* 258-261 *)
  | PDestroy x a => (set_proc (after_wait s (waitpid s (pid_of s x) a)) x None, PDone)  (* 435-438 *)
  | PElseFork p => (mk_pstate (upd (kids s) p true) (procs s), PDone)
  | PElseWait p => if kids s p then (collect s p, PGot (stat p)) else (s, PThrew)
  end.
Fixpoint prun (s : pstate) (l : list pop) : pstate * list presult :=
  match l with
  | [] => (s, [])
  | o :: l => let '(s, e) := pstep s o in let '(s, es) := prun s l in (s, e :: es)
  end.
End Proc.
Definition pstart : pstate := mk_pstate (fun _ => false) (fun _ => None).

(** ** The standard streams of a child *)
(** posix_io_redirection (posix.h 289-294) as made by the functions redirect: nothing, a pipe (by number), a
    descriptor, the null device. *)
Inductive redirection := RDefault | RPipe (p : nat) | RFd (fd : nat) | RNull.
(** The child between fork and exec: its descriptor table and its copies of the pipe objects (in and out ends). *)
Record child := mk_child { ctab : nat -> option nat; cpipe : nat -> option nat * option nat }.
Definition ends (is_stdin : bool) (p : option nat * option nat) : option nat * option nat :=
  if is_stdin then (fst p, snd p) else (snd p, fst p).
(** 137-156 child_process_deal_with_process_io.  [None] stands for -1. *)
Definition deal_with (c : child) (red : redirection) (fd : nat) : child * option nat :=
  let is_stdin := Nat.eqb fd 0 in
  match red with
  | RPipe p =>
      let '(v, other) := ends is_stdin (cpipe c p) in
      let fd := match v with Some v => v | None => fd end in
      (match other with
       | Some o => mk_child (upd (ctab c) o None)
                     (upd (cpipe c) p (if is_stdin then (fst (cpipe c p), None) else (None, snd (cpipe c p))))
       | None => c
       end, Some fd)
  | RFd f => (c, Some f)
  | RNull => (c, None)
  | RDefault => (c, Some fd)
  end.
(** sys_dup2<true>: a failure terminates the child. *)
Definition dup2_or_die (c : child) (old new : nat) : option child :=
  match ctab c old with Some d => Some (mk_child (upd (ctab c) new (Some d)) (cpipe c)) | None => None end.
Definition bindc (c : option child) (f : child -> option child) : option child := match c with Some c => f c | None => None end.
Definition null_to (pf : nat) (fd : option nat) (new : nat) (c : child) : option child :=
  match fd with None => dup2_or_die c pf new | Some _ => Some c end.
Definition redirect_to (fd : option nat) (new : nat) (c : child) : option child :=
  match fd with Some f => if Nat.eqb f new then Some c else dup2_or_die c f new | None => Some c end.
(** 159-182 child_process_execveat up to exec; [null] is the description of the null device and [a] the descriptor the
    kernel gives to it.  [None]: the child terminates itself. *)
Definition child_streams (c : child) (rin rout rerr : redirection) (null : nat) (a : nat) : option child :=
  let '(c, i) := deal_with c rin 0 in
  let '(c, o) := deal_with c rout 1 in
  let '(c, e) := deal_with c rerr 2 in
  bindc
    (match i, o, e with
     | Some _, Some _, Some _ => Some c
     | _, _, _ =>
         let c := mk_child (upd (ctab c) a (Some null)) (cpipe c) in     (* my_posix_open<true>("/dev/null",...) *)
         bindc (bindc (bindc (null_to a i 0 c) (null_to a o 1)) (null_to a e 2))
           (fun c => Some (mk_child (upd (ctab c) a None) (cpipe c)))      (* the destructor of pf *)
     end)
    (fun c => bindc (bindc (redirect_to i 0 c) (redirect_to o 1)) (redirect_to e 2)).
(** 185-196 parent_process_deal_with_process_io and its calls (203-205): the parent's descriptors and pipe objects after
    the fork. *)
Definition parent_deal (is_stdin : bool) (c : child) (red : redirection) : child :=
  match red with
  | RPipe p =>
      match (if is_stdin then fst (cpipe c p) else snd (cpipe c p)) with
      | Some f => mk_child (upd (ctab c) f None)
                    (upd (cpipe c) p (if is_stdin then (None, snd (cpipe c p)) else (fst (cpipe c p), None)))
      | None => c
      end
  | _ => c
  end.
Definition parent_after (c : child) (rin rout rerr : redirection) : child :=
  parent_deal false (parent_deal false (parent_deal true c rin) rout) rerr.
