(** Model of the file objects that own POSIX descriptors: basic_posix_file and basic_posix_pipe.
    Source: include/fast_io_hosted/platforms/posix.h 372-405, 1224-1346, 1410-1438 and
    include/fast_io_hosted/platforms/systemcall_details.h 15-79 (Linux).
    Objects, the raw descriptors the program holds outside of objects, and open file descriptions are numbered.
    The kernel's table maps a descriptor to the open file description it stands for. *)
From Verif Require Import Base.

Definition upd {A} (f : nat -> A) (x : nat) (v : A) (y : nat) : A := if Nat.eqb y x then v else f y.

(** ** The kernel *)
Inductive kcall := KClose (fd : nat) (was_open : bool).
Record kern := mk_kern { tab : nat -> option nat; klog : list kcall }.
(** openat, dup, pipe: the descriptor is given to the description [d]. *)
Definition k_give (k : kern) (fd d : nat) : kern := mk_kern (upd (tab k) fd (Some d)) (klog k).
(** close(2): the descriptor is free afterwards, also when close reports an error. *)
Definition k_close (k : kern) (fd : nat) : kern :=
  mk_kern (upd (tab k) fd None) (klog k ++ [KClose fd (match tab k fd with Some _ => true | None => false end)]).
(** dup2(2), old and new descriptors ([None] is -1): EBADF unless both are descriptors and the old one is open; the
    kernel may fail for other reasons ([ok] false). *)
Definition k_dup2 (k : kern) (old new : option nat) (ok : bool) : kern * bool :=
  match old, new with
  | Some old, Some new =>
      match tab k old with
      | Some d => if ok then (k_give k new d, true) else (k, false)
      | None => (k, false)
      end
  | _, _ => (k, false)
  end.

(** ** The program *)
(** [objs x]: [None] before construction and after destruction, [Some fd] during the lifetime, where the member fd
    is -1 ([None]) or a descriptor.  [raws r]: a descriptor in an int variable of the program. *)
Record fstate := mk_fstate { ker : kern; objs : nat -> option (option nat); raws : nat -> option nat }.
Definition fd_of (s : fstate) (x : nat) : option nat := match objs s x with Some fd => fd | None => None end.
Definition set_ker (s : fstate) (k : kern) : fstate := mk_fstate k (objs s) (raws s).
Definition set_obj (s : fstate) (x : nat) (v : option (option nat)) : fstate := mk_fstate (ker s) (upd (objs s) x v) (raws s).
Definition set_raw (s : fstate) (r : nat) (v : option nat) : fstate := mk_fstate (ker s) (objs s) (upd (raws s) r v).
(** if(this->fd!=-1) details::sys_close(this->fd). *)
Definition close_fd (s : fstate) (fd : option nat) : fstate :=
  match fd with Some fd => set_ker s (k_close (ker s) fd) | None => s end.
(** details::sys_dup(fd): the answer [a] is the new descriptor, or an error. *)
Definition sys_dup (s : fstate) (old : option nat) (a : option nat) : option (fstate * nat) :=
  match old, a with
  | Some old, Some fd =>
      match tab (ker s) old with Some d => Some (set_ker s (k_give (ker s) fd d), fd) | None => None end
  | _, _ => None
  end.

(** What programs do with file objects; [a] and [ok] are the kernel's answers. *)
Inductive fop :=
| FEmpty (x : nat)                              (* file x; *)
| FOpen (x d : nat) (a : option nat)            (* file x(name,mode): the kernel opens the description d *)
| FCopy (x y : nat) (a : option nat)            (* file x(y); and file x(io_dup,y); *)
| FCopyAssign (x y : nat) (ok : bool)           (* x = y; *)
| FMove (x y : nat)                             (* file x(std::move(y)); *)
| FMoveAssign (x y : nat)                       (* x = std::move(y); *)
| FRelease (r x : nat)                          (* int r{x.release()}; *)
| FAdopt (x r : nat)                            (* file x(r); the variable r gives the descriptor up *)
| FReset (x : nat) (r : option nat)             (* x.reset(); x.reset(r); *)
| FClose (x : nat) (ok : bool)                  (* x.close(); *)
| FDestroy (x : nat)                            (* the end of the lifetime of x *)
| FPipe (x y d e : nat) (a : option (nat * nat))  (* pipe p; x is p.in(), y is p.out() *)
| FElse (r d : nat) (a : nat)                   (* other code opens a descriptor *)
| FElseClose (r : nat).                         (* other code closes its descriptor *)

(** The effect, and whether an exception leaves the operation. *)
Definition fstep (s : fstate) (o : fop) : fstate * bool :=
  match o with
  | FEmpty x => (set_obj s x (Some None), false)                                          (* 1231 *)
  | FOpen x d a =>                                                                        (* 1290-1293, 1021-1033 *)
      match a with
      | Some fd => (set_obj (set_ker s (k_give (ker s) fd d)) x (Some (Some fd)), false)
      | None => (s, true)
      end
  | FCopy x y a =>                                                                        (* 1236-1237, 1306-1308 *)
      match sys_dup s (fd_of s y) a with
      | Some (s, fd) => (set_obj s x (Some (Some fd)), false)
      | None => (s, true)
      end
  | FCopyAssign x y ok =>                                                                 (* 1309-1313 *)
      let '(k, good) := k_dup2 (ker s) (fd_of s y) (fd_of s x) ok in
      (set_ker s k, negb good)
  | FMove x y =>                                                                          (* 1314-1317 *)
      let fd := fd_of s y in
      (set_obj (set_obj s x (Some fd)) y (Some None), false)
  | FMoveAssign x y =>                                                                    (* 1318-1325 *)
      let s := close_fd s (fd_of s x) in
      let s := set_obj s x (Some (fd_of s y)) in
      (set_obj s y (Some None), false)
  | FRelease r x => (set_obj (set_raw s r (fd_of s x)) x (Some None), false)              (* 399-404 *)
  | FAdopt x r => (set_raw (set_obj s x (Some (raws s r))) r None, false)                 (* 1232-1234 *)
  | FReset x r =>                                                                         (* 1326-1331 *)
      let s := close_fd s (fd_of s x) in
      match r with
      | Some r => (set_raw (set_obj s x (Some (raws s r))) r None, false)
      | None => (set_obj s x (Some None), false)
      end
  | FClose x ok =>                                                                        (* 1332-1336, systemcall_details.h 74-79 *)
      match fd_of s x with
      | Some fd => (set_obj (close_fd s (Some fd)) x (Some None), negb ok)
      | None => (s, false)
      end
  | FDestroy x => (set_obj (close_fd s (fd_of s x)) x None, false)                        (* 1337-1341 *)
  | FPipe x y d e a =>                                                                    (* 1416-1430 *)
      match a with
      | Some (f, g) =>
          let k := k_give (k_give (ker s) f d) g e in
          (set_obj (set_obj (set_ker s k) x (Some (Some f))) y (Some (Some g)), false)
      | None => (s, true)
      end
  | FElse r d fd => (set_raw (set_ker s (k_give (ker s) fd d)) r (Some fd), false)
  | FElseClose r => (set_raw (close_fd s (raws s r)) r None, false)
  end.
Fixpoint frun (s : fstate) (l : list fop) : fstate * list bool :=
  match l with
  | [] => (s, [])
  | o :: l => let '(s, e) := fstep s o in let '(s, es) := frun s l in (s, e :: es)
  end.
Definition fstart : fstate := mk_fstate (mk_kern (fun _ => None) []) (fun _ => None) (fun _ => None).
