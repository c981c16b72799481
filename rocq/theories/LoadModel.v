(** Model of file loaders and memory maps.
    Source: include/fast_io_hosted/file_loaders/posix_file_loader.h 121-538 (allocation_file_loader, posix_file_loader),
    include/fast_io_hosted/platforms/posix_mapping.h 9-253 (posix_memory_map_file).
    Target: Linux.  Memory is a set of live blocks with identities; an address inside an object is the begin pointer and the length
    (address_end - address_begin). *)
From Coq Require Import List Bool PeanoNat.
From Verif Require Import Base.
Import ListNotations.

(** Three classes with the same five special functions: allocation_file_loader = posix_file_loader_impl<true>, posix_file_loader =
    posix_file_loader_impl<false>, posix_memory_map_file. *)
Inductive flavour := Alloc | MapLoader | MemMap.
Inductive kind := Malloced | Mapped.
(** Null; (char_star)-1 = MAP_FAILED; the start of a block. *)
Inductive pointer := Null | Failed | At (id : nat).
Record block := mk_block { b_kind : kind; b_bytes : list Z }.
Record world := mk_world { next : nat; live : nat -> option block }.
Definition set_at {A : Type} (f : nat -> A) (k : nat) (v : A) : nat -> A := fun j => if Nat.eqb j k then v else f j.

(** The object: address_begin, and address_end - address_begin. *)
Record loader := mk_loader { address_begin : pointer; len : nat }.

(** An open file: what reads see, the file offset, the size statx reports. *)
Record file := mk_file { contents : list Z; offset : nat; st_size : nat }.

(** malloc and mmap put a new block at a fresh identity. *)
Definition new_block (w : world) (k : kind) (bytes : list Z) : pointer * world :=
  (At (next w), mk_world (S (next w)) (set_at (live w) (next w) (Some (mk_block k bytes)))).
(** free: a null pointer is allowed; anything else must be a live malloc block.  None: undefined behaviour. *)
Definition free (w : world) (p : pointer) : option world :=
  match p with
  | Null => Some w
  | Failed => None
  | At id => match live w id with
             | Some b => match b_kind b with Malloced => Some (mk_world (next w) (set_at (live w) id None)) | Mapped => None end
             | None => None
             end
  end.
(** munmap(2): the whole of a live mapping is removed (true: success); a length of 0 is refused with EINVAL and changes nothing; any
    other call would unmap memory of someone else: None. *)
Definition munmap (w : world) (p : pointer) (n : nat) : option (bool * world) :=
  match n with
  | O => Some (false, w)
  | S _ => match p with
           | At id => match live w id with
                      | Some b => match b_kind b with
                                  | Mapped => if Nat.eqb n (length (b_bytes b)) then Some (true, mk_world (next w) (set_at (live w) id None)) else None
                                  | Malloced => None
                                  end
                      | None => None
                      end
           | _ => None
           end
  end.

(** The kernel's answers to reads: an error, or at most so many bytes (at least one if there is one); when the list is used up the
    kernel gives everything asked for. *)
Inductive answer := Fails | Gives (n : nat).
(** posix_file_loader.h 162-176 and 200-210: read until the whole size is there; a read error or an early end of file throws (None).
    rest: the file from the offset on; the result is the bytes stored from addr. *)
Fixpoint load_loop (fuel need : nat) (rest : list Z) (sched : list answer) : option (list Z) :=
  match need with
  | O => Some []
  | S _ =>
      match fuel with
      | O => None
      | S fuel' =>
          match sched with
          | Fails :: _ => None
          | _ =>
              let k := match sched with Gives n :: _ => Nat.min (Nat.max 1 n) need | _ => need end in
              let got := firstn k rest in
              match got with
              | [] => None
              | _ => match load_loop fuel' (need - length got) (skipn (length got) rest) (tl sched) with
                     | Some more => Some (got ++ more)
                     | None => None
                     end
              end
          end
      end
  end.

(** What a loading constructor can be asked.
    FromFd: posix_load_address_impl (258-264), with malloc or mmap granted or not; file_loader_extra_bytes (385-410):
    posix_load_address_allocation_extra_impl; a window of a file: posix_mapping.h 129-132. *)
Inductive request :=
  | Whole (granted : bool) (sched : list answer)
  | Extra (exsz : Z) (granted : bool) (sched : list answer)
  | Window (bytes start : nat) (granted : bool).
Definition size_max : Z := 2 ^ 64 - 1.
(** Bytes of a private or shared mapping of n bytes from start: bytes past the end of the file are zero (within the last page;
    touching later pages is a fault - simplified to zeros). *)
Definition mapped_bytes (f : file) (n start : nat) : list Z :=
  firstn n (skipn start (contents f) ++ repeat 0%Z n).
(** The address and size of the new object, or None when the constructor throws; and the world.
    Simplified: a constructor of another class does not compile; here it throws. *)
Definition load (fl : flavour) (w : world) (f : file) (q : request) : option loader * world :=
  match fl, q with
  | Alloc, Whole granted sched =>                                   (* posix_load_address<true>, 155-176 *)
      match st_size f with
      | O => (Some (mk_loader Null 0), w)
      | _ => if granted then
               match load_loop (st_size f) (st_size f) (skipn (offset f) (contents f)) sched with
               | Some bytes => let '(p, w') := new_block w Malloced bytes in (Some (mk_loader p (st_size f)), w')
               | None =>  (* the guard's destructor frees the block *)
                   let '(p, w') := new_block w Malloced (repeat 0%Z (st_size f)) in
                   (None, match free w' p with Some w'' => w'' | None => w' end)
               end
             else (None, w)
      end
  | Alloc, Extra exsz granted sched =>                              (* posix_load_address_extra, 193-223 *)
      if (Z.of_nat (st_size f) >? size_max - exsz)%Z then (None, w)
      else if granted then
             match load_loop (st_size f) (st_size f) (skipn (offset f) (contents f)) sched with
             | Some bytes =>
                 let '(p, w') := new_block w Malloced (bytes ++ repeat 0%Z (Z.to_nat exsz)) in (Some (mk_loader p (st_size f)), w')
             | None =>
                 let '(p, w') := new_block w Malloced (repeat 0%Z (st_size f + Z.to_nat exsz)) in
                 (None, match free w' p with Some w'' => w'' | None => w' end)
             end
           else (None, w)
  | MapLoader, Whole granted _ =>                                   (* posix_load_address<false>, 177-190 *)
      match st_size f with
      | O => (Some (mk_loader Failed 0), w)
      | n => if granted then let '(p, w') := new_block w Mapped (mapped_bytes f n 0) in (Some (mk_loader p n), w') else (None, w)
      end
  | MemMap, Window bytes start granted =>                           (* mmap refuses an empty window and an unaligned start *)
      match bytes with
      | O => (None, w)
      | n => if granted && Nat.eqb (Nat.modulo start 4096) 0 then
               let '(p, w') := new_block w Mapped (mapped_bytes f n start) in (Some (mk_loader p n), w')
             else (None, w)
      end
  | _, _ => (None, w)
  end.

(** Default construction: posix_file_loader.h 335-336, posix_mapping.h 125-126. *)
Definition default_object (fl : flavour) : loader :=
  match fl with Alloc => mk_loader Null 0 | MapLoader => mk_loader Failed 0 | MemMap => mk_loader Null 0 end.
(** What a moved-from, closed or released object holds: 367-370, 377-380, 503-506, 514-517; posix_mapping.h 137, 145-146, 242. *)
Definition emptied (fl : flavour) : loader :=
  match fl with Alloc => mk_loader Null 0 | MapLoader => mk_loader Failed 0 | MemMap => mk_loader Failed 0 end.
(** posix_unload_address (226-250); posix_mapping.h 141-142, 239-242, 248-249.  None: undefined behaviour; the boolean says whether
    the system call (if any) succeeded. *)
Definition unload (fl : flavour) (w : world) (x : loader) : option (bool * world) :=
  match fl with
  | Alloc => match free w (address_begin x) with Some w' => Some (true, w') | None => None end
  | MapLoader | MemMap => match address_begin x with Failed => Some (true, w) | p => munmap w p (len x) end
  end.

(** The objects of a program: slots that are constructed or not, the memory, and the blocks handed out by release(). *)
Record state := mk_state { objs : nat -> option loader; mem : world; given : list pointer }.
Inductive op :=
  | Construct (s : nat)
  | Load (s : nat) (f : file) (q : request)
  | MoveConstruct (d s : nat)
  | MoveAssign (d s : nat)
  | Close (s : nat)
  | Release (s : nat)
  | Destroy (s : nat).
Inductive outcome := Next (s : state) | Throws (s : state) | Terminates | Undefined.

Definition step (fl : flavour) (o : op) (st : state) : outcome :=
  match o with
  | Construct s => Next (mk_state (set_at (objs st) s (Some (default_object fl))) (mem st) (given st))
  | Load s f q =>
      match load fl (mem st) f q with
      | (Some x, w) => Next (mk_state (set_at (objs st) s (Some x)) w (given st))
      | (None, w) => Throws (mk_state (objs st) w (given st))
      end
  | MoveConstruct d s =>                                            (* 365-371; posix_mapping.h 135-138 *)
      match objs st s with
      | Some x => Next (mk_state (set_at (set_at (objs st) d (Some x)) s (Some (emptied fl))) (mem st) (given st))
      | None => Undefined
      end
  | MoveAssign d s =>                                               (* 372-382; posix_mapping.h 139-148 *)
      match objs st d with
      | Some old =>
          match unload fl (mem st) old with
          | Some (_, w) =>
              match objs st s with
              | Some x => Next (mk_state (set_at (set_at (objs st) d (Some x)) s (Some (emptied fl))) w (given st))
              | None => Undefined
              end
          | None => Undefined
          end
      | None => Undefined
      end
  | Close s =>                                                      (* 500-507; posix_mapping.h 237-245, noexcept *)
      match objs st s with
      | Some x =>
          match unload fl (mem st) x with
          | Some (ok, w) =>
              match fl with
              | MemMap => if ok then Next (mk_state (set_at (objs st) s (Some (emptied fl))) w (given st)) else Terminates
              | _ => Next (mk_state (set_at (objs st) s (Some (emptied fl))) w (given st))
              end
          | None => Undefined
          end
      | None => Undefined
      end
  | Release s =>                                                    (* 511-519 *)
      match objs st s with
      | Some x => Next (mk_state (set_at (objs st) s (Some (emptied fl))) (mem st) (address_begin x :: given st))
      | None => Undefined
      end
  | Destroy s =>                                                    (* 520-523; posix_mapping.h 246-250 *)
      match objs st s with
      | Some x =>
          match unload fl (mem st) x with
          | Some (_, w) => Next (mk_state (set_at (objs st) s None) w (given st))
          | None => Undefined
          end
      | None => Undefined
      end
  end.
(** A program catches what a constructor throws and goes on. *)
Fixpoint run (fl : flavour) (os : list op) (st : state) : outcome :=
  match os with
  | [] => Next st
  | o :: rest =>
      match step fl o st with
      | Next st' | Throws st' => run fl rest st'
      | bad => bad
      end
  end.
Definition start : state := mk_state (fun _ => None) (mk_world 0 (fun _ => None)) [].

(** data() and size(): the bytes the program sees. *)
Definition view (w : world) (x : loader) : list Z :=
  match address_begin x with
  | At id => match live w id with Some b => firstn (len x) (b_bytes b) | None => [] end
  | _ => []
  end.

(** to_posix_file_map_attribute, posix_mapping.h 96-109: the PROT bits (read 1, write 2, execute 4); the mapping is MAP_SHARED. *)
Inductive file_map_attribute := execute_read | execute_read_write | execute_write_copy | read_only | read_write | write_copy.
Definition to_posix_file_map_attribute (x : file_map_attribute) : Z :=
  match x with
  | execute_read => 4 + 1
  | execute_read_write => 4 + 1
  | execute_write_copy => 4 + 2
  | read_only => 1
  | read_write => 1 + 2
  | write_copy => 2
  end%Z.
Definition map_is_shared (x : file_map_attribute) : bool := true.
