(** What loaders and maps mean: every object holds a sequence of bytes.  Independent of addresses and memory. *)
From Coq Require Import List Bool PeanoNat.
From Verif Require Import Base LoadModel.
Import ListNotations.

(** The bytes a successfully loaded object holds. *)
Definition wanted (fl : flavour) (f : file) (q : request) : list Z :=
  match fl, q with
  | Alloc, _ => firstn (st_size f) (skipn (offset f) (contents f))
  | _, Window bytes from _ => mapped_bytes f bytes from
  | _, _ => mapped_bytes f (st_size f) 0
  end.
(** The contents of every object (None: not constructed) after an operation that threw or not. *)
Definition holds := nat -> option (list Z).
Definition after (fl : flavour) (o : op) (threw : bool) (a : holds) : holds :=
  match o with
  | Construct s => set_at a s (Some [])
  | Load s f q => if threw then a else set_at a s (Some (wanted fl f q))
  | MoveConstruct d s | MoveAssign d s => set_at (set_at a d (a s)) s (Some [])
  | Close s | Release s => set_at a s (Some [])
  | Destroy s => set_at a s None
  end.
(** The language's rules: constructors run on storage without an object, everything else on objects. *)
Definition allowed (o : op) (a : holds) : Prop :=
  match o with
  | Construct s | Load s _ _ => a s = None
  | MoveConstruct d s => a d = None /\ a s <> None
  | MoveAssign d s => a d <> None /\ a s <> None
  | Close s | Release s | Destroy s => a s <> None
  end.
(** posix_memory_map_file: no release(), and no default construction (see the refutation). *)
Definition kind_of_op (fl : flavour) (o : op) : Prop :=
  match fl, o with
  | MemMap, Construct _ | MemMap, Release _ => False
  | _, _ => True
  end.
(** A program and what its objects hold: the operations with the outcomes the model reports. *)
Inductive history (fl : flavour) : list op -> state -> holds -> Prop :=
  | h_start : history fl [] LoadModel.start (fun _ => None)
  | h_next : forall os st a o st', history fl os st a -> allowed o a -> kind_of_op fl o ->
      step fl o st = Next st' -> history fl (os ++ [o]) st' (after fl o false a)
  | h_throw : forall os st a o st', history fl os st a -> allowed o a -> kind_of_op fl o ->
      step fl o st = Throws st' -> history fl (os ++ [o]) st' (after fl o true a).

(** What the names of the map attributes promise: read, write, execute, and whether writes stay private to the program. *)
Definition promised (x : file_map_attribute) : bool * bool * bool * bool :=
  match x with
  | execute_read => (true, false, true, false)
  | execute_read_write => (true, true, true, false)
  | execute_write_copy => (true, true, true, true)
  | read_only => (true, false, false, false)
  | read_write => (true, true, false, false)
  | write_copy => (true, true, false, true)
  end.
