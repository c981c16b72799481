(** Specification of names of files and other objects handed to an operating system. *)
From Verif Require Import Base UtfSpec.

(** What a program may pass as a name, [w] being the number of bits of its characters: an array, an object with c_str() (whose
    size is known to the object, or not), or a view with data() and length().  [memory] is what lies at the pointer. *)
Inductive os_name :=
| NArray (w : Z) (units : list Z)
| NCstr (w : Z) (memory : list Z) (size : option nat)
| NView (w : Z) (units : list Z).

(** The string a system finds at a pointer: everything before the first NUL; none if there is no NUL in what is known of the
    memory. *)
Fixpoint c_string (memory : list Z) : option (list Z) :=
  match memory with
  | [] => None
  | u :: m => if u =? 0 then Some [] else option_map (cons u) (c_string m)
  end.

(** A name as text: code points, none of them NUL. *)
Definition name_text (cs : list Z) : Prop := Forall scalar cs /\ ~ In 0 cs.
Definition widths := [8; 16; 32].
(** [spells t cs]: the name is a literal, a string, a C string or a view that holds exactly the text [cs]. *)
Inductive spells : os_name -> list Z -> Prop :=
| sp_literal w cs : In w widths -> spells (NArray w (utf_text w cs ++ [0])) cs
| sp_string w cs rest : In w widths -> spells (NCstr w (utf_text w cs ++ 0 :: rest) (Some (length (utf_text w cs)))) cs
| sp_pointer w cs rest : In w widths -> spells (NCstr w (utf_text w cs ++ 0 :: rest) None) cs
| sp_view w cs : In w widths -> spells (NView w (utf_text w cs)) cs.
(** [holds native t cs]: also an array larger than the text: one of the width of the system with anything after the NUL, or one of
    another width with text after the NUL (NULs for example). *)
Inductive holds (native : Z) : os_name -> list Z -> Prop :=
| ho_exact t cs : spells t cs -> holds native t cs
| ho_native cs rest : holds native (NArray native (utf_text native cs ++ 0 :: rest)) cs
| ho_text w cs ds : In w widths -> Forall scalar ds -> holds native (NArray w (utf_text w (cs ++ 0 :: ds) ++ [0])) cs.

(** What Windows is asked to open: a name its runtime library has to translate, a counted name below a directory, or nothing
    because a status was thrown. *)
Inductive nt_request :=
| Translate (name : list Z)
| Below (directory : Z) (name : list Z)
| Threw (status : Z)
| Unterminated.
Definition at_fdcwd : Z := -3.
Definition name_too_long : Z := 3221225734.   (* 0xC0000106 *)
Definition invalid_handle : Z := 3221225480.  (* 0xC0000008 *)
