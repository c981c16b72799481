(** What users expect of buffered streams, stated without the buffers. *)
From Verif Require Import Base BufModel PrintModel.

(** A device that takes every character of every write and never throws. *)
Definition takes_all (a : answers) : Prop := forall k n, (n <= fst (a k n))%nat /\ snd (a k n) = true.
(** A device that never throws (but may take only a part of a write). *)
Definition never_throws (a : answers) : Prop := forall k n, snd (a k n) = true.
(** A device whose writes, when they throw, have taken nothing. *)
Definition throws_clean (a : answers) : Prop := forall k n, snd (a k n) = false -> fst (a k n) = 0%nat.
(** A device that takes everything unless it throws. *)
Definition all_or_throw (a : answers) : Prop := forall k n, snd (a k n) = true -> (n <= fst (a k n))%nat.

(** [x] is what remains of [y] after deleting some of its elements: nothing repeated, nothing reordered. *)
Inductive subseq : list Z -> list Z -> Prop :=
| sub_nil : forall y, subseq [] y
| sub_keep : forall c x y, subseq x y -> subseq (c :: x) (c :: y)
| sub_drop : forall c x y, subseq x y -> subseq x (c :: y).

(** The text an argument of print contributes fits the size the type announces. *)
Definition arg_ok (p : parg) : Prop :=
  match p with
  | PScatter _ => True
  | PReserve sz t => (length t <= sz)%nat
  | PDynamic sz t => (length t <= sz)%nat /\ Z.of_nat sz < 2 ^ 63 - 2
  | PDefine _ => True
  end.
(** print(out,args...) and println(out,args...). *)
Definition printed (line : bool) (args : list parg) : list Z := concat (map text_of args) ++ eol line.

(** Operations on a buffered output stream. *)
Inductive oop :=
| OWrite (l : list Z) | OPut (ch : Z) | OPrint (opt line : bool) (args : list parg) | OFlush.
Definition oop_ok (x : oop) : Prop := match x with OPrint _ _ args => Forall arg_ok args | _ => True end.
(** What the operation asks to be output. *)
Definition said (x : oop) : list Z :=
  match x with OWrite l => l | OPut ch => [ch] | OPrint _ line args => printed line args | OFlush => [] end.
Definition do_oop (c : config) (a : answers) (s : bios) (x : oop) : res bios :=
  match x with
  | OWrite l => ob_write c a s l
  | OPut ch => ob_put c a s ch
  | OPrint opt line args => print_buffered (bios_stream c a) opt line s args
  | OFlush => io_flush c a s
  end.
Fixpoint do_oops (c : config) (a : answers) (s : bios) (xs : list oop) : res bios :=
  match xs with [] => Fine s | x :: xs => then! s := do_oop c a s x in do_oops c a s xs end.
(** A stream just constructed over a device that has delivered nothing and offers [src] to read. *)
Definition fresh (src : list Z) : bios := mk_bios (mk_dev [] src) None INull.
Definition device_got (s : bios) : list Z := delivered (d_log (b_dev s)).

(** ** Devices that fail *)
(** The caller catches what each operation throws and goes on with the next one.  The text is that of the
    operations that returned normally. *)
Fixpoint run_catch (c : config) (a : answers) (s : bios) (xs : list oop) : option (bios * list Z) :=
  match xs with
  | [] => Some (s, [])
  | x :: xs =>
      match do_oop c a s x with
      | Fine s => match run_catch c a s xs with Some (s, t) => Some (s, said x ++ t) | None => None end
      | Raised s => run_catch c a s xs
      | Died _ | Smashed => None
      end
  end.
Definition not_print (x : oop) : Prop := match x with OPrint _ _ _ => False | _ => True end.

(** ** Input *)
(** Operations on a buffered input stream; [IRefill] is a refill asked for when the buffer is used up, [ITake k] the
    consumption of [k] characters found in the buffer (at most what is there), [IOut] output on the same stream. *)
Inductive iop := IRead (n : nat) | IReadAll (n : nat) | IRefill | ITake (k : nat) | IOut (l : list Z).
Definition no_output (x : iop) : Prop := match x with IOut _ => False | _ => True end.
Definition unread (s : bios) : list Z := match b_in s with IHas l => l | INull | ITorn => [] end.
(** What can still be read from the stream: the unread characters and the rest of the device. *)
Definition left_over (s : bios) : list Z := unread s ++ d_src (b_dev s).
(** Runs the operations; the result is the characters handed to the caller.  The end_of_file of read_all is caught. *)
Fixpoint run_in (c : config) (a : answers) (s : bios) (xs : list iop) : option (bios * list Z) :=
  match xs with
  | [] => Some (s, [])
  | x :: xs =>
      let r := match x with
               | IRead n => io_read c a s n
               | IReadAll n => read_all c a s n
               | IRefill =>
                   if Nat.eqb (length (unread s)) 0 then
                     match io_underflow c a s with
                     | UFine s _ => RFine s [] | URaised s => RRaised s [] | USmashed => RSmashed
                     end
                   else RFine s []
               | ITake k => io_take s (Nat.min k (length (unread s)))
               | IOut l => match ob_write c a s l with
                           | Fine s => RFine s [] | Raised s => RRaised s [] | _ => RSmashed
                           end
               end in
      match r with
      | RFine s got | REof s got =>
          match run_in c a s xs with Some (s, t) => Some (s, got ++ t) | None => None end
      | _ => None
      end
  end.
(** A device that, asked for at least one character, only answers zero characters at the end of its stream. *)
Definition honest_reads (a : answers) : Prop := forall k n, (0 < n -> 0 < fst (a k n))%nat /\ snd (a k n) = true.
