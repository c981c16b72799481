(** Model of the calls on basic_iomutex<basic_io_buffer<...>> streams, built from the models of the calls on the
    stream inside.  Source: include/fast_io_hosted/iomutex.h 68-86, include/fast_io_core_impl/print_freestanding.h
    755-760 and 762-780, transmit/transmit.h 93-108 and 58-73. *)
From Verif Require Import Base BufModel PrintModel TransmitModel LockModel.

(** How a call ends: with the characters it handed over and the count it returned, or by an exception.  [ODead]:
    std::terminate or memory corruption; what the other threads do afterwards means nothing then. *)
Inductive outcome := ORet (got : list Z) (n : Z) | OThrow | ODead.
Notation scmd := (cmd bios outcome).

(** A body that works on the stream in pieces: other threads may run between the load and the store of a piece and
    between two pieces. *)
Definition piece (m : nat) (f : bios -> res bios) (k : scmd) : scmd :=
  CLoad m (fun s => match f s with
                    | Fine s => CStore m s k
                    | Raised s => CStore m s (CEnd OThrow)
                    | Died _ | Smashed => CEnd ODead
                    end).
Fixpoint pieces (m : nat) (fs : list (bios -> res bios)) : scmd :=
  match fs with [] => CEnd (ORet [] 0) | f :: fs => piece m f (pieces m fs) end.

(** print_freestanding.h 574-595, piece by piece (PrintModel.print_plain). *)
Fixpoint plain_pieces (o : ostream bios) (line : bool) (args : list parg) : list (bios -> res bios) :=
  match args with
  | [] => []
  | [t] => [fun s => print_control o line s t]
  | t :: rest => (fun s => print_control o false s t) :: plain_pieces o line rest
  end.
(** 476-566, piece by piece (PrintModel.print_multi). *)
Fixpoint multi_pieces (o : ostream bios) (line : bool) (skip : nat) (args : list parg) : list (bios -> res bios) :=
  match args with
  | [] => []
  | t :: rest =>
      match skip with
      | S k => multi_pieces o line k rest
      | O =>
          let one := match rest with
                     | [] => [fun s => print_control o line s t]
                     | _ => (fun s => print_control o false s t) :: multi_pieces o line 0 rest
                     end in
          match t with
          | PReserve sz text =>
              let '(n, total) := multi_size sz rest in
              if Nat.eqb n 0 then one
              else
                let last := Nat.eqb (length rest) n in
                let size := (total + eol_size (last && line))%nat in
                let text := text ++ partition_text n rest ++ eol (last && line) in
                let first := fun s =>
                  if const_fits (os_const o) size then
                    then! s := (if Nat.ltb size (os_room o s) then Fine s else os_prepare o s) in os_store o s text
                  else in_local size text (os_write o s text) in
                if last then [first] else first :: multi_pieces o line n rest
          | _ => one
          end
      end
  end.
(** 762-780 print_freestanding_decay_no_status on the stream inside. *)
Definition print_pieces (o : ostream bios) (opt line : bool) (args : list parg) : list (bios -> res bios) :=
  match args with
  | [] => if line then [fun s => os_put o s lf] else []
  | _ => if opt then multi_pieces o line 0 args else plain_pieces o line args
  end.

(** The calls.  Stream [m] has the template arguments [cf m] and sits on a device that answers [an m]. *)
Inductive shared_call :=
| SWrite (m : nat) (l : list Z)
| SPrint (m : nat) (opt line : bool) (args : list parg)
| SFlush (m : nat)
| SRead (m n : nat)
| STransmit (out inp : nat).
Section Calls.
Variables (cf : nat -> config) (an : nat -> answers).
Definition out_of (m : nat) : ostream bios := bios_stream (cf m) (an m).

Definition read_body (m n : nat) : scmd :=
  CLoad m (fun s => match io_read (cf m) (an m) s n with
                    | RFine s got => CStore m s (CEnd (ORet got 0))
                    | RRaised s got | REof s got => CStore m s (CEnd OThrow)
                    | RSmashed | RStuck => CEnd ODead
                    end).
(** transmit.h 58-73 from [i] to [o]; see TransmitModel.transmit_buffered_loop. *)
Fixpoint transmit_rounds (o i : nat) (fuel : nat) (chars : Z) : scmd :=
  match fuel with
  | 0%nat => CEnd ODead
  | S fuel =>
      let next := fun chars =>
        CLoad i (fun s =>
          match io_underflow (cf i) (an i) s with
          | UFine s true => CStore i s (transmit_rounds o i fuel chars)
          | UFine s false => CStore i s (CEnd (ORet [] chars))
          | URaised s => CStore i s (CEnd OThrow)
          | USmashed => CEnd ODead
          end) in
      CLoad i (fun s =>
        match b_in s with
        | ITorn => CEnd ODead
        | INull | IHas [] => next chars
        | IHas l =>
            CLoad o (fun x =>
              match ob_write (cf o) (an o) x l with
              | Fine x => CStore o x (CStore i (set_in s (IHas [])) (next (add64 chars (zlen l))))
              | Raised x => CStore o x (CEnd OThrow)
              | Died _ | Smashed => CEnd ODead
              end)
        end)
  end.
Definition transmit_body (o i : nat) : scmd := CLoad i (fun s => transmit_rounds o i (loop_fuel (d_src (b_dev s))) 0).

Definition shared (x : shared_call) : scmd :=
  match x with
  | SWrite m l => lock_guard m (pieces m [fun s => ob_write (cf m) (an m) s l])         (* iomutex.h 75-80 *)
  | SPrint m opt false [] => CEnd (ORet [] 0)                                           (* print_freestanding.h 753-754 *)
  | SPrint m opt line args => lock_guard m (pieces m (print_pieces (out_of m) opt line args))
  | SFlush m => lock_guard m (pieces m [io_flush (cf m) (an m)])                        (* iomutex.h 82-87 *)
  | SRead m n => lock_guard m (read_body m n)                                           (* iomutex.h 68-73 *)
  | STransmit o i => lock_guard i (lock_guard o (transmit_body o i))                    (* transmit.h 96-108 *)
  end.
(** The threads' work. *)
Definition work (T : nat -> list shared_call) : calls bios outcome := fun t => map shared (T t).
End Calls.
