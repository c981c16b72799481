(** Model of transmit and transmit64: copying a stream to another one.
    Source: include/fast_io_core_impl/transmit/transmit.h and include/fast_io_hosted/platforms/linux_zerocopy.h
    (one-byte characters).  The output is any stream with a write ([wr]); the input is a stream whose whole content is
    in memory (contiguous), a basic_io_buffer, or a device without buffer.  The fuel of the loops is shown to
    suffice. *)
From Verif Require Import Base BufModel PrintModel.

Inductive tres (I O : Type) :=
| TFine (i : I) (o : O) (chars : Z)   (* returned [chars] *)
| TRaised (i : I) (o : O)             (* an exception left the function *)
| TDied | TSmashed
| TStuck.                             (* the fuel of a model loop ran out: proved impossible *)
Arguments TFine {I O}. Arguments TRaised {I O}. Arguments TDied {I O}. Arguments TSmashed {I O}. Arguments TStuck {I O}.

(** uintmax_t and uint_least64_t addition. *)
Definition add64 (x y : Z) : Z := (x + y) mod 2 ^ 64.

Section Transmit.
Context {O : Type} (wr : O -> list Z -> res O).

(** write(outs,...) followed by [k]. *)
Definition send {I} (i : I) (o : O) (l : list Z) (k : O -> tres I O) : tres I O :=
  match wr o l with
  | Fine o => k o
  | Raised o => TRaised i o
  | Died _ => TDied
  | Smashed => TSmashed
  end.

(** transmit.h 49-57: contiguous input; the state is what is between curr and end. *)
Definition transmit_contiguous (i : list Z) (o : O) : tres (list Z) O :=
  send i o i (fun o => TFine [] o (zlen i)).

(** 58-73: buffered input. *)
Fixpoint transmit_buffered_loop (c : config) (a : answers) (fuel : nat) (s : bios) (o : O) (chars : Z)
  : tres bios O :=
  match fuel with
  | 0%nat => TStuck
  | S fuel =>
      let next := fun s o chars =>
        match io_underflow c a s with
        | UFine s true => transmit_buffered_loop c a fuel s o chars
        | UFine s false => TFine s o chars
        | URaised s => TRaised s o
        | USmashed => TSmashed
        end in
      match b_in s with
      | ITorn => TSmashed
      | INull | IHas [] => next s o chars
      | IHas l => send s o l (fun o => next (set_in s (IHas [])) o (add64 chars (zlen l)))
      end
  end.
Definition loop_fuel (src : list Z) : nat := S (S (length src)).
Definition transmit_buffered (c : config) (a : answers) (s : bios) (o : O) : tres bios O :=
  transmit_buffered_loop c a (loop_fuel (d_src (b_dev s))) s o 0.

(** 22-42 the size of the intermediate buffer. *)
Definition transmit_buffer_size : nat := Z.to_nat 131072.
(** 74-89: input without buffer. *)
Fixpoint transmit_raw_loop (a : answers) (bs : nat) (fuel : nat) (d : dev) (o : O) (chars : Z) : tres dev O :=
  match fuel with
  | 0%nat => TStuck
  | S fuel =>
      let '(d, got, ok) := dev_read a d bs in
      if ok then
        match got with
        | [] => TFine d o chars
        | _ => send d o got (fun o => transmit_raw_loop a bs fuel d o (add64 chars (zlen got)))
        end
      else TRaised d o
  end.
Definition transmit_raw (a : answers) (bs : nat) (d : dev) (o : O) : tres dev O :=
  transmit_raw_loop a bs (loop_fuel (d_src d)) d o 0.

(** ** transmit64: at most [n] characters *)
(** 145-158. *)
Definition transmit64_contiguous (i : list Z) (o : O) (n : Z) : tres (list Z) O :=
  let this_round := if n <=? zlen i then n else zlen i in
  let k := Z.to_nat this_round in
  send i o (firstn k i) (fun o => TFine (skipn k i) o this_round).

(** 159-183. *)
Fixpoint transmit64_buffered_loop (c : config) (a : answers) (fuel : nat) (s : bios) (o : O) (chars n : Z)
  : tres bios O :=
  match fuel with
  | 0%nat => TStuck
  | S fuel =>
      let next := fun s o chars n =>
        match io_underflow c a s with
        | UFine s true => transmit64_buffered_loop c a fuel s o chars n
        | UFine s false => TFine s o chars
        | URaised s => TRaised s o
        | USmashed => TSmashed
        end in
      match b_in s with
      | ITorn => TSmashed
      | INull | IHas [] => next s o chars n
      | IHas l =>
          let this_round := if n <=? zlen l then n else zlen l in
          let k := Z.to_nat this_round in
          send s o (firstn k l) (fun o =>
            let s := set_in s (IHas (skipn k l)) in
            let chars := add64 chars this_round in
            let n := (n - this_round) mod 2 ^ 64 in
            if n =? 0 then TFine s o chars else next s o chars n)
      end
  end.
Definition transmit64_buffered (c : config) (a : answers) (s : bios) (o : O) (n : Z) : tres bios O :=
  transmit64_buffered_loop c a (loop_fuel (d_src (b_dev s))) s o 0 n.

(** 184-212. *)
Fixpoint transmit64_raw_loop (a : answers) (alloc : Z) (fuel : nat) (d : dev) (o : O) (chars n : Z) : tres dev O :=
  match fuel with
  | 0%nat => TStuck
  | S fuel =>
      let this_round := if n <=? alloc then n else alloc in
      if this_round =? 0 then TFine d o chars
      else if alloc <? this_round then TSmashed (* the array has [alloc] characters *)
      else
        let '(d, got, ok) := dev_read a d (Z.to_nat this_round) in
        if ok then
          match got with
          | [] => TFine d o chars
          | _ =>
              send d o got (fun o =>
                let chars := add64 chars (zlen got) in
                let n := (n - zlen got) mod 2 ^ 64 in
                if n =? 0 then TFine d o chars else transmit64_raw_loop a alloc fuel d o chars n)
          end
        else TRaised d o
  end.
Definition transmit64_raw (a : answers) (bs : nat) (d : dev) (o : O) (n : Z) : tres dev O :=
  let alloc := if n <? Z.of_nat bs then n else Z.of_nat bs in
  transmit64_raw_loop a alloc (loop_fuel (d_src d)) d o 0 n.
End Transmit.

(** ** linux_zerocopy.h: both ends are file descriptors *)
(** The system call sendfile(out,in,nullptr,n): [sf] says, for the number of calls made so far, how many characters
    the kernel moves (at most what was asked for and what is left) or that it fails, moving nothing. *)
Definition sendfile (sf : answers) (i o : dev) (n : nat) : dev * dev * nat * bool :=
  let '(k, ok) := sf (length (d_log o)) n in
  if ok then
    let got := firstn (Nat.min k n) (d_src i) in
    (mk_dev (d_log i ++ [Asked n]) (skipn (length got) (d_src i)), mk_dev (d_log o ++ [Wrote got]) (d_src o),
     length got, true)
  else (i, o, 0%nat, false).
Definition a_round : nat := Z.to_nat (2 ^ 63 - 1).
(** The result of the fallback, which is added to what the system calls moved. *)
Definition plus {I O} (total : Z) (r : tres I O) : tres I O :=
  match r with TFine i o chars => TFine i o (add64 total chars) | r => r end.
(** 42-63 zero_copy_transmit_define_impl; 37-40 the fallback.  [round] is transmit_a_round. *)
Fixpoint zero_copy_loop (sf ai ao : answers) (round bs : nat) (fuel : nat) (i o : dev) (total : Z) : tres dev dev :=
  match fuel with
  | 0%nat => TStuck
  | S fuel =>
      let '(i, o, diff, ok) := sendfile sf i o round in
      if ok then
        if Nat.eqb diff 0 then TFine i o total
        else zero_copy_loop sf ai ao round bs fuel i o (add64 total (Z.of_nat diff))
      else plus total (transmit_raw (raw_write ao) ai bs i o)
  end.
Definition zero_copy (sf ai ao : answers) (round bs : nat) (i o : dev) : tres dev dev :=
  zero_copy_loop sf ai ao round bs (loop_fuel (d_src i)) i o 0.
(** 65-96 zero_copy_transmit_define64_impl. *)
Fixpoint zero_copy64_loop (sf ai ao : answers) (round bs : nat) (fuel : nat) (i o : dev) (total n : Z)
  : tres dev dev :=
  match fuel with
  | 0%nat => TStuck
  | S fuel =>
      let this_round := if n <? Z.of_nat round then n else Z.of_nat round in
      let '(i, o, diff, ok) := sendfile sf i o (Z.to_nat this_round) in
      if ok then
        if Nat.eqb diff 0 then TFine i o total
        else
          let total := add64 total (Z.of_nat diff) in
          let n := (n - Z.of_nat diff) mod 2 ^ 64 in
          if n =? 0 then TFine i o total else zero_copy64_loop sf ai ao round bs fuel i o total n
      else plus total (transmit64_raw (raw_write ao) ai bs i o n)
  end.
Definition zero_copy64 (sf ai ao : answers) (round bs : nat) (i o : dev) (n : Z) : tres dev dev :=
  zero_copy64_loop sf ai ao round bs (loop_fuel (d_src i)) i o 0 n.

(** transmit.h 109-127: a buffered input over a descriptor copied to a buffered output over a descriptor: what is
    already in the input buffer, then the output's buffer, then the kernel. *)
Definition with_dev (s : bios) (x : bios) (r : tres dev dev) : tres bios bios :=
  match r with
  | TFine i o n => TFine (set_dev s i) (set_dev x o) n
  | TRaised i o => TRaised (set_dev s i) (set_dev x o)
  | TDied => TDied | TSmashed => TSmashed | TStuck => TStuck
  end.
Definition transmit_zero_copy (sf : answers) (round bs : nat) (ci co : config) (ai ao : answers) (s x : bios)
  : tres bios bios :=
  match b_in s with
  | ITorn => TSmashed
  | _ =>
      let l := match b_in s with IHas l => l | _ => [] end in
      send (ob_write co ao) s x l (fun x =>
        let s := match b_in s with INull => s | _ => set_in s (IHas []) end in
        match io_flush co ao x with
        | Fine x => plus (zlen l) (with_dev s x (zero_copy sf ai ao round bs (b_dev s) (b_dev x)))
        | Raised x => TRaised s x
        | Died _ => TDied
        | Smashed => TSmashed
        end)
  end.
(** 230-256. *)
Definition transmit64_zero_copy (sf : answers) (round bs : nat) (ci co : config) (ai ao : answers) (s x : bios) (n : Z)
  : tres bios bios :=
  match b_in s with
  | ITorn => TSmashed
  | _ =>
      let l := match b_in s with IHas l => l | _ => [] end in
      let enough := n <=? zlen l in
      let diff := if enough then n else zlen l in
      let k := Z.to_nat diff in
      send (ob_write co ao) s x (firstn k l) (fun x =>
        let s := match b_in s with INull => s | _ => set_in s (IHas (skipn k l)) end in
        let n := (n - diff) mod 2 ^ 64 in
        if enough then TFine s x diff
        else
          match io_flush co ao x with
          | Fine x => plus diff (with_dev s x (zero_copy64 sf ai ao round bs (b_dev s) (b_dev x) n))
          | Raised x => TRaised s x
          | Died _ => TDied
          | Smashed => TSmashed
          end)
  end.
