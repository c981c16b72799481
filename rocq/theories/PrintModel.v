(** Model of print and println (include/fast_io_core_impl/print_freestanding.h).
    An argument is what the type of the argument offers after io_print_alias and io_print_forward: a ready text
    (scatter_printable), a text with a compile-time bound on its length (reserve_printable) or with a run-time bound
    (dynamic_reserve_printable), or a print_define that writes to the stream itself (printable), as a sequence of writes.
    Locale streams (status_output_stream), contiguous output streams, mutex streams (SharedModel.v) and the
    address-sanitizer build are not modelled here. *)
From Verif Require Import Base BufModel.

Inductive parg :=
| PScatter (text : list Z)
| PReserve (size : nat) (text : list Z)
| PDynamic (size : nat) (text : list Z)
| PDefine (writes : list (list Z)).
Definition text_of (p : parg) : list Z :=
  match p with PScatter t => t | PReserve _ t => t | PDynamic _ t => t | PDefine ws => concat ws end.
Definition lf : Z := 10.
Definition eol (line : bool) : list Z := if line then [lf] else [].
Definition eol_size (line : bool) : nat := if line then 1 else 0.

(** What a buffer_output_stream offers: obuffer_end-obuffer_curr; a store at obuffer_curr followed by
    obuffer_set_curr; write; put; obuffer_constant_size (None: not a constant_buffer_output_stream) and
    obuffer_constant_flush_prepare. *)
Record ostream (S : Type) := mk_ostream {
  os_room : S -> nat;
  os_store : S -> list Z -> res S;
  os_write : S -> list Z -> res S;
  os_put : S -> Z -> res S;
  os_const : option nat;
  os_prepare : S -> res S }.
Arguments mk_ostream {S}. Arguments os_room {S}. Arguments os_store {S}. Arguments os_write {S}.
Arguments os_put {S}. Arguments os_const {S}. Arguments os_prepare {S}.

(** basic_io_buffer as an output stream. *)
Definition bios_stream (c : config) (a : answers) : ostream bios :=
  mk_ostream (out_room c) (out_store c) (ob_write c a) (ob_put c a) (Some (c_bfs c)) (io_prepare c a).
(** temporary_buffer as an output stream. *)
Definition tbuf_stream (a : answers) : ostream tbuf :=
  mk_ostream tb_room tb_store (tb_write a) (tb_put a) None (fun s => Fine s).

(** print_reserve_define into a local array of [size] characters: Smashed if the text is longer. *)
Definition in_local {S} (size : nat) (text : list Z) (k : res S) : res S :=
  if Nat.leb (length text) size then k else Smashed.
(** 175-181 constant_buffer_output_stream_require_size_impl. *)
Definition const_fits (o : option nat) (size : nat) : bool :=
  match o with Some b => Nat.ltb size b | None => false end.

(** 334-347: limits of the run-time size. *)
Definition dynamic_size_ok (line : bool) (size : nat) : bool :=
  if line then Z.of_nat size <? 2 ^ 63 - 2 else Z.of_nat size <=? 2 ^ 63 - 1.

(** print_define(out,t) of an argument [PDefine ws]: the writes it makes. *)
Fixpoint do_writes {S} (w : S -> list Z -> res S) (s : S) (ws : list (list Z)) : res S :=
  match ws with
  | [] => Fine s
  | t :: ws => then! s := w s t in do_writes w s ws
  end.

(** 200-396 print_control on a buffer_output_stream. *)
Definition print_control {S} (o : ostream S) (line : bool) (s : S) (p : parg) : res S :=
  match p with
  | PScatter t =>
      if line then
        if Z.of_nat (length t) <? Z.of_nat (os_room o s) - 1 then os_store o s (t ++ [lf])
        else then! s := os_write o s t in os_put o s lf
      else os_write o s t
  | PReserve real t =>
      let size := (real + eol_size line)%nat in
      let smaller := Nat.ltb size (os_room o s) in
      if const_fits (os_const o) size then
        then! s := (if smaller then Fine s else os_prepare o s) in os_store o s (t ++ eol line)
      else if smaller then os_store o s (t ++ eol line)
      else in_local size (t ++ eol line) (os_write o s (t ++ eol line))
  | PDynamic real t =>
      if dynamic_size_ok line real then
        let size := (real + eol_size line)%nat in
        if Nat.ltb size (os_room o s) then os_store o s (t ++ eol line)
        else in_local size (t ++ eol line) (os_write o s (t ++ eol line))
      else Died s
  | PDefine ws =>
      then! s := do_writes (os_write o) s ws in if line then os_put o s lf else Fine s
  end.

(** 405 max_reserve_multiple_parameter_size. *)
Definition max_para : nat := 512.
(** 407-432 print_reserve_total_size_para: how many leading arguments are joined and their bound. *)
Fixpoint para_size (args : list parg) : nat * nat :=
  match args with
  | PReserve sz _ :: rest =>
      if Nat.leb max_para sz then (0, 0)%nat
      else match rest with
           | [] => (1%nat, sz)
           | _ => let '(n, total) := para_size rest in
                  if 2 ^ 63 - 1 - Z.of_nat sz <=? Z.of_nat total then (n, total)
                  else (S n, (total + sz)%nat)
           end
  | _ => (0, 0)%nat
  end.
(** 434-452 print_reserve_multiple_parameters_total_size for a first argument of bound [sz]. *)
Definition multi_size (sz : nat) (rest : list parg) : nat * nat :=
  if Nat.leb max_para sz then (0%nat, sz)
  else match rest with
       | [] => (0%nat, sz)
       | _ => let '(n, total) := para_size rest in
              if Nat.leb (max_para - sz) total then (0%nat, sz) else (n, (sz + total)%nat)
       end.
(** 454-473 partition_reserve_impl<n>. *)
Definition partition_text (n : nat) (args : list parg) : list Z := concat (map text_of (firstn n args)).

(** 476-566 print_controls_line_multi_impl<line,n> on a buffer_output_stream. *)
Fixpoint print_multi {S} (o : ostream S) (line : bool) (skip : nat) (s : S) (args : list parg) : res S :=
  match args with
  | [] => Fine s
  | t :: rest =>
      match skip with
      | Datatypes.S k => print_multi o line k s rest
      | O =>
          let one := fun s => match rest with
                              | [] => print_control o line s t
                              | _ => then! s := print_control o false s t in print_multi o line 0 s rest
                              end in
          match t with
          | PReserve sz text =>
              let '(n, total) := multi_size sz rest in
              if Nat.eqb n 0 then one s
              else
                let last := Nat.eqb (length rest) n in
                let size := (total + eol_size (last && line))%nat in
                let text := text ++ partition_text n rest ++ eol (last && line) in
                then! s :=
                  (if const_fits (os_const o) size then
                     then! s := (if Nat.ltb size (os_room o s) then Fine s else os_prepare o s) in os_store o s text
                   else in_local size text (os_write o s text)) in
                if last then Fine s else print_multi o line n s rest
          | _ => one s
          end
      end
  end.

(** 574-595 print_controls_line without optimisation. *)
Fixpoint print_plain {S} (o : ostream S) (line : bool) (s : S) (args : list parg) : res S :=
  match args with
  | [] => Fine s
  | [t] => print_control o line s t
  | t :: rest => then! s := print_control o false s t in print_plain o line s rest
  end.

(** 748-780 print_freestanding_decay_no_status on a buffer_output_stream; [opt] is __OPTIMIZE__. *)
Definition print_buffered {S} (o : ostream S) (opt line : bool) (s : S) (args : list parg) : res S :=
  match args with
  | [] => if line then os_put o s lf else Fine s
  | _ => if opt then print_multi o line 0 s args else print_plain o line s args
  end.

(** ** Printing to a device without a buffer *)
Definition raw_write (a : answers) (d : dev) (data : list Z) : res dev :=
  let '(d, ok) := dev_write a d data in if ok then Fine d else Raised d.

(** print_control on a plain output_stream: 258-261 / 214-217, 319-329, 382. *)
Definition print_control_raw (a : answers) (line : bool) (d : dev) (p : parg) : res dev :=
  match p with
  | PScatter t => then! d := raw_write a d t in if line then raw_write a d [lf] else Fine d
  | PReserve real t => in_local (real + eol_size line) (t ++ eol line) (raw_write a d (t ++ eol line))
  | PDynamic real t =>
      if dynamic_size_ok line real
      then in_local (real + eol_size line) (t ++ eol line) (raw_write a d (t ++ eol line))
      else Died d
  | PDefine ws =>                                                        (* put on a plain stream: overflow.h 27-32 *)
      then! d := do_writes (raw_write a) d ws in if line then raw_write a d [lf] else Fine d
  end.

(** 24-70: the sizes of the two arrays of print_fallback. *)
Definition reserve_total (args : list parg) : nat :=
  fold_right (fun p n => match p with PReserve sz _ => (sz + n)%nat | _ => n end) 0%nat args.
Definition dynamic_total (args : list parg) : nat :=
  fold_right (fun p n => match p with PDynamic sz _ => (sz + n)%nat | _ => n end) 0%nat args.
Definition reserve_text (args : list parg) : list Z :=
  concat (map (fun p => match p with PReserve _ t => t | _ => [] end) args).
Definition dynamic_text (args : list parg) : list Z :=
  concat (map (fun p => match p with PDynamic _ t => t | _ => [] end) args).

(** 626: every argument is scatter_printable, reserve_printable or dynamic_reserve_printable. *)
Definition plain_arg (p : parg) : bool := match p with PDefine _ => false | _ => true end.
(** 597-713 print_fallback.  scatter_write takes the pieces as one request. *)
Definition print_fallback (a : answers) (scatter line : bool) (d : dev) (args : list parg) : res dev :=
  match args with
  | [] => if line then raw_write a d [lf] else Fine d
  | _ =>
      if scatter && forallb plain_arg args then
        if Z.of_nat (dynamic_total args) <? 2 ^ 64 then
          in_local (reserve_total args) (reserve_text args)
            (in_local (dynamic_total args) (dynamic_text args)
               (raw_write a d (concat (map text_of args) ++ eol line)))
        else Died d
      else
        match (then! s := print_multi (tbuf_stream a) line 0 (mk_tbuf d []) args in tb_flush a s) with
        | Fine s => Fine (t_dev s) | Raised s => Raised (t_dev s) | Died s => Died (t_dev s) | Smashed => Smashed
        end
  end.
(** 748-798 print_freestanding_decay_no_status on a plain output_stream (without writeln). *)
Definition print_raw (a : answers) (scatter line : bool) (d : dev) (args : list parg) : res dev :=
  match args, line with
  | [], false => Fine d
  | [PScatter t], false => print_control_raw a false d (PScatter t)
  | [PDefine ws], false => print_control_raw a false d (PDefine ws)
  | [PReserve n t], _ => print_control_raw a line d (PReserve n t)
  | [PDynamic n t], _ => print_control_raw a line d (PDynamic n t)
  | _, _ => print_fallback a scatter line d args
  end.
