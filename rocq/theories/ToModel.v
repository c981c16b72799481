(** Model of to<T>(args...) and inplace_to(t, args...): the arguments are printed and what they print is scanned.
    Source: include/fast_io_core_impl/to.h 8-455.

    An argument is a [parg] of PrintModel (its text, and what its type tells about the room it needs); arguments that
    print themselves with print_define go through dynamic_io_buffer (318-337) and are not modelled.  What is scanned is a
    [sarg] of ScanDrvModel.  Fixed-size integers (le_get) have neither a contiguous nor a context scanner, so to does not
    compile for them. *)
From Verif Require Import Base BufModel PrintModel IntPrintModel IntScanModel FindModel LineModel Leb128Model IpModel IpCtxModel ScanDrvModel.

Inductive to_res (A : Type) := TGot (v : A) | TThrew (code : parse_code) | TUndef.
Arguments TGot {A}. Arguments TThrew {A}. Arguments TUndef {A}.
Definition map_to {A B} (f : A -> B) (r : to_res A) : to_res B :=
  match r with TGot v => TGot (f v) | TThrew c => TThrew c | TUndef => TUndef end.
Definition checked {A} (code : parse_code) (v : A) : to_res A := match code with pc_ok => TGot v | _ => TThrew code end.

Section To.
Context {S : Type}.
Variable contig : list Z -> option (S * nat * parse_code).
Variable define : S -> list Z -> option (S * nat * parse_code).
Variable eof : S -> option (S * parse_code).

(** The text of an argument: the scatter itself, or printed into a buffer of [room] characters ([None]: too long for it). *)
Definition printed (room : nat) (p : parg) : option (list Z) :=
  match p with PScatter t => Some t | _ => if (length (text_of p) <=? room)%nat then Some (text_of p) else None end.

(** 46-70 inplace_to_decay_buffer_scatter_context_impl and 78-116 inplace_to_decay_buffer_context_impl: each argument is
    handed to the context scanner.  The code is looked at only if the scanner stopped before the end of the argument. *)
Fixpoint to_ctx (room : nat) (st : S) (args : list parg) : to_res S :=
  match args with
  | [] => TGot st
  | p :: more =>
      match printed room p with
      | None => TUndef
      | Some t =>
          match define st t with
          | None => TUndef
          | Some (st', k, code) =>
              if negb (Nat.eqb k (length t)) then checked code st'
              else match more with
                   | [] => match eof st' with None => TUndef | Some (st2, code2) => checked code2 st2 end
                   | _ => to_ctx room st' more
                   end
          end
      end
  end.

(** 118-141 calculate_print_normal_maxium_size; 143-162 calculate_print_normal_dynamic_maxium_main. *)
Definition max_static (args : list parg) : nat := fold_left (fun m p => match p with PReserve n _ => Nat.max m n | _ => m end) args O.
Definition max_dynamic (args : list parg) : nat := fold_left (fun m p => match p with PDynamic n _ => Nat.max m n | _ => m end) args O.
Definition is_scatter (p : parg) : bool := match p with PScatter _ => true | _ => false end.
Definition is_static (p : parg) : bool := match p with PReserve _ _ => true | _ => false end.
Definition is_dynamic (p : parg) : bool := match p with PDynamic _ _ => true | _ => false end.

(** 164-179 deal_with_single_to. *)
Definition to_single (t : list Z) : to_res S :=
  match contig t with None => TUndef | Some (st, _, code) => checked code st end.
(** print_freestanding.h calculate_scatter_reserve_size; to.h 205-231 calculate_scatter_dynamic_reserve_size_with_scatter. *)
Definition sum_static (args : list parg) : nat := fold_right (fun p n => match p with PReserve m _ => (m + n)%nat | _ => n end) O args.
Definition sum_dynamic (args : list parg) : nat :=
  fold_right (fun p n => match p with PDynamic m _ => (m + n)%nat | PScatter t => (length t + n)%nat | _ => n end) O args.
(** 181-202 to_impl_with_reserve_recursive: the texts one after the other into a buffer of [room] characters. *)
Definition to_joined (room : nat) (args : list parg) : to_res S :=
  let t := concat (map text_of args) in if (length t <=? room)%nat then to_single t else TUndef.

(** 240-340 basic_inplace_to_decay.  [has_contig], [has_ctx]: the scanners the type has. *)
Definition to_decay (has_contig has_ctx : bool) (init : S) (args : list parg) : to_res S :=
  let one := match args with [_] => true | _ => false end in
  if has_ctx && negb (has_contig && one) then
    if forallb is_scatter args then to_ctx O init args
    else if forallb (fun p => is_static p || is_scatter p) args then to_ctx (max_static args) init args
    else to_ctx (max_dynamic args) init args
  else
    match args with
    | [PScatter t] => to_single t
    | _ => if forallb is_static args then to_joined (sum_static args) args else to_joined (sum_dynamic args) args
    end.
End To.

(** inplace_to(a, args...). *)
Definition to_arg (a : sarg) (args : list parg) : to_res (list Z) :=
  match a with
  | AInt cfg => map_to snd (to_decay (int_contig cfg) (int_define cfg) (int_eof cfg) true true (st_init, []) args)
  | AWord c old => map_to ss_str (to_decay (fun _ => None) (str_define c false false) (str_eof false false) false true (mk_sstr false old) args)
  | ALine c old => map_to ss_str (to_decay (fun _ => None) (str_define c false true) (str_eof false true) false true (mk_sstr false old) args)
  | AChar c => to_decay (fun _ => None) (char_define c) char_eof false true [] args
  | AMatch lit => map_to (fun _ => []) (to_decay (fun _ => None) (match_define lit) match_eof false true O args)
  | ALeb ty cw old => map_to (fun st => [leb_value ty (snd st)]) (to_decay (leb_contig ty cw) (leb_define ty cw) leb_eof true true (0, old) args)
  | ABytes _ _ _ _ _ => TUndef
  | AIp port cw sse => map_to ip_vals (to_decay (ip_contig port cw sse) (ip_define cw sse) (ip_at_eof cw sse) true true (ip_init port) args)
  end.
(** to<T>(args...) for an integer type T (437-455): decimal, white space skipped, leading zeros not, no prefix; a build with SSE or without.
    Without arguments: T(). *)
Definition to_int (ty : int_type) (cw : Z) (sse : bool) (args : list parg) : to_res (list Z) :=
  match args with [] => TGot [0] | _ => to_arg (AInt (mk_scfg 10 false false false ty cw sse)) args end.
