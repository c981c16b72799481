(** Model of the scan driver: scan(in, a1, ..., an) on contiguous, buffered and unbuffered streams.
    Source: include/fast_io_core_impl/scan_freestanding.h 6-515 and include/fast_io.h 532-545.

    A stream is its buffer (the characters from ibuffer_curr to ibuffer_end) and the chunks that its next refills will
    bring, as in LineModel (whose [scanned] type is used: the bool, the object, the stream left; an exception; or undefined
    behaviour).  The stream side itself is modelled in BufModel; locking (mutex_stream) in LockModel. *)
From Verif Require Import Base IntPrintModel IntScanModel FindModel LineModel Leb128Model ByteSpec LebeModel TimeTextModel IpModel IpCtxModel.

(** ** One argument *)
Section Driver.
Context {S : Type}.
(** scan_contiguous_define on the characters of a buffer, scan_context_define on a state and the characters of a buffer
    (state with the object, characters used, code; [None] is undefined), scan_context_eof_define. *)
Variable contig : list Z -> option (S * nat * parse_code).
Variable define : S -> list Z -> option (S * nat * parse_code).
Variable eof : S -> option (S * parse_code).

Definition at_eof (st : S) (buf : list Z) (src : chunks) : scanned S :=
  match eof st with
  | None => Overrun
  | Some (st', pc_ok) => Scanned true st' buf src
  | Some (st', pc_end_of_file) => Scanned false st' buf src
  | Some (_, code) => Raised code
  end.

(** 184-221 scan_context_status_impl, and the same loop at 408-438: a buffered stream.  A position past the end of the
    buffer is undefined behaviour of whatever comes next. *)
Fixpoint ctx_scan (st : S) (buf : list Z) (src : chunks) : scanned S :=
  match define st buf with
  | None => Overrun
  | Some (st', k, code) =>
      if (length buf <? k)%nat then Overrun
      else match code with
           | pc_ok => Scanned true st' (skipn k buf) src
           | pc_partial =>
               match src with
               | [] => at_eof st' [] []
               | [] :: src' => at_eof st' [] src'
               | c :: src' => ctx_scan st' c src'
               end
           | _ => Raised code
           end
  end.

(** 386-407: a buffered stream and a type with both scanners: the contiguous one on what is in the buffer; if it stops at
    the end of the buffer, the context scanner from the beginning. *)
Definition both_scan (init : S) (buf : list Z) (src : chunks) : scanned S :=
  match contig buf with
  | None => Overrun
  | Some (st, k, code) =>
      if Nat.eqb k (length buf) then ctx_scan init buf src
      else if (length buf <? k)%nat then Overrun
      else match code with pc_ok => Scanned true st (skipn k buf) src | _ => Raised code end
  end.

(** 263-283: a contiguous stream (the text of a string or a memory mapped file) and a type with a contiguous scanner. *)
Definition view_scan (buf : list Z) : scanned S :=
  match contig buf with
  | None => Overrun
  | Some (st, k, code) =>
      if (length buf <? k)%nat then Overrun
      else match code with
           | pc_ok => Scanned true st (skipn k buf) []
           | pc_end_of_file => Scanned false st (skipn k buf) []
           | _ => Raised code
           end
  end.

(** 284-306: a contiguous stream and a type with a context scanner only. *)
Definition view_ctx_scan (init : S) (buf : list Z) : scanned S :=
  match define init buf with
  | None => Overrun
  | Some (st', k, code) =>
      if (length buf <? k)%nat then Overrun
      else match code with
           | pc_ok => Scanned true st' (skipn k buf) []
           | pc_partial => at_eof st' (skipn k buf) []
           | _ => Raised code
           end
  end.
End Driver.

(** read_all.h 12-34 read_all_impl_decay_cold: [n] characters of a buffered stream, or the end of the file (everything
    read).  Simplification: one chunk after the other; BufModel (C32) has the reads themselves. *)
Fixpoint take_chars (n : nat) (buf : list Z) (src : chunks) : option (list Z * list Z * chunks) :=
  if (n <=? length buf)%nat then Some (firstn n buf, skipn n buf, src)
  else match src with
       | [] | [] :: _ => None
       | c :: src' =>
           match take_chars (n - length buf) c src' with
           | None => None
           | Some (t, b, s) => Some (buf ++ t, b, s)
           end
       end.
(** 313-385 and 229-262: a type that takes exactly [n] characters; [get] is scan_precise_reserve_define, [None] its
    parse_code::invalid. *)
Definition precise_scan (n : nat) (get : list Z -> option Z) (buf : list Z) (src : chunks) : scanned (list Z) :=
  match take_chars n buf src with
  | None => Scanned false [] [] []
  | Some (t, b, s) => match get t with Some v => Scanned true [v] b s | None => Raised pc_invalid end
  end.
Definition view_precise (n : nat) (get : list Z -> option Z) (buf : list Z) : scanned (list Z) :=
  if (length buf <? n)%nat then Scanned false [] buf []
  else match get (firstn n buf) with Some v => Scanned true [v] (skipn n buf) [] | None => Raised pc_invalid end.

Definition map_scanned {S} (f : S -> list Z) (r : scanned S) : scanned (list Z) :=
  match r with Scanned b st buf src => Scanned b (f st) buf src | Raised c => Raised c | Overrun => Overrun end.

(** ** The arguments *)

(** Integers (sto_contiguous.h 1267-1293): the integer scanner's state and the object. *)
Definition int_contig (cfg : scfg) (s : list Z) : option ((sstate * list Z) * nat * parse_code) :=
  match scan_int cfg s with
  | None => None
  | Some r => Some ((st_init, match p_val r with Some v => [v] | None => [] end), Z.to_nat (p_used r), p_code r)
  end.
Definition int_define (cfg : scfg) (st : sstate * list Z) (s : list Z) : option ((sstate * list Z) * nat * parse_code) :=
  match ctx_feed cfg (fst st) s with
  | None => None
  | Some (st', r) => Some ((st', match p_val r with Some v => [v] | None => snd st end), Z.to_nat (p_used r), p_code r)
  end.
Definition int_eof (cfg : scfg) (st : sstate * list Z) : option ((sstate * list Z) * parse_code) :=
  match ctx_eof cfg (fst st) with
  | None => None
  | Some (code, v) => Some ((fst st, match v with Some v => [v] | None => snd st end), code)
  end.

(** Words and lines (LineModel; strings have context scanners only). *)
Definition str_define (c : fcfg) (noskipws line : bool) (st : sstr) (s : list Z) : option (sstr * nat * parse_code) :=
  match string_define c noskipws line st s with Smashed => None | Defined st' k code => Some (st', k, code) end.
Definition str_eof (noskipws line : bool) (st : sstr) : option (sstr * parse_code) := Some (string_eof noskipws line st).

(** sto_contiguous.h 1297-1325 ch_get: the next character that is not white space. *)
Definition char_define (c : fcfg) (st : list Z) (s : list Z) : option (list Z * nat * parse_code) :=
  let k := find_none_c_space c s in
  match skipn k s with
  | [] => Some (st, k, pc_partial)
  | x :: _ => Some ([x], Datatypes.S k, pc_ok)
  end.
Definition char_eof (st : list Z) : option (list Z * parse_code) := Some (st, pc_end_of_file).

(** match.h 24-40 match_context_impl: a string literal.  [matched] characters have been matched before; the comparison
    starts at the beginning of the literal again.  algorithm.h 171-178 my_mismatch. *)
Fixpoint mismatch (a b : list Z) : nat :=
  match a, b with x :: a', y :: b' => if x =? y then Datatypes.S (mismatch a' b') else O | _, _ => O end.
Definition match_define (lit : list Z) (matched : nat) (s : list Z) : option (nat * nat * parse_code) :=
  let base := firstn (length lit - matched) lit in
  let k := mismatch s base in
  Some ((matched + k)%nat, k,
        if Nat.eqb k (length s)
        then if negb (Nat.eqb k (length base)) then pc_partial else pc_ok
        else if negb (Nat.eqb k (length base)) then pc_invalid else pc_ok).
Definition match_eof (st : nat) : option (nat * parse_code) := Some (st, pc_end_of_file).

(** leb128.h 258-290 leb128_get: the state is the group count and the target (its bits). *)
Definition leb_contig (ty : int_type) (cw : Z) (s : list Z) : option ((Z * Z) * nat * parse_code) :=
  let '(code, used, v) := leb_scan ty cw s in
  Some ((0, match v with Some v => wrap (iw ty) v | None => 0 end), Z.to_nat used, code).
Definition leb_define (ty : int_type) (cw : Z) (st : Z * Z) (s : list Z) : option ((Z * Z) * nat * parse_code) :=
  let '(code, used, gc, t) := leb_ctx_feed ty cw (fst st) (snd st) s in Some ((gc, t), Z.to_nat used, code).
Definition leb_eof (st : Z * Z) : option ((Z * Z) * parse_code) := Some (st, pc_end_of_file).

(** addrscn.h 520-548 and 609-668: an IPv4 address, with a port. *)
Definition ip_contig (port : bool) (cw : Z) (sse : bool) (s : list Z) : option (ip_st * nat * parse_code) :=
  match scan_ipv4 port cw sse s with
  | SUb => None
  | SFail code rest => Some (ip_init port, (length s - length rest)%nat, code)
  | SGo (a, p, rest) => Some (mk_ip [] st_init (a ++ if port then [p] else []), (length s - length rest)%nat, pc_ok)
  end.
Definition ip_define (cw : Z) (sse : bool) (st : ip_st) (s : list Z) : option (ip_st * nat * parse_code) :=
  match ip_feed cw sse (ip_todo st) (ip_int st) (ip_vals st) 0 s with
  | None => None
  | Some (st', code, used) => Some (st', Z.to_nat used, code)
  end.
Definition ip_at_eof (cw : Z) (sse : bool) (st : ip_st) : option (ip_st * parse_code) :=
  match ip_eof cw sse st with None => None | Some (code, vals) => Some (mk_ip (ip_todo st) (ip_int st) vals, code) end.

Inductive sarg :=
| AInt (cfg : scfg)                                  (* scan(in, i), hex_get(i), base_get<b>(i), ... *)
| AWord (c : fcfg) (old : list Z)                    (* scan(in, str) *)
| ALine (c : fcfg) (old : list Z)                    (* line_get(str) *)
| AChar (c : fcfg)                                   (* ch_get(ch) *)
| AMatch (lit : list Z)                              (* scan(in, "literal") *)
| ALeb (ty : int_type) (cw old : Z)                  (* leb128_get(i) *)
| ABytes (host en : endian) (cw sz : Z) (ty : int_type)   (* le_get<sz>(i), be_get<sz>(i) *)
| AIp (port : bool) (cw : Z) (sse : bool).           (* ipv4 *)

(** 226-450 scan_single_impl on a buffered stream: the object read (an integer as a one-element list). *)
Definition scan_one (a : sarg) (buf : list Z) (src : chunks) : scanned (list Z) :=
  match a with
  | AInt cfg => map_scanned snd (both_scan (int_contig cfg) (int_define cfg) (int_eof cfg) (st_init, []) buf src)
  | AWord c old => map_scanned ss_str (ctx_scan (str_define c false false) (str_eof false false) (mk_sstr false old) buf src)
  | ALine c old => map_scanned ss_str (ctx_scan (str_define c false true) (str_eof false true) (mk_sstr false old) buf src)
  | AChar c => ctx_scan (char_define c) char_eof [] buf src
  | AMatch lit => map_scanned (fun _ => []) (ctx_scan (match_define lit) match_eof 0%nat buf src)
  | ALeb ty cw old => 
      match both_scan (leb_contig ty cw) (leb_define ty cw) leb_eof (0, old) buf src with
      | Scanned b (gc, t) buf src => Scanned b [leb_value ty t] buf src
      | Raised c => Raised c
      | Overrun => Overrun
      end
  | ABytes host en cw sz ty => precise_scan (Z.to_nat (sz / 8)) (lebe_get host en cw sz ty) buf src
  | AIp port cw sse => map_scanned ip_vals (both_scan (ip_contig port cw sse) (ip_define cw sse) (ip_at_eof cw sse) (ip_init port) buf src)
  end.
(** The same on a contiguous stream. *)
Definition scan_one_view (a : sarg) (buf : list Z) : scanned (list Z) :=
  match a with
  | AInt cfg => map_scanned snd (view_scan (int_contig cfg) buf)
  | AWord c old => map_scanned ss_str (view_ctx_scan (str_define c false false) (str_eof false false) (mk_sstr false old) buf)
  | ALine c old => map_scanned ss_str (view_ctx_scan (str_define c false true) (str_eof false true) (mk_sstr false old) buf)
  | AChar c => view_ctx_scan (char_define c) char_eof [] buf
  | AMatch lit => map_scanned (fun _ => []) (view_ctx_scan (match_define lit) match_eof 0%nat buf)
  | ALeb ty cw old =>
      match view_scan (leb_contig ty cw) buf with
      | Scanned b (gc, t) buf src => Scanned b [leb_value ty t] buf src
      | Raised c => Raised c
      | Overrun => Overrun
      end
  | ABytes host en cw sz ty => view_precise (Z.to_nat (sz / 8)) (lebe_get host en cw sz ty) buf
  | AIp port cw sse => map_scanned ip_vals (view_scan (ip_contig port cw sse) buf)
  end.

(** ** All arguments
    488 (scan_single_impl(in,args)&&...): the arguments in order until one returns false. *)
Inductive scan_res :=
| SDone (ret : bool) (vals : list (list Z)) (buf : list Z) (src : chunks)
| SThrew (code : parse_code)
| SUndef.
Section All.
Variable one : sarg -> list Z -> chunks -> scanned (list Z).
Fixpoint scan_all (args : list sarg) (buf : list Z) (src : chunks) : scan_res :=
  match args with
  | [] => SDone true [] buf src
  | a :: args' =>
      match one a buf src with
      | Scanned true v buf' src' =>
          match scan_all args' buf' src' with
          | SDone ret vs b s => SDone ret (v :: vs) b s
          | r => r
          end
      | Scanned false _ buf' src' => SDone false [] buf' src'
      | Raised code => SThrew code
      | Overrun => SUndef
      end
  end.
End All.
Definition scan_args := scan_all scan_one.
Definition scan_view (args : list sarg) (buf : list Z) : scan_res := scan_all (fun a b _ => scan_one_view a b) args buf [].

(** fast_io.h 532-545: scan<report>: with report the bool, otherwise the end of the file is an exception. *)
Definition scan_top (report : bool) (args : list sarg) (buf : list Z) (src : chunks) : scan_res :=
  match scan_args args buf src with
  | SDone false vs b s => if report then SDone false vs b s else SThrew pc_end_of_file
  | r => r
  end.

(** 490-493: a stream without a buffer (a file descriptor): unget_temp_buffer, a buffer of one character (6-153).  After
    the scan the character in it that was not used is given back by the destructor (26-92) if the stream has try_unget,
    and dropped otherwise.  The answer: the bool, the objects, the text the stream has left. *)
Inductive raw_res := RDone (ret : bool) (vals : list (list Z)) (left : list Z) | RThrew (code : parse_code) | RUndef.
Definition scan_raw (can_unget : bool) (args : list sarg) (txt : list Z) : raw_res :=
  match scan_args args [] (map (fun c => [c]) txt) with
  | SDone ret vs buf src => RDone ret vs ((if can_unget then buf else []) ++ concat src)
  | SThrew code => RThrew code
  | SUndef => RUndef
  end.
