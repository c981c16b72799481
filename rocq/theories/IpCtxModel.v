(** Model of the chunked (context) scanners of IPv4 addresses, without and with a port.
    Source: include/fast_io_core_impl/socket/addrscn.h 98-259 and 585-668; the integer fields are the instances
    scan_context_define_parse_impl<10,noskipws,false,false> (integers/sto/sto_contiguous.h 934-1175) over an address
    scanner state, whose buffer has six characters (addrscn.h 28-29: reserved size of uint_least16_t, plus one). *)
From Verif Require Import Base IntPrintModel IntScanModel.

Definition ip_buf_size : Z := 6.
(** Result of a call on one chunk: the new state of the integer scanner and the answer; [None] is undefined. *)

(** sto_contiguous.h 992-1028 sc_int_ctx_digit_phase<10> into a field of [w] bits; [used0] characters precede [s]. *)
Definition field_digits (w cw : Z) (sse : bool) (st : sstate) (used0 : Z) (s : list Z) : ctx_res :=
  match skip_digits 10 cw s with
  | None => None
  | Some rest =>
      let n := zlen s - zlen rest in
      let at_end := match rest with [] => true | _ => false end in
      if n <? ip_buf_size - st_size st then
        let buf' := firstn (Z.to_nat (st_size st)) (st_buf st) ++ firstn (Z.to_nat n) s in
        if at_end then Some (mk_st buf' (st_size st + n) ph_digit, mk_pres pc_partial (used0 + n) None)
        else if st_size st + n =? 0 then Some (mk_st buf' (st_size st + n) (st_phase st), mk_pres pc_ok (used0 + n) (Some 0))
        else
          match scan_none_space (mk_scfg 10 false false false (mk_int w false) cw sse) false 0 buf' with
          | None => None
          | Some r => Some (mk_st buf' (st_size st + n) (st_phase st), mk_pres (p_code r) (used0 + (p_used r - st_size st)) (p_val r))
          end
      else if at_end then Some (mk_st (st_buf st) (st_size st) ph_overflow, mk_pres pc_partial (used0 + n) None)
      else Some (st, mk_pres pc_overflow (used0 + n) None)
  end.
(** sto_contiguous.h 945-988 sc_int_ctx_zero_phase<10,false>, with the caller 1119-1148. *)
Definition field_zero (w cw : Z) (sse : bool) (st : sstate) (used0 : Z) (s : list Z) : ctx_res :=
  match s with
  | [] => Some (mk_st (st_buf st) (st_size st) ph_zero, mk_pres pc_partial used0 None)
  | c :: s1 =>
      match char_digit 10 cw c with
      | None => None
      | Some None => Some (st, mk_pres pc_invalid used0 None)
      | Some (Some _) =>
          if c =? 48 then
            match s1 with
            | [] => Some (mk_st (st_buf st) (st_size st) ph_zero_invalid, mk_pres pc_partial (used0 + 1) None)
            | c1 :: _ =>
                match char_digit 10 cw c1 with
                | None => None
                | Some None => Some (st, mk_pres pc_ok (used0 + 1) (Some 0))
                | Some (Some _) => Some (st, mk_pres pc_invalid (used0 + 1) None)
                end
            end
          else field_digits w cw sse st used0 s
      end
  end.
(** sto_contiguous.h 1052-1175 scan_context_define_parse_impl<10,!skipws,false,false> into an unsigned field. *)
Definition field_feed (skipws : bool) (w cw : Z) (sse : bool) (st : sstate) (s : list Z) : ctx_res :=
  match st_phase st with
  | ph_space =>
      if skipws then
        match skip_space cw s with
        | [] => Some (st, mk_pres pc_partial (zlen s) None)
        | s1 => field_zero w cw sse st (zlen s - zlen s1) s1
        end
      else field_zero w cw sse st 0 s
  | ph_sign | ph_prefix | ph_zero | ph_zero_skip => field_zero w cw sse st 0 s
  | ph_digit => field_digits w cw sse st 0 s
  | ph_zero_invalid =>
      (* 1030-1042 sc_int_ctx_zero_invalid_phase: ++first, then *first *)
      match s with
      | [] => Some (st, mk_pres pc_partial 0 None)
      | [_] => None
      | _ :: c :: _ =>
          match char_digit 10 cw c with
          | None => None
          | Some None => Some (st, mk_pres pc_ok 1 (Some 0))
          | Some (Some _) => Some (st, mk_pres pc_invalid 1 None)
          end
      end
  | ph_overflow =>
      (* 1044-1049 sc_int_ctx_skip_digits_phase *)
      match skip_digits 10 cw s with
      | None => None
      | Some [] => Some (st, mk_pres pc_partial (zlen s) None)
      | Some rest => Some (st, mk_pres pc_invalid (zlen s - zlen rest) None)
      end
  end.

(** The phases of the address scanner, in order: a number of [w] bits (the first one skips white space) or a separator.
    scan_ipv4_context_phase (addrscn.h 6-15), port_mark and port (33-34) are the positions in this list. *)
Inductive ip_item := IField (skipws : bool) (w : Z) | ISep (ch : Z).
Definition v4_items : list ip_item := [IField true 8; ISep 46; IField false 8; ISep 46; IField false 8; ISep 46; IField false 8].
Definition v4_port_items : list ip_item := v4_items ++ [ISep 58; IField false 16].
Definition ip_items (port : bool) : list ip_item := if port then v4_port_items else v4_items.
(** The scanner state: the phases still to come, the integer scanner's part, and the numbers stored so far. *)
Record ip_st := mk_ip { ip_todo : list ip_item; ip_int : sstate; ip_vals : list Z }.
Definition ip_init (port : bool) : ip_st := mk_ip (ip_items port) st_init [].
(** addrscn.h 98-203 scn_ctx_define_inaddr_impl, 222-246 scn_ctx_define_port_impl and 616-656: one chunk.  Answer: new state,
    code, characters consumed. *)
Fixpoint ip_feed (cw : Z) (sse : bool) (todo : list ip_item) (int : sstate) (vals : list Z) (used : Z) (s : list Z) : option (ip_st * parse_code * Z) :=
  match todo with
  | [] => Some (mk_ip [] int vals, pc_ok, used)
  | it :: rest =>
      match s with
      | [] => Some (mk_ip todo int vals, pc_partial, used)
      | c :: s1 =>
          match it with
          | ISep ch => if c =? ch then ip_feed cw sse rest int vals (used + 1) s1 else Some (mk_ip todo int vals, pc_invalid, used)
          | IField skipws w =>
              match field_feed skipws w cw sse int s with
              | None => None
              | Some (int', r) =>
                  match p_code r, p_val r with
                  | pc_ok, Some v => ip_feed cw sse rest (mk_st (st_buf int') 0 ph_zero) (vals ++ [v]) (used + p_used r) (skipn (Z.to_nat (p_used r)) s)
                  | ec, _ => Some (mk_ip todo int' vals, ec, used + p_used r)
                  end
              end
          end
      end
  end.
(** addrscn.h 599-607, 658-667 scan_context_eof_define. *)
Definition ip_eof (cw : Z) (sse : bool) (st : ip_st) : option (parse_code * list Z) :=
  match ip_todo st with
  | [IField _ w] =>
      match scan_none_space (mk_scfg 10 false false false (mk_int w false) cw sse) false 0 (firstn (Z.to_nat (st_size (ip_int st))) (st_buf (ip_int st))) with
      | None => None
      | Some r => Some (p_code r, match p_val r with Some v => ip_vals st ++ [v] | None => ip_vals st end)
      end
  | _ => Some (pc_end_of_file, ip_vals st)
  end.
(** The scan driver: chunks are fed while the answer is partial.  Result: code, characters consumed, numbers stored. *)
Fixpoint ip_run (cw : Z) (sse : bool) (st : ip_st) (used : Z) (chunks : list (list Z)) : option (parse_code * Z * list Z) :=
  match chunks with
  | [] => match ip_eof cw sse st with None => None | Some (ec, vals) => Some (ec, used, vals) end
  | s :: rest =>
      match ip_feed cw sse (ip_todo st) (ip_int st) (ip_vals st) 0 s with
      | None => None
      | Some (st', pc_partial, u) => ip_run cw sse st' (used + u) rest
      | Some (st', ec, u) => Some (ec, used + u, ip_vals st')
      end
  end.
Definition scan_ipv4_chunks (port : bool) (cw : Z) (sse : bool) (chunks : list (list Z)) : option (parse_code * Z * list Z) :=
  ip_run cw sse (ip_init port) 0 chunks.
