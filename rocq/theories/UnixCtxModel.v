(** Model of the chunked (context) scanner of unix timestamps and of timestamps with another epoch.
    Source: include/fast_io_core_impl/iso/iso8601.h 850-976 and 1478-1503, and the phases of
    integers/sto/sto_contiguous.h they call with base 10, white space skipped, leading zeros allowed.
    The conventions (texts, states, replies, [None] for undefined behaviour) are those of TimeCtxModel; the ',' variant
    (template parameter comma) and EBCDIC are not modelled. *)
From Verif Require Import Base IntPrintModel IntScanModel TimeSpec TimeModel TimeTextModel TimeCtxModel.

Section UNIX.
  Context (cw : Z) (sse : bool).

  (** sto_contiguous.h 934-985 sc_int_ctx_zero_phase<10,true> and its caller 1124-1148; [skipped]: the phase at
      entry was zero_skip. *)
  Definition secs_zero (skipped : bool) (buf s : list Z) : option ystep :=
    match s with
    | [] => Some (YPartial buf ph_zero)
    | c :: s1 =>
        match char_digit 10 cw c with
        | None => None
        | Some None => Some (if skipped then YDone 0 s else YBad pc_invalid s)
        | Some (Some _) =>
            if c =? 48 then
              match skip_zeros s1 with
              | [] => Some (YPartial buf ph_zero_skip)
              | (c1 :: _) as s2 =>
                  match char_digit 10 cw c1 with
                  | None => None
                  | Some None => Some (YDone 0 s2)
                  | Some (Some _) => year_digits cw sse ph_digit buf s2
                  end
              end
            else year_digits cw sse ph_digit buf s
        end
    end.

  (** sto_contiguous.h 785-817 sc_int_ctx_sign_phase<true,false>. *)
  Definition secs_sign (buf s : list Z) : option ystep :=
    match s with
    | [] => Some (YPartial buf ph_sign)
    | c :: s' => if c =? 45 then secs_zero false [45] s' else secs_zero false buf s
    end.

  (** sto_contiguous.h 1051-1172 scan_context_define_parse_impl<10,false,false,true> for int64. *)
  Definition secs_phase (ip : sphase) (buf s : list Z) : option ystep :=
    match ip with
    | ph_space =>
        match skip_space cw s with
        | [] => Some (YPartial buf ph_space)
        | r => secs_sign buf r
        end
    | ph_sign => secs_sign buf s
    | ph_zero => secs_zero false buf s
    | ph_zero_skip => secs_zero true buf s
    | ph_digit => year_digits cw sse ph_digit buf s
    | ph_zero_invalid => Some (YBad pc_invalid s)
    | ph_overflow => year_overflow cw buf s
    | ph_prefix => None
    end.

  Definition ustate := tstate stamp.
  Definition with_sub (st : ustate) (v : Z) (p : tphase) (buf : list Z) : ustate :=
    mk_ts buf p (t_int st) (mk_stamp (ts_sec (t_val st)) v).

  (** iso8601.h 930-943 case waiting_for_numbers. *)
  Definition u_wait_numbers (st : ustate) (s : list Z) : reply stamp :=
    match skip_digits 10 cw s with
    | None => None
    | Some [] => Some (st, pc_partial, [])
    | Some r => Some (mk_ts (t_buf st) P_ok (t_int st) (t_val st), pc_ok, r)
    end.
  (** iso8601.h 909-929 case waiting_for_five. *)
  Definition u_wait_five (st : ustate) (s : list Z) : reply stamp :=
    let '(r, v, stop) := five_loop cw s (ts_sub (t_val st)) in
    match stop with
    | Some true => Some (with_sub st v P_ok (t_buf st), pc_ok, r)
    | Some false => u_wait_numbers (with_sub st v P_waiting_for_numbers (t_buf st)) r
    | None => u_wait_numbers (with_sub st v (t_phase st) (t_buf st)) r
    end.
  (** iso8601.h 902-908 case subseconds. *)
  Definition u_subseconds (st : ustate) (s : list Z) : reply stamp :=
    match fraction_chunk cw sse (t_buf st) s with
    | None => None
    | Some (FDone v r) => Some (with_sub st v P_ok (t_buf st), pc_ok, r)
    | Some (FKeep b) => Some (mk_ts b (t_phase st) (t_int st) (t_val st), pc_partial, [])
    | Some (FWait five v) => Some (with_sub st v (if five then P_waiting_for_five else P_waiting_for_numbers) [], pc_partial, [])
    | Some (FBad r) => Some (st, pc_invalid, r)
    end.
  (** iso8601.h 883-901 case timezone_marker. *)
  Definition u_marker (st : ustate) (s : list Z) : reply stamp :=
    match s with
    | [] => Some (st, pc_partial, [])
    | c :: s' =>
        if c =? 46 then u_subseconds (mk_ts (t_buf st) P_subseconds (t_int st) (t_val st)) s'
        else Some (st, pc_invalid, s')
    end.
  (** iso8601.h 872-882 case year: the seconds. *)
  Definition u_seconds (st : ustate) (s : list Z) : reply stamp :=
    match secs_phase (t_int st) (t_buf st) s with
    | None => None
    | Some (YPartial b ip) => Some (mk_ts b P_year ip (t_val st), pc_partial, [])
    | Some (YBad c r) => Some (st, c, r)
    | Some (YDone v r) => u_marker (mk_ts [] P_timezone_marker ph_space (mk_stamp v (ts_sub (t_val st)))) r
    end.

  (** iso8601.h 850-950 scn_ctx_define_unix_timestamp_impl<false>; the phases it assumes away are undefined. *)
  Definition unix_feed (st : ustate) (s : list Z) : reply stamp :=
    match t_phase st with
    | P_year => u_seconds st s
    | P_timezone_marker => u_marker st s
    | P_subseconds => u_subseconds st s
    | P_waiting_for_five => u_wait_five st s
    | P_waiting_for_numbers => u_wait_numbers st s
    | P_ok => Some (st, pc_ok, s)
    | _ => None
    end.

  (** iso8601.h 952-976 scn_ctx_eof_define_unix_timestamp_impl. *)
  Definition unix_eof (st : ustate) : option (ustate * parse_code) :=
    match t_phase st with
    | P_subseconds =>
        match scan_fraction cw sse false (t_buf st) with
        | SUb => None
        | SFail _ _ => Some (st, pc_invalid)
        | SGo (v, _) => Some (with_sub st v P_subseconds (t_buf st), pc_ok)
        end
    | P_waiting_for_five =>
        let v := ts_sub (t_val st) in
        Some (with_sub st (if v mod 2 =? 1 then wrap 64 (v + 1) else v) P_waiting_for_five (t_buf st), pc_ok)
    | P_waiting_for_numbers | P_ok => Some (st, pc_ok)
    | _ => Some (st, pc_end_of_file)
    end.

  (** t.reference.seconds -= off (iso8601.h 1491, 1502), undefined when it overflows. *)
  Definition from_epoch (off : Z) (st : ustate) : option ustate :=
    if off =? 0 then Some st
    else
      let v := ts_sec (t_val st) - off in
      if (- 2 ^ 63 <=? v) && (v <? 2 ^ 63) then Some (mk_ts (t_buf st) (t_phase st) (t_int st) (mk_stamp v (ts_sub (t_val st)))) else None.
  (** iso8601.h 1484-1493 scan_context_define. *)
  Definition stamp_feed (off : Z) (st : ustate) (s : list Z) : reply stamp :=
    match unix_feed st s with
    | Some (st', pc_ok, r) => option_map (fun st'' => (st'', pc_ok, r)) (from_epoch off st')
    | x => x
    end.
  (** iso8601.h 1495-1503 scan_context_eof_define. *)
  Definition stamp_eof (off : Z) (st : ustate) : option (ustate * parse_code) :=
    match unix_eof st with
    | Some (st', pc_ok) =>
        match t_phase st' with
        | P_ok => Some (st', pc_ok)
        | _ => option_map (fun st'' => (st'', pc_ok)) (from_epoch off st')
        end
    | x => x
    end.
End UNIX.

(** A scan of a basic_timestamp<off> holding [t] before, from input arriving in these chunks. *)
Definition stamp_scan_chunks (off cw : Z) (sse : bool) (t : stamp) (chunks : list (list Z)) : option (scanned stamp) :=
  run_chunks (stamp_feed cw sse off) (stamp_eof cw sse off) (mk_ts [] P_year ph_space t) chunks.
