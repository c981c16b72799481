(** Model of the chunked (context) scanners of timestamps.
    Source: include/fast_io_core_impl/iso/iso8601.h 656-976 and 1084-1530, and the phases of
    integers/sto/sto_contiguous.h they call.
    Texts are lists of code units of width [cw] (8, 16 or 32).  A call is given the state and one
    chunk; it answers with the new state, a code and the part of the chunk it has not read; [None] is
    undefined behaviour.  Simplifications: the object being filled is part of the state; the array
    state.buffer together with state.size is the list of the size characters it holds; the ','
    variants (template parameter comma) and EBCDIC are not modelled. *)
From Verif Require Import Base IntPrintModel IntScanModel TimeSpec TimeModel TimeTextModel.

(** iso8601.h 657-680 scan_timestamp_context_phase, in this order. *)
Inductive tphase :=
  P_year | P_after_year | P_month | P_after_month | P_day | P_after_day | P_hours | P_after_hours
| P_minutes | P_after_minutes | P_seconds | P_timezone_marker | P_after_subseconds_marker
| P_timezone_hours | P_after_timezone_hours | P_timezone_minutes | P_subseconds
| P_waiting_for_five | P_waiting_for_numbers | P_ok.

(** iso8601.h 682-685 operator++ on the phases. *)
Definition phase_next (p : tphase) : tphase :=
  match p with
  | P_year => P_after_year | P_after_year => P_month | P_month => P_after_month | P_after_month => P_day
  | P_day => P_after_day | P_after_day => P_hours | P_hours => P_after_hours | P_after_hours => P_minutes
  | P_minutes => P_after_minutes | P_after_minutes => P_seconds | P_seconds => P_timezone_marker
  | P_timezone_marker => P_after_subseconds_marker | P_after_subseconds_marker => P_timezone_hours
  | P_timezone_hours => P_after_timezone_hours | P_after_timezone_hours => P_timezone_minutes
  | P_timezone_minutes => P_subseconds | P_subseconds => P_waiting_for_five
  | P_waiting_for_five => P_waiting_for_numbers | P_waiting_for_numbers => P_ok | P_ok => P_ok
  end.

(** iso8601.h 691-699: the capacity of the buffer, the longer of a signed int64 and a uint64. *)
Definition ts_cap : Z :=
  Z.max (reserved_size (mk_pflags 10 false false true false false) int64_ty) (reserved_size default_pflags uint64_ty).

(** iso8601.h 702-710 timestamp_scan_state_t, with the object [A] being filled. *)
Record tstate (A : Type) := mk_ts { t_buf : list Z; t_phase : tphase; t_int : sphase; t_val : A }.
Arguments mk_ts {A}. Arguments t_buf {A}. Arguments t_phase {A}. Arguments t_int {A}. Arguments t_val {A}.

(** The answer to one chunk. *)
Definition reply (A : Type) := option (tstate A * parse_code * list Z).

(** ** The fraction *)

Inductive fstep := FDone (v : Z) (rest : list Z) | FKeep (buf : list Z) | FWait (five : bool) (v : Z) | FBad (rest : list Z).

(** iso8601.h 742-848 scn_ctx_decimal_fraction_part_never_overflow_impl on a nonempty chunk: [buf] are
    the characters of state.buffer, [old] the value of t before the call (it is not stored to on
    failure).  FKeep: partial, the phase is kept; FWait: partial, waiting_for_five /
    waiting_for_numbers (the size is set to 0). *)
Definition fraction_chunk (cw : Z) (sse : bool) (buf s : list Z) : option fstep :=
  match skip_digits 10 cw s with
  | None => None
  | Some itr =>
      let ds := firstn (length s - length itr) s in
      let frag := wrap 8 (zlen ds) in
      let room := 19 - zlen buf in
      let parse l k :=
        match scan_fraction cw sse false l with
        | SUb => None
        | SFail _ _ => Some (FBad itr)
        | SGo (v, r) => k v r
        end in
      let rounded l v := option_map (fun v' => FDone v' itr) (round_fraction l v) in
      match itr, buf with
      | _ :: _, [] =>
          parse ds (fun v r => match r with [] => Some (FDone v itr) | _ => rounded r v end)
      | _ :: _, _ :: _ =>
          if room <? frag then
            (* the digits are copied to the beginning of the buffer *)
            let k := Z.to_nat room in
            parse (firstn k s) (fun v _ => rounded (skipn k ds) v)
          else parse (buf ++ firstn (Z.to_nat frag) s) (fun v _ => Some (FDone v itr))
      | [], _ =>
          if room <? frag then
            let k := Z.to_nat room in
            parse (match buf with [] => s | _ => buf ++ firstn k s end)
              (fun v _ =>
                 match skipn k s with
                 | [] => None
                 | c :: more =>
                     if c <? 53 then Some (FWait false v)
                     else if 53 <? c then Some (FWait false (wrap 64 (v + 1)))
                     else if existsb (fun x => negb (x =? 48)) more then Some (FWait false (wrap 64 (v + 1)))
                     else Some (FWait true v)
                 end)
          else Some (FKeep (buf ++ firstn (Z.to_nat frag) s))
      end
  end.

(** iso8601.h 893-909, 1421-1440 case waiting_for_five: the position where the loop stops, the value
    and whether the loop was left by reaching a character that is no digit (true). *)
Fixpoint five_loop (cw : Z) (s : list Z) (v : Z) : (list Z * Z * option bool) :=
  match s with
  | [] => ([], v, None)
  | c :: s' =>
      if negb (is_dec cw c) then (s, (if v mod 2 =? 1 then wrap 64 (v + 1) else v), Some true)
      else if negb (c =? 48) then (s, wrap 64 (v + 1), Some false)
      else five_loop cw s' v
  end.

(** ** iso8601_timestamp *)
Section ISO.
  Context (cw : Z) (sse : bool).

  Definition istate := tstate civil.

  (** sto_contiguous.h 991-1023 sc_int_ctx_digit_phase<10> for int64 with this state; on ok the year.
      On overflow the buffer is left as it is. *)
  Inductive ystep := YPartial (buf : list Z) (ip : sphase) | YDone (y : Z) (rest : list Z) | YBad (c : parse_code) (rest : list Z).
  Definition year_digits (ip : sphase) (buf s : list Z) : option ystep :=
    match skip_digits 10 cw s with
    | None => None
    | Some it =>
        let n := zlen s - zlen it in
        if n <? ts_cap - zlen buf then
          let buf' := buf ++ firstn (Z.to_nat n) s in
          match it, buf' with
          | [], _ => Some (YPartial buf' ph_digit)
          | _, [] => Some (YDone 0 it)
          | _, _ =>
              match scan_none_space (mk_scfg 10 false false false int64_ty cw sse) false 0 buf' with
              | None => None
              | Some r =>
                  let p := skipn (Z.to_nat (p_used r - zlen buf)) s in
                  match p_code r, p_val r with
                  | pc_ok, Some v => Some (YDone v p)
                  | c, _ => Some (YBad c p)
                  end
              end
          end
        else match it with [] => Some (YPartial buf ph_overflow) | _ => Some (YBad pc_overflow it) end
    end.

  (** sto_contiguous.h 1038-1042 sc_int_ctx_skip_digits_phase. *)
  Definition year_overflow (buf s : list Z) : option ystep :=
    match skip_digits 10 cw s with
    | None => None
    | Some [] => Some (YPartial buf ph_overflow)
    | Some it => Some (YBad pc_invalid it)
    end.

  (** iso8601.h 1151-1155, 1164-1168: characters are put into the buffer up to a count, all must be digits;
      [inr] is where a character that is none was met. *)
  Fixpoint collect (n : nat) (buf s : list Z) : (list Z * list Z) + list Z :=
    match n, s with
    | S k, c :: s' => if is_dec cw c then collect k (buf ++ [c]) s' else inr s
    | _, _ => inl (buf, s)
    end.

  Definition four (ds : list Z) : option Z :=
    match ds with
    | c0 :: c1 :: c2 :: c3 :: _ => Some ((c0 - 48) * 1000 + (c1 - 48) * 100 + (c2 - 48) * 10 + (c3 - 48))
    | _ => None
    end.
  Definition signed (neg : bool) (v : Z) : Z := if neg then - v else v.

  (** iso8601.h 1119-1186 case zero of scan_iso8601_context_year_phase.  state.buffer.front() is '-' exactly
      when the buffered text begins with it (it was set to 0 otherwise, 1114). *)
  Definition year_zero (buf s : list Z) : option ystep :=
    match s with
    | [] => Some (YPartial buf ph_zero)
    | _ =>
        let neg := match buf with c :: _ => c =? 45 | [] => false end in
        let fresh := match buf with [] => true | [_] => neg | _ => false end in
        if fresh && (4 <? zlen s) then
          match collect 4 [] s with
          | inr r => Some (YBad pc_invalid r)
          | inl (ds, itr) =>
              match itr with
              | [] => None
              | c :: _ =>
                  if is_dec cw c then year_digits ph_digit buf s
                  else option_map (fun v => YDone (signed neg v) itr) (four ds)
              end
          end
        else
          let remain := (if neg then 1 else 0) + 5 - zlen buf in
          if zlen s <? remain then
            match collect (length s) buf s with
            | inr r => Some (YBad pc_invalid r)
            | inl (buf', _) => Some (YPartial buf' ph_zero)
            end
          else
            match collect (Z.to_nat (remain - 1)) buf s with
            | inr r => Some (YBad pc_invalid r)
            | inl (buf', r) =>
                match r with
                | [] => None
                | c :: _ =>
                    if is_dec cw c then year_digits ph_digit buf' r
                    else option_map (fun v => YDone (signed neg v) r) (four (if neg then skipn 1 buf' else buf'))
                end
            end
    end.

  (** iso8601.h 1103-1118 case sign. *)
  Definition year_sign (buf s : list Z) : option ystep :=
    match s with
    | [] => Some (YPartial buf ph_sign)
    | c :: s' => if c =? 45 then year_zero [45] s' else year_zero buf s
    end.

  (** iso8601.h 1085-1190 scan_iso8601_context_year_phase; sto_contiguous.h 771-783 sc_int_ctx_space_phase. *)
  Definition year_phase (ip : sphase) (buf s : list Z) : option ystep :=
    match ip with
    | ph_space =>
        match skip_space cw s with
        | [] => Some (YPartial buf ph_space)
        | r => year_sign buf r
        end
    | ph_sign => year_sign buf s
    | ph_zero => year_zero buf s
    | ph_digit => year_digits ph_digit buf s
    | ph_overflow => year_overflow buf s
    | _ => None
    end.

  (** iso8601.h 1192-1244 scan_iso8601_context_2_digits_phase: partial with the new buffer, a failure, or
      the number. *)
  Inductive dstep := DPartial (buf : list Z) | DDone (v : Z) (rest : list Z) | DBad (rest : list Z).
  Definition two_phase (buf s : list Z) : option dstep :=
    match s with
    | [] => Some (DPartial buf)
    | c :: s' =>
        match buf with
        | [] =>
            match s' with
            | [] => Some (DPartial [c])
            | _ :: s2 =>
                match scan_two cw s with
                | SUb => None | SFail _ r => Some (DBad r) | SGo v => Some (DDone v s2)
                end
            end
        | [b] =>
            match scan_two cw [b; c] with
            | SUb => None | SFail _ r => Some (DBad s) | SGo v => Some (DDone v s')
            end
        | _ => None
        end
    end.

  (** The cases month, day, hours, minutes, seconds, timezone_hours (iso8601.h 1281-1347, 1386-1394): the field with
      its range check and the next phase; [k] is the code after the fallthrough. *)
  Definition field_phase (lo hi : Z) (set : Z -> civil -> civil) (k : istate -> list Z -> reply civil)
      (st : istate) (s : list Z) : reply civil :=
    match two_phase (t_buf st) s with
    | None => None
    | Some (DPartial b) => Some (mk_ts b (t_phase st) (t_int st) (t_val st), pc_partial, [])
    | Some (DBad r) => Some (st, pc_invalid, r)
    | Some (DDone v r) =>
        let st' := mk_ts [] (phase_next (t_phase st)) (t_int st) (set v (t_val st)) in
        if (v <? lo) || (hi <? v) then Some (st', pc_overflow, r) else k st' r
    end.

  (** FAST_IO_SCAN_ISO8601_CONTEXT_TOKEN_PHASE (iso8601.h 1265-1276). *)
  Definition token_phase (tok : Z) (k : istate -> list Z -> reply civil) (st : istate) (s : list Z) : reply civil :=
    match s with
    | [] => Some (st, pc_partial, [])
    | c :: s' =>
        if c =? tok then k (mk_ts (t_buf st) (phase_next (t_phase st)) (t_int st) (t_val st)) s'
        else Some (st, pc_invalid, s')
    end.

  Definition set_year v c := mk_civil v (cv_month c) (cv_day c) (cv_hours c) (cv_minutes c) (cv_seconds c) (cv_sub c) (cv_tz c).
  Definition set_month v c := mk_civil (cv_year c) v (cv_day c) (cv_hours c) (cv_minutes c) (cv_seconds c) (cv_sub c) (cv_tz c).
  Definition set_day v c := mk_civil (cv_year c) (cv_month c) v (cv_hours c) (cv_minutes c) (cv_seconds c) (cv_sub c) (cv_tz c).
  Definition set_hours v c := mk_civil (cv_year c) (cv_month c) (cv_day c) v (cv_minutes c) (cv_seconds c) (cv_sub c) (cv_tz c).
  Definition set_minutes v c := mk_civil (cv_year c) (cv_month c) (cv_day c) (cv_hours c) v (cv_seconds c) (cv_sub c) (cv_tz c).
  Definition set_seconds v c := mk_civil (cv_year c) (cv_month c) (cv_day c) (cv_hours c) (cv_minutes c) v (cv_sub c) (cv_tz c).
  Definition set_sub v c := mk_civil (cv_year c) (cv_month c) (cv_day c) (cv_hours c) (cv_minutes c) (cv_seconds c) v (cv_tz c).
  Definition set_tz v c := mk_civil (cv_year c) (cv_month c) (cv_day c) (cv_hours c) (cv_minutes c) (cv_seconds c) (cv_sub c) v.
  Definition with_val (st : istate) (v : civil) : istate := mk_ts (t_buf st) (t_phase st) (t_int st) v.
  Definition with_phase (st : istate) (p : tphase) : istate := mk_ts (t_buf st) p (t_int st) (t_val st).

  (** iso8601.h 1398-1415 case timezone_minutes; 1 in integer_phase (the enumerator sign) says the offset is negative. *)
  Definition f_tz_minutes (st : istate) (s : list Z) : reply civil :=
    match two_phase (t_buf st) s with
    | None => None
    | Some (DPartial b) => Some (mk_ts b (t_phase st) (t_int st) (t_val st), pc_partial, [])
    | Some (DBad r) => Some (st, pc_invalid, r)
    | Some (DDone m r) =>
        if 59 <? m then Some (st, pc_overflow, r)
        else
          let tz := cv_tz (t_val st) * 3600 + m * 60 in
          let tz := match t_int st with ph_sign => - tz | _ => tz end in
          Some (mk_ts [] P_ok (t_int st) (set_tz tz (t_val st)), pc_ok, r)
    end.
  Definition f_after_tz_hours := token_phase 58 f_tz_minutes.
  Definition f_tz_hours := field_phase 0 23 set_tz f_after_tz_hours.

  (** iso8601.h 1348-1385 cases timezone_marker and after_subseconds_timezone_marker; [point] is what follows
      a '.' (the recursive call at 1376), allowed in the first of the two only. *)
  Definition f_marker (point : istate -> list Z -> reply civil) (st : istate) (s : list Z) : reply civil :=
    match s with
    | [] => Some (st, pc_partial, [])
    | c :: s' =>
        if c =? 90 then Some (mk_ts (t_buf st) P_ok (t_int st) (set_tz 0 (t_val st)), pc_ok, s')
        else if c =? 43 then f_tz_hours (mk_ts [] P_timezone_hours ph_space (t_val st)) s'
        else if c =? 45 then f_tz_hours (mk_ts [] P_timezone_hours ph_sign (t_val st)) s'
        else if c =? 46 then point st s
        else Some (st, pc_invalid, s)
    end.
  Definition f_after_subseconds : istate -> list Z -> reply civil :=
    f_marker (fun st s => Some (st, pc_invalid, s)).

  (** iso8601.h 1416-1427 case subseconds. *)
  Definition f_subseconds (st : istate) (s : list Z) : reply civil :=
    match s with
    | [] => Some (st, pc_partial, [])
    | _ =>
        match fraction_chunk cw sse (t_buf st) s with
        | None => None
        | Some (FDone v r) => f_after_subseconds (with_phase (with_val st (set_sub v (t_val st))) P_after_subseconds_marker) r
        | Some (FKeep b) => Some (mk_ts b (t_phase st) (t_int st) (t_val st), pc_partial, [])
        | Some (FWait five v) =>
            Some (mk_ts [] (if five then P_waiting_for_five else P_waiting_for_numbers) (t_int st) (set_sub v (t_val st)), pc_partial, [])
        | Some (FBad r) => Some (st, pc_invalid, r)
        end
    end.
  (** iso8601.h 1448-1458 case waiting_for_numbers. *)
  Definition f_wait_numbers (st : istate) (s : list Z) : reply civil :=
    match skip_digits 10 cw s with
    | None => None
    | Some [] => Some (st, pc_partial, [])
    | Some r => f_after_subseconds (with_phase st P_after_subseconds_marker) r
    end.
  (** iso8601.h 1428-1447 case waiting_for_five. *)
  Definition f_wait_five (st : istate) (s : list Z) : reply civil :=
    let '(r, v, stop) := five_loop cw s (cv_sub (t_val st)) in
    let st' := with_val st (set_sub v (t_val st)) in
    match stop with
    | Some true => f_after_subseconds (with_phase st' P_after_subseconds_marker) r
    | Some false => f_wait_numbers (with_phase st' P_waiting_for_numbers) r
    | None => f_wait_numbers st' r
    end.

  Definition f_timezone_marker : istate -> list Z -> reply civil :=
    f_marker (fun st s => f_subseconds (with_phase st P_subseconds) (skipn 1 s)).
  Definition f_seconds := field_phase 0 59 set_seconds f_timezone_marker.
  Definition f_after_minutes := token_phase 58 f_seconds.
  Definition f_minutes := field_phase 0 59 set_minutes f_after_minutes.
  Definition f_after_hours := token_phase 58 f_minutes.
  Definition f_hours := field_phase 0 23 set_hours f_after_hours.
  Definition f_after_day := token_phase 84 f_hours.
  Definition f_day := field_phase 1 31 set_day f_after_day.
  Definition f_after_month := token_phase 45 f_day.
  Definition f_month := field_phase 1 12 set_month f_after_month.
  Definition f_after_year := token_phase 45 f_month.

  Definition civil0 : civil := mk_civil 0 0 0 0 0 0 0 0.
  (** iso8601.h 1252-1263 case year. *)
  Definition f_year (st : istate) (s : list Z) : reply civil :=
    match year_phase (t_int st) (t_buf st) s with
    | None => None
    | Some (YPartial b ip) => Some (mk_ts b P_year ip civil0, pc_partial, [])
    | Some (YBad c r) => Some (with_val st civil0, c, r)
    | Some (YDone y r) => f_after_year (mk_ts [] P_after_year ph_space (set_year y civil0)) r
    end.

  (** iso8601.h 1246-1467 scn_ctx_define_iso8601_impl<false>, 1515-1519 scan_context_define. *)
  Definition iso_feed (st : istate) (s : list Z) : reply civil :=
    match t_phase st with
    | P_year => f_year st s
    | P_after_year => f_after_year st s
    | P_month => f_month st s
    | P_after_month => f_after_month st s
    | P_day => f_day st s
    | P_after_day => f_after_day st s
    | P_hours => f_hours st s
    | P_after_hours => f_after_hours st s
    | P_minutes => f_minutes st s
    | P_after_minutes => f_after_minutes st s
    | P_seconds => f_seconds st s
    | P_timezone_marker => f_timezone_marker st s
    | P_after_subseconds_marker => f_after_subseconds st s
    | P_timezone_hours => f_tz_hours st s
    | P_after_timezone_hours => f_after_tz_hours st s
    | P_timezone_minutes => f_tz_minutes st s
    | P_subseconds => f_subseconds st s
    | P_waiting_for_five => f_wait_five st s
    | P_waiting_for_numbers => f_wait_numbers st s
    | P_ok => Some (st, pc_ok, s)
    end.

  (** iso8601.h 1521-1529 scan_context_eof_define. *)
  Definition iso_eof (st : istate) : parse_code :=
    match t_phase st with P_ok => pc_ok | _ => pc_end_of_file end.
End ISO.

(** What a scan ends with: a value and the text not read, or a code; [None] of [run_chunks] is undefined. *)
Inductive scanned (A : Type) := Read (v : A) (rest : list Z) | NotRead (c : parse_code).
Arguments Read {A}. Arguments NotRead {A}.

(** The scan driver (scan_freestanding.h): chunks are given to the scanner while the answer is partial; at the
    end of the input the eof function is asked.  What was not read of a chunk stays in the buffer before
    the chunks to come. *)
Section RUN.
  Context {A : Type} (feed : tstate A -> list Z -> reply A) (eof : tstate A -> option (tstate A * parse_code)).
  Fixpoint run_chunks (st : tstate A) (chunks : list (list Z)) : option (scanned A) :=
    match chunks with
    | [] =>
        match eof st with
        | None => None
        | Some (st', c) => Some (match c with pc_ok => Read (t_val st') [] | _ => NotRead c end)
        end
    | s :: more =>
        match feed st s with
        | None => None
        | Some (st', c, r) =>
            match c with
            | pc_partial => run_chunks st' more
            | pc_ok => Some (Read (t_val st') (r ++ concat more))
            | _ => Some (NotRead c)
            end
        end
    end.
End RUN.

Definition iso_init (t : civil) : tstate civil := mk_ts [] P_year ph_space t.
(** A scan of an iso8601_timestamp holding [t] before, from input arriving in these chunks. *)
Definition iso_scan_chunks (cw : Z) (sse : bool) (t : civil) (chunks : list (list Z)) : option (scanned civil) :=
  run_chunks (iso_feed cw sse) (fun st => Some (st, iso_eof st)) (iso_init t) chunks.
