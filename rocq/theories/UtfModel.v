(** Model of the UTF-8/16/32 converters.
    Sources: include/fast_io_core_impl/codecvt/utf.h, general.h.
    A text is a list of unsigned code units; sizes are 8, 16, 32 bits; [nat] says whether the scheme is the
    host's (encoding_scheme::utf) or the byte swapped one.  Not modelled: utf_ebcdic, gb18030, and an 8-bit
    source with a byte swapped scheme (the code then runs the gb18030 decoder). *)
From Verif Require Import Base ByteSpec LebeModel UtfTables.

Definition tbl (l : list Z) (i : Z) : Z := nth (Z.to_nat i) l 0.

(** Conversion to the scheme's byte order: byte_swap when the scheme is not native. *)
Definition sw (nat : bool) (cw u : Z) : Z := if nat then u else byte_swap (Z.to_nat (cw / 8)) u.

(** utf.h 347-355 get_utf8_invalid_code_units. *)
Definition utf8_invalid : list Z := [239; 191; 189].

(** utf.h 357-429 get_utf_code_units<scheme>(cdpt,dst): the units written. *)
Definition get_utf_code_units (cw : Z) (nat : bool) (cdpt : Z) : list Z :=
  if cw =? 32 then [sw nat 32 cdpt]
  else if cw =? 16 then
    if cdpt <? 65536 then [sw nat 16 (wrap 16 cdpt)]
    else [sw nat 16 (wrap 16 (55232 + Z.shiftr cdpt 10)); sw nat 16 (wrap 16 (56320 + Z.land cdpt 1023))]
  else
    if cdpt <=? 127 then [wrap 8 cdpt]
    else if cdpt <=? 2047 then
      [Z.lor 192 (Z.land (Z.shiftr cdpt 6) 31); Z.lor 128 (Z.land cdpt 63)]
    else if cdpt <=? 65535 then
      [Z.lor 224 (Z.land (Z.shiftr cdpt 12) 15); Z.lor 128 (Z.land (Z.shiftr cdpt 6) 63); Z.lor 128 (Z.land cdpt 63)]
    else if cdpt <=? 1114111 then
      [Z.lor 240 (Z.land (Z.shiftr cdpt 18) 7); Z.lor 128 (Z.land (Z.shiftr cdpt 12) 63);
       Z.lor 128 (Z.land (Z.shiftr cdpt 6) 63); Z.lor 128 (Z.land cdpt 63)]
    else utf8_invalid.

(** general.h 17-39 get_general_invalid_code_units, and the 4 byte constants 0xFFFD / 0xFDFF0000. *)
Definition invalid_units (cw : Z) (nat : bool) : list Z :=
  if cw =? 32 then [if nat then 65533 else 4261347328]
  else if cw =? 16 then [sw nat 16 65533]
  else utf8_invalid.

(** utf.h 430-437. *)
Definition is_surrogate (uc : Z) : bool := wrap 32 (uc - 55296) <? 2048.
Definition is_high (uc : Z) : bool := Z.land uc 4294966272 =? 55296.
Definition is_low (uc : Z) : bool := Z.land uc 4294966272 =? 56320.
Definition surrogate_to_utf32 (high low : Z) : Z := wrap 32 (wrap 32 (Z.shiftl high 10) + low - 56613888).

(** utf.h 570-616 advance_with_big_table / 536-560 the unchecked one (identical while input remains):
    the code point, and what remains; None when the text ends inside a sequence (failed). *)
Fixpoint utf8_dfa (cdpt curr : Z) (s : list Z) : option (Z * list Z) :=
  if 12 <? curr then
    match s with
    | [] => None
    | u :: s' => utf8_dfa (wrap 32 (Z.lor (wrap 32 (Z.shiftl cdpt 6)) (Z.land u 63))) (tbl transitions (curr + tbl octet_category u)) s'
    end
  else Some (if curr =? 12 then 65533 else cdpt, s).
Definition utf8_advance (s : list Z) : option (Z * list Z) :=
  match s with
  | [] => None
  | b :: s' => utf8_dfa (tbl first_unit_cdpt b) (tbl first_unit_state b) s'
  end.

(** general.h 205-267: the scalar loop over an 8-bit source (destination 16 or 32 bits).
    [fuel] is the number of steps, at most the number of bytes.  Result: units written, source left. *)
Fixpoint u8_loop (fuel : nat) (cw : Z) (nat : bool) (s : list Z) : list Z * list Z :=
  match fuel with
  | O => ([], s)
  | S f =>
      match s with
      | [] => ([], [])
      | b :: s' =>
          if b <? 128 then
            let '(o, r) := u8_loop f cw nat s' in (sw nat cw b :: o, r)
          else
            match utf8_advance s with
            | None => ([], s)
            | Some (code, s2) =>
                let '(o, r) := u8_loop f cw nat s2 in
                ((if cw =? 32 then [sw nat 32 code] else get_utf_code_units cw nat code) ++ o, r)
            end
      end
  end.

(** utf.h 440-534 convert_ascii_with_sse: 16 bytes are zero extended and stored; the count of leading bytes
    below 0x80 among them is returned.  No byte swapping. *)
Fixpoint ascii_run (n : nat) (s : list Z) : nat :=
  match n, s with S k, b :: s' => if b <? 128 then S (ascii_run k s') else O | _, _ => O end.

(** general.h 158-203: the SSE loop, while more than 16 bytes remain. *)
Fixpoint u8_sse_loop (fuel : nat) (cw : Z) (nat : bool) (s : list Z) : list Z * list Z :=
  match fuel with
  | O => ([], s)
  | S f =>
      if (16 <? zlen s) then
        match s with
        | [] => ([], s)
        | b :: _ =>
            if b <? 128 then
              let k := ascii_run 16 s in
              let '(o, r) := u8_sse_loop f cw nat (skipn k s) in (firstn k s ++ o, r)
            else
              match utf8_advance s with
              | None => ([], s)
              | Some (code, s2) =>
                  let '(o, r) := u8_sse_loop f cw nat s2 in
                  ((if cw =? 32 then [code] else get_utf_code_units cw nat code) ++ o, r)
              end
        end
      else ([], s)
  end.

(** general.h 152-268 the 8-bit source branch. *)
Definition cvt8 (sse : bool) (cw : Z) (nat : bool) (s : list Z) : list Z * list Z :=
  let '(o1, s1) := if sse then u8_sse_loop (length s) cw nat s else ([], s) in
  let '(o2, s2) := u8_loop (length s1) cw nat s1 in (o1 ++ o2, s2).

(** general.h 90-150 the 16-bit source branch.  [snat]/[dnat]: source/destination scheme native. *)
Fixpoint cvt16 (snat : bool) (cw : Z) (dnat : bool) (s : list Z) : list Z * list Z :=
  match s with
  | [] => ([], [])
  | c :: s1 =>
      let code := sw snat 16 c in
      if is_surrogate code then
        if is_high code then
          match s1 with
          | [] => ([], s)
          | c1 :: s2 =>
              let code1 := sw snat 16 c1 in
              let '(o, r) := cvt16 snat cw dnat s2 in
              if is_low code1 then
                ((if cw =? 32 then [surrogate_to_utf32 code code1]
                  else get_utf_code_units cw dnat (surrogate_to_utf32 code code1)) ++ o, r)
              else (invalid_units cw dnat ++ o, r)
          end
        else let '(o, r) := cvt16 snat cw dnat s1 in (invalid_units cw dnat ++ o, r)
      else
        let '(o, r) := cvt16 snat cw dnat s1 in
        ((if cw =? 32 then [if Bool.eqb snat dnat then code else byte_swap 4 code]
          else get_utf_code_units cw dnat code) ++ o, r)
  end.

(** general.h 83-89 the 32-bit source branch: no byte swapping of the source. *)
Definition cvt32 (cw : Z) (dnat : bool) (s : list Z) : list Z * list Z :=
  (flat_map (get_utf_code_units cw dnat) s, []).

(** general.h 48-270 general_code_cvt: units written, source left.  The opposite-order same-size branch
    (68-82) assigns *dst without advancing it: nothing is reported as written. *)
Definition code_cvt (sse : bool) (scw : Z) (snat : bool) (dcw : Z) (dnat : bool) (s : list Z) : list Z * list Z :=
  if (scw =? dcw) && (Bool.eqb snat dnat || (scw =? 8)) then (s, [])
  else if scw =? dcw then ([], [])
  else if scw =? 32 then cvt32 dcw dnat s
  else if scw =? 16 then cvt16 snat dcw dnat s
  else cvt8 sse dcw dnat s.

(** general.h 399-428 general_code_cvt_full: one-shot conversion; a truncated tail yields a replacement.
    For 8 and 16 bit destinations get_general_invalid_code_units is called with [dst], the start of the
    output, and only the returned count is added to new_dst: the first units are overwritten and the units at
    the end keep [old], the previous content of the buffer. *)
Definition code_cvt_full (sse : bool) (scw : Z) (snat : bool) (dcw : Z) (dnat : bool) (s old : list Z) : list Z :=
  let '(o, r) := code_cvt sse scw snat dcw dnat s in
  match r with
  | [] => o
  | _ =>
      if dcw =? 32 then o ++ [if dnat then 65533 else 4261347328]
      else
        let inv := invalid_units dcw dnat in
        let buf := o ++ skipn (length o) old in   (* the whole destination buffer before the call *)
        let buf := inv ++ skipn (length inv) buf in
        firstn (length o + length inv) buf
  end.

(** utf.h 70-148 cal_full_reserve_size<src,dest>(n), units. *)
Definition full_reserve (scw dcw n : Z) : Z :=
  if dcw =? 32 then n else if dcw =? 16 then 2 * n else 8 * n.

(** utf.h 150-225 cal_decorated_reserve_size<src,dest>(n): the size announced for one call of the stateful
    converter. *)
Definition decorated_reserve (scw dcw n : Z) : Z :=
  let k := if scw =? 32 then 0 else if scw =? 16 then 1 else 7 in
  if dcw =? 32 then n + k else if dcw =? 16 then 2 * n + 2 * k else 8 * n + 8 * k.

(** utf.h 440-534 convert_ascii_with_sse stores 16 destination units whatever the count it returns.  [u8_sse_end]
    is the largest end offset of those stores during the loop of general.h 158-203, [p] being the current offset
    of dst (0 if the loop makes no store). *)
Fixpoint u8_sse_end (fuel : nat) (cw : Z) (nat : bool) (p : Z) (s : list Z) : Z :=
  match fuel with
  | O => 0
  | S f =>
      if (16 <? zlen s) then
        match s with
        | [] => 0
        | b :: _ =>
            if b <? 128 then
              let k := ascii_run 16 s in
              Z.max (p + 16) (u8_sse_end f cw nat (p + Z.of_nat k) (skipn k s))
            else
              match utf8_advance s with
              | None => 0
              | Some (code, s2) =>
                  u8_sse_end f cw nat (p + zlen (if cw =? 32 then [code] else get_utf_code_units cw nat code)) s2
              end
        end
      else 0
  end.

(** ** Stateful conversion, general.h 272-397 *)

(** u8utf_mb_state: bytes[0..size). *)
Definition cvt8_state (sse : bool) (cw : Z) (nat : bool) (st s : list Z) : list Z * list Z :=
  match st with
  | [] => let '(o, r) := cvt8 sse cw nat s in (o, r)
  | _ =>
      match s with
      | [] => ([], st)
      | _ =>
          let take := Nat.min (length s) (8 - length st) in
          let bytes := st ++ firstn take s in
          match utf8_advance bytes with
          | None => ([], bytes)
          | Some (code, rest) =>
              let used := (length bytes - length rest - length st)%nat in
              let o1 := if cw =? 32 then [sw nat 32 code] else get_utf_code_units cw nat code in
              let '(o, r) := cvt8 sse cw nat (skipn used s) in (o1 ++ o, r)
          end
      end
  end.

(** u16utf_mb_state: the pending high surrogate unit, if any.  After processing, state := last unread unit. *)
Definition cvt16_state (snat : bool) (cw : Z) (dnat : bool) (st : list Z) (s : list Z) : list Z * list Z :=
  match st, s with
  | [], _ => cvt16 snat cw dnat s
  | _ :: _, [] => ([], st)
  | hi :: _, v :: s' =>
      let low := sw snat 16 hi in
      let v' := sw snat 16 v in
      let '(o1, s1) :=
        if is_low v' then
          ((if cw =? 32 then [sw dnat 32 (surrogate_to_utf32 low v')] else get_utf_code_units cw dnat (surrogate_to_utf32 low v')), s')
        else (invalid_units cw dnat, s) in
      let '(o, r) := cvt16 snat cw dnat s1 in (o1 ++ o, r)
  end.

(** Feeding a sequence of chunks through the state. *)
Fixpoint run_chunks (step : list Z -> list Z -> list Z * list Z) (st : list Z) (chunks : list (list Z)) : list Z * list Z :=
  match chunks with
  | [] => ([], st)
  | c :: cs => let '(o, st') := step st c in let '(o2, st2) := run_chunks step st' cs in (o ++ o2, st2)
  end.
