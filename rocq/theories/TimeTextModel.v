(** Model of the textual forms of timestamps.
    Source: include/fast_io_core_impl/integers/chrono.h, iso/isos.h, iso/iso8601.h.
    Texts are lists of code units of width [cw] (8, 16 or 32); [None] / [SUb] is a read outside the
    text or a table (undefined).  The ',' variants (template parameter comma) differ only in
    that character and are not modelled; EBCDIC is not modelled. *)
From Verif Require Import Base IntPrintModel IntScanModel TimeSpec TimeModel.

Definition uint64_ty : int_type := mk_int 64 false.
Definition int64_ty : int_type := mk_int 64 true.

(** chrono.h 30-67 chrono_two_digits_impl<unchecked> on an unsigned argument: the pair from the
    digits table, or (checked form only) the full numeral from 100 on. *)
Definition two_digits (unchecked : bool) (u : Z) : option (list Z) :=
  if negb unchecked && (100 <=? u) then print_int default_pflags uint64_ty u
  else tb_pair 10 false u.

(** chrono.h 69-88 chrono_year_impl for int64. *)
Definition print_year (y : Z) : option (list Z) :=
  let u := magnitude 64 true y in
  let sg := if y <? 0 then [45] else [] in
  opt_app (Some sg)
    (if 10000 <=? u then print_int default_pflags uint64_ty u
     else opt_app (tb_pair 10 false (u / 100)) (tb_pair 10 false (u mod 100))).

(** isos.h 9-18 output_iso8601_subseconds_main: trailing zeros are dropped (the loop; [fuel] only
    makes it structural, a nonzero uint64 has at most 19 trailing zeros), then [sz] digits. *)
Fixpoint trim_zeros (fuel : nat) (sub sz : Z) : Z * Z :=
  match fuel with
  | O => (sub, sz)
  | S k => if sub mod 10 =? 0 then trim_zeros k (sub / 10) (sz - 1) else (sub, sz)
  end.
(** isos.h 20-26 output_iso8601_subseconds: the point and the digits. *)
Definition print_subseconds (sub : Z) : option (list Z) :=
  let '(s, sz) := trim_zeros 20 sub 19 in opt_app (Some [46]) (main_impl_word 10 false s sz).

(** iso8601.h 547-575 print_reserve_timezone_impl; [tz] is int32 sign-extended to uint64. *)
Definition print_timezone (tz : Z) : option (list Z) :=
  let u := if tz <? 0 then wrap 64 (0 - wrap 64 tz) else wrap 64 tz in
  let ss := wrap 8 (u mod 60) in
  let u1 := u / 60 in
  let mm := wrap 8 (u1 mod 60) in
  let hh := u1 / 60 in
  opt_app (Some [if tz <? 0 then 45 else 43])
    (opt_app (two_digits false hh)
       (opt_app (Some [58]) (opt_app (two_digits true mm)
          (if ss =? 0 then Some [] else opt_app (Some [58]) (two_digits true ss))))).

(** iso8601.h 578-607 print_reserve_iso8601_timestamp_impl. *)
Definition print_iso8601 (c : civil) : option (list Z) :=
  opt_app (print_year (cv_year c))
  (opt_app (Some [45]) (opt_app (two_digits true (cv_month c))
  (opt_app (Some [45]) (opt_app (two_digits true (cv_day c))
  (opt_app (Some [84]) (opt_app (two_digits true (cv_hours c))
  (opt_app (Some [58]) (opt_app (two_digits true (cv_minutes c))
  (opt_app (Some [58]) (opt_app (two_digits true (cv_seconds c))
  (opt_app (if cv_sub c =? 0 then Some [] else print_subseconds (cv_sub c))
           (if cv_tz c =? 0 then Some [90] else print_timezone (cv_tz c))))))))))))).

(** iso8601.h 610-617 print_reserve_bsc_timestamp_impl, 629-637 print_reserve_define: the same text
    whatever the epoch of the timestamp type. *)
Definition print_stamp (t : stamp) : option (list Z) :=
  opt_app (print_int default_pflags int64_ty (ts_sec t))
    (if ts_sub t =? 0 then Some [] else print_subseconds (ts_sub t)).

(** iso8601.h 621-626, 282-288: declared sizes. *)
Definition iso8601_reserve_size : Z :=
  reserved_size default_pflags int64_ty + 16 + reserved_size default_pflags uint64_ty
  + (reserved_size default_pflags (mk_int 32 true) + 4) + 3 + 2.
Definition stamp_reserve_size : Z := reserved_size default_pflags int64_ty + 1 + 19.

(** ** Scanning *)

(** A step of a scanner: undefined, an early return with a code and the position it reports
    (as the text left), or going on. *)
Inductive step (A : Type) := SUb | SFail (c : parse_code) (rest : list Z) | SGo (a : A).
Arguments SUb {A}. Arguments SFail {A} c rest. Arguments SGo {A} a.
Definition sbind {A B} (m : step A) (k : A -> step B) : step B :=
  match m with SUb => SUb | SFail c r => SFail c r | SGo a => k a end.
Notation "'let*' x ':=' m 'in' k" := (sbind m (fun x => k)) (at level 200, x pattern, right associativity).

(** char_category.h is_c_digit / sto_contiguous.h char_is_digit<10>. *)
Definition is_dec (cw c : Z) : bool := wrap cw (c - 48) <? 10.

(** chrono.h 90-107 chrono_scan_two_digits_unsafe_impl: reads two characters without a length check. *)
Definition scan_two (cw : Z) (s : list Z) : step Z :=
  match s with
  | [] => SUb
  | c0 :: s1 =>
      if negb (is_dec cw c0) then SFail pc_invalid s
      else match s1 with
           | [] => SUb
           | c1 :: _ => if negb (is_dec cw c1) then SFail pc_invalid s
                        else SGo (10 * (c0 - 48) + (c1 - 48))
           end
  end.

(** A two digit field with its range check, then begin += 2 (iso8601.h 991-996 and similar). *)
Definition scan_field (cw lo hi : Z) (s : list Z) : step (Z * list Z) :=
  let* v := scan_two cw s in
  if (v <? lo) || (hi <? v) then SFail pc_overflow s else SGo (v, skipn 2 s).

(** if( *begin++ != ch) return invalid. *)
Definition scan_char (ch : Z) (s : list Z) : step (list Z) :=
  match s with [] => SUb | c :: s' => if c =? ch then SGo s' else SFail pc_invalid s' end.

(** chrono.h 109-143 chrono_scan_year_impl for int64. *)
Definition scan_year (cw : Z) (sse : bool) (s : list Z) : step (Z * list Z) :=
  if zlen s <? 20 then SFail pc_invalid []
  else
    let sign := match s with c :: _ => c =? 45 | [] => false end in
    let s := if sign then skipn 1 s else s in
    let fix digits4 (n : nat) (t : list Z) : step (list Z) :=
      match n with
      | O => SGo t
      | S k => match t with
               | [] => SUb
               | c :: t' => if is_dec cw c then digits4 k t' else SFail pc_invalid t
               end
      end in
    let* after := digits4 4%nat s in
    match after with
    | [] => SUb
    | c :: _ =>
        if is_dec cw c then
          match scan_int (mk_scfg 10 true false false int64_ty cw sse) s with
          | None => SUb
          | Some r =>
              match p_code r, p_val r with
              | pc_ok, Some v => SGo ((if sign then - v else v), skipn (Z.to_nat (p_used r)) s)
              | ec, _ => SFail ec after
              end
          end
        else
          match s with
          | c0 :: c1 :: c2 :: c3 :: s' =>
              let v := (c0 - 48) * 1000 + (c1 - 48) * 100 + (c2 - 48) * 10 + (c3 - 48) in
              SGo ((if sign then - v else v), s')
          | _ => SUb
          end
    end.

(** chrono.h 145-167 chrono_scan_decimal_fraction_part_rounding_impl on the digits [ds] after the
    nineteenth; [v] is uint64. *)
Definition round_fraction (ds : list Z) (v : Z) : option Z :=
  match ds with
  | [] => None
  | c :: ds' =>
      if c <? 53 then Some v
      else if 53 <? c then Some (wrap 64 (v + 1))
      else if existsb (fun x => negb (x =? 48)) ds' then Some (wrap 64 (v + 1))
      else if v mod 2 =? 1 then Some (wrap 64 (v + 1)) else Some v
  end.

(** retval *= 10, [n] times (chrono.h 184-186). *)
Fixpoint times10 (n : nat) (v : Z) : Z :=
  match n with O => v | S k => times10 k (wrap 64 (v * 10)) end.

(** chrono.h 169-203 chrono_scan_decimal_fraction_part_never_overflow_impl<need_rounding> for uint64:
    at most 19 digits are read, then (with rounding) further digits only round. *)
Definition scan_fraction (cw : Z) (sse rounding : bool) (s : list Z) : step (Z * list Z) :=
  match s with
  | [] => SFail pc_invalid []
  | _ =>
      let window := firstn 19 s in
      match scan_int (mk_scfg 10 true false true uint64_ty cw sse) window with
      | None => SUb
      | Some r =>
          let itr := skipn (Z.to_nat (p_used r)) s in
          match p_code r, p_val r with
          | pc_ok, Some v =>
              if p_used r =? 0 then SFail pc_invalid itr
              else
                let v := times10 (Z.to_nat (19 - p_used r)) v in
                match itr with
                | [] => SGo (v, itr)
                | _ =>
                    if rounding && (p_used r =? zlen window) then
                      match skip_digits 10 cw itr with
                      | None => SUb
                      | Some rest =>
                          let ds := firstn (length itr - length rest) itr in
                          match ds with
                          | [] => SGo (v, itr)
                          | _ => match round_fraction ds v with
                                 | None => SUb
                                 | Some v' => SGo (v', rest)
                                 end
                          end
                      end
                    else SGo (v, itr)
                end
          | ec, _ => SFail ec itr
          end
      end
  end.

(** iso8601.h 1057-1079: [+-]HH:MM, [s] begins with the sign.  The length check asks for five
    characters where six are read. *)
Definition scan_zone (cw : Z) (neg : bool) (s : list Z) : step (Z * list Z) :=
  if zlen s <? 5 then SFail pc_invalid []
  else
    let* (h, s) := scan_field cw 0 23 (skipn 1 s) in
    let* s := scan_char 58 s in
    let* (m, s) := scan_field cw 0 59 s in
    let tz := h * 3600 + m * 60 in
    SGo ((if neg then - tz else tz), s).

(** iso8601.h 977-1082 scn_cnt_define_iso8601_impl<false>. *)
Definition scan_iso8601 (cw : Z) (sse : bool) (s0 : list Z) : step (civil * list Z) :=
  let s := skip_space cw s0 in
  let* (year, s) := scan_year cw sse s in
  if zlen s <? 16 then SFail pc_invalid []
  else
    let* s := scan_char 45 s in
    let* (month, s) := scan_field cw 1 12 s in
    let* s := scan_char 45 s in
    let* (day, s) := scan_field cw 1 31 s in
    let* s := scan_char 84 s in
    let* (hours, s) := scan_field cw 0 23 s in
    let* s := scan_char 58 s in
    let* (minutes, s) := scan_field cw 0 59 s in
    let* s := scan_char 58 s in
    let* (seconds, s) := scan_field cw 0 59 s in
    let done sub tz s := SGo (mk_civil year month day hours minutes seconds sub tz, s) in
    let zone sub s :=
      match s with
      | [] => SUb
      | c :: s' =>
          if c =? 90 then done sub 0 s'
          else if c =? 43 then let* (tz, s) := scan_zone cw false s in done sub tz s
          else if c =? 45 then let* (tz, s) := scan_zone cw true s in done sub tz s
          else SFail pc_invalid s
      end in
    match s with
    | [] => SUb
    | c :: s' =>
        if c =? 46 then
          let* (sub, s) := scan_fraction cw sse true s' in
          match s with [] => SFail pc_invalid [] | _ => zone sub s end
        else zone 0 s
    end.

(** iso8601.h 715-740 scn_cnt_define_unix_timestamp_impl<false>. *)
Definition scan_unix (cw : Z) (sse : bool) (s : list Z) : step (stamp * list Z) :=
  match scan_int (mk_scfg 10 false false false int64_ty cw sse) s with
  | None => SUb
  | Some r =>
      let itr := skipn (Z.to_nat (p_used r)) s in
      match p_code r, p_val r with
      | pc_ok, Some sec =>
          match itr with
          | [] => SGo (mk_stamp sec 0, [])
          | c :: s' =>
              if negb (c =? 46) then SFail pc_invalid itr
              else let* (sub, rest) := scan_fraction cw sse true s' in SGo (mk_stamp sec sub, rest)
          end
      | ec, _ => SFail ec itr
      end
  end.

(** iso8601.h 1463-1475 scan_contiguous_define for basic_timestamp<off>: for off <> 0 the scanned
    number is taken to be a unix timestamp and converted; [None] is undefined (overflow). *)
Definition scan_stamp (off cw : Z) (sse : bool) (s : list Z) : step (stamp * list Z) :=
  let* (t, rest) := scan_unix cw sse s in
  if off =? 0 then SGo (t, rest)
  else match convert_epoch 0 off t with
       | Outcome.Done t' => SGo (t', rest)
       | _ => SUb
       end.
