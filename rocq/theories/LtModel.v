(** Model of locale-dependent time formatting.
    Source: include/fast_io_i18n/lc_numbers/lc_time.h and the record in include/fast_io_i18n/lc.h.
    Texts are lists of code units with ASCII numbers (EBCDIC is not modelled).  [None] is undefined
    behaviour (signed overflow, division by zero, a read before the format) or a chain of nested
    formats that has not ended within the fuel; [fuel] bounds the characters processed along a chain
    of nested formats.  Sizes are exact integers: wrap-around of size_t sums is not modelled. *)
From Verif Require Import Base IntPrintModel CharModel TimeSpec TimeModel TimeTextModel LtSpec.

(** Signed 64-bit results: undefined on overflow. *)
Definition chk64 (x : Z) : option Z := if (- 2 ^ 63 <=? x) && (x <? 2 ^ 63) then Some x else None.
Definition obind {A B} (m : option A) (k : A -> option B) : option B := match m with Some a => k a | None => None end.
Notation "'let?' x ':=' m 'in' k" := (obind m (fun x => k)) (at level 200, x name, right associativity).

(** lc_time.h 14-21 is_leap_year for int64. *)
Definition is_leap_year (y : Z) : bool :=
  (Z.rem y 4 =? 0) && (negb (Z.rem y 100 =? 0) || (Z.rem y 400 =? 0)).

(** lc_time.h 23 month_accum. *)
Definition month_accum : list Z := [0; 31; 59; 90; 120; 151; 181; 212; 243; 273; 304; 334].
Definition accum (m : Z) : Z := nth (Z.to_nat m) month_accum 0.

(** lc_time.h 25-34 day_of_the_year. *)
Definition day_of_the_year (c : civil) : Z :=
  let m := wrap 8 (cv_month c - 1) in
  if 11 <? m then 0
  else let v := wrap 16 (accum m + cv_day c) in
       if (1 <? m) && is_leap_year (cv_year c) then wrap 16 (v + 1) else v.

(** lc_time.h 36-63 day_diff. *)
Definition day_diff (ya ma da yb mb db : Z) : option Z :=
  let m := wrap 8 (ma - 1) in
  let n := wrap 8 (mb - 1) in
  if (11 <? m) || (11 <? n) then Some 0
  else
    let? dy := chk64 (ya - yb) in
    let? dd := chk64 (365 * dy) in
    let? v := chk64 (Z.quot ya 4 - Z.quot yb 4 - Z.quot ya 100 + Z.quot yb 100
                     + Z.quot ya 400 - Z.quot yb 400 + dd) in
    let? v := chk64 (v + accum m) in
    let? v := chk64 (v - accum n) in
    let? v := chk64 (v + da) in
    let? v := chk64 (v - db) in
    let? v := (if (m <? 2) && is_leap_year ya then chk64 (v - 1) else Some v) in
    if (n <? 2) && is_leap_year yb then chk64 (v + 1) else Some v.

Definition uint8_ty : int_type := mk_int 8 false.
Definition uint16_ty : int_type := mk_int 16 false.
Definition uint32_ty : int_type := mk_int 32 false.
Definition size8 : Z := reserved_size default_pflags uint8_ty.
Definition size16 : Z := reserved_size default_pflags uint16_ty.
Definition size64 : Z := reserved_size default_pflags int64_ty.
(** iso8601.h 545 print_reserve_size_timezone_impl_v. *)
Definition size_tz : Z := reserved_size default_pflags (mk_int 32 true) + 4.

(** lc_time.h 70-83 lc_format_alt_digits_len and 85-95 lc_format_alt_digits_print; the value is
    converted to size_t (negative values become large). *)
Definition alt_len (t : lt_time) (ty : int_type) (v : Z) : Z :=
  let k := wrap 64 v in
  if k <? zlen (lt_alt t) then zlen (nth (Z.to_nat k) (lt_alt t) []) else reserved_size default_pflags ty.
Definition alt_print (t : lt_time) (ty : int_type) (v : Z) : option (list Z) :=
  let k := wrap 64 v in
  if k <? zlen (lt_alt t) then Some (nth (Z.to_nat k) (lt_alt t) []) else print_int default_pflags ty v.

(** lc_time.h 106-114 test_era_started: the first date is not after the second. *)
Definition era_started (y0 m0 d0 y1 m1 d1 : Z) : bool :=
  if y0 <? y1 then true
  else if y0 =? y1 then (m0 <? m1) || ((m0 =? m1) && (d0 <=? d1)) else false.

(** lc_time.h 116-166 lc_time_find_era_impl; [None] for the past-the-end pointer. *)
Fixpoint find_era (es : list lt_era) (y m d : Z) : option lt_era :=
  match es with
  | [] => None
  | e :: es' =>
      let start := if er_dir e then era_started (er_sy e) (er_sm e) (er_sd e) y m d
                   else era_started y m d (er_sy e) (er_sm e) (er_sd e) in
      if start then
        if 0 <? er_special e then Some e
        else if er_special e =? 0 then
          let fin := if er_dir e then era_started y m d (er_ey e) (er_em e) (er_ed e)
                     else era_started (er_ey e) (er_em e) (er_ed e) y m d in
          if fin then Some e else find_era es' y m d
        else None
      else find_era es' y m d
  end.

(** lc_time.h 174-245 lc_time_ox_common_impl; [None] is failed. *)
Definition ox_common (c : civil) (ch : Z) : option Z :=
  if (ch =? 100) || (ch =? 101) then Some (cv_day c)                     (* d e *)
  else if ch =? 72 then Some (cv_hours c)                                (* H *)
  else if ch =? 73 then                                                  (* I *)
    Some (if cv_hours c =? 0 then 12 else if 12 <? cv_hours c then wrap 8 (cv_hours c - 12) else cv_hours c)
  else if ch =? 109 then Some (cv_month c)                               (* m *)
  else if ch =? 77 then Some (cv_minutes c)                              (* M *)
  else if ch =? 83 then Some (cv_seconds c)                              (* S *)
  else if ch =? 117 then Some (weekday (cv_year c) (cv_month c) (cv_day c))      (* u *)
  else if ch =? 85 then                                                  (* U *)
    Some (wrap 8 (wrap 16 (weekday (cv_year c) 1 1 + day_of_the_year c - 1) / 7))
  else if (ch =? 119) || (ch =? 111) then Some (c_weekday (cv_year c) (cv_month c) (cv_day c))  (* w o *)
  else if ch =? 121 then                                                 (* y *)
    Some (wrap 8 ((if cv_year c <? 0 then wrap 64 (0 - wrap 64 (cv_year c)) else wrap 64 (cv_year c)) mod 100))
  else None.

(** A step of either loop: the end of the format with a last contribution, or a contribution, the
    last character of the directive and the text after it. *)
Inductive lt_step (A : Type) := Ends (a : A) | Goes (a : A) (last : Z) (rest : list Z).
Arguments Ends {A} a. Arguments Goes {A} a last rest.
Definition go {A} (m : option A) (l : Z) (r : list Z) : option (lt_step A) :=
  match m with Some a => Some (Goes a l r) | None => None end.

(** lc_time.h 391-398, 457-464 and others: the am/pm text counted. *)
Definition ampm_len (t : lt_time) (h : Z) : Z :=
  if h <? 12 then zlen (lt_am t) else if h <? 24 then zlen (lt_pm t) else 0.

(** lc_time.h 370-410: a directive of the form %O (size). *)
Definition size_O (t : lt_time) (c : civil) (r : list Z) : option (lt_step Z) :=
  match r with
  | [] => Some (Ends 2)
  | ch :: r2 =>
      if (ch =? 98) || (ch =? 104) then                                  (* b h *)
        let m := wrap 8 (cv_month c - 1) in
        Some (Goes (zlen (lt_altmon t (if 11 <? m then 0 else m))) ch r2)
      else if ch =? 67 then Some (Goes (alt_len t int64_ty (Z.quot (cv_year c) 100)) ch r2)   (* C *)
      else if (ch =? 112) || (ch =? 80) then Some (Goes (ampm_len t (cv_hours c)) ch r2)      (* p P *)
      else match ox_common c ch with
           | None => Some (Ends (zlen r + 2))
           | Some v => Some (Goes (alt_len t uint8_ty v) ch r2)
           end
  end.

(** lc_time.h 342-410: a directive of the form %E (size); [i2] is the distance from the start of the
    segment, [end_it - i], counted once more when the format ends here. *)
Definition size_E (t : lt_time) (c : civil) (sub : list Z -> option Z) (i2 : Z) (r : list Z) : option (lt_step Z) :=
  match r with
  | [] => Some (Ends i2)
  | ch :: r2 =>
      if ch =? 99 then go (sub (lt_era_d_t_fmt t)) ch r2                 (* c *)
      else if ch =? 120 then go (sub (lt_era_d_fmt t)) ch r2             (* x *)
      else if ch =? 88 then go (sub (lt_era_t_fmt t)) ch r2              (* X *)
      else if (ch =? 67) || (ch =? 121) || (ch =? 89) then               (* C y Y *)
        match find_era (lt_eras t) (cv_year c) (cv_month c) (cv_day c) with
        | None => Some (Goes 0 ch r2)
        | Some e => if ch =? 67 then Some (Goes (zlen (er_name e)) ch r2)
                    else if ch =? 121 then Some (Goes size64 ch r2)
                    else go (sub (er_format e)) ch r2
        end
      else Some (Ends (zlen r + 2))
  end.

(** lc_time.h 286-540: the switch of lc_print_reserve_size_time_format_common_impl; [q] is the text
    from p on; [seg] is end_it - i up to and without p. *)
Definition size_directive (t : lt_time) (c : civil) (sub : list Z -> option Z) (seg : Z) (q : list Z)
  : option (lt_step Z) :=
  match q with
  | [] => None
  | ch :: r =>
      let one (n : Z) := Some (Goes n ch r) in
      if (ch =? 37) || (ch =? 110) || (ch =? 119) then one 1             (* % n w *)
      else if ch =? 97 then one (zlen (lt_abday t (c_weekday (cv_year c) (cv_month c) (cv_day c))))   (* a *)
      else if ch =? 65 then one (zlen (lt_day t (c_weekday (cv_year c) (cv_month c) (cv_day c))))     (* A *)
      else if (ch =? 98) || (ch =? 66) || (ch =? 104) then               (* b B h *)
        let m := wrap 8 (cv_month c - 1) in
        one (if 11 <? m then size8 else zlen ((if ch =? 66 then lt_mon t else lt_abmon t) m))
      else if ch =? 99 then go (sub (lt_d_t_fmt t)) ch r                 (* c *)
      else if (ch =? 67) || (ch =? 103) || (ch =? 71) || (ch =? 118) || (ch =? 121) || (ch =? 89)
           then one size64                                               (* C g G v y Y *)
      else if (ch =? 100) || (ch =? 101) || (ch =? 72) || (ch =? 73) || (ch =? 107) || (ch =? 108)
              || (ch =? 109) || (ch =? 77) || (ch =? 83) then one size8  (* d e H I k l m M S *)
      else if (ch =? 85) || (ch =? 86) || (ch =? 87) || (ch =? 106) then one size16   (* U V W j *)
      else if (ch =? 68) || (ch =? 70) then one (2 + size8 * 2 + size64) (* D F *)
      else if ch =? 69 then size_E t c sub (seg + 1) r                   (* E *)
      else if ch =? 79 then size_O t c r                                 (* O *)
      else if ch =? 78 then one 20                                       (* N *)
      else if (ch =? 112) || (ch =? 80) then one (ampm_len t (cv_hours c))            (* p P *)
      else if ch =? 114 then go (sub (lt_t_fmt_ampm t)) ch r             (* r *)
      else if ch =? 82 then one (size8 * 2 + 1)                          (* R *)
      else if ch =? 116 then one 1                                       (* t *)
      else if ch =? 84 then one (2 + 3 * size8)                          (* T *)
      else if ch =? 120 then go (sub (lt_d_fmt t)) ch r                  (* x *)
      else if ch =? 88 then go (sub (lt_t_fmt t)) ch r                   (* X *)
      else if (ch =? 122) || (ch =? 90) then one size_tz                 (* z Z *)
      else Some (Ends (zlen q + 1))
  end.

(** lc_time.h 262-285, 541-545: the loop of lc_print_reserve_size_time_format_common_impl.  The search
    for '%' goes character by character; [seg] counts the literal characters since the segment began. *)
Fixpoint lt_size (fuel : nat) (t : lt_time) (c : civil) (seg : Z) (f : list Z) : option Z :=
  match fuel with
  | O => None
  | S n =>
      match f with
      | [] => Some 0
      | x :: r =>
          if negb (x =? 37) then option_map (Z.add 1) (lt_size n t c (seg + 1) r)
          else
            match r with
            | [] => Some 1
            | y :: r1 =>
                let omit := y =? 45 in
                if omit && (zlen r1 =? 0) then Some 2
                else
                  let q := if omit then r1 else r in
                  let extra := if omit then 1 else 0 in
                  match size_directive t c (lt_size n t c 0) (seg + 1 + extra) q with
                  | None => None
                  | Some (Ends v) => Some (extra + v)
                  | Some (Goes v _ rest) => option_map (Z.add (extra + v)) (lt_size n t c 0 rest)
                  end
            end
      end
  end.

(** lc_time.h 607-617 lc_print_month_fmt_common. *)
Definition print_month (names : Z -> list Z) (month : Z) : option (list Z) :=
  let m := wrap 8 (month - 1) in
  if m <? 12 then Some (names m) else print_int default_pflags uint8_ty month.

(** chrono.h 30-67 chrono_two_digits_impl<false,true>: a space instead of the leading zero. *)
Definition two_digits_space (u : Z) : option (list Z) :=
  if 100 <=? u then print_int default_pflags uint64_ty u
  else if u <? 10 then Some [32; 48 + u] else tb_pair 10 false u.

(** lc_time.h 247-256 non_overlapped_copy_to_lowercase on characters of [w] bits; the width matters
    only for the final cast, which keeps code units of that width. *)
Definition lower_text (s : list Z) : list Z := map to_c_lower_ascii s.
Definition print_ampm (t : lt_time) (low : bool) (h : Z) : list Z :=
  if h <? 24 then let s := if 12 <=? h then lt_pm t else lt_am t in if low then lower_text s else s else [].

(** lc_time.h 769-786 the year of %g and %G. *)
Definition week_year (c : civil) : option Z :=
  let y := cv_year c in
  let w1 := weekday y 1 1 in
  let wl := if is_leap_year y then wrap 8 (w1 + 1) else w1 in
  if (cv_month c =? 1) && (4 <? w1) && (w1 + cv_day c <? 9) then chk64 (y - 1)
  else if (cv_month c =? 12) && (wl <? 4) && (31 <? wl + cv_day c) then chk64 (y + 1)
  else Some y.

(** lc_time.h 1001-1037 %V. *)
Definition print_V (c : civil) : option (list Z) :=
  let y := cv_year c in
  let w1 := weekday y 1 1 in
  let wl := if is_leap_year y then wrap 8 (w1 + 1) else w1 in
  if (cv_month c =? 1) && (4 <? w1) && (w1 + cv_day c <? 9) then
    let? y1 := chk64 (y - 1) in
    if (is_leap_year y1 && (5 <? w1)) || (is_leap_year y1 && (6 <? w1)) then Some [53; 50] else Some [53; 51]
  else if (cv_month c =? 12) && (wl <? 4) && (31 <? wl + cv_day c) then Some [48; 49]
  else
    let n := wrap 8 (wrap 16 (day_of_the_year c - weekday y (cv_month c) (cv_day c) + w1 - 1) / 7) in
    two_digits false (if w1 <? 5 then wrap 8 (n + 1) else n).

(** lc_time.h 946-1000 %v, with the week description of the locale; size_t has 64 bits. *)
Definition print_v (t : lt_time) (c : civil) : option (list Z) :=
  let nd := lt_ndays t in
  let sn := to_signed 64 nd in
  let y := cv_year c in
  let by_ := Z.quot (lt_first_day t) 10000 in
  let bm := wrap 8 (Z.quot (Z.rem (lt_first_day t) 10000) 100) in
  let bd := wrap 8 (Z.rem (lt_first_day t) 100) in
  let? dd := day_diff y 1 1 by_ bm bd in
  if (nd =? 0) || ((sn =? -1) && (dd =? - 2 ^ 63)) then None
  else
    let s := Z.rem dd sn in
    let w1 := if s <? 0 then wrap 64 (wrap 64 s + wrap 64 (nd + 1)) else wrap 64 (s + 1) in
    let wl := wrap 64 (wrap 64 (w1 + (if is_leap_year y then 364 else 363)) mod nd + 1) in
    if (cv_month c =? 1) && (wrap 64 (nd - lt_first_week t + 1) <? w1) && (wrap 64 (w1 + cv_day c) <? wrap 64 (nd + 2)) then
      let w1231 := wrap 64 (w1 + day_of_the_year c - 2) mod nd in
      let? y1 := chk64 (y - 1) in
      let d1231 := if is_leap_year y1 then 366 else 365 in
      let? a := chk64 (to_signed 64 w1 - d1231 - 1) in
      if (sn =? -1) && (a =? - 2 ^ 63) then None
      else
        let? b := chk64 (Z.rem a sn + sn) in
        let? b := chk64 (b + 1) in
        let wp := wrap 64 b in
        let n := wrap 64 (d1231 + wp - w1231 - 1) / nd in
        two_digits false (if wp <? wrap 64 (nd - lt_first_week t + 2) then wrap 64 (n + 1) else n)
    else if (cv_month c =? 12) && (wl <=? wrap 64 (nd - lt_first_week t)) && (32 <=? wrap 64 (wl + cv_day c)) then Some [48; 49]
    else
      let wt := wrap 64 (wrap 64 (w1 + day_of_the_year c - 2) mod nd + 1) in
      let n := wrap 64 (day_of_the_year c + w1 - wt - 1) / nd in
      two_digits false (if w1 <? wrap 64 (nd - lt_first_week t + 2) then wrap 64 (n + 1) else n).

(** lc_time.h 789-800 %I and %l. *)
Definition print_I (h : Z) : option (list Z) :=
  if h =? 0 then Some [49; 50]
  else if h <=? 12 then two_digits false h
  else if h <=? 24 then two_digits false (wrap 8 (h - 12)) else Some [].

(** lc_time.h 836-904: a directive of the form %O (text); [pre] is "%" or "%-". *)
Definition print_O (t : lt_time) (c : civil) (pre r : list Z) : option (lt_step (list Z)) :=
  match r with
  | [] => Some (Ends (pre ++ [79]))
  | ch :: r2 =>
      if (ch =? 98) || (ch =? 104) then                                  (* b h *)
        let m := wrap 8 (cv_month c - 1) in
        Some (Goes (lt_altmon t (if 11 <? m then 0 else m)) ch r2)
      else if ch =? 67 then go (alt_print t int64_ty (Z.quot (cv_year c) 100)) ch r2          (* C *)
      else if ch =? 80 then Some (Goes (print_ampm t true (cv_hours c)) ch r2)                (* P *)
      else if ch =? 112 then Some (Goes (print_ampm t false (cv_hours c)) ch r2)              (* p *)
      else match ox_common c ch with
           | None => Some (Ends (pre ++ [79] ++ r))
           | Some v => go (alt_print t uint8_ty v) ch r2
           end
  end.

(** lc_time.h 692-757: a directive of the form %E (text).  On overflow of the era year the code copies
    the three (four) characters before the 'y', the first of which precedes the '%'. *)
Definition print_E (t : lt_time) (c : civil) (sub : list Z -> option (list Z)) (prev : option Z) (pre r : list Z)
  : option (lt_step (list Z)) :=
  match r with
  | [] => Some (Ends (pre ++ [69]))
  | ch :: r2 =>
      if ch =? 99 then go (sub (lt_era_d_t_fmt t)) ch r2                 (* c *)
      else if (ch =? 67) || (ch =? 121) || (ch =? 89) then               (* C y Y *)
        match find_era (lt_eras t) (cv_year c) (cv_month c) (cv_day c) with
        | None => Some (Goes [] ch r2)
        | Some e =>
            if ch =? 89 then go (sub (er_format e)) ch r2
            else if ch =? 67 then Some (Goes (er_name e) ch r2)
            else
              let? off := chk64 (er_sy e - er_offset e) in
              match chk64 (cv_year c - off) with
              | None => match prev with
                        | None => None
                        | Some b => Some (Goes ([b] ++ pre ++ [69]) ch r2)
                        end
              | Some ey => go (print_int default_pflags int64_ty ey) ch r2
              end
        end
      else if ch =? 120 then go (sub (lt_era_d_fmt t)) ch r2             (* x *)
      else if ch =? 88 then go (sub (lt_era_t_fmt t)) ch r2              (* X *)
      else Some (Ends (pre ++ [69] ++ r))
  end.

(** lc_time.h 642-1105: the switch of lc_print_reserve_define_time_fmt_common_impl. *)
Definition print_directive (t : lt_time) (c : civil) (sub : list Z -> option (list Z)) (prev : option Z)
  (omit : bool) (q : list Z) : option (lt_step (list Z)) :=
  let pre := if omit then [37; 45] else [37] in
  match q with
  | [] => None
  | ch :: r =>
      let one (m : option (list Z)) := go m ch r in
      let wd := c_weekday (cv_year c) (cv_month c) (cv_day c) in
      if ch =? 37 then one (Some [37])                                   (* % *)
      else if ch =? 97 then one (Some (lt_abday t wd))                   (* a *)
      else if ch =? 65 then one (Some (lt_day t wd))                     (* A *)
      else if ch =? 66 then one (print_month (lt_mon t) (cv_month c))    (* B *)
      else if (ch =? 98) || (ch =? 104) then one (print_month (lt_abmon t) (cv_month c))      (* b h *)
      else if ch =? 99 then one (sub (lt_d_t_fmt t))                     (* c *)
      else if ch =? 67 then one (print_int default_pflags int64_ty (Z.quot (cv_year c) 100))  (* C *)
      else if ch =? 100 then                                             (* d *)
        one (if omit then print_int default_pflags uint8_ty (cv_day c) else two_digits false (cv_day c))
      else if ch =? 68 then                                              (* D *)
        one (opt_app (two_digits false (cv_month c)) (opt_app (Some [47])
              (opt_app (two_digits false (cv_day c)) (opt_app (Some [47]) (print_year (cv_year c))))))
      else if ch =? 101 then one (two_digits_space (cv_day c))           (* e *)
      else if ch =? 69 then print_E t c sub prev pre r                   (* E *)
      else if ch =? 70 then                                              (* F *)
        one (opt_app (print_year (cv_year c)) (opt_app (Some [45])
              (opt_app (two_digits false (cv_month c)) (opt_app (Some [45]) (two_digits false (cv_day c))))))
      else if (ch =? 103) || (ch =? 71) then                             (* g G *)
        one (let? y := week_year c in print_year y)
      else if ch =? 72 then one (two_digits false (cv_hours c))          (* H *)
      else if (ch =? 73) || (ch =? 108) then one (print_I (cv_hours c))  (* I l *)
      else if ch =? 106 then one (print_int default_pflags uint16_ty (day_of_the_year c))     (* j *)
      else if ch =? 107 then                                             (* k *)
        one (opt_app (Some (if negb omit && (cv_hours c <? 10) then [48] else []))
                     (print_int default_pflags uint8_ty (cv_hours c)))
      else if ch =? 109 then                                             (* m *)
        one (if omit then print_int default_pflags uint8_ty (cv_month c) else two_digits false (cv_month c))
      else if ch =? 77 then one (two_digits false (cv_minutes c))        (* M *)
      else if ch =? 110 then one (Some [10])                             (* n *)
      else if ch =? 79 then print_O t c pre r                            (* O *)
      else if ch =? 80 then one (Some (print_ampm t true (cv_hours c)))  (* P *)
      else if ch =? 112 then one (Some (print_ampm t false (cv_hours c)))(* p *)
      else if ch =? 114 then one (sub (lt_t_fmt_ampm t))                 (* r *)
      else if ch =? 82 then                                              (* R *)
        one (opt_app (two_digits false (cv_hours c)) (opt_app (Some [58]) (two_digits false (cv_minutes c))))
      else if ch =? 83 then one (two_digits false (cv_seconds c))        (* S *)
      else if ch =? 116 then one (Some [9])                              (* t *)
      else if ch =? 84 then                                              (* T *)
        one (opt_app (two_digits false (cv_hours c)) (opt_app (Some [58])
              (opt_app (two_digits false (cv_minutes c)) (opt_app (Some [58]) (two_digits false (cv_seconds c))))))
      else if ch =? 117 then one (Some [48 + weekday (cv_year c) (cv_month c) (cv_day c)])    (* u *)
      else if ch =? 85 then                                              (* U *)
        one (print_int default_pflags uint32_ty (wrap 16 (weekday (cv_year c) 1 1 + day_of_the_year c - 1) / 7))
      else if ch =? 118 then one (print_v t c)                           (* v *)
      else if ch =? 86 then one (print_V c)                              (* V *)
      else if ch =? 119 then one (Some [48 + wd])                        (* w *)
      else if ch =? 87 then                                              (* W *)
        one (two_digits false (wrap 16 (day_of_the_year c - weekday (cv_year c) (cv_month c) (cv_day c)
                                        + weekday (cv_year c) 1 1 - 1) / 7))
      else if ch =? 120 then one (sub (lt_d_fmt t))                      (* x *)
      else if ch =? 88 then one (sub (lt_t_fmt t))                       (* X *)
      else if (ch =? 121) || (ch =? 89) then one (print_year (cv_year c))(* y Y *)
      else if (ch =? 122) || (ch =? 90) then one (print_timezone (cv_tz c))                   (* z Z *)
      else Some (Ends (pre ++ q))
  end.

(** lc_time.h 617-641, 1106-1110: the loop of lc_print_reserve_define_time_fmt_common_impl.  [prev] is
    the character before the text left, if any. *)
Fixpoint lt_print (fuel : nat) (t : lt_time) (c : civil) (prev : option Z) (f : list Z) : option (list Z) :=
  match fuel with
  | O => None
  | S n =>
      match f with
      | [] => Some []
      | x :: r =>
          if negb (x =? 37) then opt_app (Some [x]) (lt_print n t c (Some x) r)
          else
            match r with
            | [] => Some [37]
            | y :: r1 =>
                let omit := y =? 45 in
                if omit && (zlen r1 =? 0) then Some [45]
                else
                  let q := if omit then r1 else r in
                  match print_directive t c (lt_print n t c None) prev omit q with
                  | None => None
                  | Some (Ends v) => Some v
                  | Some (Goes v l rest) => opt_app (Some v) (lt_print n t c (Some l) rest)
                  end
            end
      end
  end.

(** lc_time.h 1113-1165, 1167-1243: the eight manipulators; an empty era format is replaced. *)
Definition or_else (a b : list Z) : list Z := match a with [] => b | _ => a end.
Definition lt_chosen (t : lt_time) (k : lt_flag) : list Z :=
  match k with
  | D_T_FMT => lt_d_t_fmt t | D_FMT => lt_d_fmt t | T_FMT => lt_t_fmt t
  | T_FMT_AMPM => lt_t_fmt_ampm t | DATE_FMT => lt_date_fmt t
  | ERA_D_T_FMT => or_else (lt_era_d_t_fmt t) (lt_d_t_fmt t)
  | ERA_D_FMT => or_else (lt_era_d_fmt t) (lt_d_fmt t)
  | ERA_T_FMT => or_else (lt_era_t_fmt t) (lt_t_fmt t)
  end.
Definition lt_reserve_size (fuel : nat) (t : lt_time) (c : civil) (k : lt_flag) : option Z :=
  lt_size fuel t c 0 (lt_chosen t k).
Definition lt_define (fuel : nat) (t : lt_time) (c : civil) (k : lt_flag) : option (list Z) :=
  lt_print fuel t c None (lt_chosen t k).
