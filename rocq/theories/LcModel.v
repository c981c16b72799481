(** Model of include/fast_io_i18n/lc_numbers/integers.h: integers and timestamps printed with a locale.
    The execution character set is ASCII-compatible.  [None] is undefined behaviour: a table read or a store outside of its array, a
    violated [[assume]]; or a loop that does not end within the digits of the type. *)
From Verif Require Import Base IntPrintModel TimeSpec TimeModel TimeTextModel.

(** lc.h 70-76 basic_lc_numeric *)
Record lc_numeric := mk_lc { lc_point : list Z; lc_sep : list Z; lc_grouping : list Z }.

(** integers.h 8-14 lc_print_reserve_size_int_cal *)
Definition lc_reserve (fl : pflags) (ty : int_type) (lc : lc_numeric) : Z :=
  let static_size := reserved_size fl ty in static_size + (static_size - 1) * Z.of_nat (length (lc_sep lc)).

(** 16-88 to_char_single_digit *)
Definition to_char_single_digit (base : Z) (upper : bool) (t : Z) : option Z :=
  if base <=? 10 then char_literal_add0 t
  else if t <? 10 then char_literal_add0 t else Some ((if upper then 65 else 97) + (t - 10)).

(** 90-152 lc_grouping_single_sep_ch_impl.  The text is written backwards: [acc] is what is there already. *)
Section Grouping.
Variables (full : bool) (base : Z) (upper : bool) (full_len : Z) (ch : Z).
Inductive run := Done (acc : list Z) | More (fi t : Z) (acc : list Z).
(** 102-117 (and 139-154): the loop for(j=0; j!=e; ++j); [fuel] the digits that may still come. *)
Fixpoint group_run (fuel : nat) (e j fi t : Z) (acc : list Z) : option run :=
  if j =? e then Some (More fi t acc)
  else match fuel with
       | O => None
       | S fuel =>
         match to_char_single_digit base upper (t mod base) with
         | None => None
         | Some c =>
           let acc := c :: acc in let t := t / base in let fi := fi + 1 in
           if (if full then fi =? full_len else t =? 0) then Some (Done acc) else group_run fuel e (j + 1) fi t acc
         end
       end.
(** 123-137: no more groups. *)
Fixpoint plain_run (fuel : nat) (fi t : Z) (acc : list Z) : option (list Z) :=
  match fuel with
  | O => None
  | S fuel =>
    match to_char_single_digit base upper (t mod base) with
    | None => None
    | Some c =>
      let acc := c :: acc in let t := t / base in let fi := fi + 1 in
      if (if full then fi =? full_len else t =? 0) then Some acc else plain_run fuel fi t acc
    end
  end.
(** 139-160: the last entry again and again; [k] repetitions at most. *)
Fixpoint last_run (k fuel : nat) (e fi t : Z) (acc : list Z) : option (list Z) :=
  match k with
  | O => None
  | S k => match group_run fuel e 0 fi t acc with
           | Some (Done acc) => Some acc
           | Some (More fi t acc) => last_run k fuel e fi t (ch :: acc)
           | None => None
           end
  end.
(** 98-121: the entries one by one; [prev] the one before (grouping_base[i-1]). *)
Fixpoint groups_run (k fuel : nat) (g : list Z) (prev fi t : Z) (acc : list Z) : option (list Z) :=
  match g with
  | [] => last_run k fuel prev fi t acc
  | e :: g => if e =? 0 then plain_run fuel fi t acc
              else match group_run fuel e 0 fi t acc with
                   | Some (Done acc) => Some acc
                   | Some (More fi t acc) => groups_run k fuel g e fi t (ch :: acc)
                   | None => None
                   end
  end.
End Grouping.

(** 155-174 grouping_mul_sep_print_sep_impl *)
Definition put_seps (sep text : list Z) : list Z := flat_map (fun c => if c =? 44 then sep else [c]) text.
(** 176-200 grouping_mul_sep_impl *)
Definition grouping_mul_sep (full : bool) (base : Z) (upper : bool) (w : Z) (lc : lc_numeric) (t : Z) : option (list Z) :=
  let max_len := cal_max_int_size (mk_int w false) base in
  let array_len := max_len * 2 - 1 in
  let ch := match lc_sep lc with [c] => c | _ => 44 end in
  match groups_run full base upper max_len ch (Z.to_nat max_len) (Z.to_nat max_len) (lc_grouping lc) 0 0 t [] with
  | None => None
  | Some text => if array_len <? Z.of_nat (length text) then None
                 else Some (match lc_sep lc with [_] => text | _ => put_seps (lc_sep lc) text end)
  end.

(** 202-236 lc_print_unsigned_with_3_seperator_len; [fuel] bounds the loop. *)
Definition high_digit (base : Z) (upper : bool) (v : Z) (acc : option (list Z)) : option (list Z) :=
  match to_char_single_digit base upper v, acc with Some c, Some acc => Some (c :: acc) | _, _ => None end.
Fixpoint three_loop (fuel : nat) (base : Z) (upper : bool) (ch value size : Z) (acc : list Z) : option (list Z) :=
  match fuel with
  | O => None
  | S fuel =>
    if 3 <? size then
      let low3 := value mod (base * base * base) in
      let value := value / (base * base * base) in
      match high_digit base upper (low3 / (base * base)) (opt_app (tb_pair base upper (low3 mod (base * base))) (Some acc)) with
      | Some acc => three_loop fuel base upper ch value (size - 3) (ch :: acc)
      | None => None
      end
    else if size =? 3 then high_digit base upper (value / (base * base)) (opt_app (tb_pair base upper (value mod (base * base))) (Some acc))
    else if size =? 2 then opt_app (tb_pair base upper value) (Some acc)
    else high_digit base upper value (Some acc)
  end.
(** 238-262 print_lc_grouping_3_path_impl: the text is written backwards from iter+offset_size, so it has to have that length. *)
Definition three_path (full : bool) (base : Z) (upper : bool) (w ch t : Z) : option (list Z) :=
  let size := if full then cal_max_int_size (mk_int w false) base else chars_len w base t in
  let offset_size := size + (size - 1) / 3 in
  match three_loop 200 base upper ch t size [] with
  | Some text => if Z.of_nat (length text) =? offset_size then Some text else None
  | None => None
  end.

(** 264-274 lc_print_reserve_integral_withfull_main_impl *)
Definition lc_withfull_main (full : bool) (base : Z) (upper : bool) (w : Z) (lc : lc_numeric) (u : Z) : option (list Z) :=
  if (Z.of_nat (length (lc_grouping lc)) =? 0) || (Z.of_nat (length (lc_sep lc)) =? 0) then withfull_main_impl full base upper w u
  else match lc_grouping lc, lc_sep lc with
       | [3], [ch] => three_path full base upper w ch u
       | _, _ => grouping_mul_sep full base upper w lc u
       end.
(** 276-327 lc_print_reserve_integral_define *)
Definition lc_print_int (fl : pflags) (ty : int_type) (lc : lc_numeric) (t : Z) : option (list Z) :=
  if (pf_base fl <=? 10) && pf_upper fl
  then print_int (mk_pflags (pf_base fl) (pf_showbase fl) (pf_upshowbase fl) (pf_showpos fl) false (pf_full fl)) ty t
  else
    let pre := sign_part (pf_showpos fl) (isigned ty) t
               ++ (if pf_showbase fl && negb (pf_base fl =? 10) then show_base (pf_base fl) (pf_upshowbase fl) else []) in
    opt_app (Some pre) (lc_withfull_main (pf_full fl) (pf_base fl) (pf_upper fl) (iw ty) lc (magnitude (iw ty) (isigned ty) t)).

(** 330-336 print_reserve_size_grouping_timestamp_impl *)
Definition lc_stamp_reserve (lc : lc_numeric) : Z :=
  let static_size := reserved_size default_pflags int64_ty in
  static_size + (static_size - 1) * Z.of_nat (length (lc_sep lc)) + Z.of_nat (length (lc_point lc)) + 19.
(** 338-354 print_reserve_define_grouping_timestamp_impl, for every epoch (383-390). *)
Definition lc_print_stamp (lc : lc_numeric) (t : stamp) : option (list Z) :=
  opt_app (lc_print_int default_pflags int64_ty lc (ts_sec t))
    (if ts_sub t =? 0 then Some []
     else opt_app (Some (lc_point lc)) (let '(s, sz) := trim_zeros 20 (ts_sub t) 19 in main_impl_word 10 false s sz)).
