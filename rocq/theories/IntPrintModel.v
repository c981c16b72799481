(** Model of integer printing.
    Sources: include/fast_io_core_impl/integers/impl.h, digits_table.h,
    jeaiii_method.h and include/fast_io_core_impl/utils.h.
    Texts are lists of ASCII code units.  [None] is undefined behaviour
    (table read out of bounds, violated [[assume]]).
    The execution character set is ASCII-compatible (the EBCDIC branches are not modelled). *)
From Verif Require Import Base.

(** Flags of manipulators::scalar_flags used for integers (impl.h 20-60). *)
Record pflags := mk_pflags
  { pf_base : Z; pf_showbase : bool; pf_upshowbase : bool; pf_showpos : bool;
    pf_upper : bool; pf_full : bool }.

(** impl.h: integral_default_scalar_flags *)
Definition default_pflags : pflags := mk_pflags 10 false false false false false.

(** literals/literal.h 48-69 char_literal_add<u8'0'>: contains [[assume(0<=offs&&offs<10)]]. *)
Definition char_literal_add0 (offs : Z) : option Z :=
  if (0 <=? offs) && (offs <? 10) then Some (48 + offs) else None.

(** digits_table.h 6-34 charliteralofnumber (ASCII branch). *)
Definition charliteralofnumber (upper : bool) (v : Z) : Z :=
  if v <? 10 then 48 + v else (if upper then 65 else 97) + (v - 10).

Definition zseq (n : Z) : list Z := map Z.of_nat (seq 0 (Z.to_nat n)).

(** digits_table.h 36-60 generate_digits_table: entry (i,j) is the pair of digit characters. *)
Definition digits_table (base : Z) (upper : bool) : list Z :=
  flat_map (fun i => flat_map (fun j => [charliteralofnumber upper i; charliteralofnumber upper j])
                              (zseq base)) (zseq base).

(** Bounds-checked read of the digits table. *)
Definition tb_read (base : Z) (upper : bool) (i : Z) : option Z :=
  if i <? 0 then None else nth_error (digits_table base upper) (Z.to_nat i).

(** non_overlapped_copy_n(tb+(rem<<1),2,...) : the two characters of pair [rem]. *)
Definition tb_pair (base : Z) (upper : bool) (rem : Z) : option (list Z) :=
  match tb_read base upper (2 * rem), tb_read base upper (2 * rem + 1) with
  | Some a, Some b => Some [a; b]
  | _, _ => None
  end.

(** impl.h 1037-1048: the loop of print_reserve_integral_main_impl that writes two
    digits per iteration backwards from [iter]; [acc] is what has been written so far. *)
Fixpoint two_digit_loop (base : Z) (upper : bool) (len2 : nat) (t : Z) (acc : list Z)
  : option (Z * list Z) :=
  match len2 with
  | O => Some (t, acc)
  | S k =>
      match tb_pair base upper (t mod (base * base)) with
      | Some p => two_digit_loop base upper k (t / (base * base)) (p ++ acc)
      | None => None
      end
  end.

(** impl.h 1027-1062: print_reserve_integral_main_impl for types up to the machine word;
    writes exactly [len] characters ending at [iter]. *)
Definition main_impl_word (base : Z) (upper : bool) (t : Z) (len : Z) : option (list Z) :=
  match two_digit_loop base upper (Z.to_nat (len / 2)) t [] with
  | None => None
  | Some (t', acc) =>
      if Z.odd len then
        match (if base <=? 10 then char_literal_add0 t' else tb_read base upper (2 * t' + 1)) with
        | Some c => Some (c :: acc)
        | None => None
        end
      else Some acc
  end.

(** utils.h 892-903 cal_max_int_size: number of base digits of the maximum of an integer type.
    [fuel] bounds the loop; every type of the library has at most 128 digits. *)
Fixpoint count_div (fuel : nat) (base n : Z) : Z :=
  match fuel with
  | O => 0
  | S f => if n =? 0 then 0 else 1 + count_div f base (n / base)
  end.
Definition cal_max_int_size (ty : int_type) (base : Z) : Z := count_div 200 base (int_max ty).

(** utils.h 440-468 compile_time_pow/compile_pow10 on an unsigned type of width w. *)
Definition compile_pow10 (w k : Z) : Z := wrap w (10 ^ k).

Definition opt_app (a b : option (list Z)) : option (list Z) :=
  match a, b with Some x, Some y => Some (x ++ y) | _, _ => None end.

(** impl.h 958-1026: print_reserve_integral_main_impl for a 128-bit type on a 64-bit machine
    (need_seperate_print).  The recursive calls pass uppercase=false, as in the source. *)
Definition main_impl_128 (base : Z) (upper : bool) (t len : Z) : option (list Z) :=
  let u64 := mk_int 64 false in
  let basetdigits := cal_max_int_size (mk_int 128 false) base in
  let sizetdigits := cal_max_int_size u64 base in
  if (base =? 2) || (base =? 4) || (base =? 16) then
    if sizetdigits <? len
    then opt_app (main_impl_word base false (t / 2 ^ 64) (len - sizetdigits))
                 (main_impl_word base false (t mod 2 ^ 64) sizetdigits)
    else main_impl_word base false (t mod 2 ^ 64) len
  else
    let m1 := sizetdigits - 1 in
    let remain := basetdigits - m1 * 2 in
    let maxhigh := compile_pow10 128 (m1 * 2) in
    let '(pre, t, len) :=
      if remain =? 1 then
        if len =? basetdigits
        then (option_map (fun c => [c]) (char_literal_add0 (t / maxhigh)), t mod maxhigh, len - 1)
        else (Some [], t, len)
      else if remain =? 2 then
        if basetdigits - remain <? len then
          if len =? basetdigits
          then (tb_pair base upper ((t / maxhigh) mod 2 ^ 8), t mod maxhigh, len - 2)
          else (option_map (fun c => [c]) (char_literal_add0 (t / maxhigh)), t mod maxhigh, len - 1)
        else (Some [], t, len)
      else (Some [], t, len) in
    let half := compile_pow10 128 m1 in
    opt_app pre
      (if m1 <? len
       then opt_app (main_impl_word base false ((t / half) mod 2 ^ 64) (len - m1))
                    (main_impl_word base false ((t mod half) mod 2 ^ 64) m1)
       else main_impl_word base false (t mod 2 ^ 64) len).

Definition main_impl (w base : Z) (upper : bool) (t len : Z) : option (list Z) :=
  if w =? 128 then main_impl_128 base upper t len else main_impl_word base upper t len.

(** utils.h 491-800 chars_len, base 10: descending threshold comparisons; the first threshold
    tested is the largest one a type of that width can reach. *)
Definition max_pow10_digits (w : Z) : Z :=
  if w =? 8 then 3 else if w =? 16 then 5 else if w =? 32 then 10 else if w =? 64 then 20 else 39.
Fixpoint chars_len10_from (k : nat) (value : Z) : Z :=
  match k with
  | O => 1
  | S k' => if 10 ^ Z.of_nat k <=? value then Z.of_nat k + 1 else chars_len10_from k' value
  end.

(** utils.h 801-838 chars_len, power of two bases: (bit length of (value|1) - 1) / log2 base + 1. *)
Definition chars_len_pow2 (log2base value : Z) : Z :=
  let base2len := Z.log2 (Z.lor value 1) + 1 in (base2len - 1) / log2base + 1.

(** utils.h 840-862 chars_len, other bases: four digits per iteration. *)
Fixpoint chars_len_loop (fuel : nat) (base n value : Z) : Z :=
  match fuel with
  | O => 0
  | S f =>
      if value <? base then n
      else if value <? base ^ 2 then n + 1
      else if value <? base ^ 3 then n + 2
      else if value <? base ^ 4 then n + 3
      else chars_len_loop f base (n + 4) (value / base ^ 4)
  end.

Definition chars_len (w base value : Z) : Z :=
  if base =? 10 then chars_len10_from (Z.to_nat (max_pow10_digits w - 1)) value
  else if (base =? 2) || (base =? 4) || (base =? 8) || (base =? 16) || (base =? 32)
  then chars_len_pow2 (Z.log2 base) value
  else chars_len_loop 64 base 1 value.

(** ** jeaiii_method.h *)

(** jeaiii_method.h 11-20 jeaiii_w: two decimal digits of u from the table. *)
Definition jeaiii_w (u : Z) : option (list Z) := tb_pair 10 false u.

(** jeaiii_method.h 22-36 jeaiii_a: returns the written text and the 64-bit fixed point t. *)
Definition jeaiii_v (n : Z) : Z := n / 5 * n * 53 / 16.
Definition jeaiii_const (n : Z) : Z := 2 ^ (32 + jeaiii_v n) / 10 ^ n + 1 + n / 6 - n / 8.
Definition jeaiii_a (n u : Z) : Z :=
  let t := wrap 64 (jeaiii_const n * u) / 2 ^ jeaiii_v n in
  wrap 64 (t + n / 6 * 4).

(** jeaiii_method.h 38-43 jeaiii_s: one final digit. *)
Definition jeaiii_s (t : Z) : option (list Z) :=
  option_map (fun c => [c]) (char_literal_add0 (wrap 64 (10 * wrap 32 t) / 2 ^ 32)).

(** jeaiii_method.h 45-52 jeaiii_d: the next fixed point value; its integer part is two digits. *)
Definition jeaiii_d (t : Z) : Z := wrap 64 (100 * wrap 32 t).

(** The chain of jeaiii_d calls in jeaiii_c: [k] two-digit steps, then one digit if [odd]. *)
Fixpoint jeaiii_chain (k : nat) (odd : bool) (t : Z) : option (list Z) :=
  match k with
  | O => if odd then jeaiii_s t else Some []
  | S k' => let t' := jeaiii_d t in opt_app (jeaiii_w (t' / 2 ^ 32)) (jeaiii_chain k' odd t')
  end.

(** jeaiii_method.h 55-104 jeaiii_c<n>: writes n+1 digits. *)
Definition jeaiii_c (n : Z) (u : Z) : option (list Z) :=
  if n =? 0 then option_map (fun c => [c]) (char_literal_add0 u)
  else if n =? 1 then jeaiii_w u
  else let t := jeaiii_a (n - 1) u in
       opt_app (jeaiii_w (t / 2 ^ 32)) (jeaiii_chain (Z.to_nat ((n - 1) / 2)) (Z.odd (n - 1)) t).

(** jeaiii_method.h 114-240 jeaiii_tree<left,right>: the compile-time binary search tree.
    [fuel] >= right-left+1 is the template recursion depth. *)
Fixpoint jeaiii_tree (fuel : nat) (left right u : Z) : option (list Z) :=
  match fuel with
  | O => None
  | S f =>
      if left =? right then jeaiii_c right u
      else if left + 1 =? right then
        if u <? 10 ^ right then jeaiii_c left u else jeaiii_c right u
      else if left + 2 =? right then
        if u <? 10 ^ (left + 1) then jeaiii_c left u else jeaiii_tree f (left + 1) right u
      else if left =? 0 then
        if u <? 100 then jeaiii_tree f 0 1 u else jeaiii_tree f 2 right u
      else
        let middle := (left + right) / 2 in
        if u <? 10 ^ (middle + 1) then jeaiii_tree f left middle u
        else jeaiii_tree f (middle + 1) right u
  end.

(** jeaiii_method.h 242-330 jeaiii_main (ryu_mode=false), 64-bit, recursive=true: 19 digits. *)
Definition jeaiii_main64_rec (n : Z) : option (list Z) :=
  let high := n / 1000000000 in
  let low := n mod 1000000000 in
  let high_first := high / 1000000000 in
  let high_low := high mod 1000000000 in
  opt_app (jeaiii_c 0 (wrap 32 high_first)) (opt_app (jeaiii_c 8 high_low) (jeaiii_c 8 low)).

(** 64-bit, recursive=false. *)
Definition jeaiii_main64 (n : Z) : option (list Z) :=
  if wrap 32 (n / 2 ^ 32) =? 0 then jeaiii_tree 10 0 9 (wrap 32 n)
  else
    let a := n / 1000000000 in
    let u := n mod 1000000000 in
    let alow := wrap 32 a in
    opt_app
      (if negb (a =? alow) then
         let v := wrap 32 (a / 1000000000) in
         let alow := a mod 1000000000 in
         opt_app (if v <? 10 then jeaiii_c 0 v else jeaiii_w v) (jeaiii_c 8 alow)
       else jeaiii_tree 10 0 9 alow)
      (jeaiii_c 8 u).

(** 128-bit. *)
Definition jeaiii_main128 (n : Z) : option (list Z) :=
  if wrap 64 (n / 2 ^ 64) =? 0 then jeaiii_main64 (wrap 64 n)
  else
    let divisor := 10000000000000000000 in
    let a := n / divisor in
    let u := n mod divisor in
    let alow := wrap 64 a in
    opt_app
      (if negb (a =? alow) then
         let v := wrap 32 (a / divisor) in
         let m := a mod divisor in
         opt_app (jeaiii_c 0 v) (jeaiii_main64_rec m)
       else jeaiii_main64 alow)
      (jeaiii_main64_rec u).

Definition jeaiii_main (w n : Z) : option (list Z) :=
  if w =? 128 then jeaiii_main128 n
  else if w =? 64 then jeaiii_main64 n
  else jeaiii_tree 10 0 9 (wrap 32 n).

(** ** Printing proper *)

(** impl.h 826-846 generate_base_prefix_array: 0[b] / 0[bb]. *)
Definition base_prefix_array (base : Z) : list Z :=
  if base <? 10 then [48; 91; 48 + base; 93]
  else [48; 91; 48 + base / 10; 48 + base mod 10; 93].

(** impl.h 851-956 print_reserve_show_base_impl. *)
Definition show_base (base : Z) (up : bool) : list Z :=
  if base =? 2 then [48; if up then 66 else 98]
  else if base =? 3 then [48; if up then 84 else 116]
  else if base =? 8 then [48]
  else if base =? 16 then [48; if up then 88 else 120]
  else if base =? 10 then []
  else base_prefix_array base.

(** impl.h 1065-1110 print_reserve_integral_withfull_main_impl. *)
Definition withfull_main_impl (full : bool) (base : Z) (upper : bool) (w u : Z) : option (list Z) :=
  let upper := if base <=? 10 then false else upper in
  if full then main_impl w base upper u (cal_max_int_size (mk_int w false) base)
  else if base =? 10 then jeaiii_main w u
  else main_impl w base upper u (chars_len w base u).

(** impl.h 1133-1203: sign, and the magnitude as an unsigned value of the same width. *)
Definition sign_part (showpos sgn : bool) (t : Z) : list Z :=
  if showpos then
    if negb sgn then [43] else if t <? 0 then [45] else [43]
  else if sgn && (t <? 0) then [45] else [].
Definition magnitude (w : Z) (sgn : bool) (t : Z) : Z :=
  let u := wrap w t in if sgn && (t <? 0) then wrap w (0 - u) else u.

(** impl.h 1125-1210 print_reserve_integral_define: the text written at [first]. *)
Definition print_int (fl : pflags) (ty : int_type) (t : Z) : option (list Z) :=
  let pre := sign_part (pf_showpos fl) (isigned ty) t
             ++ (if pf_showbase fl && negb (pf_base fl =? 10)
                 then show_base (pf_base fl) (pf_upshowbase fl) else []) in
  opt_app (Some pre)
    (withfull_main_impl (pf_full fl) (pf_base fl) (pf_upper fl) (iw ty)
                        (magnitude (iw ty) (isigned ty) t)).

(** impl.h 1133-1150: bool is printed as one character after sign and prefix. *)
Definition print_bool (fl : pflags) (b : bool) : list Z :=
  (if pf_showpos fl then [43] else [])
  ++ (if pf_showbase fl && negb (pf_base fl =? 10)
      then show_base (pf_base fl) (pf_upshowbase fl) else [])
  ++ [if b then 49 else 48].

(** impl.h 1289-1320 print_reserve_scalar_size_impl: the declared maximum size. *)
Definition show_base_size (base : Z) : Z :=
  if (base =? 2) || (base =? 3) || (base =? 16) then 2
  else if base =? 8 then 1
  else if base <? 10 then 4
  else if 10 <? base then 5 else 0.
Definition reserved_size (fl : pflags) (ty : int_type) : Z :=
  (if pf_showpos fl then 1 else 0)
  + (if pf_showbase fl then show_base_size (pf_base fl) else 0)
  + (if negb (pf_showpos fl) && isigned ty then 1 else 0)
  + cal_max_int_size ty (pf_base fl).

(** impl.h 1332-1364 print_reserve_scalar_cal_precise_cache_size_impl. *)
Definition precise_cache_size (fl : pflags) (full : bool) (ty : int_type) : Z :=
  (if pf_showpos fl then 1 else 0)
  + (if pf_showbase fl then
       show_base_size (pf_base fl)
       + (if full then (if negb (pf_showpos fl) && isigned ty then 1 else 0)
                       + cal_max_int_size ty (pf_base fl) else 0)
     else 0).

(** impl.h 1375-1413 print_integer_reserved_precise_size. *)
Definition precise_size (fl : pflags) (ty : int_type) (t : Z) : Z :=
  if pf_full fl then
    precise_cache_size fl true ty
    + (if negb (pf_showpos fl) && isigned ty && (t <? 0) then 1 else 0)
  else
    precise_cache_size fl false ty
    + (if isigned ty && (t <? 0) then 1 else 0)
    + chars_len (iw ty) (pf_base fl) (magnitude (iw ty) (isigned ty) t).

(** ** Precise printing: a list of writes (offset from start, characters). *)
Definition writes := option (list (Z * list Z)).
Definition w_one (off : Z) (s : option (list Z)) : writes := option_map (fun x => [(off, x)]) s.
Definition w_app (a b : writes) : writes :=
  match a, b with Some x, Some y => Some (x ++ y) | _, _ => None end.

(** jeaiii_method.h 332-480 jeaiii_hash<9>: dispatch on the claimed length. *)
Definition jeaiii_hash9 (u len : Z) : option (list Z) :=
  if (1 <=? len) && (len <=? 9) then jeaiii_c (len - 1) u else jeaiii_c 9 u.

(** jeaiii_method.h 482-612 jeaiii_main_len (ryu_mode=false). [off] is iter, relative to start. *)
Definition jeaiii_main_len64 (off n len : Z) : writes :=
  if wrap 32 (n / 2 ^ 32) =? 0 then w_one off (jeaiii_hash9 (wrap 32 n) len)
  else
    let a := n / 1000000000 in
    let u := n mod 1000000000 in
    let alow := wrap 32 a in
    if negb (a =? alow) then
      let v := wrap 32 (a / 1000000000) in
      let alow := a mod 1000000000 in
      let k := if v <? 10 then 1 else 2 in
      w_app (w_one off (if v <? 10 then jeaiii_c 0 v else jeaiii_w v))
        (w_app (w_one (off + k) (jeaiii_c 8 alow)) (w_one (off + k + 9) (jeaiii_c 8 u)))
    else
      let len_sub := wrap 32 (len - 9) in
      w_app (w_one off (jeaiii_hash9 alow len_sub)) (w_one (off + len_sub) (jeaiii_c 8 u)).

Definition jeaiii_main_len128 (off n len : Z) : writes :=
  if wrap 64 (n / 2 ^ 64) =? 0 then jeaiii_main_len64 off (wrap 64 n) len
  else
    let divisor := 10000000000000000000 in
    let a := n / divisor in
    let u := n mod divisor in
    let alow := wrap 64 a in
    if negb (a =? alow) then
      let v := wrap 32 (a / divisor) in
      let m := a mod divisor in
      w_app (w_one off (jeaiii_c 0 v))
        (w_app (w_one (off + 1) (jeaiii_main64_rec m)) (w_one (off + 1 + 19) (jeaiii_main64_rec u)))
    else
      let len_sub := wrap 32 (len - 19) in
      w_app (jeaiii_main_len64 off alow len_sub) (w_one (off + len_sub) (jeaiii_main64_rec u)).

Definition jeaiii_main_len (w off n len : Z) : writes :=
  if w =? 128 then jeaiii_main_len128 off n len
  else if w =? 64 then jeaiii_main_len64 off n len
  else w_one off (jeaiii_hash9 (wrap 32 n) len).

(** impl.h 1212-1285 print_reserve_integral_define_precise(start,n,t).  In base 10 the whole
    length [n], sign included, is handed to jeaiii_main_len as in the source. *)
Definition print_precise (fl : pflags) (ty : int_type) (n t : Z) : writes :=
  let base := pf_base fl in
  let upper := if base <=? 10 then false else pf_upper fl in
  let pre := sign_part (pf_showpos fl) (isigned ty) t
             ++ (if pf_showbase fl && negb (base =? 10)
                 then show_base base (pf_upshowbase fl) else []) in
  let u := magnitude (iw ty) (isigned ty) t in
  let k := Z.of_nat (length pre) in
  if base =? 10 then w_app (Some [(0, pre)]) (jeaiii_main_len (iw ty) k u (wrap 32 n))
  else if negb (isigned ty) && negb (pf_showbase fl) && negb (pf_showpos fl)
  then w_one 0 (main_impl (iw ty) base upper u n)
  else w_app (Some [(0, pre)]) (w_one k (main_impl (iw ty) base upper u (n - k))).
