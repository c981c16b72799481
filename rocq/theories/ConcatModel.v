(** Model of concat, concatln and of strings as output streams.
    Source: include/fast_io_core_impl/concat/{concat_general,concat_buffer,strlike_reference_wrapper}.h,
    include/fast_io_unit/string_impl/{ostring_ref,concat}.h.
    A string is its characters and its capacity; allocation never fails.  [grow cap n] is the capacity the string chooses
    when [n] characters are needed.  Lengths are [nat]; comparisons with the limits of size_t are made in Z. *)
From Verif Require Import Base BufModel PrintModel.

Record sbuf := mk_sbuf { sb_text : list Z; sb_cap : nat }.
(** A string type: the size of its characters; whether it has the buffer interface (strlike_begin, ...); its local
    capacity (strlike_sso_size), if it tells; whether it has push_back and append (auxiliary_strlike); the capacity of an
    empty string; the growth policy. *)
Record strtype := mk_strtype { st_size : Z; st_buffer : bool; st_sso : option nat; st_aux : bool; st_cap0 : nat; st_grow : nat -> nat -> nat }.
(** basic_concat_buffer (concat_buffer.h 6-100). *)
Definition concat_buffer (size : Z) : strtype :=
  let n := Z.to_nat (2048 / size) in mk_strtype size true (Some n) false n (fun _ n => n).

Section Str.
Variable T : strtype.
(** SIZE_MAX/sizeof(char_type). *)
Definition max_chars : Z := (2 ^ 64 - 1) / st_size T.
(** strlike_reserve.  A request beyond the address space: std::basic_string throws length_error, basic_concat_buffer
    terminates. *)
Definition sb_reserve (s : sbuf) (n : nat) : res sbuf :=
  if Nat.ltb (sb_cap s) n then
    if max_chars <? Z.of_nat n then (if st_aux T then Raised s else Died s)
    else Fine (mk_sbuf (sb_text s) (st_grow T (sb_cap s) n))
  else Fine s.
Definition sb_room (s : sbuf) : nat := (sb_cap s - length (sb_text s))%nat.
(** Characters stored at strlike_curr, then strlike_set_curr. *)
Definition sb_store (s : sbuf) (t : list Z) : res sbuf :=
  if Nat.leb (length (sb_text s) + length t) (sb_cap s) then Fine (mk_sbuf (sb_text s ++ t) (sb_cap s)) else Smashed.
(** strlike_append and strlike_push_back of std::basic_string. *)
Definition sb_append (s : sbuf) (t : list Z) : res sbuf :=
  then! s := sb_reserve s (length (sb_text s) + length t) in sb_store s t.
(** strlike_reference_wrapper.h 57-82 cal_new_cap_io_strlike; [None]: fast_terminate. *)
Definition new_cap (cap : nat) : option nat :=
  if Nat.eqb cap 0 then Some 1%nat
  else if max_chars =? Z.of_nat cap then None
  else if max_chars / 2 <=? Z.of_nat cap then Some (Z.to_nat max_chars)
  else Some (2 * cap)%nat.
(** 84-110 obuffer_overflow; overflow.h 6-34 put. *)
Definition sb_put (s : sbuf) (ch : Z) : res sbuf :=
  if Nat.eqb (sb_room s) 0 then
    if st_aux T then sb_append s [ch]
    else match new_cap (sb_cap s) with
         | Some n => then! s := sb_reserve s n in sb_store s [ch]
         | None => Died s
         end
  else sb_store s [ch].
(** 115-138 write_strike_like_cold. *)
Definition sb_write_cold (s : sbuf) (t : list Z) : res sbuf :=
  let room := sb_room s in
  then! s := sb_store s (firstn room t) in
  let t := skipn room t in
  match new_cap (sb_cap s) with
  | None => Died s
  | Some n =>
      if Z.of_nat (length t) + Z.of_nat (sb_cap s) <? 2 ^ 64 then
        let m := (length t + sb_cap s)%nat in
        then! s := sb_reserve s (if Nat.ltb n m then m else n) in sb_store s t
      else Died s
  end.
(** 142-187 write. *)
Definition sb_write (s : sbuf) (t : list Z) : res sbuf :=
  if st_aux T then sb_append s t
  else if Nat.leb (length t) (sb_room s) then sb_store s t
  else sb_write_cold s t.
Definition str_stream : ostream sbuf := mk_ostream sb_room sb_store sb_write sb_put None (fun s => Fine s).

(** ** concat into a fresh string *)
(** An argument, and for precise_reserve_printable types the precise size and the characters that
    print_reserve_precise_define stores. *)
Record carg := mk_carg { ca_arg : parg; ca_precise : option (nat * list Z) }.
Definition is_reserve (c : carg) : bool := match ca_arg c with PReserve _ _ => true | _ => false end.
Definition is_plain (c : carg) : bool := plain_arg (ca_arg c).
Definition args_of (l : list carg) : list parg := map ca_arg l.
(** The chain of print_reserve_define from strlike_begin, then strlike_set_curr: concat_general.h 6-21, 52-73. *)
Definition sb_define (s : sbuf) (t : list Z) : res sbuf := sb_store (mk_sbuf [] (sb_cap s)) t.
(** 24-49 calculate_scatter_dynamic_reserve_size_with_scatter, exact. *)
Definition dyn_size (args : list parg) : nat :=
  fold_right (fun p n => match p with PDynamic sz _ => (sz + n)%nat | PScatter t => (length t + n)%nat | _ => n end) 0%nat args.
(** 178-198 basic_general_concat_decay_ref_impl_precise: [n] characters announced, [w] stored. *)
Definition concat_precise (line : bool) (s : sbuf) (sso n : nat) (w : list Z) : res sbuf :=
  let need := (n + eol_size line)%nat in
  then! s := (if Nat.ltb sso need then sb_reserve s need else Fine s) in
  if Nat.leb n (length w) then
    then! s := sb_define s w in
    then! s := Fine (mk_sbuf (firstn n (sb_text s)) (sb_cap s)) in
    sb_store s (eol line)
  else Smashed.                                 (* characters that were never stored *)
(** 200-245 basic_general_concat_decay_ref_impl; [opt] is __OPTIMIZE__. *)
Definition concat_ref (opt line : bool) (s : sbuf) (args : list carg) : res sbuf :=
  let l := args_of args in
  let text := concat (map text_of l) ++ eol line in
  let size := (reserve_total l + eol_size line)%nat in
  if forallb is_plain args then
    if forallb is_reserve args then
      match st_sso T with
      | Some sso =>
          if Nat.ltb sso size then
            match args with
            | [mk_carg _ (Some (n, w))] => concat_precise line s sso n w
            | _ => (then! s := sb_reserve s size in sb_define s text)
            end
          else sb_define s text
      | None => (then! s := sb_reserve s size in sb_define s text)
      end
    else
      if Z.of_nat size + Z.of_nat (dyn_size l) <? 2 ^ 64
      then (then! s := sb_reserve s (size + dyn_size l) in sb_define s text) else Died s
  else print_buffered str_stream opt line s l.
End Str.
Definition result (r : res sbuf) : res (list Z) :=
  match r with Fine s => Fine (sb_text s) | Raised s => Raised (sb_text s) | Died s => Died (sb_text s) | Smashed => Smashed end.
Definition empty_str (T : strtype) : sbuf := mk_sbuf [] (st_cap0 T).
(** 247-295 basic_general_concat_phase1_decay_impl: concat (line = false) and concatln (line = true). *)
Definition concat_impl (T : strtype) (opt line : bool) (args : list carg) : res (list Z) :=
  match args with
  | [] => Fine (eol line)
  | _ =>
      if st_buffer T then result (concat_ref T opt line (empty_str T) args)
      else
        match args, line with
        | [mk_carg (PScatter t) _], false => Fine t
        | _, _ =>
            if forallb is_reserve args then
              let l := args_of args in
              let text := concat (map text_of l) ++ eol line in
              in_local (reserve_total l + eol_size line) text (Fine text)
            else
              let B := concat_buffer (st_size T) in
              result (concat_ref B opt line (empty_str B) args)
        end
  end.
(** std::basic_string<char> of libstdc++: 15 local characters, capacities at least doubled. *)
Definition std_string (size : Z) : strtype :=
  let n := Z.to_nat (15 / size) in mk_strtype size true (Some n) true n (fun cap n => Nat.max (2 * cap) n).
