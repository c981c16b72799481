From Verif Require Import Base FindModel.
Open Scope Z_scope.

(** * Lines and strings read from a buffered stream

    A buffered input stream is its buffer (the characters from ibuffer_curr to ibuffer_end, or the buffer
    with a position) together with the chunks that its next refills will bring; a refill replaces the
    buffer, and the empty chunk, or no chunk at all, is the end of the file (ibuffer_underflow returns
    false and leaves an empty buffer).  The stream side itself is modelled in BufModel. *)

Definition chunks := list (list Z).

(** ** The scan of one argument of a context_scannable type
    (include/fast_io_core_impl/scan_freestanding.h) *)

(** What scan returns: the bool, the state (with the object that was read), the stream left; or an exception;
    or a write outside of a buffer. *)
Inductive scanned (S : Type) :=
| Scanned (ret : bool) (st : S) (buf : list Z) (src : chunks)
| Raised (code : parse_code)
| Overrun.
Arguments Scanned {S} ret st buf src.
Arguments Raised {S} code.
Arguments Overrun {S}.

(** One call of scan_context_define on the characters of the buffer: new state, characters used, code. *)
Inductive define_res (S : Type) := Defined (st : S) (used : nat) (code : parse_code) | Smashed.
Arguments Defined {S} st used code.
Arguments Smashed {S}.

Section Scan.
Context {S : Type}.
Variable define : S -> list Z -> define_res S.
Variable eof : S -> S * parse_code.

Definition scan_eof (st : S) (buf : list Z) (src : chunks) : scanned S :=
  match eof st with
  | (st', pc_ok) => Scanned true st' buf src
  | (st', pc_end_of_file) => Scanned false st' buf src
  | (_, code) => Raised code
  end.

(** scan_freestanding.h 408-438 (and 184-221 scan_context_status_impl): a buffered stream. *)
Fixpoint scan_buffered (st : S) (buf : list Z) (src : chunks) : scanned S :=
  match define st buf with
  | Smashed => Overrun
  | Defined st' k pc_ok => Scanned true st' (skipn k buf) src
  | Defined st' k pc_partial =>
      match src with
      | [] => scan_eof st' [] []
      | [] :: src' => scan_eof st' [] src'
      | c :: src' => scan_buffered st' c src'
      end
  | Defined _ _ code => Raised code
  end.

(** scan_freestanding.h 284-306: a contiguous stream. *)
Definition scan_contiguous (st : S) (buf : list Z) : scanned S :=
  match define st buf with
  | Smashed => Overrun
  | Defined st' k pc_ok => Scanned true st' (skipn k buf) []
  | Defined st' k pc_partial => scan_eof st' (skipn k buf) []
  | Defined _ _ code => Raised code
  end.
End Scan.

(** ** std::string: a word, a line, everything
    (include/fast_io_unit/string_impl/scan_str_ctx_impl.h) *)

(** scan_string_context and the string. *)
Record sstr := mk_sstr { ss_copying : bool; ss_str : list Z }.

(** scan_str_ctx_impl.h 13-53 scan_context_define_string_impl<noskipws,line> (also strlike_get.h 59-98 for
    types with a buffer, whose write appends). *)
Definition string_define (c : fcfg) (noskipws line : bool) (st : sstr) (s : list Z) : define_res sstr :=
  let skipped :=
    if negb noskipws && negb line then
      if negb (ss_copying st) then
        let it := find_none_c_space c s in
        if Nat.eqb it (length s) then None else Some (it, mk_sstr true [])
      else Some (O, st)
    else Some (O, st) in
  match skipped with
  | None => Defined st (length s) pc_partial
  | Some (it, st1) =>
      let rest := skipn it s in
      let n := if line then find_lf c rest else find_c_space c rest in
      let str := if noskipws || line
                 then if negb (ss_copying st1) then firstn n rest else ss_str st1 ++ firstn n rest
                 else ss_str st1 ++ firstn n rest in
      let st2 := mk_sstr (if noskipws || line then true else ss_copying st1) str in
      let it_space := (it + n)%nat in
      if Nat.eqb it_space (length s) then Defined st2 it_space pc_partial
      else Defined st2 (if line then Datatypes.S it_space else it_space) pc_ok
  end.

(** scan_str_ctx_impl.h 108-121 (and 55-61). *)
Definition string_eof (noskipws line : bool) (st : sstr) : sstr * parse_code :=
  if line || noskipws
  then (st, match ss_str st with [] => pc_end_of_file | _ => pc_ok end)
  else (st, if ss_copying st then pc_ok else pc_end_of_file).

(** scan_str_ctx_impl.h 67-88: whole_get. *)
Definition whole_define (st : sstr) (s : list Z) : define_res sstr :=
  Defined (mk_sstr true (if negb (ss_copying st) then s else ss_str st ++ s)) (length s) pc_partial.
Definition whole_eof (st : sstr) : sstr * parse_code :=
  (if negb (ss_copying st) then mk_sstr (ss_copying st) [] else st, pc_ok).

(** scan(in, str), scan(in, line_get(str)), scan(in, whole_get(str)) into a string that holds [old]. *)
Definition scan_word (c : fcfg) (old : list Z) := scan_buffered (string_define c false false) (string_eof false false) (mk_sstr false old).
Definition scan_line (c : fcfg) (old : list Z) := scan_buffered (string_define c false true) (string_eof false true) (mk_sstr false old).
Definition scan_noskip (c : fcfg) (old : list Z) := scan_buffered (string_define c true false) (string_eof true false) (mk_sstr false old).
Definition scan_whole (old : list Z) := scan_buffered whole_define whole_eof (mk_sstr false old).

(** ** Strings without a buffer of their own: the text is gathered in the context
    (include/fast_io_freestanding_impl/serializations/strlike_get.h 138-245).  The state is the gathered text
    and the destination string. *)
Record gstr := mk_gstr { gs_ctx : list Z; gs_str : list Z }.

(** strlike_get.h 138-175: whether whitespace was skipped is read off from the gathered text being non-empty. *)
Definition general_define (c : fcfg) (noskipws line : bool) (st : gstr) (s : list Z) : define_res gstr :=
  let b := match gs_ctx st with [] => false | _ => true end in
  match string_define c noskipws line (mk_sstr b (gs_ctx st)) s with
  | Defined st' k pc_ok => Defined (mk_gstr (ss_str st') (ss_str st')) k pc_ok
  | Defined st' k code => Defined (mk_gstr (ss_str st') (gs_str st)) k code
  | Smashed => Smashed
  end.
(** strlike_get.h 177-247. *)
Definition general_eof (st : gstr) : gstr * parse_code :=
  match gs_ctx st with
  | [] => (st, pc_end_of_file)
  | _ => (mk_gstr (gs_ctx st) (gs_ctx st), pc_ok)
  end.
Definition scan_general_word (c : fcfg) (old : list Z) := scan_buffered (general_define c false false) general_eof (mk_gstr [] old).
Definition scan_general_line (c : fcfg) (old : list Z) := scan_buffered (general_define c false true) general_eof (mk_gstr [] old).

(** ** str_get_all: exactly n characters (serializations/str_get.h) *)

(** The destination buffer: its capacity, the characters in it, and whether it was prepared. *)
Record gbuf := mk_gbuf { gb_cap : nat; gb_elems : list Z; gb_ctx : bool; gb_str : list Z }.

(** str_get.h 39-58 scan_context_define_str_get_all_buffer_common_impl: nothing checks the capacity. *)
Definition get_all_common (n : nat) (st : gbuf) (s : list Z) : define_res gbuf :=
  let remain := (n - length (gb_elems st))%nat in
  let not_enough := Nat.ltb (length s) remain in
  let to_copy := if not_enough then length s else remain in
  if Nat.leb (length (gb_elems st) + to_copy) (gb_cap st)
  then Defined (mk_gbuf (gb_cap st) (gb_elems st ++ firstn to_copy s) (gb_ctx st) (gb_str st)) to_copy
         (if not_enough then pc_partial else pc_ok)
  else Smashed.
(** str_get.h 60-70: a string with a buffer; strlike_reserve makes room for n characters. *)
Definition get_all_buffer (n : nat) (st : gbuf) (s : list Z) : define_res gbuf :=
  get_all_common n (if negb (gb_ctx st) then mk_gbuf (Nat.max n (gb_cap st)) [] true (gb_str st) else st) s.
(** str_get.h 72-81: otherwise the characters are gathered in the context, a basic_concat_buffer. *)
Definition get_all_general (n : nat) (st : gbuf) (s : list Z) : define_res gbuf :=
  match get_all_common n st s with
  | Defined st' k pc_ok => Defined (mk_gbuf (gb_cap st') (gb_elems st') (gb_ctx st') (gb_elems st')) k pc_ok
  | r => r
  end.
(** str_get.h 111-118 *)
Definition get_all_eof (st : gbuf) : gbuf * parse_code := (st, pc_end_of_file).
(** concat/concat_buffer.h 10: the context starts with room for 2048 bytes. *)
Definition concat_buffer_size (w : Z) : nat := Z.to_nat (2048 / (w / 8)).

Definition scan_get_all_buffer (n cap : nat) (old : list Z) :=
  scan_buffered (get_all_buffer n) get_all_eof (mk_gbuf cap old false []).
Definition scan_get_all_general (w : Z) (n : nat) (old : list Z) :=
  scan_buffered (get_all_general n) get_all_eof (mk_gbuf (concat_buffer_size w) [] false old).

(** ** line_scanner over a buffered stream (include/fast_io_freestanding_impl/scanners/line_scanner.h) *)

(** The line scanner's own buffer: its cells (capacity = their number) and the number in use. *)
Record lbuf := mk_lbuf { lb_cells : list Z; lb_used : nat }.
(** basic_line_scanner_buffer: the buffer, the view -- a range of the stream's buffer or of the own
    buffer -- and inbuffer.  A view is read when the user looks at it, from what the buffers hold then. *)
Inductive lview := VNull | VStream (from to : nat) | VOwn (to : nat).
Record lscan := mk_lscan { l_buf : lbuf; l_view : lview; l_in : bool }.

(** line_scanner.h 71-98 copy_to_next_line_buffer_internal_impl: size_t arithmetic of 64 bits on character
    counts, [w]-bit characters.  The cells beyond the copied ones are uninitialised (0 here). *)
Definition szmx (w : Z) : Z := (2 ^ 64 - 1) / (w / 8).
Definition grow_capacity (w : Z) (elements sz old_capacity : Z) : Z :=
  let elementswithnewbuff := (elements + sz) mod 2 ^ 64 in
  let new_capacity := if szmx w / 2 <=? old_capacity then szmx w else (old_capacity * 2) mod 2 ^ 64 in
  if new_capacity <? elementswithnewbuff then elementswithnewbuff else new_capacity.
(** None: a copy past the end of the allocation. *)
Definition copy_into (cells : list Z) (at_ : nat) (data : list Z) : option lbuf :=
  if Nat.leb (at_ + length data) (length cells)
  then Some (mk_lbuf (firstn at_ cells ++ data ++ skipn (at_ + length data) cells) (at_ + length data))
  else None.
Definition copy_grow (w : Z) (b : lbuf) (data : list Z) : option lbuf :=
  let elements := lb_used b in
  let cap := Z.to_nat (grow_capacity w (Z.of_nat elements) (Z.of_nat (length data)) (Z.of_nat (length (lb_cells b)))) in
  match copy_into (repeat 0 cap) 0 (firstn elements (lb_cells b)) with
  | Some b1 => copy_into (lb_cells b1) (lb_used b1) data
  | None => None
  end.
(** line_scanner.h 100-112 copy_to_next_line_buffer_impl. *)
Definition copy_to_buffer (w : Z) (b : lbuf) (data : list Z) : option lbuf :=
  let bfsz := (length (lb_cells b) - lb_used b)%nat in
  if Nat.ltb bfsz (length data) then copy_grow w b data
  else copy_into (lb_cells b) (lb_used b) data.

(** line_scanner.h 118-159: scan_iterative_next_line_define_impl with its _partial and _inbuffer parts, on
    the characters [s] that begin at position [pos] of the stream's buffer. *)
Definition line_next (c : fcfg) (st : lscan) (pos : nat) (s : list Z) : option (lscan * nat * parse_code) :=
  let it := find_lf c s in
  if Nat.eqb it (length s) then
    let b := if negb (l_in st) then mk_lbuf (lb_cells (l_buf st)) 0 else l_buf st in
    match copy_to_buffer (f_w c) b s with
    | Some b' => Some (mk_lscan b' (l_view st) true, length s, pc_partial)
    | None => None
    end
  else if l_in st then
    match copy_to_buffer (f_w c) (l_buf st) (firstn it s) with
    | Some b' => Some (mk_lscan b' (VOwn (lb_used b')) (l_in st), Datatypes.S it, pc_ok)
    | None => None
    end
  else Some (mk_lscan (l_buf st) (VStream pos (pos + it)) (l_in st), Datatypes.S it, pc_ok).

(** line_scanner.h 161-175 scan_iterative_eof_define_line_internal. *)
Definition line_eof (st : lscan) : lscan * parse_code :=
  if l_in st then (mk_lscan (l_buf st) (VOwn (lb_used (l_buf st))) (l_in st), pc_ok)
  else (mk_lscan (l_buf st) VNull (l_in st), pc_end_of_file).

(** The iterator: the scanner, last_is_eof, the stream's buffer with a position, the chunks to come. *)
Record liter := mk_liter { i_scan : lscan; i_last : bool; i_buf : list Z; i_pos : nat; i_src : chunks }.
Inductive lstep :=
| Line (it : liter)    (* ptr is not null: the iterator has a line *)
| End (it : liter)     (* ptr is null *)
| Broken               (* a copy past the end of an allocation *)
| Spins.               (* the loop goes round without progress *)

(** transmit/scanner.h 61-104 basic_scanner_context_next_common on a stream that is not contiguous;
    scan_iterative_init_define (line_scanner.h 197-202) has cleared inbuffer. *)
Fixpoint line_loop (c : fcfg) (last : bool) (st : lscan) (buf : list Z) (pos : nat) (src : chunks) : lstep :=
  let exhausted := fun (st : lscan) (pos : nat) =>
    if last then End (mk_liter st last buf pos src)
    else match src with
         | [] => match line_eof st with
                 | (st', pc_ok) => Line (mk_liter st' true [] 0 [])
                 | (st', _) => End (mk_liter st' last [] 0 [])
                 end
         | [] :: src' => match line_eof st with
                 | (st', pc_ok) => Line (mk_liter st' true [] 0 src')
                 | (st', _) => End (mk_liter st' last [] 0 src')
                 end
         | ch :: src' => line_loop c last st ch 0 src'
         end in
  if Nat.eqb pos (length buf) then exhausted st pos
  else match line_next c st pos (skipn pos buf) with
       | None => Broken
       | Some (st', k, pc_ok) => Line (mk_liter st' last buf (pos + k) src)
       | Some (st', k, _) =>
           if Nat.eqb (pos + k) (length buf) then exhausted st' (pos + k)%nat else Spins
       end.
(** operator++ (transmit/scanner.h 135-140) *)
Definition line_incr (c : fcfg) (it : liter) : lstep :=
  let st := i_scan it in
  line_loop c (i_last it) (mk_lscan (l_buf st) (l_view st) false) (i_buf it) (i_pos it) (i_src it).

(** *it: the characters between begin() and end() (line_scanner.h 39-46). *)
Definition read_line (it : liter) : list Z :=
  match l_view (i_scan it) with
  | VNull => []
  | VStream a b => firstn (b - a) (skipn a (i_buf it))
  | VOwn b => firstn b (lb_cells (l_buf (i_scan it)))
  end.

(** for(auto& line : line_scanner(in)) ...: the lines in order; None if the loop breaks or does
    not end within [fuel] steps. *)
Fixpoint for_each_line (c : fcfg) (fuel : nat) (it : liter) : option (list (list Z)) :=
  match fuel with
  | O => None
  | Datatypes.S fuel' =>
      match line_incr c it with
      | Line it' => match for_each_line c fuel' it' with
                    | Some ls => Some (read_line it' :: ls)
                    | None => None
                    end
      | End _ => Some []
      | Broken | Spins => None
      end
  end.
Definition start_lines (buf : list Z) (src : chunks) : liter :=
  mk_liter (mk_lscan (mk_lbuf [] 0) VNull false) false buf 0 src.

(** ** line_scanner over a contiguous stream (line_scanner.h 177-193; transmit/scanner.h 22-39):
    view as a range of the text, position. *)
Definition cline_next (c : fcfg) (view : nat * nat) (text : list Z) (pos : nat) : (nat * nat) * nat * parse_code :=
  let s := skipn pos text in
  let it := find_lf c s in
  if Nat.eqb it (length s)
  then if Nat.eqb it 0 then (view, (pos + it)%nat, pc_end_of_file) else (view, (pos + it)%nat, pc_ok)
  else ((pos, (pos + it)%nat), (pos + it + 1)%nat, pc_ok).
Fixpoint for_each_cline (c : fcfg) (fuel : nat) (view : nat * nat) (text : list Z) (pos : nat) : option (list (list Z)) :=
  match fuel with
  | O => None
  | Datatypes.S fuel' =>
      match cline_next c view text pos with
      | (view', pos', pc_ok) =>
          match for_each_cline c fuel' view' text pos' with
          | Some ls => Some (firstn (snd view' - fst view') (skipn (fst view') text) :: ls)
          | None => None
          end
      | (_, _, _) => Some []
      end
  end.
