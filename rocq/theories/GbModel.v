(** Model of the GB18030 converter.
    Sources: include/fast_io_unit/gb18030.h, include/fast_io_core_impl/codecvt/general.h, utf.h.
    Bytes are numbers below 256.  [None] is a read outside a table or outside the source.  Destinations are in the host's
    byte order; the byte swapped ones are in UtfModel for UTF sources and not modelled here. *)
From Verif Require Import Base UtfModel GbTables.

(** gb18030.h 17-20 linear_18030, 22 linear_18030_base, 24-27 linear. *)
Definition linear_18030 (a b c d : Z) : Z := wrap 32 (((a * 10 + b) * 126 + c) * 10 + d).
Definition linear_18030_base : Z := linear_18030 0x81 0x30 0x81 0x30.
Definition linear (x : Z) : Z :=
  linear_18030 (Z.land (Z.shiftr x 24) 255) (Z.land (Z.shiftr x 16) 255) (Z.land (Z.shiftr x 8) 255) (Z.land x 255).

(** gb18030.h 29-42 gb18030_ranges. *)
Definition gb_ranges : list (Z * Z * Z * Z) := [
  (0x0452, 0x2010, linear 0x8130D330, linear 0x8136A531);
  (0x2643, 0x2E81, linear 0x8137A839, linear 0x8138FD38);
  (0x361B, 0x3918, linear 0x8230A633, linear 0x8230F237);
  (0x3CE1, 0x4056, linear 0x8231D438, linear 0x8232AF32);
  (0x4160, 0x4337, linear 0x8232C937, linear 0x8232F837);
  (0x44D7, 0x464C, linear 0x8233A339, linear 0x8233C931);
  (0x478E, 0x4947, linear 0x8233E838, linear 0x82349638);
  (0x49B8, 0x4C77, linear 0x8234A131, linear 0x8234E733);
  (0x9FA6, 0xD800, linear 0x82358F33, linear 0x8336C738);
  (0xE865, 0xF92C, linear 0x8336D030, linear 0x84308534);
  (0xFA2A, 0xFE30, linear 0x84309C38, linear 0x84318537);
  (0xFFE6, 0x10000, linear 0x8431A234, linear 0x8431A439);
  (0x10000, 0x110000, linear 0x90308130, linear 0xE3329A35)].

(** gb18030.h 44-53 get_gb18030_invalid_code_units. *)
Definition gb_invalid : list Z := [0x84; 0x31; 0xA4; 0x37].

(** A read of a table at an index of type char32_t. *)
Definition table_at (t : list (list Z)) (i : Z) : option Z :=
  if i <? 0 then None else nth_error (concat t) (Z.to_nat i).

(** gb18030.h 65-115 lookup_uni_to_gb18030: the bytes of an entry, least significant first, two if the entry fits in 16 bits. *)
Definition entry_bytes (v : Z) : list Z :=
  if wrap 16 v =? v then [Z.land v 255; Z.shiftr v 8]
  else [Z.land v 255; Z.land (Z.shiftr v 8) 255; Z.land (Z.shiftr v 16) 255; Z.shiftr v 24].

(** gb18030.h 139-145: the four bytes of a character given by its number. *)
Definition four_bytes (gb : Z) : list Z :=
  let p3 := wrap 8 (0x30 + gb mod 10) in let gb := gb / 10 in
  let p2 := wrap 8 (0x81 + gb mod 126) in let gb := gb / 126 in
  let p1 := wrap 8 (0x30 + gb mod 10) in let gb := gb / 10 in
  [wrap 8 (0x81 + gb); p1; p2; p3].

(** ** Encoding and decoding, for any contents of the tables: [uni] is lookup_uni_to_gb18030_tb, [uni4]
    lookup_gb18030_to_uni4_tb, [uni2] lookup_gb18030_to_uni2_tb. *)
Section Tables.
  Variables uni uni4 uni2 : Z -> option Z.

  (** gb18030.h 65-115 lookup_uni_to_gb18030. *)
  Definition lookup_bytes (i : Z) : option (list Z) := option_map entry_bytes (uni i).

  (** gb18030.h 125-151 the loop of get_gb18030_code_units_unhappy; the element after the last is read outside the array. *)
  Fixpoint encode_loop (rs : list (Z * Z * Z * Z)) (u32 sum : Z) : option (list Z) :=
    match rs with
    | [] => Some gb_invalid
    | (e0, e1, e2, _) :: rs' =>
        let diff := wrap 32 (e1 - e0) in
        let sum := wrap 32 (sum + diff) in
        if wrap 32 (u32 - e0) <? diff then Some (four_bytes (wrap 32 (wrap 32 (u32 - e0 + e2) - linear_18030_base)))
        else
          match rs' with
          | [] => None
          | (n0, _, _, _) :: _ =>
              if wrap 32 (u32 - e1) <? wrap 32 (n0 - e1) then lookup_bytes (wrap 32 (u32 - sum))
              else encode_loop rs' u32 sum
          end
    end.

  (** gb18030.h 117-155 get_gb18030_code_units_unhappy. *)
  Definition encode_unhappy (u32 : Z) : option (list Z) :=
    if u32 <? 0x110000 then
      if u32 <? 0x0452 then lookup_bytes (wrap 32 (u32 - 128)) else encode_loop gb_ranges u32 128
    else Some gb_invalid.

  (** gb18030.h 157-167 get_gb18030_code_units. *)
  Definition encode_with (cdpt : Z) : option (list Z) :=
    if cdpt <? 0x80 then Some [wrap 8 cdpt] else encode_unhappy cdpt.

  (** gb18030.h 169-174 lookup_gb18030_to_uni4_func. *)
  Definition lookup_uni4 (index : Z) : option Z := if 5974 <=? index then Some 0xFFFD else uni4 index.

  (** gb18030.h 176-194 utf32cp_by_gb18030_index: the loop. *)
  Fixpoint index_loop (rs : list (Z * Z * Z * Z)) (index sum : Z) : option Z :=
    match rs with
    | [] => Some 0xFFFD
    | (e0, e1, e2, e3) :: rs' =>
        let sum := wrap 32 (sum + wrap 32 (e1 - e0)) in
        if wrap 32 (index - e2) <=? wrap 32 (e3 - e2) then Some (wrap 32 (index - e2 + e0))
        else
          match rs' with
          | [] => Some 0xFFFD                       (* i is 12 *)
          | (_, _, n2, _) :: _ =>
              if (e3 <? index) && (index <? n2) then lookup_uni4 (wrap 32 (index - sum)) else index_loop rs' index sum
          end
    end.
  Definition index_code (index : Z) : option Z := index_loop gb_ranges index (wrap 32 (linear_18030_base + 820)).

  (** gb18030.h 196-227 gb18030_advance_unchecked: the code point and the number of bytes. *)
  Definition advance_unchecked (s : list Z) : option (Z * nat) :=
    match nth_error s 0 with
    | None => None
    | Some src0 =>
        if src0 <? 0x80 then Some (src0, 1%nat)
        else if src0 =? 0x80 then Some (0x20AC, 1%nat)
        else if src0 =? 0xFF then Some (0xFFFD, 1%nat)
        else
          match nth_error s 1 with
          | None => None
          | Some src1 =>
              if src1 =? 0x7F then Some (0xFFFD, 2%nat)
              else if wrap 8 (src1 - 0x40) <? 0xFF - 0x40 then
                let c := if 0x7F <? src1 then src1 - 1 else src1 in
                option_map (fun u => (u, 2%nat)) (uni2 (wrap 32 ((src0 - 0x81) * 190 + (c - 0x40))))
              else if (src1 <? 0x30) || (src1 =? 0xFF) then Some (0xFFFD, 2%nat)
              else
                match nth_error s 2 with
                | None => None
                | Some src2 =>
                    if 0xFF - 0x81 <=? wrap 8 (src2 - 0x81) then Some (0xFFFD, 3%nat)
                    else
                      match nth_error s 3 with
                      | None => None
                      | Some src3 =>
                          if 0x40 - 0x30 <=? wrap 8 (src3 - 0x30) then Some (0xFFFD, 4%nat)
                          else option_map (fun u => (u, 4%nat)) (index_code (linear_18030 src0 src1 src2 src3))
                      end
                end
          end
    end.

  (** gb18030.h 229-264 gb18030_advance; [Some None] is the result with adv = -1: the text ends inside the character. *)
  Definition advance_checked (s : list Z) : option (option (Z * nat)) :=
    match nth_error s 0 with
    | None => None
    | Some src0 =>
        if src0 <? 0x80 then Some (Some (src0, 1%nat))
        else if src0 =? 0x80 then Some (Some (0x20AC, 1%nat))
        else if src0 =? 0xFF then Some (Some (0xFFFD, 1%nat))
        else if (length s <? 2)%nat then Some None
        else
          match nth_error s 1 with
          | None => None
          | Some src1 =>
              if src1 =? 0x7F then Some (Some (0xFFFD, 2%nat))
              else if wrap 8 (src1 - 0x40) <? 0xFF - 0x40 then
                let c := if 0x7F <? src1 then src1 - 1 else src1 in
                option_map (fun u => Some (u, 2%nat)) (uni2 (wrap 32 ((src0 - 0x81) * 190 + (c - 0x40))))
              else if (src1 <? 0x30) || (src1 =? 0xFF) then Some (Some (0xFFFD, 2%nat))
              else if (length s <? 4)%nat then Some None
              else
                match nth_error s 2 with
                | None => None
                | Some src2 =>
                    if 0xFF - 0x81 <=? wrap 8 (src2 - 0x81) then Some (Some (0xFFFD, 3%nat))
                    else
                      match nth_error s 3 with
                      | None => None
                      | Some src3 =>
                          if 0x40 - 0x30 <=? wrap 8 (src3 - 0x30) then Some (Some (0xFFFD, 4%nat))
                          else option_map (fun u => Some (u, 4%nat)) (index_code (linear_18030 src0 src1 src2 src3))
                      end
                end
          end
    end.
End Tables.

(** The functions with the tables of the library. *)
Definition gb_encode (cdpt : Z) : option (list Z) := encode_with (table_at uni_to_gb) cdpt.
Definition gb_advance (s : list Z) : option (option (Z * nat)) := advance_checked (table_at gb_to_uni4) (table_at gb_to_uni2) s.
Definition gb_advance_unchecked (s : list Z) : option (Z * nat) := advance_unchecked (table_at gb_to_uni4) (table_at gb_to_uni2) s.

(** ** Texts: general.h 48-270 general_code_cvt with gb18030 on one side *)

(** The source of bytes, and the destination. *)
Inductive source8 := FromUtf8 | FromGb.
Inductive dest := ToUtf (cw : Z) | ToGb.

(** get_utf_code_units<encoding>, utf.h 357-429; a destination of 32 bits stores the code itself. *)
Definition put (d : dest) (code : Z) : option (list Z) :=
  match d with
  | ToUtf cw => Some (if cw =? 32 then [code] else get_utf_code_units cw true code)
  | ToGb => gb_encode code
  end.

(** general_advance (general.h 8-15) or advance_with_big_table: code and what remains. *)
Definition advance8 (src : source8) (s : list Z) : option (option (Z * list Z)) :=
  match src with
  | FromUtf8 => Some (utf8_advance s)
  | FromGb => option_map (option_map (fun r => (fst r, skipn (snd r) s))) (gb_advance s)
  end.
Definition advance8_unchecked (src : source8) (s : list Z) : option (option (Z * list Z)) :=
  match src with
  | FromUtf8 => Some (utf8_advance s)
  | FromGb => option_map (fun r => Some (fst r, skipn (snd r) s)) (gb_advance_unchecked s)
  end.

Definition emit (o : list Z) (r : option (list Z * list Z)) : option (list Z * list Z) :=
  option_map (fun x => (o ++ fst x, snd x)) r.

(** general.h 205-267: the scalar loop.  [fuel]: at most the number of bytes. *)
Fixpoint c8_loop (fuel : nat) (src : source8) (d : dest) (s : list Z) : option (list Z * list Z) :=
  match fuel with
  | O => Some ([], s)
  | S f =>
      match s with
      | [] => Some ([], [])
      | b :: s' =>
          if b <? 0x80 then emit [b] (c8_loop f src d s')
          else
            match advance8 src s with
            | None => None
            | Some None => Some ([], s)
            | Some (Some (code, s2)) =>
                match put d code with None => None | Some o => emit o (c8_loop f src d s2) end
            end
      end
  end.

(** general.h 152-203: the SSE loop, while more than 16 bytes remain. *)
Fixpoint c8_sse_loop (fuel : nat) (src : source8) (d : dest) (s : list Z) : option (list Z * list Z) :=
  match fuel with
  | O => Some ([], s)
  | S f =>
      if (16 <? length s)%nat then
        match s with
        | [] => Some ([], s)
        | b :: _ =>
            if b <? 0x80 then
              let k := ascii_run 16 s in emit (firstn k s) (c8_sse_loop f src d (skipn k s))
            else
              match advance8_unchecked src s with
              | None => None
              | Some None => Some ([], s)
              | Some (Some (code, s2)) =>
                  match put d code with None => None | Some o => emit o (c8_sse_loop f src d s2) end
              end
        end
      else Some ([], s)
  end.

(** general.h 152-268. *)
Definition convert8 (sse : bool) (src : source8) (d : dest) (s : list Z) : option (list Z * list Z) :=
  match (if sse then c8_sse_loop (length s) src d s else Some ([], s)) with
  | None => None
  | Some (o, s1) => emit o (c8_loop (length s1) src d s1)
  end.

(** general.h 90-150 with encoding gb18030. *)
Fixpoint convert16_gb (s : list Z) : option (list Z * list Z) :=
  let put1 c r := match gb_encode c with None => None | Some o => emit o r end in
  match s with
  | [] => Some ([], [])
  | code :: s1 =>
      if is_surrogate code then
        if is_high code then
          match s1 with
          | [] => Some ([], s)
          | code1 :: s2 =>
              if is_low code1 then put1 (surrogate_to_utf32 code code1) (convert16_gb s2)
              else emit gb_invalid (convert16_gb s2)
          end
        else emit gb_invalid (convert16_gb s1)
      else put1 code (convert16_gb s1)
  end.

(** general.h 83-89 with encoding gb18030. *)
Fixpoint convert32_gb (s : list Z) : option (list Z * list Z) :=
  match s with
  | [] => Some ([], [])
  | c :: s1 => match gb_encode c with None => None | Some o => emit o (convert32_gb s1) end
  end.

(** UTF text of 8, 16 or 32 bit units to GB18030: units written, source left. *)
Definition utf_to_gb (sse : bool) (cw : Z) (s : list Z) : option (list Z * list Z) :=
  if cw =? 32 then convert32_gb s else if cw =? 16 then convert16_gb s else convert8 sse FromUtf8 ToGb s.
(** and back. *)
Definition gb_to_utf (sse : bool) (cw : Z) (s : list Z) : option (list Z * list Z) := convert8 sse FromGb (ToUtf cw) s.

(** general.h 352-401: the stateful converter for bytes; [st] are the bytes kept from the calls before. *)
Definition gb_state (sse : bool) (d : dest) (st s : list Z) : option (list Z * list Z) :=
  match st with
  | [] => convert8 sse FromGb d s
  | _ =>
      match s with
      | [] => Some ([], st)
      | _ =>
          let take := Nat.min (length s) (8 - length st) in
          let bytes := st ++ firstn take s in
          match gb_advance bytes with
          | None => None
          | Some None => Some ([], bytes)
          | Some (Some (code, adv)) =>
              match put d code with
              | None => None
              | Some o => emit o (convert8 sse FromGb d (skipn (adv - length st) s))
              end
          end
      end
  end.
(** A sequence of calls. *)
Fixpoint gb_chunks (sse : bool) (d : dest) (st : list Z) (chunks : list (list Z)) : option (list Z * list Z) :=
  match chunks with
  | [] => Some ([], st)
  | c :: cs => match gb_state sse d st c with None => None | Some (o, st') => emit o (gb_chunks sse d st' cs) end
  end.
