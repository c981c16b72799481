(** Model of the UTF-EBCDIC converter.
    Sources: include/fast_io_core_impl/codecvt/utf_ebcdic.h, general.h.  Destinations in the host's byte order. *)
From Verif Require Import Base UtfModel.

(** utf_ebcdic.h 13-15: the three tables. *)
Definition bm_i8_to_ebcdic : list Z := [
  0x00; 0x01; 0x02; 0x03; 0x37; 0x2D; 0x2E; 0x2F; 0x16; 0x05; 0x15; 0x0B; 0x0C; 0x0D; 0x0E; 0x0F; 0x10; 0x11; 0x12; 0x13; 0x3C; 0x3D; 0x32; 0x26; 0x18; 0x19; 0x3F; 0x27; 0x1C; 0x1D; 0x1E; 0x1F;
  0x40; 0x5A; 0x7F; 0x7B; 0x5B; 0x6C; 0x50; 0x7D; 0x4D; 0x5D; 0x5C; 0x4E; 0x6B; 0x60; 0x4B; 0x61; 0xF0; 0xF1; 0xF2; 0xF3; 0xF4; 0xF5; 0xF6; 0xF7; 0xF8; 0xF9; 0x7A; 0x5E; 0x4C; 0x7E; 0x6E; 0x6F;
  0x7C; 0xC1; 0xC2; 0xC3; 0xC4; 0xC5; 0xC6; 0xC7; 0xC8; 0xC9; 0xD1; 0xD2; 0xD3; 0xD4; 0xD5; 0xD6; 0xD7; 0xD8; 0xD9; 0xE2; 0xE3; 0xE4; 0xE5; 0xE6; 0xE7; 0xE8; 0xE9; 0xAD; 0xE0; 0xBD; 0x5F; 0x6D;
  0x79; 0x81; 0x82; 0x83; 0x84; 0x85; 0x86; 0x87; 0x88; 0x89; 0x91; 0x92; 0x93; 0x94; 0x95; 0x96; 0x97; 0x98; 0x99; 0xA2; 0xA3; 0xA4; 0xA5; 0xA6; 0xA7; 0xA8; 0xA9; 0xC0; 0x4F; 0xD0; 0xA1; 0x07;
  0x20; 0x21; 0x22; 0x23; 0x24; 0x25; 0x06; 0x17; 0x28; 0x29; 0x2A; 0x2B; 0x2C; 0x09; 0x0A; 0x1B; 0x30; 0x31; 0x1A; 0x33; 0x34; 0x35; 0x36; 0x08; 0x38; 0x39; 0x3A; 0x3B; 0x04; 0x14; 0x3E; 0xFF;
  0x41; 0x42; 0x43; 0x44; 0x45; 0x46; 0x47; 0x48; 0x49; 0x4A; 0x51; 0x52; 0x53; 0x54; 0x55; 0x56; 0x57; 0x58; 0x59; 0x62; 0x63; 0x64; 0x65; 0x66; 0x67; 0x68; 0x69; 0x6A; 0x70; 0x71; 0x72; 0x73;
  0x74; 0x75; 0x76; 0x77; 0x78; 0x80; 0x8A; 0x8B; 0x8C; 0x8D; 0x8E; 0x8F; 0x90; 0x9A; 0x9B; 0x9C; 0x9D; 0x9E; 0x9F; 0xA0; 0xAA; 0xAB; 0xAC; 0xAE; 0xAF; 0xB0; 0xB1; 0xB2; 0xB3; 0xB4; 0xB5; 0xB6;
  0xB7; 0xB8; 0xB9; 0xBA; 0xBB; 0xBC; 0xBE; 0xBF; 0xCA; 0xCB; 0xCC; 0xCD; 0xCE; 0xCF; 0xDA; 0xDB; 0xDC; 0xDD; 0xDE; 0xDF; 0xE1; 0xEA; 0xEB; 0xEC; 0xED; 0xEE; 0xEF; 0xFA; 0xFB; 0xFC; 0xFD; 0xFE].
Definition bm_ebcdic_to_i8 : list Z := [
  0x00; 0x01; 0x02; 0x03; 0x9C; 0x09; 0x86; 0x7F; 0x97; 0x8D; 0x8E; 0x0B; 0x0C; 0x0D; 0x0E; 0x0F; 0x10; 0x11; 0x12; 0x13; 0x9D; 0x0A; 0x08; 0x87; 0x18; 0x19; 0x92; 0x8F; 0x1C; 0x1D; 0x1E; 0x1F;
  0x80; 0x81; 0x82; 0x83; 0x84; 0x85; 0x17; 0x1B; 0x88; 0x89; 0x8A; 0x8B; 0x8C; 0x05; 0x06; 0x07; 0x90; 0x91; 0x16; 0x93; 0x94; 0x95; 0x96; 0x04; 0x98; 0x99; 0x9A; 0x9B; 0x14; 0x15; 0x9E; 0x1A;
  0x20; 0xA0; 0xA1; 0xA2; 0xA3; 0xA4; 0xA5; 0xA6; 0xA7; 0xA8; 0xA9; 0x2E; 0x3C; 0x28; 0x2B; 0x7C; 0x26; 0xAA; 0xAB; 0xAC; 0xAD; 0xAE; 0xAF; 0xB0; 0xB1; 0xB2; 0x21; 0x24; 0x2A; 0x29; 0x3B; 0x5E;
  0x2D; 0x2F; 0xB3; 0xB4; 0xB5; 0xB6; 0xB7; 0xB8; 0xB9; 0xBA; 0xBB; 0x2C; 0x25; 0x5F; 0x3E; 0x3F; 0xBC; 0xBD; 0xBE; 0xBF; 0xC0; 0xC1; 0xC2; 0xC3; 0xC4; 0x60; 0x3A; 0x23; 0x40; 0x27; 0x3D; 0x22;
  0xC5; 0x61; 0x62; 0x63; 0x64; 0x65; 0x66; 0x67; 0x68; 0x69; 0xC6; 0xC7; 0xC8; 0xC9; 0xCA; 0xCB; 0xCC; 0x6A; 0x6B; 0x6C; 0x6D; 0x6E; 0x6F; 0x70; 0x71; 0x72; 0xCD; 0xCE; 0xCF; 0xD0; 0xD1; 0xD2;
  0xD3; 0x7E; 0x73; 0x74; 0x75; 0x76; 0x77; 0x78; 0x79; 0x7A; 0xD4; 0xD5; 0xD6; 0x5B; 0xD7; 0xD8; 0xD9; 0xDA; 0xDB; 0xDC; 0xDD; 0xDE; 0xDF; 0xE0; 0xE1; 0xE2; 0xE3; 0xE4; 0xE5; 0x5D; 0xE6; 0xE7;
  0x7B; 0x41; 0x42; 0x43; 0x44; 0x45; 0x46; 0x47; 0x48; 0x49; 0xE8; 0xE9; 0xEA; 0xEB; 0xEC; 0xED; 0x7D; 0x4A; 0x4B; 0x4C; 0x4D; 0x4E; 0x4F; 0x50; 0x51; 0x52; 0xEE; 0xEF; 0xF0; 0xF1; 0xF2; 0xF3;
  0x5C; 0xF4; 0x53; 0x54; 0x55; 0x56; 0x57; 0x58; 0x59; 0x5A; 0xF5; 0xF6; 0xF7; 0xF8; 0xF9; 0xFA; 0x30; 0x31; 0x32; 0x33; 0x34; 0x35; 0x36; 0x37; 0x38; 0x39; 0xFB; 0xFC; 0xFD; 0xFE; 0xFF; 0x9F].
Definition utfebcdic_shadow_flags : list Z := [
  0; 0; 0; 0; 0; 0; 0; 0; 0; 0; 0; 0; 0; 0; 0; 0; 0; 0; 0; 0; 0; 0; 0; 0; 0; 0; 0; 0; 0; 0; 0; 0;
  0; 0; 0; 0; 0; 0; 0; 0; 0; 0; 0; 0; 0; 0; 0; 0; 0; 0; 0; 0; 0; 0; 0; 0; 0; 0; 0; 0; 0; 0; 0; 0;
  1; 9; 9; 9; 9; 9; 9; 9; 9; 9; 9; 1; 1; 1; 1; 1; 1; 9; 9; 9; 9; 9; 9; 9; 9; 9; 1; 1; 1; 1; 1; 1;
  1; 1; 9; 9; 9; 9; 9; 9; 9; 9; 9; 1; 1; 1; 1; 1; 9; 9; 9; 9; 2; 2; 2; 2; 2; 1; 1; 1; 1; 1; 1; 1;
  2; 1; 1; 1; 1; 1; 1; 1; 1; 1; 2; 2; 2; 2; 2; 2; 2; 1; 1; 1; 1; 1; 1; 1; 1; 1; 2; 2; 2; 2; 2; 2;
  2; 1; 1; 1; 1; 1; 1; 1; 1; 1; 2; 2; 2; 1; 2; 2; 2; 2; 2; 2; 2; 2; 2; 3; 3; 3; 3; 3; 3; 1; 3; 3;
  1; 1; 1; 1; 1; 1; 1; 1; 1; 1; 3; 3; 3; 3; 3; 3; 1; 1; 1; 1; 1; 1; 1; 1; 1; 1; 3; 3; 4; 4; 4; 4;
  1; 4; 1; 1; 1; 1; 1; 1; 1; 1; 4; 4; 4; 5; 5; 5; 1; 1; 1; 1; 1; 1; 1; 1; 1; 1; 5; 6; 6; 7; 7; 0].

(** utf_ebcdic.h 17-27 get_utf_ebcdic_invalid_code_units. *)
Definition eb_invalid : list Z := [0xDD; 0x73; 0x66; 0x73].

(** utf_ebcdic.h 29-68 get_utf_ebcdic_code_units. *)
Definition eb_encode (code : Z) : list Z :=
  let tail k := tbl bm_i8_to_ebcdic (Z.lor 0xA0 (Z.land (Z.shiftr code k) 0x1F)) in
  if code <? 0xA0 then [tbl bm_i8_to_ebcdic code]
  else if code <? 0x400 then [tbl bm_i8_to_ebcdic (Z.lor 0xC0 (Z.shiftr code 5)); tail 0]
  else if code <? 0x4000 then [tbl bm_i8_to_ebcdic (Z.lor 0xE0 (Z.shiftr code 10)); tail 5; tail 0]
  else if code <? 0x40000 then [tbl bm_i8_to_ebcdic (Z.lor 0xF0 (Z.shiftr code 15)); tail 10; tail 5; tail 0]
  else if code <? 0x110000 then [tbl bm_i8_to_ebcdic (Z.lor 0xF8 (Z.shiftr code 20)); tail 15; tail 10; tail 5; tail 0]
  else eb_invalid.

(** utf_ebcdic.h 87-95: the loop over the following bytes; [inl i]: broken at byte [i]; [inr res]. *)
Fixpoint eb_follow (i : nat) (n : nat) (res : Z) (s : list Z) : option (nat + Z) :=
  match n with
  | O => Some (inr res)
  | S n' =>
      match s with
      | [] => None                                     (* read past the source *)
      | b :: s' =>
          let code := tbl bm_ebcdic_to_i8 b in
          if negb (Z.shiftr code 5 =? 5) then Some (inl i)
          else eb_follow (S i) n' (Z.lor (wrap 32 (Z.shiftl res 5)) (Z.land code 31)) s'
      end
  end.

(** utf_ebcdic.h 76-111 utf_ebcdic_advance: code and bytes; [Some None]: the text ends inside the character (len -1). *)
Definition eb_advance (s : list Z) : option (option (Z * nat)) :=
  match s with
  | [] => None
  | src0 :: rest =>
      let shadow := tbl utfebcdic_shadow_flags src0 in
      if shadow <? 2 then Some (Some (tbl bm_ebcdic_to_i8 src0, 1%nat))
      else if shadow =? 9 then Some (Some (0xFFFD, 1%nat))
      else if zlen s <? shadow then Some None
      else
        match eb_follow 1 (Z.to_nat shadow - 1) 0 rest with
        | None => None
        | Some (inl i) => Some (Some (0xFFFD, i))
        | Some (inr res) =>
            let src0i8 := tbl bm_ebcdic_to_i8 src0 in
            if shadow =? 2 then Some (Some (Z.lor (Z.shiftl (Z.land src0i8 0x1F) 5) res, 2%nat))
            else if shadow =? 3 then Some (Some (Z.lor (Z.shiftl (Z.land src0i8 0xF) 10) res, 3%nat))
            else if shadow =? 4 then Some (Some (Z.lor (Z.shiftl (Z.land src0i8 7) 15) res, 4%nat))
            else if shadow =? 5 then Some (Some (Z.lor (Z.shiftl (Z.land src0i8 1) 20) res, 5%nat))
            else Some (Some (0xFFFD, Z.to_nat shadow))
        end
  end.

(** ** Texts: general.h 48-270 *)
(** A UTF destination of [cw] bits. *)
Definition eb_put (cw code : Z) : list Z := if cw =? 32 then [code] else get_utf_code_units cw true code.
Definition emit_eb (o : list Z) (r : option (list Z * list Z)) : option (list Z * list Z) := option_map (fun x => (o ++ fst x, snd x)) r.

(** general.h 208-227: UTF-EBCDIC to UTF: units written, source left.  [fuel]: the number of bytes. *)
Fixpoint eb_loop (fuel : nat) (cw : Z) (s : list Z) : option (list Z * list Z) :=
  match fuel with
  | O => Some ([], s)
  | S f =>
      match s with
      | [] => Some ([], [])
      | _ => match eb_advance s with
             | None => None
             | Some None => Some ([], s)
             | Some (Some (code, adv)) => emit_eb (eb_put cw code) (eb_loop f cw (skipn adv s))
             end
      end
  end.
Definition eb_to_utf (cw : Z) (s : list Z) : option (list Z * list Z) := eb_loop (length s) cw s.

(** general.h 228-267: UTF-8 to UTF-EBCDIC. *)
Fixpoint eb_from8 (fuel : nat) (s : list Z) : list Z * list Z :=
  match fuel with
  | O => ([], s)
  | S f =>
      match s with
      | [] => ([], [])
      | b :: s' =>
          if b <? 0x80 then let '(o, r) := eb_from8 f s' in (tbl bm_i8_to_ebcdic b :: o, r)
          else
            match utf8_advance s with
            | None => ([], s)
            | Some (code, s2) => let '(o, r) := eb_from8 f s2 in (eb_encode code ++ o, r)
            end
      end
  end.
(** general.h 90-150. *)
Fixpoint eb_from16 (s : list Z) : list Z * list Z :=
  let out o r := let '(o1, r1) := r in (o ++ o1, r1) : list Z * list Z in
  match s with
  | [] => ([], [])
  | code :: s1 =>
      if is_surrogate code then
        if is_high code then
          match s1 with
          | [] => ([], s)
          | code1 :: s2 =>
              if is_low code1 then out (eb_encode (surrogate_to_utf32 code code1)) (eb_from16 s2) else out eb_invalid (eb_from16 s2)
          end
        else out eb_invalid (eb_from16 s1)
      else out (eb_encode code) (eb_from16 s1)
  end.
(** general.h 83-89. *)
Definition eb_from32 (s : list Z) : list Z * list Z := (flat_map eb_encode s, []).
Definition utf_to_eb (cw : Z) (s : list Z) : list Z * list Z :=
  if cw =? 32 then eb_from32 s else if cw =? 16 then eb_from16 s else eb_from8 (length s) s.

(** general.h 352-416: the stateful converter; [st] are the bytes kept.  general.h 405 moves the source by adv - state_size:
    when that is negative the next read is before the source: [None]. *)
Definition eb_state (cw : Z) (st s : list Z) : option (list Z * list Z) :=
  match st with
  | [] => eb_to_utf cw s
  | _ =>
      match s with
      | [] => Some ([], st)
      | _ =>
          let take := Nat.min (length s) (8 - length st) in
          let bytes := st ++ firstn take s in
          match eb_advance bytes with
          | None => None
          | Some None => Some ([], bytes)
          | Some (Some (code, adv)) =>
              if (adv <? length st)%nat then None
              else emit_eb (eb_put cw code) (eb_to_utf cw (skipn (adv - length st) s))
          end
      end
  end.
Fixpoint eb_chunks (cw : Z) (st : list Z) (chunks : list (list Z)) : option (list Z * list Z) :=
  match chunks with
  | [] => Some ([], st)
  | c :: cs => match eb_state cw st c with None => None | Some (o, st') => emit_eb o (eb_chunks cw st' cs) end
  end.
