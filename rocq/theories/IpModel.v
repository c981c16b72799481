(** Model of the printing and scanning of internet addresses.
    Source: include/fast_io_core_impl/socket/addrprt.h, addrscn.h, ip.h, posix_sockaddr.h, integers/impl.h 53-110.
    An IPv6 address is the array of eight 16-bit words as the host reads them.  EBCDIC is not modelled.
    The context (chunked) scanners are in IpCtxModel. *)
From Verif Require Import Base ByteSpec LebeModel IntPrintModel IntScanModel TimeTextModel.

Definition uint8_ty : int_type := mk_int 8 false.
Definition uint16_ty : int_type := mk_int 16 false.

(** addrprt.h 9-22 prtrsv_inaddr_common_define_impl. *)
Fixpoint print_octets (first : bool) (a : list Z) : option (list Z) :=
  match a with
  | [] => Some []
  | x :: a' => opt_app (Some (if first then [] else [46]))
                 (opt_app (print_int default_pflags uint8_ty x) (print_octets false a'))
  end.

(** addrprt.h 38-60: end of the run of zeros that contains [j-1]; [fuel] makes the loop structural. *)
Fixpoint zeros_end (fuel : nat) (a : list Z) (j : nat) : nat :=
  match fuel with
  | O => j
  | S k => if Nat.eqb j 8 then j else if nth j a 0 =? 0 then zeros_end k a (j + 1) else j
  end.
(** addrprt.h 35-61: the longest run so far is [p,e); 8,8 at the start. *)
Fixpoint find_run (fuel : nat) (a : list Z) (i p e : nat) : nat * nat :=
  match fuel with
  | O => (p, e)
  | S k =>
      if Nat.eqb i 8 then (p, e)
      else if nth i a 0 =? 0 then
        let j := zeros_end 8 a (i + 1) in
        let '(p', e') := if (Nat.ltb 1 (j - i)) && (Nat.ltb (e - p) (j - i)) then (i, j) else (p, e) in
        find_run k a j p' e'
      else find_run k a (i + 1) p e
  end.

(** The flags of one group: print_reserve_integral_define<16,false,false,false,uppercase,full>. *)
Definition group_flags (uppercase full : bool) : pflags := mk_pflags 16 false false false uppercase full.
Definition print_group (host : endian) (uppercase full : bool) (w : Z) : option (list Z) :=
  print_int (group_flags uppercase full) uint16_ty (to_big_endian host 2 w).

(** addrprt.h 62-98: the shortened text. *)
Fixpoint print_short (fuel : nat) (host : endian) (uppercase full : bool) (a : list Z) (p e i : nat) : option (list Z) :=
  match fuel with
  | O => Some []
  | S k =>
      if Nat.eqb i 8 then Some []
      else if Nat.eqb p i then opt_app (Some [58; 58]) (print_short k host uppercase full a p e e)
      else opt_app (Some (if negb (Nat.eqb i 0) && negb (Nat.eqb i e) then [58] else []))
             (opt_app (print_group host uppercase full (nth i a 0)) (print_short k host uppercase full a p e (i + 1)))
  end.
(** addrprt.h 100-112: the long text. *)
Fixpoint print_long (host : endian) (uppercase full first : bool) (a : list Z) : option (list Z) :=
  match a with
  | [] => Some []
  | w :: a' => opt_app (Some (if first then [] else [58]))
                 (opt_app (print_group host uppercase full w) (print_long host uppercase full false a'))
  end.

(** integers/impl.h 53-62 ip_flags. *)
Record ip_flags := mk_ipf { f_shorten : bool; f_upper : bool; f_bracket : bool; f_full : bool; f_port : bool }.

(** addrprt.h 24-115 prtrsv_in6addr_common_define_impl. *)
Definition print_in6 (host : endian) (fl : ip_flags) (bracket : bool) (a : list Z) : option (list Z) :=
  let body :=
    if f_shorten fl then let '(p, e) := find_run 8 a 0 8 8 in print_short 9 host (f_upper fl) (f_full fl) a p e 0
    else print_long host (f_upper fl) (f_full fl) true a in
  if bracket then opt_app (Some [91]) (opt_app body (Some [93])) else body.

(** addrprt.h 117-124 prtrsv_ipport_define_impl. *)
Definition print_port (port : Z) : option (list Z) := opt_app (Some [58]) (print_int default_pflags uint16_ty port).

(** The address types: posix_in_addr, ipv4, posix_in6_addr, ipv6, ip_address, ip. *)
Inductive addr :=
| In4 (a : list Z)                       (* posix_in_addr *)
| V4 (a : list Z) (port : Z)             (* ipv4 *)
| In6 (a : list Z)                       (* posix_in6_addr *)
| V6 (a : list Z) (port : Z)             (* ipv6 *)
| Addr4 (a : list Z) | Addr6 (a : list Z)               (* ip_address *)
| Ip4 (a : list Z) (port : Z) | Ip6 (a : list Z) (port : Z).   (* ip *)

(** addrprt.h 126-229 and 336-372 print_reserve_define.  ":0" is prtrsv_ipport_zero_define_impl. *)
Definition print_addr (host : endian) (fl : ip_flags) (v : addr) : option (list Z) :=
  let br := if f_port fl then true else f_bracket fl in
  let zero := Some (if f_port fl then [58; 48] else []) in
  let port p := if f_port fl then print_port p else Some [] in
  match v with
  | In4 a => opt_app (print_octets true a) zero
  | V4 a p => opt_app (print_octets true a) (port p)
  | In6 a => opt_app (print_in6 host fl br a) zero
  | V6 a p => opt_app (print_in6 host fl br a) (port p)
  | Addr4 a => opt_app (print_octets true a) zero
  | Addr6 a => opt_app (print_in6 host fl br a) zero
  | Ip4 a p => opt_app (print_octets true a) (port p)
  | Ip6 a p => opt_app (print_in6 host fl br a) (port p)
  end.

(** addrprt.h 262-334 print_reserve_size. *)
Definition addr_reserve_size (fl : ip_flags) (v : addr) : Z :=
  let portsize := reserved_size default_pflags uint16_ty in
  let v4int := reserved_size default_pflags uint8_ty in
  let v4total := (v4int + 1) * 4 - 1 in
  match v with
  | In4 _ | V4 _ _ => if f_port fl then v4total + portsize + 1 else v4total
  | _ =>
      let v6total := (portsize + 1) * 8 - 1 in
      if f_port fl then v6total + 2 + 2 + portsize else if f_bracket fl then v6total + 2 else v6total
  end.

(** ** Scanning *)
Definition octet_cfg (cw : Z) (sse : bool) : scfg := mk_scfg 10 true false false uint8_ty cw sse.

(** scan_int_contiguous_define_impl<10,true,false,false> into an unsigned field of type [ty]. *)
Definition scan_field_int (ty : int_type) (cw : Z) (sse : bool) (window s : list Z) : step (Z * list Z) :=
  match scan_int (mk_scfg 10 true false false ty cw sse) window with
  | None => SUb
  | Some r =>
      let rest := skipn (Z.to_nat (p_used r)) s in
      match p_code r, p_val r with
      | pc_ok, Some v => SGo (v, rest)
      | ec, _ => SFail ec rest
      end
  end.
(** The first three octets: the window is [begin, begin+3) whether or not the text is that long. *)
Definition scan_octet3 (cw : Z) (sse : bool) (s : list Z) : step (Z * list Z) :=
  if zlen s <? 3 then SUb else scan_field_int uint8_ty cw sse (firstn 3 s) s.

(** if(begin==end || *begin!=ch) return invalid; ++begin. *)
Definition scan_sep (ch : Z) (s : list Z) : step (list Z) :=
  match s with [] => SFail pc_invalid [] | c :: s' => if c =? ch then SGo s' else SFail pc_invalid s end.

(** addrscn.h 45-96 scn_cnt_define_inaddr_impl. *)
Definition scan_v4 (cw : Z) (sse : bool) (s : list Z) : step (list Z * list Z) :=
  if zlen s <? 7 then SFail pc_invalid s
  else
    let* (a, s) := scan_octet3 cw sse s in
    let* s := scan_sep 46 s in
    let* (b, s) := scan_octet3 cw sse s in
    let* s := scan_sep 46 s in
    if zlen s <? 3 then SFail pc_invalid s
    else
      let* (c, s) := scan_octet3 cw sse s in
      let* s := scan_sep 46 s in
      let* (d, s) := scan_field_int uint8_ty cw sse s s in
      SGo ([a; b; c; d], s).

(** addrscn.h 205-214 scn_cnt_define_port_impl. *)
Definition scan_port (cw : Z) (sse : bool) (s : list Z) : step (Z * list Z) :=
  let* s := scan_sep 58 s in scan_field_int uint16_ty cw sse s s.

(** addrscn.h 252-366 scn_cnt_define_in6addr_4_digits_impl: one group, stored as the host word [t].
    [end_of_file] is the code for a leading ':'. *)
Definition word1 (host : endian) (r0 : Z) : Z := match host with big => r0 | little => Z.shiftl r0 8 end.
Definition word2 (host : endian) (r0 r1 : Z) : Z :=
  match host with big => Z.lor r0 (Z.shiftl r1 8) | little => Z.lor (Z.shiftl r0 8) r1 end.
Definition scan_group (host : endian) (cw : Z) (s : list Z) : step (Z * list Z) :=
  match s with
  | [] => SFail pc_invalid []
  | c0 :: s1 =>
      if c0 =? 58 then SFail pc_end_of_file s
      else match char_digit 16 cw c0 with
      | None => SUb
      | Some None => SFail pc_invalid s
      | Some (Some d0) =>
          let checked v (r : list Z) := if d0 =? 0 then SFail pc_invalid r else SGo (v, r) in
          match s1 with
          | [] => SGo (word1 host d0, [])
          | c1 :: s2 =>
              match char_digit 16 cw c1 with
              | None => SUb
              | Some None => SGo (word1 host d0, s1)
              | Some (Some d1) =>
                  let r0 := wrap 8 (wrap 8 (d0 * 16) + d1) in
                  match s2 with
                  | [] => checked (word1 host r0) []
                  | c2 :: s3 =>
                      match char_digit 16 cw c2 with
                      | None => SUb
                      | Some None => checked (word1 host r0) s2
                      | Some (Some d2) =>
                          match s3 with
                          | [] => checked (word2 host r0 d2) []
                          | c3 :: s4 =>
                              match char_digit 16 cw c3 with
                              | None => SUb
                              | Some None => checked (word2 host r0 d2) s3
                              | Some (Some d3) =>
                                  let r1 := wrap 8 (wrap 8 (d2 * 16) + d3) in
                                  match s4 with
                                  | [] => SGo (word2 host r0 r1, [])
                                  | c4 :: _ =>
                                      match char_digit 16 cw c4 with
                                      | None => SUb
                                      | Some (Some _) => SFail pc_overflow s4
                                      | Some None => SGo (word2 host r0 r1, s4)
                                      end
                                  end
                              end
                          end
                      end
                  end
              end
          end
      end
  end.

(** addrscn.h 417-443 scn_cnt_define_in6addr_nonshorten_impl: the seven separators are read without a length check. *)
Definition no_eof {A} (m : step A) : step A :=
  match m with SFail pc_end_of_file r => SFail pc_invalid r | m => m end.
Fixpoint scan_long (n : nat) (host : endian) (cw : Z) (s : list Z) : step (list Z * list Z) :=
  match n with
  | O => let* (w, s) := no_eof (scan_group host cw s) in SGo ([w], s)
  | S k =>
      let* (w, s) := no_eof (scan_group host cw s) in
      match s with
      | [] => SUb
      | c :: s' => if c =? 58 then let* (ws, r) := scan_long k host cw s' in SGo (w :: ws, r) else SFail pc_invalid s
      end
  end.

(** addrscn.h 368-415 scn_cnt_define_in6addr_shorten_impl, as far as its returns go.  A ':' where a group is expected
    leaves the loop state unchanged (the branch ends in a TODO; shorten_begin_index is never set): it repeats for ever.
    After eight groups the function ends without a return statement. *)
Inductive short_result := SLoops | SReturns (c : parse_code) (rest : list Z) | SNoReturn | SUndef.
Fixpoint scan_short (seg_left : nat) (host : endian) (cw : Z) (s : list Z) : short_result :=
  match seg_left with
  | O => SNoReturn
  | S k =>
      match scan_group host cw s with
      | SUb => SUndef
      | SGo (_, s') => scan_short k host cw s'
      | SFail pc_end_of_file _ => SLoops
      | SFail ec r => SReturns ec r
      end
  end.

(** addrscn.h 452-481 scn_cnt_define_in6addr_impl without allowv6shorten (requirev6full changes nothing). *)
Definition scan_in6_body (host : endian) (cw : Z) (s : list Z) : step (list Z * list Z) :=
  scan_long 7 host cw (skip_space cw s).
Definition scan_in6 (bracket : bool) (host : endian) (cw : Z) (s0 : list Z) : step (list Z * list Z) :=
  let s := skip_space cw s0 in
  if bracket then
    match s with
    | [] => SFail pc_invalid []
    | c :: s' =>
        if c =? 91 then
          let* (ws, s) := scan_in6_body host cw s' in
          match s with
          | [] => SFail pc_invalid []
          | c :: s' => if c =? 93 then SGo (ws, s') else SFail pc_invalid s
          end
        else scan_in6_body host cw s
    end
  else scan_long 7 host cw s.

(** addrscn.h 520-551 scan_contiguous_define for ipv4 with requireport. *)
Definition scan_ipv4 (requireport : bool) (cw : Z) (sse : bool) (s : list Z) : step (list Z * Z * list Z) :=
  let* (a, s) := scan_v4 cw sse s in
  if requireport then let* (p, s) := scan_port cw sse s in SGo (a, p, s) else SGo (a, 0, s).
