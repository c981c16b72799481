(** Specification of scan(in, a1, ..., an): the text of each argument, one after the other. *)
From Verif Require Import Base NumSpec ScanSpec ByteSpec IntPrintModel IntScanModel IntScanProofs CharSpec FindModel FindSpec PropsFind LineModel LineSpec LineProofs StrProofs
  Leb128Model Leb128Spec PropsLeb128 PropsLebe IpSpec ScanDrvModel.
Open Scope Z_scope.

(** A dotted address, with ":port" if the argument wants one. *)
Definition address_text (port : bool) (a b c d p : Z) (t : list Z) : Prop :=
  exists v4 pt, v4_text a b c d v4 /\ is_numeral 10 false p pt /\ t = v4 ++ (if port then 58 :: pt else []).

(** [piece_text a v t tail]: the argument [a] reads the object [v] from the text [t] when [tail] follows it.
    - an integer: white space, a sign, digits of a value that the type can hold (without leading zeros unless the
      argument skips them), and no digit after it; the code units after it are in range, and not the one that runs past
      the digit table (C08);
    - a word: white space, characters that are not white space, and white space or the end after it;
    - a line: anything without a line feed, and a line feed, or the end after a line that is not empty;
    - a character: white space and a character that is not;
    - a string literal: itself;
    - LEB128: an encoding of no more bytes than the type needs;
    - fixed-size integers: the bytes of a value that is not negative;
    - an IPv4 address: the address, with ":port" if the argument wants one. *)
Definition piece_text (a : sarg) (v t tail : list Z) : Prop :=
  match a with
  | AInt cfg =>
      exists ws minus cs ds, t = ws ++ (if minus : bool then [45] else []) ++ cs /\
        2 <= sc_base cfg <= 36 /\ In (sc_cw cfg) [8; 16; 32] /\ In (iw (sc_ty cfg)) [8; 16; 32; 64; 128] /\ sc_shbase cfg = false /\
        (sc_skipzero cfg = true -> sc_sse cfg = false) /\
        Forall c_space ws /\ (sc_noskipws cfg = true -> ws = []) /\ (isigned (sc_ty cfg) = false -> minus = false) /\
        digit_string (sc_base cfg) cs ds /\ ds <> [] /\ (sc_skipzero cfg = false -> no_leading_zero ds) /\
        v = [if minus then - value_of (sc_base cfg) ds else value_of (sc_base cfg) ds] /\ Forall (in_range (sc_ty cfg)) v /\
        (sc_cw cfg = 8 -> Forall is_byte tail) /\ safe_first (sc_base cfg) (sc_cw cfg) tail /\ no_digit_first (sc_base cfg) tail
  | AWord c _ => space_search_ok c /\ text (f_w c) (t ++ tail) /\ plain_text c (t ++ tail) /\ first_word (t ++ tail) v tail
  | ALine c _ => lf_ok c /\ text (f_w c) (t ++ tail) /\ first_line (t ++ tail) v tail
  | AChar c => space_search_ok c /\ text (f_w c) (t ++ tail) /\ plain_text c (t ++ tail) /\
      exists ws x, t = ws ++ [x] /\ Forall C_space ws /\ ~ C_space x /\ v = [x]
  | AMatch lit => t = lit /\ v = []
  | ALeb ty cw _ => leb_type ty /\ leb_units cw (t ++ tail) /\ leb_wf t /\ zlen t <= leb_reserve (iw ty) /\
      v = [leb_denotes (isigned ty) t] /\ Forall (in_range ty) v
  | ABytes _ en cw sz ty => cw = 8 /\ In sz [8; 16; 32; 64; 128] /\ In (iw ty) [8; 16; 32; 64; 128] /\
      exists x, v = [x] /\ in_range ty x /\ 0 <= x < 2 ^ sz /\ t = bytes_of en (Z.to_nat (sz / 8)) x
  | AIp port cw _ => In cw [8; 16; 32] /\ Forall (fun x => 0 <= x < 2 ^ cw) tail /\ no_digit_first 10 tail /\
      exists a b c d p, octet a /\ octet b /\ octet c /\ octet d /\ 0 <= p < 65536 /\ address_text port a b c d p t /\
        v = [a; b; c; d] ++ (if port then [p] else [])
  end.
(** Nothing to read for the argument: the end of the file. *)
Definition nothing_left (a : sarg) (t : list Z) : Prop :=
  match a with
  | AInt cfg => 2 <= sc_base cfg <= 36 /\ In (sc_cw cfg) [8; 16; 32] /\ In (iw (sc_ty cfg)) [8; 16; 32; 64; 128] /\
      sc_noskipws cfg = false /\ Forall c_space t
  | AWord c _ | AChar c => space_search_ok c /\ text (f_w c) t /\ plain_text c t /\ Forall C_space t
  | ALine c _ => lf_ok c /\ t = []
  | AMatch lit => lit <> [] /\ t = []
  | ALeb _ _ _ => t = []
  | ABytes _ _ _ sz _ => (length t < Z.to_nat (sz / 8))%nat
  | AIp _ _ _ => t = []
  end.

(** An argument, the object, its text. *)
Definition piece : Type := sarg * list Z * list Z.
Definition args_of (ps : list piece) : list sarg := map (fun p => fst (fst p)) ps.
Definition objects_of (ps : list piece) : list (list Z) := map (fun p => snd (fst p)) ps.
Definition texts_of (ps : list piece) : list Z := concat (map snd ps).
Fixpoint pieces_ok (ps : list piece) (rest : list Z) : Prop :=
  match ps with
  | [] => True
  | (a, v, t) :: ps' => piece_text a v t (texts_of ps' ++ rest) /\ pieces_ok ps' rest
  end.

(** A buffer of the stream ends after the first [n] characters of its text, and more text comes. *)
Definition cut_after (buf : list Z) (src : list (list Z)) (n : nat) : Prop :=
  exists s1 s2, src = s1 ++ s2 /\ s2 <> [] /\ n = length (buf ++ concat s1).
(** Where a buffer must not end in the text of an argument: directly after an integer that is the single digit 0, inside
    a literal, inside or directly after an address. *)
Definition bad_place (a : sarg) (v t : list Z) (n : nat) : Prop :=
  match a with
  | AInt cfg => sc_skipzero cfg = false /\ v = [0] /\ n = length t
  | AMatch _ => (0 < n < length t)%nat
  | AIp _ _ _ => (0 < n <= length t)%nat
  | _ => False
  end.
Definition well_cut (ps : list piece) (buf : list Z) (src : list (list Z)) : Prop :=
  forall ps1 a v t ps2 n, ps = ps1 ++ (a, v, t) :: ps2 -> bad_place a v t n -> ~ cut_after buf src (length (texts_of ps1) + n).
