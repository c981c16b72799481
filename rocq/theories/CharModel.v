From Verif Require Import Base.
Open Scope Z_scope.

(** * Character classification (include/fast_io_core_impl/char_category.h)

    A code unit of a [w]-bit character type is modelled by its value as an unsigned number below
    2^w (the cast to make_unsigned_t that the functions below start with; for the switch functions
    every case label is below 128, so that a negative [char] matches no label, as its unsigned
    image does not).  The execution character set is ASCII-based; the EBCDIC branches and
    the branches for wide_is_none_utf_endian are not modelled.  The lists of case
    labels were extracted from the file, where the three switches (char, wchar_t, other) of each
    function list the same characters. *)

(** A switch of which all the labels return true and the default returns false. *)
Definition switch (ch : Z) (cases : list Z) : bool := existsb (Z.eqb ch) cases.

(** char_category.h 6-15 is_c_alnum: the case labels of its switch. *)
Definition alnum_cases : list Z :=
  [48; 49; 50; 51; 52; 53; 54; 55; 56; 57; 65; 66; 67; 68; 69; 70; 71; 72; 73; 74; 75; 76; 77; 78; 79; 80; 81; 82; 83; 84; 85; 86; 87; 88; 89; 90; 97; 98; 99; 100; 101; 102; 103; 104; 105; 106; 107; 108; 109; 110; 111; 112; 113; 114; 115; 116; 117; 118; 119; 120; 121; 122].
Definition is_c_alnum (ch : Z) : bool := switch ch alnum_cases.

(** char_category.h 17-26 is_c_alpha: the case labels of its switch. *)
Definition alpha_cases : list Z :=
  [65; 66; 67; 68; 69; 70; 71; 72; 73; 74; 75; 76; 77; 78; 79; 80; 81; 82; 83; 84; 85; 86; 87; 88; 89; 90; 97; 98; 99; 100; 101; 102; 103; 104; 105; 106; 107; 108; 109; 110; 111; 112; 113; 114; 115; 116; 117; 118; 119; 120; 121; 122].
Definition is_c_alpha (ch : Z) : bool := switch ch alpha_cases.

(** char_category.h 28-37 is_c_lower: the case labels of its switch. *)
Definition lower_cases : list Z :=
  [97; 98; 99; 100; 101; 102; 103; 104; 105; 106; 107; 108; 109; 110; 111; 112; 113; 114; 115; 116; 117; 118; 119; 120; 121; 122].
Definition is_c_lower (ch : Z) : bool := switch ch lower_cases.

(** char_category.h 39-48 is_c_upper: the case labels of its switch. *)
Definition upper_cases : list Z :=
  [65; 66; 67; 68; 69; 70; 71; 72; 73; 74; 75; 76; 77; 78; 79; 80; 81; 82; 83; 84; 85; 86; 87; 88; 89; 90].
Definition is_c_upper (ch : Z) : bool := switch ch upper_cases.

(** char_category.h 50-59 is_c_digit: the case labels of its switch. *)
Definition digit_cases : list Z :=
  [48; 49; 50; 51; 52; 53; 54; 55; 56; 57].
Definition is_c_digit (ch : Z) : bool := switch ch digit_cases.

(** char_category.h 61-70 is_c_xdigit: the case labels of its switch. *)
Definition xdigit_cases : list Z :=
  [48; 49; 50; 51; 52; 53; 54; 55; 56; 57; 97; 98; 99; 100; 101; 102; 65; 66; 67; 68; 69; 70].
Definition is_c_xdigit (ch : Z) : bool := switch ch xdigit_cases.

(** char_category.h 72-81 is_c_punct: the case labels of its switch. *)
Definition punct_cases : list Z :=
  [33; 34; 35; 36; 37; 38; 39; 40; 41; 42; 43; 44; 45; 46; 47; 58; 59; 60; 61; 62; 63; 64; 91; 92; 93; 94; 95; 96; 123; 124; 125; 126].
Definition is_c_punct (ch : Z) : bool := switch ch punct_cases.

(** char_category.h 83-92 is_c_graph: the case labels of its switch. *)
Definition graph_cases : list Z :=
  [48; 49; 50; 51; 52; 53; 54; 55; 56; 57; 65; 66; 67; 68; 69; 70; 71; 72; 73; 74; 75; 76; 77; 78; 79; 80; 81; 82; 83; 84; 85; 86; 87; 88; 89; 90; 97; 98; 99; 100; 101; 102; 103; 104; 105; 106; 107; 108; 109; 110; 111; 112; 113; 114; 115; 116; 117; 118; 119; 120; 121; 122; 33; 34; 35; 36; 37; 38; 39; 40; 41; 42; 43; 44; 45; 46; 47; 58; 59; 60; 61; 62; 63; 64; 91; 92; 93; 94; 95; 96; 123; 124; 125; 126].
Definition is_c_graph (ch : Z) : bool := switch ch graph_cases.

(** char_category.h 94-103 is_c_print: the case labels of its switch. *)
Definition print_cases : list Z :=
  [48; 49; 50; 51; 52; 53; 54; 55; 56; 57; 65; 66; 67; 68; 69; 70; 71; 72; 73; 74; 75; 76; 77; 78; 79; 80; 81; 82; 83; 84; 85; 86; 87; 88; 89; 90; 97; 98; 99; 100; 101; 102; 103; 104; 105; 106; 107; 108; 109; 110; 111; 112; 113; 114; 115; 116; 117; 118; 119; 120; 121; 122; 33; 34; 35; 36; 37; 38; 39; 40; 41; 42; 43; 44; 45; 46; 47; 58; 59; 60; 61; 62; 63; 64; 91; 92; 93; 94; 95; 96; 123; 124; 125; 126; 32].
Definition is_c_print (ch : Z) : bool := switch ch print_cases.

(** char_category.h 107-114, 116-123: to_c_upper_ascii_impl, to_c_lower_ascii_impl (char32_t arithmetic). *)
Definition to_c_upper_ascii (ch : Z) : Z :=
  let res := (ch - 97) mod 2 ^ 32 in
  if res <? 26 then (res + 65) mod 2 ^ 32 else ch.
Definition to_c_lower_ascii (ch : Z) : Z :=
  let res := (ch - 65) mod 2 ^ 32 in
  if res <? 26 then (res + 97) mod 2 ^ 32 else ch.

(** char_category.h 127-137, 139-149: to_c_lower, to_c_upper; the result is cast back to the type. *)
Definition to_c_lower (w ch : Z) : Z := to_c_lower_ascii ch mod 2 ^ w.
Definition to_c_upper (w ch : Z) : Z := to_c_upper_ascii ch mod 2 ^ w.

(** char_category.h 185-212 is_c_space_impl<false> on an unsigned type of [w] bits. *)
Definition is_c_space_impl (w ch : Z) : bool := (ch =? 32) || ((ch - 9) mod 2 ^ w <? 5).

(** char_category.h 214-221 is_c_space_tb_impl<false,char8_t>: the table of 256 entries. *)
Definition is_c_space_tb : list bool := map (fun i => is_c_space_impl 8 (Z.of_nat i)) (seq 0 256).

(** char_category.h 228-250 is_c_space: the table for one-byte types, otherwise through char32_t. *)
Definition is_c_space (w ch : Z) : bool :=
  if w =? 8 then nth (Z.to_nat ch) is_c_space_tb false else is_c_space_impl 32 ch.

(** char_category.h 266-274, 309-328 is_html_whitespace. *)
Definition is_html_whitespace (ch : Z) : bool := switch ch [9; 10; 12; 13; 32].

(** char_category.h 330-360 is_c_halfwidth: a type of fewer than 32 bits returns the character itself,
    converted to bool. *)
Definition is_c_halfwidth (w ch : Z) : bool :=
  if w <? 32 then negb (ch =? 0) else (ch - 33) mod 2 ^ 32 <? 94.

(** char_category.h 362-392 is_c_fullwidth. *)
Definition is_c_fullwidth (w ch : Z) : bool :=
  if w <? 32 then negb (ch =? 0) else (ch - 65281) mod 2 ^ 32 <? 94.

(** char_category.h 399-439 to_c_halfwidth. *)
Definition to_c_halfwidth (w ch : Z) : Z :=
  if w <? 32 then ch
  else let umav := (ch - 65281) mod 2 ^ 32 in
       if umav <? 94 then (umav + 33) mod 2 ^ 32 else ch.
