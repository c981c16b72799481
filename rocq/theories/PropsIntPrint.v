(** Properties C01-C05 (printing half).  Statements only; proofs are in the *Proofs files. *)
From Coq Require Import String.
From Verif Require Import Base NumSpec IntPrintModel IntPrintProofs JeaiiiProofs IntPrintCorrect IntSizeProofs IntInjProofs.

(** The 128-bit algorithm splits the value at 2^64 only for bases 2, 4 and 16, and forgets uppercase. *)
Lemma config_of fl ty :
  (iw ty = 128 -> pf_base fl = 10 \/ (In (pf_base fl) [2; 4; 16] /\ pf_upper fl = false)) -> config_ok fl ty.
Proof.
  intros H E. destruct (H E) as [|[Hb Hu]]; [left; assumption|right]. split; [|intros; assumption].
  unfold base128_ok. simpl in Hb. intuition.
Qed.

(** C01: an unsigned integer of up to 64 bits, in any base 2..36, prints as its canonical numeral. *)
Theorem C01_unsigned_prints_numeral : forall w base upper u,
  In w [8; 16; 32; 64] -> 2 <= base <= 36 -> 0 <= u < 2 ^ w ->
  exists num, print_int (mk_pflags base false false false upper false) (mk_int w false) u = Some num
              /\ is_numeral base upper u num.
Proof.
  intros w base upper u Hw Hb Hu.
  destruct (print_int_correct (mk_pflags base false false false upper false) (mk_int w false) u) as (num & E & N);
    cbn [iw isigned pf_base pf_full pf_upper pf_showpos pf_showbase] in *; auto.
  - simpl in *; tauto.
  - intros E. cbn [iw] in E. subst w. simpl in Hw. intuition discriminate.
  - unfold in_range, int_min, int_max; cbn [iw isigned]; lia.
  - exists num. rewrite Z.abs_eq in N by lia. split; [|exact N]. rewrite E. unfold sign_text. destruct (Z.ltb_spec u 0); [lia|reflexivity].
Qed.
Print Assumptions C01_unsigned_prints_numeral.

(** C01 for 128-bit integers: only bases 10, 2, 4 and lowercase 16 (see the refutation below). *)
Theorem C01_unsigned128_prints_numeral_partial : forall base upper u,
  base = 10 \/ (In base [2; 4; 16] /\ upper = false) -> 0 <= u < 2 ^ 128 ->
  exists num, print_int (mk_pflags base false false false upper false) (mk_int 128 false) u = Some num
              /\ is_numeral base upper u num.
Proof.
  intros base upper u Hb Hu.
  destruct (print_int_correct (mk_pflags base false false false upper false) (mk_int 128 false) u) as (num & E & N);
    cbn [iw isigned pf_base pf_full pf_upper pf_showpos pf_showbase] in *.
  - simpl; tauto.
  - destruct Hb as [->|[Hb _]]; [lia|]. simpl in Hb. lia.
  - apply config_of. intros _. exact Hb.
  - unfold in_range, int_min, int_max; cbn [iw isigned]; lia.
  - exists num. rewrite Z.abs_eq in N by lia. split; [|exact N]. rewrite E. unfold sign_text. destruct (Z.ltb_spec u 0); [lia|reflexivity].
Qed.
Print Assumptions C01_unsigned128_prints_numeral_partial.

(** The English C01 is false for 128-bit integers: 255 in uppercase hexadecimal prints "ff". *)
Theorem C01_uppercase_hex_128_refuted : exists num,
  print_int (mk_pflags 16 false false false true false) (mk_int 128 false) 255 = Some num
  /\ is_numeral 16 true 255 (text "FF") /\ num <> text "FF".
Proof.
  exists (text "ff"). split; [exact upper_hex_128_refuted|]. split; [|vm_compute; discriminate].
  exists [15; 15]. repeat split; [repeat constructor; lia|simpl; lia].
Qed.
Print Assumptions C01_uppercase_hex_128_refuted.

(** Also, in base 8 some 128-bit value prints something that is not its numeral. *)
Theorem C01_octal_128_refuted : exists u, 0 <= u < 2 ^ 128 /\
  (print_int (mk_pflags 8 false false false false false) (mk_int 128 false) u = None \/
   exists num, print_int (mk_pflags 8 false false false false false) (mk_int 128 false) u = Some num
               /\ exists good, is_numeral 8 false u good /\ num <> good).
Proof.
  exists (2 ^ 66). split; [lia|].
  destruct (print_int (mk_pflags 8 false false false false false) (mk_int 128 false) (2 ^ 66)) as [num|] eqn:E; [|left; reflexivity].
  right. exists num. split; [reflexivity|]. exists (text "10000000000000000000000"). split.
  - exists [1;0;0;0;0;0;0;0;0;0;0;0;0;0;0;0;0;0;0;0;0;0;0]. repeat split; [repeat constructor; lia|simpl; lia].
  - vm_compute in E. injection E as <-. vm_compute. discriminate.
Qed.
Print Assumptions C01_octal_128_refuted.

Example C01_nonvacuous : print_int (mk_pflags 16 false false false true false) (mk_int 32 false) 48879 = Some (text "BEEF").
Proof. vm_compute. reflexivity. Qed.

(** C02: the multiply-shift decimal routine produces the canonical decimal numeral, for every width. *)
Theorem C02_fast_decimal_is_numeral : forall w n, In w [8; 16; 32; 64; 128] -> 0 <= n < 2 ^ w ->
  exists txt, jeaiii_main w n = Some txt /\ is_numeral 10 false n txt.
Proof.
  intros w n Hw Hn. destruct (jeaiii_main_spec w n Hw Hn) as (len & D & ->).
  eexists. split; [reflexivity|]. apply digit_count_numeral; [lia|lia|exact D].
Qed.
Print Assumptions C02_fast_decimal_is_numeral.

(** C02: and for machine words it is character for character the output of the division loop. *)
Theorem C02_fast_decimal_equals_division : forall w n, In w [8; 16; 32; 64] -> 0 <= n < 2 ^ w ->
  jeaiii_main w n = main_impl w 10 false n (chars_len w 10 n) /\ jeaiii_main w n <> None.
Proof. exact jeaiii_is_division. Qed.
Print Assumptions C02_fast_decimal_equals_division.

Example C02_nonvacuous : jeaiii_main 64 18446744073709551615 = Some (text "18446744073709551615").
Proof. vm_compute. reflexivity. Qed.

(** C03: unsigned values, and signed values without [full] whose magnitude is not an exact power of
    the base equal to |INT_MIN|, never exceed the declared reserve. *)
Theorem C03_reserve_enough_partial : forall fl ty t out,
  In (iw ty) [8; 16; 32; 64; 128] -> 2 <= pf_base fl <= 36 ->
  (iw ty = 128 -> pf_base fl = 10 \/ (In (pf_base fl) [2; 4; 16] /\ pf_upper fl = false)) ->
  in_range ty t -> (isigned ty = true -> pf_full fl = false) ->
  (Z.abs t <= int_max ty \/ forall k, 0 <= k -> Z.abs t <> pf_base fl ^ k) ->
  print_int fl ty t = Some out -> Z.of_nat (length out) <= reserved_size fl ty.
Proof. intros fl ty t out Hw Hb Hc. apply reserve_enough; auto. apply config_of; exact Hc. Qed.
Print Assumptions C03_reserve_enough_partial.

(** C03 in base 10 (what plain print uses): no exception at all. *)
Theorem C03_reserve_enough_decimal : forall fl ty t out,
  In (iw ty) [8; 16; 32; 64; 128] -> pf_base fl = 10 -> pf_full fl = false -> in_range ty t ->
  print_int fl ty t = Some out -> Z.of_nat (length out) <= reserved_size fl ty.
Proof. intros fl ty t out Hw Hb Hf Ht. apply reserve_enough_dec; auto. Qed.
Print Assumptions C03_reserve_enough_decimal.

(** C03 fails: the binary text of INT_MIN is one character longer than the reserve. *)
Theorem C03_reserve_refuted : exists fl ty t out, In (iw ty) [8; 16; 32; 64; 128] /\ 2 <= pf_base fl <= 36
  /\ in_range ty t /\ print_int fl ty t = Some out /\ reserved_size fl ty < Z.of_nat (length out).
Proof. exact reserve_refuted. Qed.
Print Assumptions C03_reserve_refuted.

Example C03_nonvacuous : in_range (mk_int 64 true) (-9223372036854775808) /\
  print_int default_pflags (mk_int 64 true) (-9223372036854775808) = Some (text "-9223372036854775808").
Proof. split; [unfold in_range; vm_compute; split; discriminate|vm_compute; reflexivity]. Qed.

(** C04: sign, then base prefix, then the numeral of the magnitude; INT_MIN included. *)
Theorem C04_sign_prefix_magnitude : forall fl ty t,
  In (iw ty) [8; 16; 32; 64; 128] -> 2 <= pf_base fl <= 36 -> pf_full fl = false ->
  (iw ty = 128 -> pf_base fl = 10 \/ (In (pf_base fl) [2; 4; 16] /\ pf_upper fl = false)) ->
  in_range ty t ->
  exists num, is_numeral (pf_base fl) (pf_upper fl) (Z.abs t) num /\
    print_int fl ty t = Some (sign_text (pf_showpos fl) t
      ++ (if pf_showbase fl then base_prefix (pf_base fl) (pf_upshowbase fl) else []) ++ num).
Proof.
  intros fl ty t Hw Hb Hf Hc Ht.
  destruct (print_int_correct fl ty t Hw Hb (config_of fl ty Hc) Ht) as (num & E & N). rewrite Hf in N.
  exists num. split; assumption.
Qed.
Print Assumptions C04_sign_prefix_magnitude.

(** C04, [full]: the digits are zero padded to the digit count of the type's maximum. *)
Theorem C04_full_pads : forall fl ty t,
  In (iw ty) [8; 16; 32; 64; 128] -> 2 <= pf_base fl <= 36 -> pf_full fl = true ->
  (iw ty = 128 -> pf_base fl = 10 \/ (In (pf_base fl) [2; 4; 16] /\ pf_upper fl = false)) ->
  in_range ty t ->
  exists n num, pf_base fl ^ (n - 1) <= 2 ^ iw ty - 1 < pf_base fl ^ n /\
    is_padded_numeral (pf_base fl) (pf_upper fl) n (Z.abs t) num /\
    print_int fl ty t = Some (sign_text (pf_showpos fl) t
      ++ (if pf_showbase fl then base_prefix (pf_base fl) (pf_upshowbase fl) else []) ++ num).
Proof.
  intros fl ty t Hw Hb Hf Hc Ht.
  destruct (print_int_correct fl ty t Hw Hb (config_of fl ty Hc) Ht) as (num & E & N). rewrite Hf in N.
  exists (cal_max_int_size (mk_int (iw ty) false) (pf_base fl)), num. split; [|split; assumption].
  destruct (cal_max_int_size_spec (mk_int (iw ty) false) (pf_base fl) Hw ltac:(lia)) as (A & B & C).
  unfold int_max in *; cbn [iw isigned] in *. split; [|exact B]. destruct C as [->|C]; [|exact C].
  simpl (1 - 1). rewrite Z.pow_0_r. apply width_cases in Hw as [-> |[-> |[-> |[-> | ->]]]]; vm_compute; discriminate.
Qed.
Print Assumptions C04_full_pads.

Example C04_nonvacuous : print_int (mk_pflags 16 true true true true true) (mk_int 32 true) (-48879) = Some (text "-0X0000BEEF").
Proof. vm_compute. reflexivity. Qed.

(** C05 (first half): two different integers never print the same text, under any flags. *)
Theorem C05_print_injective : forall fl ty a b,
  In (iw ty) [8; 16; 32; 64; 128] -> 2 <= pf_base fl <= 36 ->
  (iw ty = 128 -> pf_base fl = 10 \/ (In (pf_base fl) [2; 4; 16] /\ pf_upper fl = false)) ->
  in_range ty a -> in_range ty b -> print_int fl ty a = print_int fl ty b -> a = b.
Proof. intros fl ty a b Hw Hb Hc. apply print_int_injective; auto. apply config_of; exact Hc. Qed.
Print Assumptions C05_print_injective.

(** C40 (integer half): without [full], and unless a "+" request meets a negative value, the size
    announced to concat is the size printed. *)
Theorem C40_integer_precise_size_partial : forall fl ty t out,
  In (iw ty) [8; 16; 32; 64; 128] -> 2 <= pf_base fl <= 36 -> pf_full fl = false ->
  (iw ty = 128 -> pf_base fl = 10 \/ (In (pf_base fl) [2; 4; 16] /\ pf_upper fl = false)) ->
  in_range ty t -> (pf_showpos fl = true -> 0 <= t) ->
  print_int fl ty t = Some out -> precise_size fl ty t = Z.of_nat (length out).
Proof. intros fl ty t out Hw Hb Hf Hc Ht Hs. apply precise_size_spec; auto. apply config_of; exact Hc. Qed.
Print Assumptions C40_integer_precise_size_partial.

(** Writing with that announced size lays down the same text, gap-free, except for a signed decimal. *)
Theorem C40_integer_precise_text_partial : forall fl ty t,
  In (iw ty) [8; 16; 32; 64; 128] -> 2 <= pf_base fl <= 36 -> pf_full fl = false ->
  (iw ty = 128 -> pf_base fl = 10 \/ (In (pf_base fl) [2; 4; 16] /\ pf_upper fl = false)) ->
  in_range ty t -> (pf_showpos fl = true -> 0 <= t) -> (pf_base fl = 10 -> pf_showpos fl = false /\ 0 <= t) ->
  layout_of (print_precise fl ty (precise_size fl ty t) t) = print_int fl ty t.
Proof. intros fl ty t Hw Hb Hf Hc Ht Hs H10. apply print_precise_spec; auto. apply config_of; exact Hc. Qed.
Print Assumptions C40_integer_precise_text_partial.

(** C40 fails for a negative 64-bit decimal: the announced size is 2, the text written is "-05". *)
Theorem C40_negative_decimal_refuted : exists out,
  print_int default_pflags (mk_int 64 true) (-5) = Some out /\ out = text "-5"
  /\ precise_size default_pflags (mk_int 64 true) (-5) = 2
  /\ layout_of (print_precise default_pflags (mk_int 64 true) 2 (-5)) = Some (text "-05").
Proof. exact precise_refuted. Qed.
Print Assumptions C40_negative_decimal_refuted.

(** C40 fails for [full]: the announced size of a 20 digit output is 0. *)
Theorem C40_full_refuted : exists out,
  print_int (mk_pflags 10 false false false false true) (mk_int 64 false) 7 = Some out
  /\ Z.of_nat (length out) = 20 /\ precise_size (mk_pflags 10 false false false false true) (mk_int 64 false) 7 = 0.
Proof. exact precise_full_refuted. Qed.
Print Assumptions C40_full_refuted.

Example C40_nonvacuous :
  layout_of (print_precise default_pflags (mk_int 64 false) 15 123456789012345) = Some (text "123456789012345").
Proof. vm_compute. reflexivity. Qed.
