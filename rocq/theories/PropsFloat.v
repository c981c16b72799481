(** Printing floating point numbers: the decimal digits (include/fast_io_unit/floating/roundtrip.h). *)
From Coq Require Import QArith Qabs Qpower Lqa.
From Verif Require Import Base Outcome FloatModel FloatSpec FloatRoundProofs FloatBestProofs FloatCertProofs FloatImplProofs FloatImpl32Proofs FloatPowProofs.
Local Open Scope Z_scope.

(** * C57: a double is printed as the best decimal that reads back as it *)

(** Every finite double that is not zero and not a power of two above the least normal number: the digits are
    the fewest that read back as the same double (IEEE 754, nearest, ties to even), the closest of those, and
    do not end in a zero. *)
Theorem C57_double_partial : forall mf ef, 0 <= mf < 2 ^ 52 -> 0 <= ef < 2047 -> (0 < mf \/ ef = 1) ->
  exists d e, dragonbox_impl 64 binary64 mf ef = Done (d, e) /\
    best_decimal 53 (-1074) d e (significand 52 mf ef) (exponent 52 1023 ef) /\ d mod 10 <> 0.
Proof. exact double_best. Qed.
Print Assumptions C57_double_partial.

(** The powers of two above that: the digits read back except for these exponent fields. *)
Definition lost_double_powers : list Z :=
  [4; 5; 6; 10; 11; 12; 16; 21; 22; 61; 62; 63; 64; 65; 66; 75; 98; 99;
   100; 101; 102; 131; 138; 147; 148; 165; 198; 207; 208; 209; 210; 211;
   212; 213; 214; 215; 221; 231; 232; 233; 234; 235; 243; 244; 245; 246;
   247; 248; 249; 250; 251; 261; 262; 263; 264; 271; 288; 289; 290; 291;
   304; 317; 318; 328; 334; 361; 370; 371; 394; 403; 404; 405; 406; 407;
   437; 438; 439; 440; 472; 473; 474; 493; 494; 510; 514; 515; 516; 517;
   527; 533; 534; 535; 536; 537; 546; 547; 580; 590; 602; 603; 613; 622;
   623; 630; 639; 640; 657; 658; 659; 660; 672; 673; 680; 686; 702; 703;
   726; 727; 756; 765; 766; 771; 772; 799; 806; 826; 836; 841; 842; 869;
   883; 925; 926; 930; 931; 932; 933; 934; 935; 941; 942; 946; 955; 979;
   998; 999; 1087; 1088; 1089; 1090; 1091; 1108; 1112; 1131; 1145; 1155;
   1156; 1157; 1158; 1181; 1188; 1194; 1195; 1205; 1206; 1207; 1208;
   1238; 1250; 1251; 1283; 1284; 1291; 1298; 1310; 1311; 1328; 1329;
   1330; 1331; 1360; 1361; 1362; 1363; 1364; 1368; 1383; 1384; 1393;
   1394; 1395; 1396; 1397; 1401; 1409; 1410; 1414; 1421; 1428; 1442;
   1443; 1480; 1487; 1499; 1500; 1501; 1502; 1503; 1504; 1520; 1533;
   1557; 1558; 1559; 1560; 1567; 1576; 1577; 1583; 1592; 1593; 1597;
   1617; 1625; 1626; 1675; 1676; 1692; 1693; 1732; 1733; 1758; 1759;
   1786; 1787; 1788; 1789; 1808; 1809; 1810; 1811; 1812; 1826; 1839;
   1885; 1886; 1887; 1888; 1889; 1902; 1917; 1918; 1919; 1999; 2025].
Lemma powers_checked : forallb (fun ef => Bool.eqb (power_ok 53 1023 ef (dragonbox_main binary64 0 ef)) (negb (existsb (Z.eqb ef) lost_double_powers)))
  (e2_range 2 2046) = true.
Proof. vm_cast_no_check (eq_refl true). Qed.
Lemma existsb_In l x : existsb (Z.eqb x) l = true <-> In x l.
Proof.
  rewrite existsb_exists. split; [intros (y & H & E); apply Z.eqb_eq in E; subst; assumption|].
  intros H. exists x. split; [assumption|apply Z.eqb_refl].
Qed.
Theorem C57_double_powers_of_two_refuted : forall ef, 2 <= ef < 2047 ->
  exists d e, dragonbox_impl 64 binary64 0 ef = Done (d, e) /\
    (rounds_to 53 (-1074) (dec d e) (significand 52 0 ef) (exponent 52 1023 ef) <-> ~ In ef lost_double_powers).
Proof.
  intros ef H. destruct (double_main 0 ef ltac:(lia) ltac:(lia) ltac:(lia)) as (c & e10 & E & Hc).
  destruct (impl_strip binary64 0 ef c e10 ltac:(right; reflexivity) E Hc) as (d & e & I & St & _).
  exists d, e. split; [assumption|].
  pose proof powers_checked as C. rewrite forallb_forall in C. specialize (C ef (e2_range_in 2 2046 ef ltac:(lia))).
  apply eqb_prop in C. unfold power_ok in C. rewrite E in C.
  assert (S : significand 52 0 ef = 2 ^ (53 - 1)) by (unfold significand; destruct (Z.eqb_spec ef 0); [lia|reflexivity]).
  rewrite S, (asym_rounds 53 (-1074) (exponent 52 1023 ef)) by (unfold exponent; lia).
  rewrite (stripped_interval 53 _ c e10 d e St), <- asymb_ok, <- asym_fast_ok by lia. change (52 : Z) with (53 - 1). rewrite C, negb_true_iff, <- existsb_In, not_true_iff_false. reflexivity.
Qed.
Print Assumptions C57_double_powers_of_two_refuted.

(** On a build with a 32-bit std::size_t the same number is printed, but a zero can be left at its end. *)
Theorem C57_double_32bit_partial : forall mf ef d e, 0 <= mf < 2 ^ 52 -> 0 <= ef < 2047 -> (0 < mf \/ 0 < ef) ->
  dragonbox_impl 64 binary64 mf ef = Done (d, e) ->
  dragonbox_impl 32 binary64 mf ef = Done (d, e) \/ dragonbox_impl 32 binary64 mf ef = Done (10 * d, e - 1).
Proof.
  intros mf ef d e Hm He Hz I. destruct (double_main mf ef Hm He Hz) as (c & e10 & E & Hc).
  apply (impl32_same binary64 mf ef c e10 d e); [reflexivity|assumption..].
Qed.
Print Assumptions C57_double_32bit_partial.

(** 1.0 has one digit in the 64-bit build, two in the 32-bit build. *)
Theorem C57_double_32bit_refuted :
  dragonbox_impl 64 binary64 0 1023 = Done (1, 0) /\ dragonbox_impl 32 binary64 0 1023 = Done (10, -1).
Proof. split; vm_compute; reflexivity. Qed.
Print Assumptions C57_double_32bit_refuted.

(** 0.1, the least double and the largest; 2^64 prints digits that read back as another number. *)
Example C57_example :
  dragonbox_impl 64 binary64 2702159776422298 1019 = Done (1, -1) /\
  dragonbox_impl 64 binary64 1 0 = Done (5, -324) /\
  dragonbox_impl 64 binary64 (2 ^ 52 - 1) 2046 = Done (17976931348623157, 292) /\
  dragonbox_impl 64 binary64 0 1087 = Done (1844674407370955, 4) /\ In 1087 lost_double_powers.
Proof. repeat split; try (vm_compute; reflexivity). apply existsb_In. vm_compute. reflexivity. Qed.

(** * C58: a float is printed as the best decimal that reads back as it *)

(** The unit of the least significant bit is 2^f; let 10^t be the greatest power of ten not above it.  Every
    float that is not zero and not a power of two above the least normal number, and whose value is farther than
    10^t / 10 from the middle of two neighbouring multiples of 10^t, is printed as the best decimal. *)
Theorem C58_float_partial : forall mf ef t, 0 <= mf < 2 ^ 23 -> 0 <= ef < 255 -> (0 < mf \/ ef = 1) ->
  let m := significand 23 mf ef in let f := exponent 23 127 ef in
  (dec 1 t <= bin 1 f)%Q -> (bin 1 f < dec 1 (t + 1))%Q ->
  (forall n, (dec 1 (t - 1) < Qabs (bin m f - dec (10 * n + 5) (t - 1)))%Q) ->
  exists d e, dragonbox_impl 64 binary32 mf ef = Done (d, e) /\ best_decimal 24 (-149) d e m f /\ d mod 10 <> 0.
Proof.
  intros mf ef t Hm He Hz m f T1 T2 Far. destruct (float_result mf ef Hm He Hz) as (d & e & I & N & _ & [B|B]).
  - exists d, e. split; [assumption|]. split; assumption.
  - exfalso. destruct (B t T1 T2) as [[n Hn] _]. specialize (Far n). fold m in Hn. fold f in Hn. lra.
Qed.
Print Assumptions C58_float_partial.

(** Near such a middle the wrong neighbour may be taken; the digits still read back if 2^f >= 1.2 * 10^t. *)
Theorem C58_float_roundtrip_partial : forall mf ef t, 0 <= mf < 2 ^ 23 -> 0 <= ef < 255 -> (0 < mf \/ ef = 1) ->
  let m := significand 23 mf ef in let f := exponent 23 127 ef in
  (dec 12 (t - 1) <= bin 1 f)%Q -> (bin 1 f < dec 1 (t + 1))%Q ->
  exists d e, dragonbox_impl 64 binary32 mf ef = Done (d, e) /\ rounds_to 24 (-149) (dec d e) m f /\ d mod 10 <> 0.
Proof.
  intros mf ef t Hm He Hz m f T1 T2. destruct (float_result mf ef Hm He Hz) as (d & e & I & N & _ & [B|B]).
  - exists d, e. split; [assumption|]. split; [apply B|assumption].
  - exists d, e. split; [assumption|]. split; [|assumption]. apply (B t); try assumption.
    fold f. apply Qle_trans with (dec 12 (t - 1)); [|assumption].
    rewrite (dec_shift 1 (t - 1) t) by lia. apply dec_le. replace (t - (t - 1)) with 1 by lia. lia.
Qed.
Print Assumptions C58_float_roundtrip_partial.

(** Neither holds for every float: 16953026560 = 16555690 * 2^10 is printed as 16953026000, which is nearer to
    the float below. *)
Theorem C58_float_refuted :
  significand 23 8167082 160 = 16555690 /\ exponent 23 127 160 = 10 /\
  dragonbox_impl 64 binary32 8167082 160 = Done (16953026, 3) /\
  ~ rounds_to 24 (-149) (dec 16953026 3) 16555690 10.
Proof.
  split; [reflexivity|]. split; [reflexivity|]. split; [vm_compute; reflexivity|].
  intros [_ R]. specialize (R 16555689 10 ltac:(split; lia) ltac:(vm_compute; discriminate)).
  destruct R as [R|[R _]]; [apply Qlt_not_le in R; apply R; vm_compute; discriminate|vm_compute in R; discriminate].
Qed.
Print Assumptions C58_float_refuted.

(** Powers of two. *)
Definition lost_float_powers : list Z :=
  [24; 30; 57; 67; 80; 152; 153; 172; 173; 183; 202; 203; 209; 213; 214; 215; 216; 217; 218; 219; 220; 221; 222; 223; 224].
Lemma float_powers_checked : forallb (fun ef =>
  match dragonbox_impl 64 binary32 0 ef with Done (d, e10) =>
    Bool.eqb (asymb 24 (exponent 23 127 ef) d e10) (negb (existsb (Z.eqb ef) lost_float_powers)) | _ => false end)
  (e2_range 2 254) = true.
Proof. vm_compute. reflexivity. Qed.
Theorem C58_float_powers_of_two_refuted : forall ef, 2 <= ef < 255 ->
  exists d e, dragonbox_impl 64 binary32 0 ef = Done (d, e) /\
    (rounds_to 24 (-149) (dec d e) (significand 23 0 ef) (exponent 23 127 ef) <-> ~ In ef lost_float_powers).
Proof.
  intros ef H. pose proof float_powers_checked as C. rewrite forallb_forall in C. specialize (C ef (e2_range_in 2 254 ef ltac:(lia))).
  destruct (dragonbox_impl 64 binary32 0 ef) as [[d e]| |]; try discriminate.
  exists d, e. split; [reflexivity|]. apply eqb_prop in C.
  assert (S : significand 23 0 ef = 2 ^ (24 - 1)) by (unfold significand; destruct (Z.eqb_spec ef 0); [lia|reflexivity]).
  rewrite S, (asym_rounds 24 (-149) (exponent 23 127 ef)) by (unfold exponent; lia).
  rewrite <- asymb_ok by lia. rewrite C, negb_true_iff, <- existsb_In, not_true_iff_false. reflexivity.
Qed.
Print Assumptions C58_float_powers_of_two_refuted.

(** 0.1f; 2^25 prints as 33554430.  For the exponent field 123 the unit of the theorem is t = -9. *)
Example C58_example :
  dragonbox_impl 64 binary32 5033165 123 = Done (1, -1) /\
  dragonbox_impl 64 binary32 0 152 = Done (3355443, 1) /\ In 152 lost_float_powers /\
  (dec 1 (-9) <= bin 1 (exponent 23 127 123))%Q /\ (bin 1 (exponent 23 127 123) < dec 1 (-9 + 1))%Q /\
  (dec 12 (-9 - 1) <= bin 1 (exponent 23 127 123))%Q.
Proof.
  repeat split; try (vm_compute; reflexivity); try (vm_compute; discriminate). apply existsb_In. vm_compute. reflexivity.
Qed.
(** The next float after 1 (t = -7) is far from such a middle. *)
Example C58_far_example :
  (dec 1 (-7) <= bin 1 (exponent 23 127 127))%Q /\ (bin 1 (exponent 23 127 127) < dec 1 (-7 + 1))%Q /\
  (forall n, (dec 1 (-7 - 1) < Qabs (bin (significand 23 1 127) (exponent 23 127 127) - dec (10 * n + 5) (-7 - 1)))%Q) /\
  dragonbox_impl 64 binary32 1 127 = Done (10000001, -7).
Proof.
  split; [vm_compute; discriminate|]. split; [vm_compute; reflexivity|]. split; [|vm_compute; reflexivity].
  intros n. set (x := bin (significand 23 1 127) (exponent 23 127 127)). set (u := dec 1 (-7 - 1)).
  assert (X1 : (x - dec 100000005 (-7 - 1) > u)%Q) by (vm_compute; reflexivity).
  assert (X2 : (dec 100000015 (-7 - 1) - x > u)%Q) by (vm_compute; reflexivity).
  destruct (Z_le_gt_dec n 10000000) as [L|L].
  - pose proof (dec_le (10 * n + 5) 100000005 (-7 - 1) ltac:(lia)) as D.
    clearbody x u. destruct (abs_spec (x - dec (10 * n + 5) (-7 - 1))) as [[? ?]|[? ?]]; lra.
  - pose proof (dec_le 100000015 (10 * n + 5) (-7 - 1) ltac:(lia)) as D.
    clearbody x u. destruct (abs_spec (x - dec (10 * n + 5) (-7 - 1))) as [[? ?]|[? ?]]; lra.
Qed.
