(** Properties C90-C92: hexadecimal text of bytes, UUIDs, digests. *)
From Coq Require Import String.
From Coq Require Import List.
From Verif Require Import Base ByteSpec LebeModel ByteProofs HashSpec HashTables HashModel HashCtxProofs HashRunProofs IntPrintModel IntPrintProofs NumSpec HexSpec HexModel PropsHash.
Local Open Scope nat_scope.

Lemma hex_digit up v : (0 <= v < 16)%Z -> hex_value (charliteralofnumber up v) = Some v /\
  (if up then upper_digit else lower_digit) (charliteralofnumber up v).
Proof.
  intros H. assert (In v (zseq 16)) as Hin.
  { unfold zseq. apply in_map_iff. exists (Z.to_nat v). rewrite in_seq. lia. }
  change (zseq 16) with [0; 1; 2; 3; 4; 5; 6; 7; 8; 9; 10; 11; 12; 13; 14; 15]%Z in Hin. unfold upper_digit, lower_digit.
  repeat (destruct Hin as [<- | Hin]; [clear; destruct up; (split; [reflexivity|]); unfold charliteralofnumber; cbn; lia|]). destruct Hin.
Qed.

Lemma pr_df_ok up bs : Forall is_byte bs -> exists t, pr_df up bs = Some t /\ shows (if up then upper else lower) bs t /\ length t = 2 * length bs.
Proof.
  induction 1 as [|b bs Hb _ IH].
  - exists []. cbn. destruct up; cbn; auto.
  - destruct IH as (t & E & Hs & L). unfold is_byte in Hb.
    exists (charliteralofnumber up (b / 16) :: charliteralofnumber up (b mod 16) :: t).
    assert (H1 : (0 <= b / 16 < 16)%Z) by (split; [apply Z.div_pos|apply Z.div_lt_upper_bound]; lia).
    assert (H2 : (0 <= b mod 16 < 16)%Z) by (apply Z.mod_pos_bound; lia).
    destruct (hex_digit up _ H1) as [V1 D1], (hex_digit up _ H2) as [V2 D2].
    split; [|split].
    + cbn [pr_df]. rewrite tb_pair_spec by lia. rewrite E. cbn [map app].
      now rewrite !charliteral_digit_char by lia.
    + assert (EV : forall r, unhex t = Some r -> unhex (charliteralofnumber up (b / 16) :: charliteralofnumber up (b mod 16) :: t) = Some (b :: r)).
      { intros r Er. cbn [unhex]. rewrite V1, V2, Er. rewrite <- Z.div_mod by lia. reflexivity. }
      destruct up; destruct Hs as [U F]; (split; [apply EV; exact U|constructor; [exact D1|constructor; [exact D2|exact F]]]).
    + cbn [length]. lia.
Qed.

(** C90.  hex_encode(first,last) and hex_encode_upper: for every sequence of bytes whose text fits the address space, the text has
    exactly the reserved number of characters, two for each byte, digits of the case asked for, and decoding it gives the bytes. *)
Theorem C90_hex : forall w up bytes, (0 < w)%Z -> Forall is_byte bytes -> (2 * zlen bytes < 2 ^ w)%Z ->
  exists n t, hex_encode w up bytes = Some (n, t) /\ n = zlen t /\ zlen t = (2 * zlen bytes)%Z /\
    shows (if up then upper else lower) bytes t.
Proof.
  intros w up bytes Hw Hb Hn. destruct (pr_df_ok up bytes Hb) as (t & E & Hs & L).
  unfold hex_encode, hex_size. rewrite E. unfold zlen in *.
  assert (HP : (2 ^ w = 2 * 2 ^ (w - 1))%Z) by (rewrite <- Z.pow_succ_r by lia; f_equal; lia).
  assert (HQ : ((2 ^ w - 1) / 2 = 2 ^ (w - 1) - 1)%Z).
  { symmetry. apply Z.div_unique with (r := 1%Z); lia. }
  destruct (Z.ltb_spec ((2 ^ w - 1) / 2) (Z.of_nat (length bytes))); [lia|].
  exists (wrap w (Z.shiftl (Z.of_nat (length bytes)) 1)), t.
  assert (EW : wrap w (Z.shiftl (Z.of_nat (length bytes)) 1) = (2 * Z.of_nat (length bytes))%Z).
  { rewrite Z.shiftl_mul_pow2 by lia. unfold wrap. rewrite Z.mod_small; lia. }
  rewrite EW, L. split; [reflexivity|]. split; [lia|]. split; [lia|exact Hs].
Qed.
Print Assumptions C90_hex.
(** Bytes whose text would not fit terminate the program: nothing is written short. *)
Theorem C90_too_long : forall w up bytes, (0 < w)%Z -> (2 ^ w <= 2 * zlen bytes)%Z -> hex_encode w up bytes = None.
Proof.
  intros w up bytes Hw H. unfold hex_encode, hex_size. unfold zlen in H.
  assert (HP : (2 ^ w = 2 * 2 ^ (w - 1))%Z) by (rewrite <- Z.pow_succ_r by lia; f_equal; lia).
  assert (HQ : ((2 ^ w - 1) / 2 = 2 ^ (w - 1) - 1)%Z) by (symmetry; apply Z.div_unique with (r := 1%Z); lia).
  destruct (Z.ltb_spec ((2 ^ w - 1) / 2) (Z.of_nat (length bytes))); [reflexivity|lia].
Qed.
Print Assumptions C90_too_long.
(** So different bytes have different texts. *)
Theorem C90_injective : forall w up a b n m t, (0 < w)%Z -> Forall is_byte a -> Forall is_byte b -> (2 * zlen a < 2 ^ w)%Z -> (2 * zlen b < 2 ^ w)%Z ->
  hex_encode w up a = Some (n, t) -> hex_encode w up b = Some (m, t) -> a = b.
Proof.
  intros w up a b n m t Hw Ha Hb La Lb Ea Eb.
  destruct (C90_hex w up a Hw Ha La) as (n' & t' & E1 & _ & _ & S1). destruct (C90_hex w up b Hw Hb Lb) as (m' & t'' & E2 & _ & _ & S2).
  rewrite Ea in E1. rewrite Eb in E2. injection E1 as <- <-. injection E2 as <- <-.
  destruct up; destruct S1 as [U1 _], S2 as [U2 _]; rewrite U1 in U2; congruence.
Qed.
Print Assumptions C90_injective.
Example C90_case : hex_encode 64 false [222; 173; 0; 7]%Z = Some (8, [100; 101; 97; 100; 48; 48; 48; 55])%Z.
Proof. reflexivity. Qed.

Lemma split_at_pieces (m : list Z) : length m = 16 -> exists A B C D E, m = A ++ B ++ C ++ D ++ E /\
  length A = 4 /\ length B = 2 /\ length C = 2 /\ length D = 2 /\ length E = 6.
Proof.
  intros L. do 16 (destruct m as [|? m]; [discriminate|]). destruct m; [|discriminate].
  exists [z; z0; z1; z2], [z3; z4], [z5; z6], [z7; z8], [z9; z10; z11; z12; z13; z14]. repeat (split; [reflexivity|]). reflexivity.
Qed.
(** A UUID of 16 bytes: 36 characters, exactly those reserved, in the form 8-4-4-4-12, reading nothing past the 16 bytes. *)
Theorem C90_uuid : forall up m, Forall is_byte m -> length m = 16 ->
  exists t, pr_rsv_uuid up m = Some t /\ uuid_text up m t /\ length t = uuid_reserve.
Proof.
  intros up m Hm Lm.
  assert (HS : forall t a, Forall is_byte a -> pr_df up a = Some t -> shows (if up then upper else lower) a t /\ length t = 2 * length a).
  { intros t a Ha E. destruct (pr_df_ok up a Ha) as (t' & E' & R). rewrite E in E'. injection E' as <-. exact R. }
  assert (HA : forall a b s t, pr_df up a = Some s -> pr_df up b = Some t -> pr_df up (a ++ b) = Some (s ++ t)).
  { induction a as [|x a IH]; intros b s t Es Et; cbn in Es.
    - injection Es as <-. exact Et.
    - cbn [app pr_df]. destruct (tb_pair 16 up x) as [p|]; [|discriminate]. destruct (pr_df up a) as [q|] eqn:Eq; [|discriminate].
      injection Es as <-. rewrite (IH b q t eq_refl Et). now rewrite app_assoc. }
  assert (PR : forall pre b post i j, i = length pre -> j = length pre + length b -> pr_range up (pre ++ b ++ post) i j = pr_df up b).
  { intros pre b post i j -> ->. unfold pr_range, bytes_at. rewrite !app_length.
    destruct (Nat.leb_spec (length pre) (length pre + length b)); [|lia].
    destruct (Nat.leb_spec (length pre + length b) (length pre + (length b + length post))); [|lia]. cbn [andb].
    rewrite skipn_app, skipn_all, Nat.sub_diag. cbn [app]. change (skipn 0 (b ++ post)) with (b ++ post).
    replace (length pre + length b - length pre) with (length b) by lia. now rewrite firstn_app, firstn_all, Nat.sub_diag, app_nil_r. }
  destruct (split_at_pieces m Lm) as (A & B & C & D & E & -> & LA & LB & LC & LD & LE).
  apply Forall_app in Hm as [FA Hm]. apply Forall_app in Hm as [FB Hm]. apply Forall_app in Hm as [FC Hm]. apply Forall_app in Hm as [FD FE].
  destruct (pr_df_ok up A FA) as (a & Ea & _ & La). destruct (pr_df_ok up B FB) as (b & Eb & _ & Lb). destruct (pr_df_ok up C FC) as (c & Ec & _ & Lc).
  destruct (pr_df_ok up D FD) as (d & Ed & _ & Ld). destruct (pr_df_ok up E FE) as (e & Ee & _ & Le).
  exists (a ++ [45%Z] ++ b ++ [45%Z] ++ c ++ [45%Z] ++ d ++ [45%Z] ++ e).
  assert (RA := PR [] A (B ++ C ++ D ++ E) 0 4 eq_refl ltac:(cbn; lia)). rewrite Ea in RA.
  assert (RB := PR A B (C ++ D ++ E) 4 6 ltac:(lia) ltac:(lia)). rewrite Eb in RB.
  assert (RC := PR (A ++ B) C (D ++ E) 6 8 ltac:(rewrite app_length; lia) ltac:(rewrite app_length; lia)). rewrite Ec in RC.
  assert (RD := PR (A ++ B ++ C) D E 8 10 ltac:(rewrite !app_length; lia) ltac:(rewrite !app_length; lia)). rewrite Ed in RD.
  assert (RE := PR (A ++ B ++ C ++ D) E [] 10 16 ltac:(rewrite !app_length; lia) ltac:(rewrite !app_length; lia)). rewrite Ee in RE.
  rewrite app_nil_r in RE. cbn [app] in RA. repeat rewrite <- app_assoc in RC. repeat rewrite <- app_assoc in RD. repeat rewrite <- app_assoc in RE.
  split; [|split].
  - unfold pr_rsv_uuid. rewrite RA. cbn [uuid_loop].
    change (4 + 2) with 6. change (6 + 2) with 8. change (8 + 2) with 10. rewrite RB, RC, RD. change (10 + 6) with 16. rewrite RE.
    f_equal. cbn [app]. rewrite app_nil_r. rewrite <- ?app_assoc. cbn [app]. rewrite <- ?app_assoc. cbn [app]. now rewrite <- ?app_assoc.
  - exists a, b, c, d, e. split; [reflexivity|]. repeat (split; [lia|]).
    apply (HS (a ++ b ++ c ++ d ++ e) (A ++ B ++ C ++ D ++ E)).
    + rewrite !Forall_app. auto.
    + apply HA; [exact Ea|]. apply HA; [exact Eb|]. apply HA; [exact Ec|]. apply HA; assumption.
  - rewrite !app_length. cbn [length]. unfold uuid_reserve. lia.
Qed.
Print Assumptions C90_uuid.
Example C90_uuid_case : pr_rsv_uuid false (map Z.of_nat (seq 0 16)) = Some (text "00010203-0405-0607-0809-0a0b0c0d0e0f"%string).
Proof. reflexivity. Qed.

(** ** Digests. *)
(** The work arrays have the declared sizes; nothing is assumed about their content. *)
Definition machine_ok (M : machine) : Prop := (forall s b, 80 <= length (m_junk M s b)) /\ (forall n, length (m_buf M n) = n).

Lemma fold_length {A} (f : list Z -> A -> list Z) : (forall v x, length (f v x) = length v) -> forall l v, length (fold_left f l v) = length v.
Proof. intros H. induction l as [|x l IH]; intros v; cbn [fold_left]; [reflexivity|]. now rewrite IH, H. Qed.
Lemma sum_words_length w (a b : list Z) : length b = length a -> length (sum_words w a b) = length a.
Proof. intros H. unfold sum_words. rewrite map_length, combine_length. lia. Qed.
Lemma sha2_compress_length p v b : length (sha2_compress p v b) = length v.
Proof.
  unfold sha2_compress. cbv zeta. apply sum_words_length. apply fold_length. intros u x. unfold sha2_round.
  do 9 (destruct u as [|? u]; [reflexivity|]). reflexivity.
Qed.
Lemma sha1_compress_length v b : length (sha1_compress v b) = length v.
Proof.
  unfold sha1_compress. apply sum_words_length. apply fold_length. intros u x. unfold sha1_round.
  do 6 (destruct u as [|? u]; [reflexivity|]). reflexivity.
Qed.
Lemma md5_compress_length v b : length (md5_compress v b) = length v.
Proof.
  unfold md5_compress. apply sum_words_length. apply fold_length. intros u x. unfold md5_round.
  do 5 (destruct u as [|? u]; [reflexivity|]). reflexivity.
Qed.
Lemma words_bytes e n st : length (concat (map (bytes_of e n) st)) = n * length st /\ Forall is_byte (concat (map (bytes_of e n) st)).
Proof.
  induction st as [|x st [IH1 IH2]]; cbn [map concat length]; [split; [lia|constructor]|].
  rewrite app_length, IH1, bytes_of_length. split; [lia|]. apply Forall_app. auto using bytes_of_byte.
Qed.
Lemma md_hash_shape en bs cnt wb dsz f iv m : (forall v b, length (f v b) = length v) -> dsz <= wb * length iv ->
  length (md_hash en bs cnt wb dsz f iv m) = dsz /\ Forall is_byte (md_hash en bs cnt wb dsz f iv m).
Proof.
  intros Hf Hd. unfold md_hash. set (st := fold_left f (blocks (Z.to_nat bs) (pad en bs cnt m)) iv).
  assert (length st = length iv) by (apply fold_length; exact Hf).
  destruct (words_bytes en wb st) as [L F]. split.
  - rewrite firstn_length, L, H. lia.
  - rewrite <- (firstn_skipn dsz) in F. apply Forall_app in F. tauto.
Qed.
Lemma hash_shape a m : length (hash_of a m) = hash_bytes a /\ Forall is_byte (hash_of a m).
Proof.
  destruct a; cbn [hash_of hash_bytes];
    try (unfold sha256_spec, sha224_spec, sha512_spec, sha384_spec; apply md_hash_shape; [intros; apply sha2_compress_length|]).
  - apply md_hash_shape; [intros; apply md5_compress_length|]. cbn; lia.
  - apply md_hash_shape; [intros; apply sha1_compress_length|]. cbn; lia.
  - unfold iv_sha224. rewrite map_length. apply Nat.leb_le. vm_compute. reflexivity.
  - unfold iv_sha256. rewrite map_length. apply Nat.leb_le. vm_compute. reflexivity.
  - unfold iv_sha384. rewrite map_length. apply Nat.leb_le. vm_compute. reflexivity.
  - unfold iv_sha512. rewrite map_length. apply Nat.leb_le. vm_compute. reflexivity.
  - rewrite <- iv512_224_eq. cbn; lia.
  - rewrite <- iv512_256_eq. cbn; lia.
  - split; [apply be_bytes_length|exact (bytes_of_byte big 4 _)].
  - split; [apply be_bytes_length|exact (bytes_of_byte big 4 _)].
Qed.

Lemma digest_ok a M chunks : machine_ok M -> Forall (Forall is_byte) chunks -> digest_of a M chunks = hash_of a (concat chunks).
Proof.
  intros [HJ HB] Hc. assert (HJ' : forall s b, 64 <= length (m_junk M s b)) by (intros; specialize (HJ s b); lia).
  destruct a; cbn [digest_of hash_of];
    auto using C42_md5, C42_sha1, C41_sha224, C41_sha256, C41_sha384, C41_sha512, C41_sha512_224, C41_sha512_256;
    apply C23_digest_bytes; cbn; auto.
Qed.

Lemma print_digest_ok d a m : exists t, print_digest d (digest_size a) (hash_of a m) = Some t /\
  shows d (hash_of a m) t /\ length t = resrv_size d (digest_size a).
Proof.
  destruct (hash_shape a m) as [L F]. unfold print_digest, copy_to_hash, bytes_at.
  replace (digest_size a) with (hash_bytes a) by (destruct a; reflexivity).
  rewrite L, Nat.leb_refl. cbn [Nat.leb andb]. rewrite Nat.sub_0_r. change (skipn 0 (hash_of a m)) with (hash_of a m).
  rewrite <- L, firstn_all. destruct d; cbn [resrv_size].
  - destruct (pr_df_ok false _ F) as (t & E & S & Lt). exists t. split; [exact E|]. split; [exact S|lia].
  - destruct (pr_df_ok true _ F) as (t & E & S & Lt). exists t. split; [exact E|]. split; [exact S|lia].
  - exists (hash_of a m). split; [reflexivity|]. split; reflexivity.
Qed.

(** What the user wrote, as bytes in memory. *)
Definition put_bytes (host : endian) (p : put) : list Z :=
  match p with Write w cs => concat (map (bytes_of host w) cs) | ScatterWrite bs => concat bs end.
Definition put_ok (p : put) : Prop := match p with Write _ _ => True | ScatterWrite bs => Forall (Forall is_byte) bs end.

Lemma updates_bytes ce host p : put_ok p -> concat (put_updates ce host p) = put_bytes host p /\ Forall (Forall is_byte) (put_updates ce host p).
Proof.
  destruct p as [w cs|bs]; cbn [put_ok put_updates put_bytes]; intros H; [|auto].
  assert (HB : Forall (Forall is_byte) (map (bytes_of host w) cs)).
  { apply Forall_forall. intros x Hx. apply in_map_iff in Hx as (y & <- & _). apply bytes_of_byte. }
  destruct ce; [auto|]. cbn [concat]. rewrite app_nil_r. split; [reflexivity|].
  constructor; [|constructor]. destruct (words_bytes host w cs). assumption.
Qed.
Lemma all_updates ce host ps : Forall put_ok ps ->
  concat (concat (map (put_updates ce host) ps)) = concat (map (put_bytes host) ps) /\ Forall (Forall is_byte) (concat (map (put_updates ce host) ps)).
Proof.
  induction 1 as [|p ps Hp _ [IH1 IH2]]; cbn [map concat]; [split; [reflexivity|constructor]|].
  destruct (updates_bytes ce host p Hp) as [E F]. rewrite concat_app, E, IH1. split; [reflexivity|]. apply Forall_app; auto.
Qed.

(** C91.  Whatever is written to as_file(ctx), by any calls of write with characters of any width and of scatter_write with any blocks,
    hash_digest, hash_digest_upper or hash_digest_raw_bytes of the finished context prints the standard hash of the bytes written, in
    order, in the form asked for and in exactly the reserved number of characters; for every hash of the library, every code path and
    either byte order. *)
Theorem C91_digest : forall a M d puts, machine_ok M -> Forall put_ok puts ->
  exists t, hash_file a M d puts = Some t /\ shows d (hash_of a (concat (map (put_bytes (m_host M)) puts))) t /\
    length t = resrv_size d (digest_size a) /\ length t = shown_size d (hash_bytes a).
Proof.
  intros a M d puts HM Hp. destruct (all_updates false (m_host M) puts Hp) as [E F].
  unfold hash_file. rewrite digest_ok by assumption. rewrite E.
  destruct (print_digest_ok d a (concat (map (put_bytes (m_host M)) puts))) as (t & P & S & L).
  exists t. repeat (split; [assumption|]). rewrite L. destruct a, d; reflexivity.
Qed.
Print Assumptions C91_digest.
(** In constant evaluation each character is an update of its own: the same bytes reach the hash. *)
Theorem C91_consteval_write : forall a M puts, machine_ok M -> Forall put_ok puts ->
  digest_of a M (concat (map (put_updates true (m_host M)) puts)) = digest_of a M (concat (map (put_updates false (m_host M)) puts)).
Proof.
  intros a M puts HM Hp. destruct (all_updates true (m_host M) puts Hp) as [E F], (all_updates false (m_host M) puts Hp) as [E' F'].
  rewrite !digest_ok by assumption. now rewrite E, E'.
Qed.
Print Assumptions C91_consteval_write.
Definition a_machine : machine := {| m_impl := Simd16; m_host := little; m_junk := fun _ _ => repeat 3%Z 80; m_tmp := 5%Z; m_buf := fun n => repeat 9%Z n |}.
Example C91_case : machine_ok a_machine /\
  hash_file MD5 a_machine upper [Write 1 [97]; ScatterWrite [[98]; []; [99]]]%Z = Some (text "900150983CD24FB0D6963F7D28E17F72"%string).
Proof. split; [split; intros; cbn [a_machine m_junk m_buf]; rewrite repeat_length; lia|vm_compute; reflexivity]. Qed.

(** C92.  hash_compress<ctx>(range), the lower case form: the hash of the range's bytes, nothing beyond them read. *)
Theorem C92_lower : forall a M is_b elem range n mem, machine_ok M -> Forall is_byte mem -> (is_b = true -> elem = 1) -> n * elem <= length mem ->
  exists t, hash_compress a M lower is_b elem range n mem = Some t /\ shows lower (hash_of a (firstn (n * elem) mem)) t /\
    length t = 2 * hash_bytes a.
Proof.
  intros a M is_b elem range n mem HM Hm He Hl. unfold hash_compress.
  assert (EC : compress_len lower is_b elem range n = n * elem) by (unfold compress_len; destruct is_b; [rewrite He by reflexivity; lia|reflexivity]).
  rewrite EC. unfold bytes_at. destruct (Nat.leb_spec (n * elem) (length mem)); [|lia]. cbn [Nat.leb andb]. rewrite Nat.sub_0_r.
  change (skipn 0 mem) with mem. assert (F : Forall is_byte (firstn (n * elem) mem)) by (rewrite <- (firstn_skipn (n * elem)) in Hm; apply Forall_app in Hm; tauto).
  rewrite digest_ok by auto. cbn [concat]. rewrite app_nil_r.
  destruct (print_digest_ok lower a (firstn (n * elem) mem)) as (t & P & S & L). exists t. repeat (split; [assumption|]). rewrite L. destruct a; reflexivity.
Qed.
Print Assumptions C92_lower.
(** The upper case and raw forms say the same when the elements are std::byte, or the range object happens to have the size of an
    element, or the range is empty. *)
Theorem C92_other_forms_partial : forall a M d is_b elem range n mem, machine_ok M -> Forall is_byte mem -> (is_b = true -> elem = 1) ->
  n * elem <= length mem -> is_b = true \/ range = elem \/ n = 0 ->
  exists t, hash_compress a M d is_b elem range n mem = Some t /\ shows d (hash_of a (firstn (n * elem) mem)) t /\
    length t = shown_size d (hash_bytes a).
Proof.
  intros a M d is_b elem range n mem HM Hm He Hl HC. unfold hash_compress.
  assert (EC : compress_len d is_b elem range n = n * elem).
  { unfold compress_len. destruct is_b; [rewrite He by reflexivity; lia|]. destruct HC as [E | [-> | ->]]; [discriminate|destruct d; reflexivity|destruct d; reflexivity]. }
  rewrite EC. unfold bytes_at. destruct (Nat.leb_spec (n * elem) (length mem)); [|lia]. cbn [Nat.leb andb]. rewrite Nat.sub_0_r.
  change (skipn 0 mem) with mem. assert (F : Forall is_byte (firstn (n * elem) mem)) by (rewrite <- (firstn_skipn (n * elem)) in Hm; apply Forall_app in Hm; tauto).
  rewrite digest_ok by auto. cbn [concat]. rewrite app_nil_r.
  destruct (print_digest_ok d a (firstn (n * elem) mem)) as (t & P & S & L). exists t. repeat (split; [assumption|]). rewrite L. destruct a, d; reflexivity.
Qed.
Print Assumptions C92_other_forms_partial.
(** Otherwise: a range object larger than its elements (every std::string, vector or span of small elements) that is not empty and
    whose bytes are all that can be read makes the upper case and raw forms read past its end, every time; ... *)
Theorem C92_overread_refuted : forall a M d elem range n mem, d <> lower -> 0 < n -> elem < range -> length mem = n * elem ->
  hash_compress a M d false elem range n mem = None.
Proof.
  intros a M d elem range n mem Hd Hn Hr Hl. unfold hash_compress.
  assert (EC : compress_len d false elem range n = n * range) by (destruct d; [congruence|reflexivity|reflexivity]).
  rewrite EC. unfold bytes_at. destruct (Nat.leb_spec (n * range) (length mem)); [nia|]. reflexivity.
Qed.
Print Assumptions C92_overread_refuted.
(** ... and a range object smaller than its elements loses the end of the data: two ranges that differ only there print the same. *)
Theorem C92_ignored_refuted : forall a M d elem range n x y, d <> lower -> 0 < n -> range < elem ->
  length x = n * elem -> length y = n * elem -> firstn (n * range) x = firstn (n * range) y ->
  hash_compress a M d false elem range n x = hash_compress a M d false elem range n y.
Proof.
  intros a M d elem range n x y Hd Hn Hr Lx Ly E. unfold hash_compress.
  assert (EC : compress_len d false elem range n = n * range) by (destruct d; [congruence|reflexivity|reflexivity]).
  rewrite EC. unfold bytes_at. rewrite Lx, Ly, Nat.sub_0_r. change (skipn 0 x) with x. change (skipn 0 y) with y. now rewrite E.
Qed.
Print Assumptions C92_ignored_refuted.
(** std::string{"abc"} (an object of 32 bytes). *)
Example C92_case : hash_compress MD5 a_machine lower false 1 32 3 [97; 98; 99]%Z = Some (text "900150983cd24fb0d6963f7d28e17f72"%string) /\
  hash_compress MD5 a_machine upper false 1 32 3 [97; 98; 99]%Z = None /\
  hash_compress MD5 a_machine upper true 1 32 3 [97; 98; 99]%Z = Some (text "900150983CD24FB0D6963F7D28E17F72"%string).
Proof. split; [|split]; vm_compute; reflexivity. Qed.
