(** Printing and scanning of internet addresses. *)
From Coq Require Import String.
From Verif Require Import Base NumSpec NumFacts ByteSpec LebeModel ByteProofs IntPrintModel IntPrintProofs IntPrintCorrect IntScanModel ScanSpec
  IntScanProofs IntSseProofs IntRoundProofs TimeTextModel TimeTextProofs TimeScanProofs IpSpec IpModel.

Lemma print_unsigned fl w x : In w int_widths -> 2 <= pf_base fl <= 36 -> pf_showbase fl = false -> pf_showpos fl = false ->
  w <> 128 -> 0 <= x < 2 ^ w ->
  exists num, print_int fl (mk_int w false) x = Some num /\
    if pf_full fl then is_padded_numeral (pf_base fl) (pf_upper fl) (cal_max_int_size (mk_int w false) (pf_base fl)) x num
    else is_numeral (pf_base fl) (pf_upper fl) x num.
Proof.
  intros Hw Hb Hs Hp H128 Hx.
  destruct (print_int_correct fl (mk_int w false) x) as (num & E & N); auto.
  - unfold config_ok. cbn [iw]. intros. contradiction.
  - unfold in_range, int_min, int_max. cbn [isigned iw]. lia.
  - cbn [iw] in N. rewrite Z.abs_eq in N by lia. exists num. split; [|exact N]. rewrite E, Hs, Hp. unfold sign_text.
    destruct (Z.ltb_spec x 0); [lia|]. reflexivity.
Qed.
Lemma w8 : In 8 int_widths. Proof. cbn; tauto. Qed.
Lemma w16 : In 16 int_widths. Proof. cbn; tauto. Qed.

Lemma print_octet x : octet x -> exists num, print_int default_pflags uint8_ty x = Some num /\ is_numeral 10 false x num.
Proof. intros H. apply (print_unsigned default_pflags 8 x); auto using w8; try (cbn; lia). Qed.

Lemma print_octets_ok a b c d : octet a -> octet b -> octet c -> octet d ->
  exists txt, print_octets true [a; b; c; d] = Some txt /\ v4_text a b c d txt.
Proof.
  intros Ha Hb Hc Hd. destruct (print_octet a Ha) as (ta & Ea & Na). destruct (print_octet b Hb) as (tb & Eb & Nb).
  destruct (print_octet c Hc) as (tc & Ec & Nc). destruct (print_octet d Hd) as (td & Ed & Nd).
  cbn [print_octets]. rewrite Ea, Eb, Ec, Ed. cbn [opt_app]. eexists. split; [reflexivity|].
  exists ta, tb, tc, td. repeat (split; [assumption|]). rewrite app_nil_r. cbn [app]. reflexivity.
Qed.

(** ** IPv6 words *)

Lemma group_bytes g : group g -> be_bytes 2 g = [g / 256; g mod 256].
Proof.
  intros H. unfold be_bytes. cbn [le_bytes rev app]. f_equal. unfold group in H. apply Z.mod_small.
  split; [apply Z.div_pos; lia|apply Z.div_lt_upper_bound; lia].
Qed.
Lemma stored_value host g : group g -> stored host g = match host with little => g / 256 + 256 * (g mod 256) | big => g end.
Proof.
  intros H. unfold stored. rewrite group_bytes by assumption. destruct host; unfold of_bytes, of_be; cbn [of_le rev app].
  - lia.
  - pose proof (Z.div_mod g 256). lia.
Qed.
Lemma stored_bound host g : group g -> 0 <= stored host g < 65536.
Proof.
  intros H. rewrite stored_value by assumption. pose proof (Z.mod_pos_bound g 256 ltac:(lia)). unfold group in *. destruct host; [|lia].
  assert (0 <= g / 256 < 256) by (split; [apply Z.div_pos; lia|apply Z.div_lt_upper_bound; lia]). lia.
Qed.
Lemma stored_zero host g : group g -> (stored host g =? 0) = (g =? 0).
Proof.
  intros H. rewrite stored_value by assumption. destruct host; [|reflexivity]. unfold group in *.
  pose proof (Z.div_mod g 256 ltac:(lia)). pose proof (Z.mod_pos_bound g 256 ltac:(lia)).
  assert (0 <= g / 256) by (apply Z.div_pos; lia).
  destruct (Z.eqb_spec (g / 256 + 256 * (g mod 256)) 0), (Z.eqb_spec g 0); try reflexivity; exfalso; [lia|].
  subst g. apply n. reflexivity.
Qed.
Lemma to_big_stored host g : group g -> to_big_endian host 2 (stored host g) = g.
Proof.
  intros H. unfold to_big_endian. destruct host; cbn [endian_eqb].
  - rewrite byte_swap_spec; [|cbn; tauto|exact (stored_bound little g H)].
    unfold stored, of_bytes.
    assert (E : be_bytes 2 (of_le (be_bytes 2 g)) = le_bytes 2 g).
    { rewrite (group_bytes g) by assumption. cbn [of_le]. unfold be_bytes. cbn [le_bytes rev app].
      unfold group in *. pose proof (Z.mod_pos_bound g 256 ltac:(lia)).
      assert (0 <= g / 256 < 256) by (split; [apply Z.div_pos; lia|apply Z.div_lt_upper_bound; lia]).
      replace (g / 256 + 256 * (g mod 256 + 256 * 0)) with (g / 256 + (g mod 256) * 256) by lia.
      rewrite Z.div_add by lia. rewrite Z.mod_add by lia. rewrite (Z.div_small (g / 256)) by lia.
      rewrite !(Z.mod_small (g / 256)) by lia. rewrite Z.add_0_l, Z.mod_mod by lia. reflexivity. }
    rewrite E. cbn [le_bytes of_le]. unfold group in *.
    assert (0 <= g / 256 < 256) by (split; [apply Z.div_pos; lia|apply Z.div_lt_upper_bound; lia]).
    rewrite (Z.mod_small (g / 256)) by lia. pose proof (Z.div_mod g 256 ltac:(lia)). cbn [Nat.eqb orb]. lia.
  - rewrite stored_value by assumption. reflexivity.
Qed.

Definition piece (upper full : bool) (g : Z) (t : list Z) : Prop :=
  if full then is_padded_numeral 16 upper 4 g t else is_numeral 16 upper g t.

Lemma print_group_ok host upper full g : group g ->
  exists t, print_group host upper full (stored host g) = Some t /\ piece upper full g t.
Proof.
  intros H. unfold print_group. rewrite to_big_stored by assumption.
  destruct (print_unsigned (group_flags upper full) 16 g) as (t & E & N); auto using w16; try (cbn; lia).
  exists t. split; [exact E|]. exact N.
Qed.

Lemma print_long_ok host upper full gs : Forall group gs -> forall first, gs <> [] ->
  exists t, print_long host upper full first (map (stored host) gs) = Some ((if first then [] else [58]) ++ t) /\ joined (piece upper full) gs t.
Proof.
  induction 1 as [|g gs Hg Hgs IH]; intros first Hne; [contradiction|]. cbn [map print_long].
  destruct (print_group_ok host upper full g Hg) as (t & E & P). rewrite E.
  destruct gs as [|h gs].
  - cbn [map print_long opt_app]. exists t. rewrite app_nil_r. split; [reflexivity|]. now constructor.
  - destruct (IH false) as (s & E2 & J); [discriminate|]. rewrite E2. cbn [opt_app]. exists (t ++ text ":" ++ s).
    split; [reflexivity|]. now constructor.
Qed.

(** ** The longest run *)
Definition zeros (gs : list Z) : list bool := map (fun g => g =? 0) gs.
Definition runb (b : list bool) (q m : nat) : bool := (Nat.leb (q + m) 8) && forallb (fun i => nth i b false) (seq q m).
Definition best_ok (b : list bool) (pe : nat * nat) : bool :=
  let '(p, e) := pe in
  let pairs := list_prod (seq 0 9) (seq 0 9) in
  if Nat.eqb p 8 then Nat.eqb e 8 && forallb (fun qm => negb (runb b (fst qm) (snd qm)) || Nat.ltb (snd qm) 2) pairs
  else Nat.ltb p e && Nat.leb e 8 && runb b p (e - p) && Nat.leb 2 (e - p) &&
       forallb (fun qm => negb (runb b (fst qm) (snd qm)) || Nat.ltb (snd qm) (e - p) || (Nat.eqb (snd qm) (e - p) && Nat.leb p (fst qm))) pairs.
Definition dec (x : bool) : Z := if x then 0 else 1.
Fixpoint patterns (n : nat) : list (list bool) :=
  match n with O => [[]] | S k => map (cons true) (patterns k) ++ map (cons false) (patterns k) end.
Lemma patterns_all b : In b (patterns (length b)).
Proof.
  induction b as [|x b IH]; cbn [length patterns]; [left; reflexivity|]. apply in_app_iff.
  destruct x; [left|right]; now apply in_map.
Qed.
Lemma best_all : forallb (fun b => best_ok b (find_run 8 (map dec b) 0 8 8)) (patterns 8) = true.
Proof. vm_compute. reflexivity. Qed.

(** The search looks only at which words are zero. *)
Lemma zeros_end_ext fuel a a' : (forall j, (j < 8)%nat -> (nth j a 0 =? 0) = (nth j a' 0 =? 0)) -> forall j, (j <= 8)%nat -> zeros_end fuel a j = zeros_end fuel a' j.
Proof.
  intros H. induction fuel as [|k IH]; intros j Hj; [reflexivity|]. cbn [zeros_end]. destruct (Nat.eqb_spec j 8); [reflexivity|].
  rewrite H by lia. destruct (_ =? _); [|reflexivity]. apply IH. lia.
Qed.
Lemma zeros_end_le fuel a : forall j, (j <= 8)%nat -> (j <= zeros_end fuel a j <= 8)%nat.
Proof.
  induction fuel as [|k IH]; intros j Hj; [cbn [zeros_end]; lia|]. cbn [zeros_end]. destruct (Nat.eqb_spec j 8); [lia|].
  destruct (_ =? _); [|lia]. specialize (IH (j + 1)%nat). lia.
Qed.
Lemma find_run_ext fuel a a' : (forall j, (j < 8)%nat -> (nth j a 0 =? 0) = (nth j a' 0 =? 0)) -> forall i p e, (i <= 8)%nat ->
  find_run fuel a i p e = find_run fuel a' i p e.
Proof.
  intros H. induction fuel as [|k IH]; intros i p e Hi; [reflexivity|]. cbn [find_run]. destruct (Nat.eqb_spec i 8); [reflexivity|].
  rewrite H by lia. destruct (_ =? _); [|apply IH; lia].
  rewrite (zeros_end_ext 8 a a' H) by lia. destruct (_ && _); apply IH; pose proof (zeros_end_le 8 a' (i + 1)); lia.
Qed.

Lemma nth_indep8 {A} (l : list A) j d d' : length l = 8%nat -> (j < 8)%nat -> nth j l d = nth j l d'.
Proof. intros H J. apply nth_indep. lia. Qed.

Lemma find_run_pattern host gs : length gs = 8%nat -> Forall group gs ->
  find_run 8 (map (stored host) gs) 0 8 8 = find_run 8 (map dec (zeros gs)) 0 8 8.
Proof.
  intros HL HG. apply find_run_ext; [|lia]. intros j Hj.
  rewrite (nth_indep _ 0 (stored host 0)) by (rewrite map_length; lia). rewrite map_nth.
  rewrite stored_zero. 2:{ rewrite Forall_forall in HG. apply HG, nth_In. lia. }
  rewrite (nth_indep (map dec (zeros gs)) 0 (dec true)) by (unfold zeros; rewrite !map_length; lia). rewrite map_nth.
  unfold zeros. change true with ((fun g => g =? 0) 0). rewrite map_nth. destruct (_ =? 0); reflexivity.
Qed.

Lemma zeros_nth gs i : (i < length gs)%nat -> nth i (zeros gs) false = (nth i gs 1 =? 0).
Proof.
  intros H. unfold zeros. rewrite (nth_indep (map _ gs) false (1 =? 0)) by (rewrite map_length; lia).
  exact (map_nth (fun g => g =? 0) gs 1 i).
Qed.
Lemma runb_iff gs q m : length gs = 8%nat -> runb (zeros gs) q m = true <-> zero_run gs q m.
Proof.
  intros HL. unfold runb, zero_run. rewrite andb_true_iff, Nat.leb_le, forallb_forall. split; intros [H1 H2]; (split; [exact H1|]).
  - intros i Hi. specialize (H2 i). rewrite in_seq in H2. specialize (H2 Hi). rewrite zeros_nth in H2 by lia. now apply Z.eqb_eq.
  - intros i Hi. apply in_seq in Hi. specialize (H2 i Hi). rewrite zeros_nth by lia. now apply Z.eqb_eq.
Qed.

Lemma find_run_spec host gs : length gs = 8%nat -> Forall group gs ->
  let '(p, e) := find_run 8 (map (stored host) gs) 0 8 8 in
  (p = 8%nat /\ e = 8%nat /\ forall q m, zero_run gs q m -> (m < 2)%nat) \/
  ((p < e <= 8)%nat /\ best_run gs p (e - p)).
Proof.
  intros HL HG. rewrite find_run_pattern by assumption.
  assert (B : best_ok (zeros gs) (find_run 8 (map dec (zeros gs)) 0 8 8) = true).
  { pose proof best_all as A. rewrite forallb_forall in A. apply A.
    pose proof (patterns_all (zeros gs)) as P. unfold zeros in P at 2. rewrite map_length, HL in P. exact P. }
  destruct (find_run 8 (map dec (zeros gs)) 0 8 8) as [p e]. unfold best_ok in B.
  assert (PAIR : forall q m, zero_run gs q m -> In (q, m) (list_prod (seq 0 9) (seq 0 9))).
  { intros q m [H _]. apply in_prod; apply in_seq; lia. }
  destruct (Nat.eqb_spec p 8).
  - left. apply andb_true_iff in B as [B1 B2]. apply Nat.eqb_eq in B1. split; [assumption|]. split; [assumption|].
    intros q m Hr. rewrite forallb_forall in B2. specialize (B2 (q, m) (PAIR q m Hr)). cbn [fst snd] in B2.
    apply (runb_iff gs q m HL) in Hr. rewrite Hr in B2. cbn [negb orb] in B2. now apply Nat.ltb_lt.
  - right. apply andb_true_iff in B as [B B5]. apply andb_true_iff in B as [B B4]. apply andb_true_iff in B as [B B3].
    apply andb_true_iff in B as [B1 B2]. apply Nat.ltb_lt in B1. apply Nat.leb_le in B2, B4. split; [lia|].
    split; [now apply runb_iff|]. split; [exact B4|]. intros q m Hr.
    rewrite forallb_forall in B5. specialize (B5 (q, m) (PAIR q m Hr)). cbn [fst snd] in B5.
    apply (runb_iff gs q m HL) in Hr. rewrite Hr in B5. cbn [negb orb] in B5. apply orb_true_iff in B5 as [B5|B5].
    + left. now apply Nat.ltb_lt.
    + right. apply andb_true_iff in B5 as [B5 B6]. apply Nat.eqb_eq in B5. apply Nat.leb_le in B6. auto.
Qed.
