(** C125-C129: errors. *)
From Coq Require Import String.
From Coq Require Import List.
From Verif Require Import Base ErrTables ErrSpec ErrModel ErrProofs.
Local Open Scope Z_scope.

(** uintptr_t of 64, 32 and 16 bits. *)
Definition known_abi (a : abi) : Prop := In a [mk_abi 64 32; mk_abi 32 32; mk_abi 16 16].
Definition int_range (a : abi) (x : Z) : Prop := - 2 ^ (int_bits a - 1) <= x < 2 ^ (int_bits a - 1).
Ltac abis H := unfold known_abi in H; cbn [In] in H; repeat destruct H as [<-|H]; [| | |destruct H].

Lemma code_posix a x : known_abi a -> wrap (ptr_bits a) (wrap (int_bits a) x) = wrap (int_bits a) x.
Proof.
  intros Ha. apply wrap_id. unfold wrap. abis Ha; cbn [ptr_bits int_bits];
  match goal with |- 0 <= x mod ?m < ?k => pose proof (Z.mod_pos_bound x m ltac:(reflexivity)); lia end.
Qed.
Lemma wrap_inj a x y : known_abi a -> int_range a x -> int_range a y -> wrap (int_bits a) x = wrap (int_bits a) y -> x = y.
Proof.
  intros Ha Hx Hy H. assert (P : 0 < int_bits a) by (abis Ha; reflexivity).
  rewrite <- (signed_wrap (int_bits a) x P Hx), <- (signed_wrap (int_bits a) y P Hy). now rewrite H.
Qed.

(** ** C125: an error compares equal to the code it was thrown with and to no other; errors of different origins never mix *)
Theorem C125_posix : forall a x p, known_abi a -> int_range a x -> int_range a p ->
  posix_equivalent a (throw_posix a x) p = true <-> p = x.
Proof.
  intros a x p Ha Hx Hp. unfold posix_equivalent, throw_posix. cbn [e_domain e_code]. rewrite Z.eqb_refl. cbn [negb].
  rewrite code_posix, Z.eqb_eq by assumption. split; intros H; [|now subst]. symmetry. exact (wrap_inj a x p Ha Hx Hp H).
Qed.
Print Assumptions C125_posix.
Theorem C125_parse : forall a c d, known_abi a -> 0 <= c < 256 -> 0 <= d < 256 ->
  parse_equivalent a (throw_parse a c) d = true <-> d = c.
Proof.
  intros a c d Ha Hc Hd. unfold parse_equivalent, throw_parse. cbn [e_domain e_code]. rewrite Z.eqb_refl. cbn [andb].
  rewrite !wrap_id by (abis Ha; cbn [ptr_bits]; lia). rewrite Z.eqb_eq. split; congruence.
Qed.
Print Assumptions C125_parse.
Theorem C125_domains : forall a, known_abi a ->
  NoDup [posix_domain a; parse_domain a; win32_domain a; nt_domain a] /\
  (forall e p, e_domain e <> posix_domain a -> posix_equivalent a e p = false) /\
  (forall e p, e_domain e <> parse_domain a -> parse_equivalent a e p = false) /\
  Forall (fun d => 0 <= d < 2 ^ ptr_bits a) [posix_domain a; parse_domain a; win32_domain a; nt_domain a].
Proof.
  intros a Ha. split; [|split; [|split]].
  - apply (distinct_ok Z.eqb Z.eqb_eq). abis Ha; reflexivity.
  - intros e p H. unfold posix_equivalent. destruct (Z.eqb_spec (posix_domain a) (e_domain e)); [congruence|reflexivity].
  - intros e p H. unfold parse_equivalent. destruct (Z.eqb_spec (e_domain e) (parse_domain a)); [contradiction|reflexivity].
  - abis Ha; repeat apply Forall_cons; try apply Forall_nil; vm_compute; split; discriminate || reflexivity.
Qed.
Print Assumptions C125_domains.
Theorem C125_same_error : forall x y, error_eqb x y = true <-> x = y.
Proof.
  intros [d c] [d' c']. unfold error_eqb. cbn [e_domain e_code]. rewrite andb_true_iff, !Z.eqb_eq. split; [intros (-> & ->); reflexivity|].
  intros H. injection H as -> ->. auto.
Qed.
Print Assumptions C125_same_error.
(** The code of an error of this origin is the errno; other errors become EOTHER or EINVAL. *)
Theorem C125_code : forall a E x, known_abi a -> int_range a x -> to_posix_code a E (throw_posix a x) = Some x.
Proof.
  intros a E x Ha Hx. unfold to_posix_code, throw_posix. cbn [e_domain e_code]. rewrite Z.eqb_refl. cbn [negb].
  rewrite code_posix by assumption. f_equal. assert (P : 0 < int_bits a) by (abis Ha; reflexivity).
  replace (wrap (int_bits a) (wrap (int_bits a) x)) with (wrap (int_bits a) x);
    [exact (signed_wrap (int_bits a) x P Hx)|]. symmetry. unfold wrap. apply Z.mod_mod. apply Z.pow_nonzero; lia.
Qed.
Print Assumptions C125_code.
Theorem C125_foreign : forall a E e v, known_abi a -> e_domain e <> posix_domain a -> E "EINVAL"%string = Some v ->
  to_posix_code a E e = Some (match E "EOTHER"%string with Some o => o | None => v end).
Proof.
  intros a E e v Ha H He. unfold to_posix_code. destruct (Z.eqb_spec (posix_domain a) (e_domain e)); [congruence|]. cbn [negb].
  destruct (E "EOTHER"%string); auto.
Qed.
Print Assumptions C125_foreign.
Example C125_case : known_abi (mk_abi 64 32) /\ int_range (mk_abi 64 32) (-1) /\
  e_code (throw_posix (mk_abi 64 32) (-1)) = 4294967295 /\ posix_equivalent (mk_abi 64 32) (throw_posix (mk_abi 64 32) 2) 2 = true /\
  posix_equivalent (mk_abi 64 32) (throw_parse (mk_abi 64 32) 2) 2 = false.
Proof. split; [left; reflexivity|]. split; [unfold int_range; cbn; lia|]. vm_compute. auto. Qed.

(** ** C126: the text of an error *)
Definition named (E : errno_numbers) (x : Z) (t : string) : Prop := described E x t.
Theorem C126_text : forall E x, texts_header E ->
  (forall t, described E x t -> errno_text E x = t) /\
  ((forall t, ~ described E x t) -> errno_text E x = "Unknown"%string).
Proof.
  intros E x (HU & HZ). unfold errno_text. split.
  - intros t D. destruct D as [|n g t x Hin HE Hg]; [reflexivity|]. destruct (Z.eqb_spec x 0) as [->|Hx]; [exfalso; exact (HZ n g t Hin HE)|].
    destruct (text_case E errno_texts x) as [(_ & A)|(m & h & A & B)].
    + exfalso. apply (A n g t Hin). split; assumption.
    + assert (n = m) by (apply (HU n g t m h _ x Hin A); [split; assumption|exact B]). subst m. exact (same_entry n h _ g t A Hin).
  - intros Hn. destruct (Z.eqb_spec x 0) as [->|Hx]; [exfalso; exact (Hn _ (described_ok E))|].
    destruct (text_case E errno_texts x) as [(A & _)|(m & h & A & B & C)]; [exact A|]. exfalso. exact (Hn _ (described_listed E m h _ x A B C)).
Qed.
Print Assumptions C126_text.
Lemma entry_unique l n g t m h : NoDup (map (@snd (string * option string) string) l) -> In (n, g, t) l -> In (m, h, t) l -> n = m /\ g = h.
Proof.
  induction l as [|((k, j), v) l IH]; cbn [map snd]; intros ND H1 H2; [destruct H1|]. inversion ND as [|? ? A B]; subst.
  destruct H1 as [E1|H1], H2 as [E2|H2]; auto.
  - split; congruence.
  - injection E1 as -> -> ->. exfalso. apply A. apply in_map_iff. exists (m, h, t). auto.
  - injection E2 as -> -> ->. exfalso. apply A. apply in_map_iff. exists (n, g, t). auto.
Qed.
(** Different described errnos have different texts, so a text tells its errno. *)
Theorem C126_different : forall E x y t u, described E x t -> described E y u -> t = u -> x = y.
Proof.
  intros E x y t u D1 D2 Htu. assert (S : forall n g, ~ In (n, g, "Success"%string) errno_texts).
  { intros n g H. assert (X : existsb (String.eqb "Success") (map snd errno_texts) = true).
    { apply existsb_exists. exists "Success"%string. split; [apply in_map_iff; exists (n, g, "Success"%string); auto|reflexivity]. }
    vm_compute in X. discriminate. }
  destruct D1 as [|n g t x Hn HE Hg]; destruct D2 as [|m h u y Hm HF Hh]; subst; try reflexivity.
  - exfalso. exact (S _ _ Hm).
  - exfalso. exact (S _ _ Hn).
  - destruct (entry_unique errno_texts n g u m h texts_distinct Hn Hm) as (-> & ->). congruence.
Qed.
Print Assumptions C126_different.
Theorem C126_printed : forall a E x t, known_abi a -> texts_header E -> int_range a x -> described E x t ->
  print_error a E (throw_posix a x) = Some t.
Proof.
  intros a E x t Ha HE Hx D. unfold print_error. rewrite C125_code by assumption. cbn [option_map]. f_equal. now apply (proj1 (C126_text E x HE)).
Qed.
Print Assumptions C126_printed.

(** ** C127: errors of Windows, NT and the C library compared *)
Definition windows_abi (a : abi) : Prop := In a [mk_abi 64 32; mk_abi 32 32].
Lemma windows_known a : windows_abi a -> known_abi a.
Proof. unfold windows_abi, known_abi. cbn [In]. tauto. Qed.
Definition thrown_as (a : abi) (c : condition) : error :=
  match c with Posix x => throw_posix a x | Windows w => throw_win32 a w | Nt s => throw_nt a s | Parse c => throw_parse a c end.
Definition equals (a : abi) E dos (e : error) (c : condition) : bool :=
  match c with
  | Posix x => win_posix_equivalent a E dos false e x
  | Windows w => win32_equivalent a E dos false e w
  | Nt s => nt_equivalent a E dos e s
  | Parse c => parse_equivalent a e c
  end.
Definition statuses_ok (dos : Z -> Z) : Prop := forall s, 0 <= dos s < 2 ^ 32.

Lemma domains_apart a : windows_abi a ->
  (posix_domain a =? parse_domain a) = false /\ (posix_domain a =? win32_domain a) = false /\ (posix_domain a =? nt_domain a) = false /\
  (parse_domain a =? posix_domain a) = false /\ (parse_domain a =? win32_domain a) = false /\ (parse_domain a =? nt_domain a) = false /\
  (win32_domain a =? posix_domain a) = false /\ (win32_domain a =? parse_domain a) = false /\ (win32_domain a =? nt_domain a) = false /\
  (nt_domain a =? posix_domain a) = false /\ (nt_domain a =? parse_domain a) = false /\ (nt_domain a =? win32_domain a) = false.
Proof. intros H. unfold windows_abi in H. cbn [In] in H. repeat destruct H as [<-|H]; [| |destruct H]; vm_compute; auto 20. Qed.
Lemma as_int_posix a x : windows_abi a -> - 2 ^ 31 <= x < 2 ^ 31 -> as_int a (wrap (ptr_bits a) (wrap (int_bits a) x)) = x.
Proof.
  intros Ha Hx. rewrite code_posix by now apply windows_known. unfold as_int. unfold wrap at 2. rewrite <- (wrap_id (int_bits a) (x mod 2 ^ int_bits a)).
  - unfold windows_abi in Ha. cbn [In] in Ha. repeat destruct Ha as [<-|Ha]; [| |destruct Ha]; cbn [int_bits];
    rewrite !wrap_id by (apply Z.mod_pos_bound; lia); apply (signed_wrap 32); lia.
  - apply Z.mod_pos_bound. unfold windows_abi in Ha. cbn [In] in Ha. repeat destruct Ha as [<-|Ha]; [| |destruct Ha]; reflexivity.
Qed.
Lemma as_int_code a x : windows_abi a -> - 2 ^ 31 <= x < 2 ^ 31 -> as_int a (wrap (int_bits a) x) = x.
Proof. intros Ha Hx. rewrite <- (code_posix a x) by now apply windows_known. now apply as_int_posix. Qed.
Lemma code_u32 a w : windows_abi a -> 0 <= w < 2 ^ 32 -> wrap (ptr_bits a) w = w /\ wrap 32 (wrap (ptr_bits a) w) = w.
Proof.
  intros Ha Hw. assert (Q : wrap (ptr_bits a) w = w).
  { apply wrap_id. unfold windows_abi in Ha. cbn [In] in Ha. repeat destruct Ha as [<-|Ha]; [| |destruct Ha]; cbn [ptr_bits]; lia. }
  rewrite Q. split; [reflexivity|]. now apply wrap_id.
Qed.
Lemma posix_int a x : windows_abi a -> - 2 ^ 31 <= x < 2 ^ 31 -> int_range a x.
Proof. intros Ha Hx. unfold windows_abi in Ha. cbn [In] in Ha. unfold int_range. repeat destruct Ha as [<-|Ha]; [| |destruct Ha]; exact Hx. Qed.

Theorem C127_same : forall a E dos c d, windows_abi a -> windows_header E -> statuses_ok dos -> condition_ok c -> condition_ok d ->
  equals a E dos (thrown_as a c) d = true <-> same E dos c d.
Proof.
  intros a E dos c d Ha HE HD Hc Hd. destruct (domains_apart a Ha) as (D1 & D2 & D3 & D4 & D5 & D6 & D7 & D8 & D9 & D10 & D11 & D12).
  destruct c as [x|w|s|k], d as [y|v|t|j]; cbn [equals thrown_as condition_ok] in *;
  unfold win_posix_equivalent, win32_equivalent, nt_equivalent, parse_equivalent, throw_posix, throw_win32, throw_nt, throw_parse;
  cbn [e_domain e_code]; cbv zeta; rewrite ?D1, ?D2, ?D3, ?D4, ?D5, ?D6, ?D7, ?D8, ?D9, ?D10, ?D11, ?D12, ?Z.eqb_refl; cbn [orb andb];
  rewrite ?as_int_posix, ?as_int_code by assumption;
  repeat match goal with H : 0 <= ?w < 2 ^ 32 |- _ => progress rewrite ?(proj2 (code_u32 a w Ha H)), ?(proj1 (code_u32 a w Ha H)) end;
  rewrite ?equals_spec by assumption.
  - rewrite code_posix, Z.eqb_eq by now apply windows_known. split.
    + intros H. replace y with x; [constructor|]. symmetry. apply (wrap_inj a y x); [now apply windows_known|now apply posix_int|now apply posix_int|exact H].
    + intros H. inversion H; subst. reflexivity.
  - split; [apply same_pw|]. intros H. inversion H; subst; assumption.
  - split; [apply same_pn|]. intros H. inversion H; subst; assumption.
  - split; [discriminate|]. intros H. inversion H.
  - split; [apply same_wp|]. intros H. inversion H; subst; assumption.
  - rewrite Z.eqb_eq. split; [intros ->; constructor|]. intros H. inversion H; subst. reflexivity.
  - rewrite Z.eqb_eq. split; [intros <-; constructor|]. intros H. inversion H; subst. reflexivity.
  - split; [discriminate|]. intros H. inversion H.
  - split; [apply same_np|]. intros H. inversion H; subst; assumption.
  - rewrite Z.eqb_eq. split; [intros <-; constructor|]. intros H. inversion H; subst. reflexivity.
  - rewrite Z.eqb_eq. split; [intros ->; constructor|]. intros H. inversion H; subst. reflexivity.
  - split; [discriminate|]. intros H. inversion H.
  - split; [discriminate|]. intros H. inversion H.
  - split; [discriminate|]. intros H. inversion H.
  - split; [discriminate|]. intros H. inversion H.
  - rewrite !wrap_id by (unfold windows_abi in Ha; cbn [In] in Ha; repeat destruct Ha as [<-|Ha]; [| |destruct Ha]; cbn [ptr_bits]; lia).
    rewrite Z.eqb_eq. split; [intros ->; constructor|]. intros H. inversion H; subst. reflexivity.
Qed.
Print Assumptions C127_same.
(** So equality is symmetric. *)
Theorem C127_symmetric : forall a E dos c d, windows_abi a -> windows_header E -> statuses_ok dos -> condition_ok c -> condition_ok d ->
  equals a E dos (thrown_as a c) d = equals a E dos (thrown_as a d) c.
Proof.
  intros a E dos c d Ha HE HD Hc Hd.
  assert (S : forall x y, same E dos x y -> same E dos y x) by (intros x y []; constructor; assumption).
  destruct (equals a E dos (thrown_as a c) d) eqn:A; symmetry.
  - apply C127_same in A; auto. apply C127_same; auto.
  - rewrite <- not_true_iff_false in A |- *. intros B. apply A. apply C127_same in B; auto. apply C127_same; auto.
Qed.
Print Assumptions C127_symmetric.
(** In a build for Windows 9x every NT status equals EINVAL, and the two directions differ. *)
Theorem C127_windows_9x_refuted : forall a E dos s w, windows_abi a -> windows_header E -> 0 <= s < 2 ^ 32 -> dos s = w -> 0 <= w < 2 ^ 32 ->
  win32_equivalent a E dos true (throw_nt a s) w = false /\ nt_equivalent a E dos (throw_win32 a w) s = true /\
  forall x, E "EINVAL"%string = Some x -> - 2 ^ 31 <= x < 2 ^ 31 -> win_posix_equivalent a E dos true (throw_nt a s) x = true.
Proof.
  intros a E dos s w Ha HE Hs Hd Hw. destruct (domains_apart a Ha) as (D1 & D2 & D3 & D4 & D5 & D6 & D7 & D8 & D9 & D10 & D11 & D12).
  unfold win_posix_equivalent, win32_equivalent, nt_equivalent, throw_win32, throw_nt. cbn [e_domain e_code]. cbv zeta.
  rewrite D3, D9, D12, !Z.eqb_refl, (proj1 (code_u32 a w Ha Hw)), Hd, Z.eqb_refl. cbn [orb].
  split; [reflexivity|]. split; [reflexivity|]. intros x Hx Hr. rewrite as_int_code by assumption. apply equals_spec; [exact HE|].
  apply (stands_listed E "EINVAL" [13; 25; 27; 87; 131; 208; 209; 210; 230; 254; 255; 424; 487; 1008; 1332; 2202] 87 x); [|cbn [In]; auto|exact Hx].
  unfold codes_of_errno. cbn [In]. auto 30.
Qed.
Print Assumptions C127_windows_9x_refuted.

(** ** C128: conversions between the numbers *)
(** The numbers of the header of MinGW. *)
Definition mingw : errno_numbers := fun n =>
  match find (fun p => String.eqb (fst p) n)
    [("EPERM", 1); ("ENOENT", 2); ("ESRCH", 3); ("EINTR", 4); ("EIO", 5); ("ENXIO", 6); ("E2BIG", 7); ("ENOEXEC", 8); ("EBADF", 9);
     ("ECHILD", 10); ("EAGAIN", 11); ("ENOMEM", 12); ("EACCES", 13); ("EFAULT", 14); ("EBUSY", 16); ("EEXIST", 17); ("EXDEV", 18);
     ("ENODEV", 19); ("ENOTDIR", 20); ("EISDIR", 21); ("EINVAL", 22); ("ENFILE", 23); ("EMFILE", 24); ("ENOTTY", 25); ("EFBIG", 27);
     ("ENOSPC", 28); ("ESPIPE", 29); ("EROFS", 30); ("EMLINK", 31); ("EPIPE", 32); ("EDOM", 33); ("ERANGE", 34); ("EDEADLOCK", 36);
     ("ENAMETOOLONG", 38); ("ENOLCK", 39); ("ENOSYS", 40); ("ENOTEMPTY", 41); ("ECONNREFUSED", 107); ("EMSGSIZE", 115);
     ("ENODATA", 120); ("ENOLINK", 121); ("ENOTSUP", 129); ("EOTHER", 131)]%string
  with Some p => Some (snd p) | None => None end.

(** The code chosen for an errno stands for it. *)
Theorem C128_round_trip : forall a E dos old n w x, windows_abi a -> windows_header E ->
  In (n, w) code_of_errno -> E n = Some x ->
  to_win32_code a E dos old (throw_posix a x) = w /\ win_to_posix_code a E dos old (throw_win32 a w) = x /\ stands_for E w x.
Proof.
  intros a E dos old n w x Ha HE Hin Hx. destruct (domains_apart a Ha) as (D1 & D2 & D3 & D4 & D5 & D6 & D7 & D8 & D9 & D10 & D11 & D12).
  destruct HE as ((INJ & HZ & HR) & HO & HOZ).
  assert (NE : map fst code_of_errno = errno_names) by (vm_compute; reflexivity).
  assert (Hn : In n errno_names) by (rewrite <- NE; apply in_map_iff; exists (n, w); auto).
  assert (EN : exists cs, In (n, cs) codes_of_errno /\ In w cs /\ 0 <= w < 2 ^ 32).
  { assert (C : forallb (fun p => existsb (fun q => String.eqb (fst p) (fst q) && existsb (Z.eqb (snd p)) (snd q)) codes_of_errno && (0 <=? snd p) && (snd p <? 2 ^ 32)) code_of_errno = true)
      by (vm_compute; reflexivity).
    rewrite forallb_forall in C. specialize (C _ Hin). cbn [fst snd] in C. apply andb_true_iff in C. destruct C as (C & C2).
    apply andb_true_iff in C. destruct C as (C & C1). apply existsb_exists in C. destruct C as ((m, cs) & M1 & M2). cbn [fst snd] in M2.
    apply andb_true_iff in M2. destruct M2 as (M2 & M3). apply String.eqb_eq in M2. subst m. apply existsb_exists in M3.
    destruct M3 as (w' & W1 & W2). apply Z.eqb_eq in W2. subst w'. exists cs. split; [exact M1|]. split; [exact W1|]. lia. }
  destruct EN as (cs & Hcs & Hw & Rw). assert (ST : stands_for E w x) by exact (stands_listed E n cs w x Hcs Hw Hx).
  assert (Rx : - 2 ^ 31 <= x < 2 ^ 31) by (specialize (HR n x Hx); lia).
  unfold to_win32_code, win_to_posix_code, throw_posix, throw_win32. cbn [e_domain e_code]. cbv zeta.
  rewrite D2, D7, D10, D12, !Z.eqb_refl, as_int_posix by assumption. cbn [orb]. rewrite (proj2 (code_u32 a w Ha Rw)).
  split; [|split; [now apply to_errno_stands|exact ST]].
  unfold errno_to_win32_code. destruct (Z.eqb_spec x 0) as [->|Hx0]; [exfalso; exact (HZ n Hn Hx)|].
  apply (code_in_found E code_of_errno) with (n := n); [rewrite NE; exact names_distinct|rewrite NE; exact INJ|exact Hin|exact Hx].
Qed.
Print Assumptions C128_round_trip.
(** No error stays no error, and an errno that no number of the list has becomes ERROR_INVALID_PARAMETER. *)
Theorem C128_success : forall a E dos old, windows_abi a ->
  to_win32_code a E dos old (throw_posix a 0) = 0 /\ win_to_posix_code a E dos old (throw_win32 a 0) = 0 /\
  (forall s, 0 <= s < 2 ^ 32 -> dos s = 0 -> to_win32_code a E dos false (throw_nt a s) = 0 /\ win_to_posix_code a E dos false (throw_nt a s) = 0) /\
  (forall x, - 2 ^ 31 <= x < 2 ^ 31 -> x <> 0 -> (forall n, In n (map fst code_of_errno) -> E n <> Some x) ->
     to_win32_code a E dos old (throw_posix a x) = 87).
Proof.
  intros a E dos old Ha. destruct (domains_apart a Ha) as (D1 & D2 & D3 & D4 & D5 & D6 & D7 & D8 & D9 & D10 & D11 & D12).
  unfold to_win32_code, win_to_posix_code, throw_posix, throw_win32, throw_nt. cbn [e_domain e_code]. cbv zeta.
  rewrite D2, D3, D7, D9, D10, D12, !Z.eqb_refl, as_int_posix by (assumption || lia). cbn [orb]. rewrite (proj2 (code_u32 a 0 Ha ltac:(lia))).
  split; [reflexivity|]. split; [reflexivity|]. split.
  - intros s Hs Hd. rewrite (proj2 (code_u32 a s Ha Hs)), Hd. split; reflexivity.
  - intros x Hx Hn H. rewrite as_int_posix by assumption. unfold errno_to_win32_code. destruct (Z.eqb_spec x 0) as [|_]; [contradiction|].
    revert H. generalize code_of_errno. intros l. induction l as [|(n, w) l IH]; intros H; [reflexivity|]. cbn [code_in].
    destruct (E n) as [y|] eqn:En; [destruct (Z.eqb_spec y x) as [->|]|]; try (exfalso; apply (H n); [left; reflexivity|exact En]);
      apply IH; intros k Hk; apply H; right; exact Hk.
Qed.
Print Assumptions C128_success.
(** Converting to one's own kind changes nothing, and an NT status becomes its Windows error; a Windows error becomes the errno
    that stands for it, or EOTHER. *)
Theorem C128_codes : forall a E dos w s, windows_abi a -> statuses_ok dos -> 0 <= w < 2 ^ 32 -> 0 <= s < 2 ^ 32 ->
  to_win32_code a E dos false (throw_win32 a w) = w /\ to_win32_code a E dos false (throw_nt a s) = dos s /\
  (forall x, stands_for E w x -> win_to_posix_code a E dos false (throw_win32 a w) = x) /\
  ((forall x, ~ stands_for E w x) -> win_to_posix_code a E dos false (throw_win32 a w) = eother_value E) /\
  win_to_posix_code a E dos false (throw_nt a s) = win_to_posix_code a E dos false (throw_win32 a (dos s)).
Proof.
  intros a E dos w s Ha HD Hw Hs. destruct (domains_apart a Ha) as (D1 & D2 & D3 & D4 & D5 & D6 & D7 & D8 & D9 & D10 & D11 & D12).
  unfold to_win32_code, win_to_posix_code, throw_win32, throw_nt. cbn [e_domain e_code]. cbv zeta.
  rewrite D2, D3, D9, D12, !Z.eqb_refl. cbn [orb].
  rewrite (proj2 (code_u32 a w Ha Hw)), (proj2 (code_u32 a s Ha Hs)).
  rewrite (proj2 (code_u32 a (dos s) Ha (HD s))).
  split; [reflexivity|]. split; [reflexivity|]. split; [intros x; apply to_errno_stands|]. split; [|reflexivity].
  intros H. destruct (to_errno_source E w) as [A|A]; [exfalso; exact (H _ A)|exact A].
Qed.
Print Assumptions C128_codes.
(** The errno of an error of the C library is looked up as if it were a Windows error. *)
Theorem C128_own_code_partial : forall a E dos x, windows_abi a -> 0 <= x < 2 ^ 31 ->
  win_to_posix_code a E dos false (throw_posix a x) = win32_code_to_errno E x.
Proof.
  intros a E dos x Ha Hx. unfold win_to_posix_code, throw_posix. cbn [e_domain e_code]. cbv zeta. rewrite Z.eqb_refl.
  rewrite code_posix by now apply windows_known. unfold windows_abi in Ha. cbn [In] in Ha.
  repeat destruct Ha as [<-|Ha]; try contradiction; cbn [int_bits]; rewrite (wrap_id 32 x), (wrap_id 32 x) by lia; reflexivity.
Qed.
Print Assumptions C128_own_code_partial.
(** A checker for headers given as a list. *)
Definition numbers (E : errno_numbers) (l : list string) : list Z :=
  concat (map (fun n => match E n with Some x => [x] | None => [] end) l).
Lemma numbers_in E l n x : In n l -> E n = Some x -> In x (numbers E l).
Proof. intros Hn Hx. apply in_concat. exists [x]. split; [|left; reflexivity]. apply in_map_iff. exists n. rewrite Hx. auto. Qed.
Lemma numbers_distinct E l : NoDup (numbers E l) -> forall n m x, In n l -> In m l -> E n = Some x -> E m = Some x -> n = m.
Proof.
  induction l as [|k l IH]; intros ND n m x Hn Hm En Em; [destruct Hn|]. unfold numbers in ND. cbn [map concat] in ND. fold (numbers E l) in ND.
  assert (ND2 : NoDup (numbers E l)) by (destruct (E k); [now inversion ND|exact ND]).
  assert (OUT : forall y, E k = Some y -> ~ In y (numbers E l)) by (intros y Hy; rewrite Hy in ND; now inversion ND).
  destruct Hn as [->|Hn], Hm as [->|Hm]; auto.
  - exfalso. exact (OUT x En (numbers_in E l m x Hm Em)).
  - exfalso. exact (OUT x Em (numbers_in E l n x Hn En)).
  - exact (IH ND2 n m x Hn Hm En Em).
Qed.
Lemma mingw_numbers n x : mingw n = Some x -> 1 <= x < 200.
Proof.
  unfold mingw. destruct (find _ _) as [p|] eqn:F; [|discriminate]. intros [= <-]. apply find_some in F. destruct F as (F & _).
  cbn [In] in F. repeat destruct F as [<-|F]; try contradiction; cbn [snd]; lia.
Qed.
Lemma mingw_windows : windows_header mingw.
Proof.
  split; [split; [|split]|split].
  - apply numbers_distinct. apply (distinct_ok Z.eqb Z.eqb_eq). vm_compute. reflexivity.
  - intros n _ H. apply mingw_numbers in H. lia.
  - intros n x H. apply mingw_numbers in H. lia.
  - intros n Hn H. assert (V : existsb (Z.eqb (eother_value mingw)) (numbers mingw errno_names) = true).
    { apply existsb_exists. exists (eother_value mingw). split; [exact (numbers_in mingw errno_names n _ Hn H)|apply Z.eqb_refl]. }
    vm_compute in V. discriminate.
  - vm_compute. discriminate.
Qed.
Theorem C128_own_code_refuted : windows_header mingw /\ mingw "EACCES"%string = Some 13 /\ mingw "EINVAL"%string = Some 22 /\
  forall a dos, windows_abi a -> win_to_posix_code a mingw dos false (throw_posix a 13) = 22 /\
    win_posix_equivalent a mingw dos false (throw_posix a 13) 13 = true /\ win_posix_equivalent a mingw dos false (throw_posix a 13) 22 = false.
Proof.
  split; [exact mingw_windows|]. split; [reflexivity|]. split; [reflexivity|]. intros a dos Ha.
  rewrite C128_own_code_partial by (assumption || lia). unfold windows_abi in Ha. cbn [In] in Ha.
  repeat destruct Ha as [<-|Ha]; [| |destruct Ha]; vm_compute; auto.
Qed.
Print Assumptions C128_own_code_refuted.
(** An errno without a Windows error becomes ERROR_INVALID_PARAMETER, which is EINVAL again. *)
Theorem C128_unlisted_refuted : mingw "EDOM"%string = Some 33 /\ forall a dos old, windows_abi a ->
  to_win32_code a mingw dos old (throw_posix a 33) = 87 /\ win_to_posix_code a mingw dos old (throw_win32 a 87) = 22.
Proof.
  split; [reflexivity|]. intros a dos old Ha. unfold windows_abi in Ha. cbn [In] in Ha.
  repeat destruct Ha as [<-|Ha]; [| |destruct Ha]; vm_compute; auto.
Qed.
Print Assumptions C128_unlisted_refuted.
Example C127_case : windows_header mingw /\ same mingw (fun s => if s =? 3221225524 then 2 else 0) (Nt 3221225524) (Posix 2) /\
  win_posix_equivalent (mk_abi 64 32) mingw (fun s => if s =? 3221225524 then 2 else 0) false (throw_nt (mk_abi 64 32) 3221225524) 2 = true /\
  win32_equivalent (mk_abi 32 32) mingw (fun _ => 0) false (throw_posix (mk_abi 32 32) 13) 5 = true /\
  win32_equivalent (mk_abi 32 32) mingw (fun _ => 0) false (throw_posix (mk_abi 32 32) 13) 6 = false.
Proof.
  split; [exact mingw_windows|]. split; [|vm_compute; auto]. apply same_np.
  apply (stands_listed mingw "ENOENT"%string [2; 3; 53; 55; 64; 67; 123; 126; 161]); [|cbn [In]; auto|reflexivity].
  unfold codes_of_errno. cbn [In]. auto 60.
Qed.
Example C128_case : In ("EACCES"%string, 5) code_of_errno /\ errno_to_win32_code mingw 13 = 5 /\ win32_code_to_errno mingw 80 = 17 /\
  win32_code_to_errno mingw 1 = 131.
Proof. split; [left; reflexivity|]. vm_compute. auto. Qed.

Lemma mingw_texts : texts_header mingw.
Proof.
  split; [|intros n g t _ H; apply mingw_numbers in H; lia].
  intros n g t m h u x H1 H2 (E1 & _) (E2 & _). apply (numbers_distinct mingw (map (fun e => fst (fst e)) errno_texts)) with (x := x); try assumption.
  - apply (distinct_ok Z.eqb Z.eqb_eq). vm_compute. reflexivity.
  - apply in_map_iff. exists (n, g, t). auto.
  - apply in_map_iff. exists (m, h, u). auto.
Qed.
(** A header in which EWOULDBLOCK is EAGAIN, as everywhere on Linux. *)
Definition two_names : errno_numbers := fun n =>
  if String.eqb n "EAGAIN"%string then Some 11 else if String.eqb n "EWOULDBLOCK"%string then Some 11 else if String.eqb n "ENOENT"%string then Some 2 else None.
Example C126_case : texts_header mingw /\ described mingw 2 "No such file or directory" /\ errno_text mingw 2 = "No such file or directory"%string /\
  errno_text mingw 131 = "Unknown"%string /\ errno_text two_names 11 = "No more processes"%string /\ errno_text mingw 0 = "Success"%string.
Proof.
  split; [exact mingw_texts|]. split; [|vm_compute; auto].
  apply (described_listed mingw "ENOENT"%string None); [unfold errno_texts; cbn [In]; auto|reflexivity|trivial].
Qed.

(** ** C129: failed system calls of Linux *)
(** A result between -4095 and -1 is an error number, negated. *)
Definition kernel_error (v : Z) : Prop := -4095 <= v <= -1.
Theorem C129_system_call_partial : forall w v, In w [16; 32; 64] -> - 2 ^ (w - 1) <= v < 2 ^ (w - 1) -> v <> -4096 ->
  (kernel_error v -> system_call_throw_error w v = Some (- v)) /\
  (~ kernel_error v -> system_call_throw_error w v = None) /\
  (system_call_fails w v = true <-> kernel_error v).
Proof.
  intros w v Hw Hv Hn. unfold system_call_throw_error, system_call_fails, kernel_error.
  assert (A : wrap w 4096 = 4096) by (apply wrap_id; cbn [In] in Hw; repeat destruct Hw as [<-|Hw]; try contradiction; lia).
  assert (B : wrap w (wrap w v + wrap w 4096) = wrap w (v + 4096)).
  { rewrite A. unfold wrap. apply Z.add_mod_idemp_l. cbn [In] in Hw. repeat destruct Hw as [<-|Hw]; try contradiction; discriminate. }
  rewrite B, A. assert (P : (wrap w (v + 4096) <? 4096) = ((-4096 <=? v) && (v <? 0))%bool).
  { assert (Q : 8192 < 2 ^ w /\ 2 ^ w = 2 * 2 ^ (w - 1)).
    { cbn [In] in Hw. repeat destruct Hw as [<-|Hw]; try contradiction; split; reflexivity. }
    destruct (Z.leb_spec (-4096) v).
    - cbn [andb]. rewrite wrap_id by lia. destruct (Z.ltb_spec (v + 4096) 4096), (Z.ltb_spec v 0); lia.
    - cbn [andb]. apply Z.ltb_ge. unfold wrap. rewrite <- (Z.mod_add (v + 4096) 1) by lia. rewrite Z.mod_small by lia. lia. }
  rewrite P. destruct (Z.leb_spec (-4096) v), (Z.ltb_spec v 0); cbn [andb]; repeat split; intros; try lia; try reflexivity; try discriminate.
  f_equal. apply (signed_wrap 32); lia.
Qed.
Print Assumptions C129_system_call_partial.
(** -4096 is not an error of the kernel's convention, and is thrown as errno 4096. *)
Theorem C129_boundary_refuted : ~ kernel_error (-4096) /\ system_call_throw_error 64 (-4096) = Some 4096.
Proof. split; [unfold kernel_error; lia|vm_compute; reflexivity]. Qed.
Print Assumptions C129_boundary_refuted.
Example C129_case : kernel_error (-2) /\ system_call_throw_error 32 (-2) = Some 2 /\ system_call_throw_error 64 (2 ^ 40) = None.
Proof. split; [unfold kernel_error; lia|]. vm_compute. auto. Qed.
