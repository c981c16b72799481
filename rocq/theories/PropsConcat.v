(** C73: concat and concatln. *)
From Coq Require Import String.
From Coq Require Import List.
From Verif Require Import Base BufModel PrintModel BufSpec ConcatModel ConcatSpec ConcatProofs NumSpec IntPrintModel IntPrintProofs JeaiiiProofs IntPrintCorrect IntSizeProofs PropsIntPrint.

(** ** C73: concat gives exactly what print would write *)
(** For every string type and every list of arguments that keep their promises. *)
Theorem C73_concat : forall T opt line args,
  str_ok T -> (st_aux T = false -> grows_exactly T) -> Forall carg_ok args -> precise_ok args -> announced args + 1 < 2 ^ 60 ->
  concat_impl T opt line args = Fine (printed_text line args).
Proof.
  intros T opt line args H1 H2 H3 H4 H5. rewrite concat_spec by auto. unfold printed, printed_text, args_of. rewrite map_map. destruct line; reflexivity.
Qed.
Print Assumptions C73_concat.

(** *** Integers *)
(** An integer as an argument, with the models of print_reserve_size, print_reserve_define, print_reserve_precise_size and
    print_reserve_precise_define of IntPrintModel.v. *)
Definition int_carg (fl : pflags) (ty : int_type) (t : Z) : carg :=
  mk_carg (PReserve (Z.to_nat (reserved_size fl ty)) (match print_int fl ty t with Some s => s | None => [] end))
    (Some (Z.to_nat (precise_size fl ty t),
           match layout_of (print_precise fl ty (precise_size fl ty t) t) with Some w => w | None => [] end)).
(** The integers and flags for which the reserved size suffices (C03). *)
Definition int_fits (a : pflags * int_type * Z) : Prop :=
  let '(fl, ty, t) := a in
  In (iw ty) [8; 16; 32; 64; 128] /\ 2 <= pf_base fl <= 36 /\
  (iw ty = 128 -> pf_base fl = 10 \/ (In (pf_base fl) [2; 4; 16] /\ pf_upper fl = false)) /\
  in_range ty t /\ pf_full fl = false /\ (pf_base fl = 10 \/ Z.abs t <= int_max ty).
Definition int_args (l : list (pflags * int_type * Z)) : list carg := map (fun '(fl, ty, t) => int_carg fl ty t) l.
Definition int_text (a : pflags * int_type * Z) (s : list Z) : Prop := let '(fl, ty, t) := a in print_int fl ty t = Some s.
Lemma int_fits_ok fl ty t : int_fits (fl, ty, t) -> carg_ok (int_carg fl ty t) /\
  exists s, print_int fl ty t = Some s /\ Z.of_nat (length s) <= reserved_size fl ty.
Proof.
  intros (Hw & Hb & Hc & Ht & Hf & Hm).
  destruct (C04_sign_prefix_magnitude fl ty t Hw Hb Hf Hc Ht) as (num & _ & E).
  assert (L : forall s, print_int fl ty t = Some s -> Z.of_nat (length s) <= reserved_size fl ty).
  { intros s Es. destruct Hm as [Hm|Hm].
    - eapply C03_reserve_enough_decimal; eauto.
    - eapply C03_reserve_enough_partial; eauto. }
  split; [|eauto]. unfold carg_ok, int_carg. cbn [ca_arg arg_ok]. rewrite E. specialize (L _ E). lia.
Qed.
(** Two or more integers: always right. *)
Theorem C73_integers : forall T opt line l texts, str_ok T -> (st_aux T = false -> grows_exactly T) ->
  Forall int_fits l -> length l <> 1%nat -> Forall2 int_text l texts -> announced (int_args l) + 1 < 2 ^ 60 ->
  concat_impl T opt line (int_args l) = Fine (concat texts ++ (if line then [10] else [])).
Proof.
  intros T opt line l texts HT HG Hl Hn Ht Hs. rewrite C73_concat; auto.
  - f_equal. unfold printed_text. f_equal. clear Hs Hn Hl. induction Ht as [|[[fl ty] t] s l texts H _ IH]; [reflexivity|].
    cbn [int_args map concat]. unfold int_text in H. unfold int_carg at 1. cbn [ca_arg text_of]. rewrite H. f_equal. exact IH.
  - clear - Hl. induction Hl as [|[[fl ty] t] l H _ IH]; constructor; auto. apply int_fits_ok; auto.
  - intros c n w E. exfalso. apply Hn. apply (f_equal (@length _)) in E. unfold int_args in E. rewrite map_length in E. exact E.
Qed.
Print Assumptions C73_integers.
(** One integer: right unless it is a decimal with a sign. *)
Theorem C73_one_integer_partial : forall T opt line fl ty t s, str_ok T -> (st_aux T = false -> grows_exactly T) ->
  int_fits (fl, ty, t) -> (pf_showpos fl = true -> 0 <= t) -> (pf_base fl = 10 -> pf_showpos fl = false /\ 0 <= t) ->
  print_int fl ty t = Some s -> reserved_size fl ty + 1 < 2 ^ 60 ->
  concat_impl T opt line [int_carg fl ty t] = Fine (s ++ (if line then [10] else [])).
Proof.
  intros T opt line fl ty t s HT HG Hi Hp H10 Hs Hz. pose proof Hi as (Hw & Hb & Hc & Ht & Hf & Hm).
  destruct (int_fits_ok fl ty t Hi) as [Hok (s' & Es & Hl)]. rewrite Hs in Es. injection Es as <-.
  rewrite C73_concat; auto.
  - unfold printed_text. cbn [map concat int_carg ca_arg text_of]. rewrite Hs, app_nil_r. reflexivity.
  - intros c n w [= <-]. cbn [ca_precise int_carg ca_arg text_of]. intros [= <- <-].
    rewrite (C40_integer_precise_text_partial fl ty t) by auto. rewrite Hs. split; [reflexivity|].
    rewrite (C40_integer_precise_size_partial fl ty t s) by auto. apply Nat2Z.id.
  - unfold announced. cbn [fold_right int_carg ca_arg]. lia.
Qed.
Print Assumptions C73_one_integer_partial.
(** concat(-5LL) is "-0": the precise size 2 includes the sign, but two digits are stored after the sign. *)
Theorem C73_negative_refuted : forall opt,
  concat_impl (std_string 1) opt false [int_carg default_pflags (mk_int 64 true) (-5)] = Fine [45; 48] /\
  print_int default_pflags (mk_int 64 true) (-5) = Some [45; 53].
Proof. intros opt. split; [destruct opt|]; vm_compute; reflexivity. Qed.
Print Assumptions C73_negative_refuted.
Open Scope string_scope. Open Scope list_scope. Open Scope Z_scope.
(** Arguments of every kind, into the string of the standard library, into a string type without room of its own and
    into one without the buffer interface. *)
Example C73_nonvacuous :
  let args := [mk_carg (PScatter (text "ab")) None; mk_carg (PDynamic 20 (text "0123456789")) None;
               int_carg default_pflags (mk_int 64 true) (-5); mk_carg (PDefine [text "xyz"; text "0123456789"]) None] in
  let plain := firstn 3 args in
  Forall carg_ok args /\ precise_ok args /\ announced args + 1 < 2 ^ 60 /\
  str_ok (std_string 1) /\ str_ok (mk_strtype 1 true None true 0 (fun cap n => (cap + n)%nat)) /\ str_ok (mk_strtype 2 false None true 0 (fun _ n => n)) /\
  concat_impl (std_string 1) true true args = Fine (text "ab0123456789-5xyz0123456789" ++ [10]) /\
  concat_impl (mk_strtype 1 true None true 0 (fun cap n => (cap + n)%nat)) true false plain = Fine (text "ab0123456789-5") /\
  concat_impl (mk_strtype 2 false None true 0 (fun _ n => n)) false false args = Fine (text "ab0123456789-5xyz0123456789").
Proof.
  cbv zeta. split; [|split; [|split; [|split; [|split; [|split; [|split; [|split]]]]]]].
  - repeat constructor; vm_compute; repeat constructor.
  - intros c n w E. discriminate E.
  - vm_compute. reflexivity.
  - repeat split; [left; reflexivity|intros; apply Nat.le_max_r|intros sso [= <-]; apply le_n].
  - repeat split; [left; reflexivity|intros; cbn; lia|intros sso E; discriminate E].
  - repeat split; [right; left; reflexivity|intros; apply le_n|intros sso E; discriminate E].
  - vm_compute. reflexivity.
  - vm_compute. reflexivity.
  - vm_compute. reflexivity.
Qed.
Close Scope string_scope.

(** ** C74: printing to a string appends to it *)
(** A history of print and println to one string, from the string [s]; [true] is println. *)
Fixpoint prints (T : strtype) (opt : bool) (s : sbuf) (l : list (bool * list parg)) : res sbuf :=
  match l with
  | [] => Fine s
  | (line, args) :: l => then! s := print_buffered (str_stream T) opt line s args in prints T opt s l
  end.
Definition printed_all (l : list (bool * list parg)) : list Z :=
  concat (map (fun '(line, args) => concat (map text_of args) ++ (if (line : bool) then [10] else [])) l).
(** What the string held stays, and the texts follow it in order, whatever the string's capacity and growth policy. *)
Theorem C74_append : forall T opt s l,
  str_ok T -> st_aux T = true -> (length (sb_text s) <= sb_cap s)%nat ->
  Forall (fun c => Forall arg_ok (snd c)) l ->
  Z.of_nat (length (sb_text s) + length (printed_all l)) < 2 ^ 60 ->
  exists s', prints T opt s l = Fine s' /\ sb_text s' = sb_text s ++ printed_all l /\ (length (sb_text s') <= sb_cap s')%nat.
Proof.
  intros T opt s l HT HA Hs Ha. revert s Hs. induction Ha as [|[line args] l Ha _ IH]; intros s Hs Hl.
  - exists s. split; [reflexivity|]. split; [rewrite app_nil_r; reflexivity|exact Hs].
  - cbn [prints]. cbn [snd] in Ha.
    assert (Hi : sinv T s) by (split; [exact Hs|intros E; congruence]).
    assert (HG : st_aux T = false -> grows_exactly T) by (intros E; congruence).
    assert (E1 : printed_all ((line, args) :: l) = printed line args ++ printed_all l).
    { unfold printed_all. cbn [map concat]. unfold printed. destruct line; reflexivity. }
    rewrite E1 in *. rewrite app_length in Hl.
    destruct (str_print_good T HT HG opt line s args Hi Ha) as [(s1 & -> & [I1 _] & Et)|[_ L]].
    + cbn [bindr]. destruct (IH s1 I1) as (s2 & -> & E2 & I2).
      { rewrite Et, app_length. lia. }
      exists s2. split; [reflexivity|]. split; [|exact I2]. rewrite E2, Et, app_assoc. reflexivity.
    + rewrite app_length in L. lia.
Qed.
Print Assumptions C74_append.
Example C74_nonvacuous :
  let l := [(false, [PScatter [97; 98]; PReserve 21 [45; 53]]); (true, [PDynamic 40 [99]; PDefine [[100]; [101; 102]]]); (true, [])] in
  Forall (fun c => Forall arg_ok (snd c)) l /\
  prints (std_string 1) true (mk_sbuf [60] 15) l = Fine (mk_sbuf [60; 97; 98; 45; 53; 99; 100; 101; 102; 10; 10] 15).
Proof. split; [|vm_compute; reflexivity]. repeat constructor; vm_compute; repeat constructor. Qed.
