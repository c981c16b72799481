(** Proofs about to (ToModel). *)
From Verif Require Import Base NumSpec NumFacts ScanSpec BufModel PrintModel BufSpec IntPrintModel IntPrintProofs IntInjProofs IntSizeProofs IntScanModel IntScanProofs IntSseProofs IntCtxProofs
  IntRoundProofs IntSoundProofs FindModel LineModel LineSpec Leb128Model IpModel IpCtxModel ScanDrvModel ScanDrvProofs ToModel.

(** ** The texts of the arguments without the buffers *)
Section Texts.
Context {S : Type}.
Variable define : S -> list Z -> option (S * nat * parse_code).
Variable eof : S -> option (S * parse_code).
Fixpoint to_texts (st : S) (ts : list (list Z)) : to_res S :=
  match ts with
  | [] => TGot st
  | t :: more =>
      match define st t with
      | None => TUndef
      | Some (st', k, code) =>
          if negb (Nat.eqb k (length t)) then checked code st'
          else match more with
               | [] => match eof st' with None => TUndef | Some (st2, code2) => checked code2 st2 end
               | _ => to_texts st' more
               end
      end
  end.
Lemma to_texts_cons st t more : to_texts st (t :: more) =
  match define st t with
  | None => TUndef
  | Some (st', k, code) =>
      if negb (Nat.eqb k (length t)) then checked code st'
      else match more with
           | [] => match eof st' with None => TUndef | Some (st2, code2) => checked code2 st2 end
           | _ => to_texts st' more
           end
  end.
Proof. reflexivity. Qed.
Lemma to_ctx_texts room : forall args st, Forall (fun p => ToModel.printed room p = Some (text_of p)) args ->
  to_ctx define eof room st args = to_texts st (map text_of args).
Proof.
  induction args as [|p args IH]; intros st H; [reflexivity|]. cbn [to_ctx to_texts map]. rewrite (Forall_inv H).
  destruct (define st (text_of p)) as [[[st' k] code]|]; [|reflexivity]. destruct (negb _); [reflexivity|].
  destruct args as [|q args]; [reflexivity|]. apply IH. exact (Forall_inv_tail H).
Qed.
(** When the scanner is partial exactly at the end of a text, to is the scan of a stream. *)
Lemma to_is_scan (good : S -> Prop) (okt : list Z -> Prop) : (forall st t st' k code, good st -> okt t -> t <> [] -> define st t = Some (st', k, code) ->
    (code = pc_partial -> good st' /\ k = length t) /\ (code <> pc_partial -> (k < length t)%nat)) ->
  forall more st t, good st -> Forall okt (t :: more) -> Forall (fun c => c <> []) (t :: more) ->
  to_texts st (t :: more) = match ctx_scan define eof st t more with
                            | Scanned true st' _ _ => TGot st' | Scanned false _ _ _ => TThrew pc_end_of_file
                            | LineModel.Raised c => TThrew c | Overrun => TUndef end.
Proof.
  intros HD. induction more as [|t2 more IH]; intros st t Hg Hokt Hne; pose proof (Forall_inv Hokt) as K1; pose proof (Forall_inv_tail Hokt) as K2; pose proof (Forall_inv Hne) as N1; pose proof (Forall_inv_tail Hne) as N2;
    rewrite to_texts_cons; cbn [ctx_scan]; destruct (define st t) as [[[st' k] code]|] eqn:E; try reflexivity; destruct (HD _ _ _ _ _ Hg K1 N1 E) as (A & B).
  all: assert (P : code = pc_partial \/ code <> pc_partial) by (destruct code; (left; reflexivity) || (right; discriminate)).
  all: destruct P as [-> | P]; [destruct (A eq_refl) as [G ->]; rewrite Nat.eqb_refl, Nat.ltb_irrefl; cbn [negb]|
       specialize (B P); rewrite (proj2 (Nat.eqb_neq _ _)) by lia; rewrite (proj2 (Nat.ltb_ge _ _)) by lia; cbn [negb]; destruct code; (reflexivity || contradiction)].
  - unfold at_eof. destruct (eof st') as [[s2 c2]|]; [|reflexivity]. destruct c2; reflexivity.
  - rewrite (IH st' t2 G K2 N2). destruct t2 as [|x t2]; [exfalso; exact (Forall_inv N2 eq_refl)|reflexivity].
Qed.
End Texts.

(** ** The buffers are large enough *)
Definition room_ok (args : list parg) : Prop := Forall arg_ok args /\ Forall (fun p => plain_arg p = true) args /\
  (existsb is_dynamic args = false \/ existsb is_static args = false).
Lemma static_max args : forall m, (m <= fold_left (fun m p => match p with PReserve n _ => Nat.max m n | _ => m end) args m)%nat /\
  forall n t, In (PReserve n t) args -> (n <= fold_left (fun m p => match p with PReserve n _ => Nat.max m n | _ => m end) args m)%nat.
Proof.
  induction args as [|p args IH]; intros m; [split; [apply le_n|contradiction]|]. cbn [fold_left].
  destruct (IH (match p with PReserve n _ => Nat.max m n | _ => m end)) as [A B]. split.
  - destruct p; lia.
  - intros n t [-> | H]; [lia|exact (B _ _ H)].
Qed.
Lemma dynamic_max args : forall m, (m <= fold_left (fun m p => match p with PDynamic n _ => Nat.max m n | _ => m end) args m)%nat /\
  forall n t, In (PDynamic n t) args -> (n <= fold_left (fun m p => match p with PDynamic n _ => Nat.max m n | _ => m end) args m)%nat.
Proof.
  induction args as [|p args IH]; intros m; [split; [apply le_n|contradiction]|]. cbn [fold_left].
  destruct (IH (match p with PDynamic n _ => Nat.max m n | _ => m end)) as [A B]. split.
  - destruct p; lia.
  - intros n t [-> | H]; [lia|exact (B _ _ H)].
Qed.
Lemma to_decay_texts {S} contig (define : S -> list Z -> option (S * nat * parse_code)) eof hc init args : room_ok args ->
  hc && match args with [_] => true | _ => false end = false ->
  to_decay contig define eof hc true init args = to_texts define eof init (map text_of args).
Proof.
  intros (Hok & Hp & Hr) H1. unfold to_decay. rewrite H1. cbn [andb negb]. rewrite Forall_forall in Hok, Hp.
  destruct (forallb is_scatter args) eqn:E1.
  - apply to_ctx_texts. apply Forall_forall. intros p Ip. rewrite forallb_forall in E1. specialize (E1 _ Ip). destruct p; try discriminate. reflexivity.
  - destruct (forallb (fun p => is_static p || is_scatter p) args) eqn:E2.
    + apply to_ctx_texts. apply Forall_forall. intros p Ip. rewrite forallb_forall in E2. specialize (E2 _ Ip). specialize (Hok _ Ip).
      destruct p as [|n t| |]; try discriminate; [reflexivity|]. cbn [ToModel.printed text_of]. cbn [arg_ok] in Hok.
      destruct (static_max args O) as [_ B]. specialize (B _ _ Ip). unfold max_static. rewrite (proj2 (Nat.leb_le _ _)) by lia. reflexivity.
    + assert (Hs : existsb is_static args = false).
      { destruct Hr as [Hr|Hr]; [|exact Hr]. exfalso. apply not_true_iff_false in E2. apply E2. apply forallb_forall. intros q Iq. specialize (Hp _ Iq). cbn beta in Hp.
        destruct q as [|m u|m u|]; try reflexivity; [|discriminate]. apply not_true_iff_false in Hr. exfalso. apply Hr. apply existsb_exists. exists (PDynamic m u). auto. }
      apply to_ctx_texts. apply Forall_forall. intros p Ip. specialize (Hok _ Ip). specialize (Hp _ Ip). cbn beta in Hp. destruct p as [|n t|n t|]; try discriminate; [reflexivity| |].
      * exfalso. apply not_true_iff_false in Hs. apply Hs. apply existsb_exists. exists (PReserve n t). auto.
      * cbn [ToModel.printed text_of]. cbn [arg_ok] in Hok.
        destruct (dynamic_max args O) as [_ B]. specialize (B _ _ Ip). unfold max_dynamic. rewrite (proj2 (Nat.leb_le _ _)) by lia. reflexivity.
Qed.
(** One argument and a contiguous scanner. *)
Lemma to_decay_single {S} contig (define : S -> list Z -> option (S * nat * parse_code)) eof init p : arg_ok p -> plain_arg p = true ->
  to_decay contig define eof true true init [p] = to_single contig (text_of p).
Proof.
  intros Ho Hp. unfold to_decay. cbn [andb negb]. destruct p as [t|n t|n t|]; try discriminate; [reflexivity| |]; cbn [forallb is_static andb text_of arg_ok] in *;
    unfold to_joined, sum_static, sum_dynamic; cbn [map concat fold_right text_of]; rewrite app_nil_r, (proj2 (Nat.leb_le _ _)) by lia; reflexivity.
Qed.
