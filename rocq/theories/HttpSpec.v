(** HTTP headers as texts.  Independent of the model. *)
From Coq Require Import List Bool PeanoNat.
From Verif Require Import Base.
Import ListNotations.
Local Open Scope nat_scope.

Definition crlf : list Z := [13; 10]%Z.
(** What follows the first blank line (the first CR LF CR LF). *)
Fixpoint after_blank_line (s : list Z) : option (list Z) :=
  match s with
  | [] => None
  | c :: r =>
      match s with
      | a :: b :: c' :: d :: rest => if (a =? 13)%Z && (b =? 10)%Z && (c' =? 13)%Z && (d =? 10)%Z then Some rest else after_blank_line r
      | _ => after_blank_line r
      end
  end.

(** A header: lines ended by CR LF, then an empty line. *)
Definition lines_text (ls : list (list Z)) : list Z := concat (map (fun l => l ++ crlf) ls) ++ crlf.
Definition line_ok (l : list Z) : Prop := l <> [] /\ ~ In 13%Z l.

(** The first line: three parts separated by blanks; the others: a key, a colon, blanks, a value. *)
Definition blanks (n : nat) : list Z := repeat 32%Z n.
Definition word (w : list Z) : Prop := w <> [] /\ ~ In 32%Z w /\ ~ In 13%Z w /\ ~ In 10%Z w.
Definition no_blank_first (s : list Z) : Prop := match s with [] => True | c :: _ => c <> 32%Z end.
Definition tail_text (s : list Z) : Prop := no_blank_first s /\ ~ In 13%Z s /\ ~ In 10%Z s.
Definition key_text (k : list Z) : Prop := tail_text k /\ ~ In 58%Z k.
Record start_line := mk_start { part1 : list Z; gap1 : nat; part2 : list Z; gap2 : nat; part3 : list Z }.
Definition start_ok (l : start_line) : Prop := word (part1 l) /\ word (part2 l) /\ tail_text (part3 l) /\ 0 < gap1 l /\ 0 < gap2 l.
Definition start_text (l : start_line) : list Z := part1 l ++ blanks (gap1 l) ++ part2 l ++ blanks (gap2 l) ++ part3 l.
Record field := mk_field { f_key : list Z; f_gap : nat; f_value : list Z }.
Definition field_ok (f : field) : Prop := key_text (f_key f) /\ tail_text (f_value f).
Definition field_text (f : field) : list Z := f_key f ++ [58%Z] ++ blanks (f_gap f) ++ f_value f.
Definition header_text (l : start_line) (fs : list field) : list Z := lines_text (start_text l :: map field_text fs).
