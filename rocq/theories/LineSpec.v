From Verif Require Import Base CharSpec.
Open Scope Z_scope.

(** * Lines, words *)

(** [ls] are the lines of [text]: no line contains a line feed, and the text is the lines with a
    line feed after each of them -- except that the line feed after the last line may be missing if that line is
    not empty. *)
Definition lines_of (text : list Z) (ls : list (list Z)) : Prop :=
  Forall (fun l => ~ In 10 l) ls /\
  (text = concat (map (fun l => l ++ [10]) ls) \/
   exists front last, ls = front ++ [last] /\ last <> [] /\
     text = concat (map (fun l => l ++ [10]) front) ++ last).

(** The first line of a text that is not empty and what comes after it. *)
Definition first_line (text line rest : list Z) : Prop :=
  ~ In 10 line /\ (text = line ++ 10 :: rest \/ (text = line /\ line <> [] /\ rest = [])).

(** The first word of a text: whitespace, then the word, which is not empty and has no whitespace in it and ends
    at whitespace or at the end of the text. *)
Definition first_word (text word rest : list Z) : Prop :=
  exists spaces, text = spaces ++ word ++ rest /\
    Forall C_space spaces /\ Forall (fun x => ~ C_space x) word /\ word <> [] /\
    (rest = [] \/ exists x r, rest = x :: r /\ C_space x).

(** A stream: the characters in the buffer and the chunks that refills will bring, all of them not empty,
    together are the text. *)
Definition stream_text (buf : list Z) (src : list (list Z)) (text : list Z) : Prop :=
  text = buf ++ concat src /\ Forall (fun c => c <> []) src.
