(** What users expect of concat. *)
From Verif Require Import Base BufModel PrintModel BufSpec ConcatModel.

(** String types: characters of 1, 2 or 4 bytes; growing gives at least what is needed; an empty string has at least the
    local capacity. *)
Definition str_ok (T : strtype) : Prop :=
  In (st_size T) [1; 2; 4] /\ (forall cap n, (n <= st_grow T cap n)%nat) /\
  (forall sso, st_sso T = Some sso -> (sso <= st_cap0 T)%nat).
(** A string type without push_back and append grows to what is asked for. *)
Definition grows_exactly (T : strtype) : Prop := Z.of_nat (st_cap0 T) <= 2 ^ 60 /\ forall cap n, st_grow T cap n = n.
(** The arguments keep their promises: texts are not longer than announced; if a single argument has a precise size, it
    is the length of the text, and the precise printing stores the text. *)
Definition carg_ok (c : carg) : Prop := arg_ok (ca_arg c).
Definition precise_ok (args : list carg) : Prop :=
  forall c n w, args = [c] -> ca_precise c = Some (n, w) -> w = text_of (ca_arg c) /\ n = length w.
(** What print would write. *)
Definition printed_text (line : bool) (args : list carg) : list Z := concat (map (fun c => text_of (ca_arg c)) args) ++ (if line then [10] else []).
(** The sum of all sizes announced, which must be less than the address space. *)
Definition announced (args : list carg) : Z :=
  fold_right (fun c n => match ca_arg c with PScatter t => Z.of_nat (length t) | PReserve sz _ | PDynamic sz _ => Z.of_nat sz
                         | PDefine ws => Z.of_nat (length (concat ws)) end + n) 0 args.
