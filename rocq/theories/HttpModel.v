(** Model of the HTTP header buffer.
    Source: include/fast_io_core_impl/http_header.h (all of it).  Characters are codes; a range of characters is a list; a pointer into
    a range is the number of characters before it. *)
From Coq Require Import List Bool PeanoNat.
From Verif Require Import Base.
Import ListNotations.
Local Open Scope nat_scope.

Definition cr : Z := 13. Definition lf : Z := 10. Definition sp : Z := 32. Definition colon : Z := 58.
(** find_ch_impl<ch,findnot> (simd_find.h 652-683): the characters before the first match, and the rest.  The search itself is
    modelled in FindModel; C54_find_char proves that it stops at the first match. *)
Fixpoint find_ch (ch : Z) (findnot : bool) (s : list Z) : list Z * list Z :=
  match s with
  | [] => ([], [])
  | c :: r => if Bool.eqb (c =? ch)%Z findnot then let '(a, b) := find_ch ch findnot r in (c :: a, b) else ([], s)
  end.

(** http_header.h 7-37: the header_length characters stored so far, and the five locations. *)
Record hbuf := mk_hbuf { stored : list Z; request_end : nat; code_start : nat; code_end : nat; reason_start : nat; reason_end : nat }.
Definition fresh_hbuf : hbuf := mk_hbuf [] 0 0 0 0 0.
Definition sub_range (b : hbuf) (i j : nat) : list Z := firstn (j - i) (skipn i (stored b)).
Definition request (b : hbuf) : list Z := sub_range b 0 (request_end b).
Definition code_ (b : hbuf) : list Z := sub_range b (code_start b) (code_end b).
Definition reason (b : hbuf) : list Z := sub_range b (reason_start b) (reason_end b).

Inductive pcode := Ok | Partial | Invalid.

(** try_copy_into_buffer 57-68; None: no room (false). *)
Definition try_copy (cap : nat) (b : hbuf) (chunk : list Z) : option hbuf :=
  if cap - length (stored b) <? length chunk then None
  else Some (mk_hbuf (stored b ++ chunk) (request_end b) (code_start b) (code_end b) (reason_start b) (reason_end b)).

(** determine_http_header_location 70-109.  Each location is written as soon as it is known. *)
Definition determine (b : hbuf) : pcode * hbuf :=
  let s := stored b in
  match s with
  | c :: _ => if (c =? sp)%Z then (Invalid, b) else
      let '(w1, r1) := find_ch sp false s in
      match r1 with
      | [] => (Invalid, b)
      | _ :: r1' =>
          let b1 := mk_hbuf s (length w1) (code_start b) (code_end b) (reason_start b) (reason_end b) in
          let '(g1, r2) := find_ch sp true r1' in
          match r2 with
          | [] => (Invalid, b1)
          | _ =>
              let p2 := length w1 + 1 + length g1 in
              let b2 := mk_hbuf s (length w1) p2 (code_end b) (reason_start b) (reason_end b) in
              let '(w2, r3) := find_ch sp false r2 in
              match r3 with
              | [] => (Invalid, b2)
              | _ =>
                  let p3 := p2 + length w2 in
                  let b3 := mk_hbuf s (length w1) p2 p3 (reason_start b) (reason_end b) in
                  let '(g2, r4) := find_ch sp true r3 in
                  match r4 with
                  | [] => (Invalid, b3)
                  | _ =>
                      let p4 := p3 + length g2 in
                      let b4 := mk_hbuf s (length w1) p2 p3 p4 (reason_end b) in
                      let '(w3, r5) := find_ch cr false r4 in
                      match r5 with
                      | [] => (Invalid, b4)
                      | _ => (Ok, mk_hbuf s (length w1) p2 p3 p4 (p4 + length w3))
                      end
                  end
              end
          end
      end
  | [] => (Invalid, b)
  end.

(** What a call gives: the characters left in this buffer, the code, the state and the header buffer. *)
Record result := mk_result { left_over : list Z; r_code : pcode; r_state : nat; r_buf : hbuf }.
(** Copy what has been looked at and report: partial with the new state, or the verdict on the complete header. *)
Definition store_partial (cap : nat) (b : hbuf) (pre rest : list Z) (old_state state : nat) : result :=
  match try_copy cap b pre with
  | None => mk_result rest Invalid old_state b
  | Some b' => mk_result rest Partial state b'
  end.
Definition store_done (cap : nat) (b : hbuf) (pre rest : list Z) (state : nat) : result :=
  match try_copy cap b pre with
  | None => mk_result rest Invalid state b
  | Some b' => let '(c, b'') := determine b' in mk_result rest c state b''
  end.

(** The loop 158-213; pre: first1 .. first, rest: first .. last.
    Simplified: where the buffer is full the state stored with Invalid is the one on entry (0); it is never used again. *)
Fixpoint loop (fuel cap : nat) (b : hbuf) (pre rest : list Z) : result :=
  match fuel with
  | O => mk_result rest Invalid 0 b
  | S fuel' =>
      let '(skipped, r) := find_ch cr false rest in
      let pre := pre ++ skipped in
      match r with
      | [] => store_partial cap b pre [] 0 0
      | c0 :: r =>
          let pre := pre ++ [c0] in
          match r with
          | [] => store_partial cap b pre [] 0 1
          | c1 :: r1 =>
              if negb (c1 =? lf)%Z then mk_result r Invalid 0 b
              else
                let pre := pre ++ [c1] in
                match r1 with
                | [] => store_partial cap b pre [] 0 2
                | c2 :: r2 =>
                    if negb (c2 =? cr)%Z then loop fuel' cap b pre r1
                    else
                      let pre := pre ++ [c2] in
                      match r2 with
                      | [] => store_partial cap b pre [] 0 3
                      | c3 :: r3 =>
                          if negb (c3 =? lf)%Z then mk_result r2 Invalid 0 b
                          else store_done cap b (pre ++ [c3]) r3 0
                      end
                end
          end
      end
  end.

(** http_header_scan_context_define_impl 111-214: the switch on the state carried over from the last buffer, then the loop. *)
Definition from3 (cap : nat) (b : hbuf) (pre rest : list Z) (state : nat) : result :=
  match rest with
  | c :: r => if (c =? lf)%Z then store_done cap b (pre ++ [c]) r state else loop (S (length rest)) cap b pre rest
  | [] => mk_result rest Invalid state b
  end.
Definition from2 (cap : nat) (b : hbuf) (pre rest : list Z) (state : nat) : result :=
  match rest with
  | c :: r => if (c =? cr)%Z then
                match r with [] => store_partial cap b (pre ++ [c]) [] 3 3 | _ => from3 cap b (pre ++ [c]) r state end
              else loop (S (length rest)) cap b pre rest
  | [] => mk_result rest Invalid state b
  end.
Definition from1 (cap : nat) (b : hbuf) (pre rest : list Z) (state : nat) : result :=
  match rest with
  | c :: r => if (c =? lf)%Z then
                match r with [] => store_partial cap b (pre ++ [c]) [] 2 2 | _ => from2 cap b (pre ++ [c]) r state end
              else loop (S (length rest)) cap b pre rest
  | [] => mk_result rest Invalid state b
  end.
Definition http_scan (cap state : nat) (chunk : list Z) (b : hbuf) : result :=
  match chunk with
  | [] => mk_result [] Partial state b
  | _ =>
      match state with
      | 1 => from1 cap b [] chunk 1
      | 2 => from2 cap b [] chunk 2
      | 3 => from3 cap b [] chunk 3
      | _ => loop (S (length chunk)) cap b [] chunk
      end
  end.
(** scan_context_eof_define 222-226 *)
Definition http_eof : pcode := Invalid.
(** The scan driver (ScanDrvModel, context_scannable): buffer after buffer until the code is not partial. *)
Fixpoint http_run (cap state : nat) (b : hbuf) (chunks : list (list Z)) : pcode * hbuf * list Z :=
  match chunks with
  | [] => (http_eof, b, [])
  | c :: cs =>
      let r := http_scan cap state c b in
      match r_code r with
      | Partial => http_run cap (r_state r) (r_buf r) cs
      | verdict => (verdict, r_buf r, left_over r ++ concat cs)
      end
  end.

(** The line generator 234-303: current, key_end, value_start, value_end as positions in the stored characters. *)
Record gen := mk_gen { current : nat; key_end : nat; value_start : nat; value_end : nat }.
Definition line_generator (b : hbuf) : gen := mk_gen (reason_end b) (reason_end b) (reason_end b) (reason_end b).
(** operator++ 260-289. *)
Definition advance (s : list Z) (g : gen) : gen :=
  let last := length s in
  let cur := value_end g in
  if last - cur <=? 4 then mk_gen last last last last
  else
    let '(skipped, r) := find_ch lf false (skipn cur s) in
    let cur := cur + length skipped in
    match r with
    | [] => mk_gen cur last last last
    | c :: r' =>
        let '(line, _) := find_ch cr false r in
        let line_last := cur + length line in
        (* the searches below end at line_last *)
        let cur := cur + 1 in
        let '(blank, key) := find_ch sp true (firstn (line_last - cur) (skipn cur s)) in
        let cur := cur + length blank in
        let '(k, after) := find_ch colon false key in
        let ke := cur + length k in
        let vs := match after with [] => ke | _ => ke + 1 end in
        let '(gap, _) := find_ch sp true (match after with [] => [] | _ :: v => v end) in
        mk_gen cur ke (vs + length gap) line_last
    end.
(** begin is ++; the loop stops when current = last; operator* gives the key and the value. *)
Fixpoint iterate (fuel : nat) (s : list Z) (g : gen) : list (list Z * list Z) :=
  match fuel with
  | O => []
  | S fuel' =>
      let g := advance s g in
      if current g =? length s then []
      else (firstn (key_end g - current g) (skipn (current g) s), firstn (value_end g - value_start g) (skipn (value_start g) s))
           :: iterate fuel' s g
  end.
Definition header_lines (b : hbuf) : list (list Z * list Z) := iterate (S (length (stored b))) (stored b) (line_generator b).
