(** Model of rjiter/src/rjiter.rs and of the error helpers of rjiter/src/error.rs. No proofs here. *)
From Verif Require Import Base Buffer Jiter JiterValue.

(** rjiter.rs:11-14. The inner [Jiter] is a view of the first [jlen] cells of the very buffer that [Buffer]
    changes (the lifetimes are transmuted, lines 34-38 and 51-53), with the parser at [jidx]. *)
Record rj := mkRj { bf : buffer; jlen : nat; jidx : nat }.

Definition with_bf (s : rj) (b : buffer) : rj := mkRj b (jlen s) (jidx s).

(** rjiter.rs:32-45 [new]. *)
Definition rj_new (r : reader) (cells : bytes) : rj := mkRj (buffer_new r cells) 0 0.

(** rjiter.rs:47-54 [create_new_jiter]. *)
Definition create_new_jiter (s : rj) : rj := mkRj (bf s) (n_bytes (bf s)) 0.

(** The bytes the inner parser sees from its index on. *)
Definition jview (s : rj) : bytes := skipn (jidx s) (firstn (jlen s) (buf (bf s))).

(** rjiter.rs:476-478 [current_index]. *)
Definition current_index (s : rj) : nat := jidx s + n_shifted_out (bf s).

(** One call of the inner parser. The error position becomes an index of the parser's slice. *)
Definition jcall {A} (f : jop A) (s : rj) : rj * jres A :=
  let '(r, a) := f (jview s) in
  (mkRj (bf s) (jlen s) (jidx s + a),
   match r with Ok v => Ok v | Err (e, o) => Err (e, jidx s + o) end).

(** error.rs:65-75 [from_jiter_error]. *)
Definition from_jiter_error (index : nat) (e : jerr) : rerror := mkErr (fst e) (snd e + index).
(** error.rs:77-82 [from_json_error]. *)
Definition from_json_error (index : nat) (e : json_error) : rerror := mkErr (JsonError e) index.

(** error.rs:116-133 [can_retry_if_partial]. *)
Definition can_retry (e : error_type) : bool :=
  match e with
  | JsonError (EofWhileParsingList | EofWhileParsingObject | EofWhileParsingString | EofWhileParsingValue
               | ExpectedListCommaOrEnd | ExpectedObjectCommaOrEnd) => true
  | _ => false
  end.

(** rjiter.rs:419-446 [skip_spaces_feeding]. *)
Definition skip_spaces_feeding (s : rj) (jiter_pos : nat) (token : option byte) : outcome (rj * result unit rerror) :=
  let b0 := bf s in
  let b1 := if 0 <? jiter_pos then shift_buffer b0 0 jiter_pos else b0 in
  match skip_spaces b1 0 with
  | Panic => Panic
  | Diverge => Diverge
  | Done (b2, Err e) => Done (with_bf s b2, Err e)
  | Done (b2, Ok tt) =>
      let finish_ b := Done (if is_changed b0 b then create_new_jiter (with_bf s b) else with_bf s b, Ok tt) in
      match token with
      | None => finish_ b2
      | Some t =>
          match (if n_bytes b2 =? 0 then read_more b2 else (b2, Ok 0)) with
          | (b3, Err e) => Done (with_bf s b3, Err e)
          | (b3, Ok _) =>
              match firstn (n_bytes b3) (buf b3) with
              | x :: _ =>
                  if N.eqb x t then
                    match skip_spaces b3 1 with
                    | Done (b4, Ok tt) => finish_ b4
                    | Done (b4, Err e) => Done (with_bf s b4, Err e)
                    | Panic => Panic
                    | Diverge => Diverge
                    end
                  else finish_ b3
              | [] => finish_ b3
              end
          end
      end
  end.

(** rjiter.rs:339-355 [downgrade_ok_if_eof] for an [Ok] result. *)
Definition really_ok (eager : bool) (s : rj) : bool := negb eager || (jidx s <? n_bytes (bf s)).

(** rjiter.rs:374-413: the loop of [loop_until_success]. *)
Fixpoint retry_loop {A} (fuel : nat) (f : jop A) (eager : bool) (s : rj) : outcome (rj * result A rerror) :=
  match fuel with
  | 0 => Diverge
  | S fuel' =>
      let '(s1, r) := jcall f s in
      let more :=
        match read_more (bf s1) with
        | (b, Err e) => Done (with_bf s1 b, Err e)
        | (b, Ok 0) =>
            let s2 := with_bf s1 b in
            Done (s2, match r with Ok v => Ok v | Err e => Err (from_jiter_error (current_index s2) e) end)
        | (b, Ok _) => retry_loop fuel' f eager (create_new_jiter (with_bf s1 b))
        end in
      match r with
      | Err e => if can_retry (fst e) then more
                 else Done (s1, Err (from_jiter_error (current_index s1) e))
      | Ok v => if really_ok eager s1 then Done (s1, Ok v) else more
      end
  end.

(** rjiter.rs:326-414 [loop_until_success]. *)
Definition loop_until_success {A} (f : jop A) (token : option byte) (eager : bool) (s : rj)
  : outcome (rj * result A rerror) :=
  let jiter_pos := jidx s in
  let '(s1, r) := jcall f s in
  let again :=
    match skip_spaces_feeding s1 jiter_pos token with
    | Done (s2, Ok tt) => retry_loop (fuel_for (bf s2)) f eager s2
    | Done (s2, Err e) => Done (s2, Err e)
    | Panic => Panic
    | Diverge => Diverge
    end in
  match r with
  | Ok v => if really_ok eager s1 then Done (s1, Ok v) else again
  | Err _ => again
  end.

(** rjiter.rs:63-320: the wrappers. *)
Definition peek := loop_until_success j_peek None false.                                       (* 63-65 *)
Definition known_array := loop_until_success j_known_array (Some LBRACK) false.                (* 70-72 *)
Definition known_bool (p : byte) := loop_until_success (j_known_bool p) None false.            (* 77-79 *)
Definition known_bytes := loop_until_success j_known_bytes None false.                         (* 84-90 *)
Definition known_float (p : byte) := loop_until_success (j_known_float p) None true.           (* 95-97 *)
Definition known_int (p : byte) := loop_until_success (j_known_int p) None true.               (* 102-104 *)
Definition known_null := loop_until_success j_known_null None false.                           (* 109-111 *)
Definition known_number (p : byte) := loop_until_success (j_known_number p) None true.         (* 116-118 *)
Definition known_object := loop_until_success (j_known_object j_known_str) (Some LBRACE) false. (* 123-131 *)
Definition known_skip (p : byte) := loop_until_success (j_known_skip p) None true.             (* 136-138 *)
Definition known_str := loop_until_success j_known_str None false.                             (* 143-149 *)
Definition known_value (p : byte) := loop_until_success (j_known_value p) None true.           (* 154-156 *)
Definition known_value_owned (p : byte) := loop_until_success (j_known_value p) None true.     (* 161-163 *)
Definition next_array := loop_until_success j_next_array (Some LBRACK) false.                  (* 168-170 *)
Definition array_step := loop_until_success j_array_step (Some COMMA) false.                   (* 175-177 *)
Definition next_bool := loop_until_success j_next_bool None false.                             (* 182-184 *)
Definition next_bytes := loop_until_success j_next_bytes None false.                           (* 189-195 *)
Definition next_float := loop_until_success j_next_float None true.                            (* 200-202 *)
Definition next_int := loop_until_success j_next_int None true.                                (* 207-209 *)
Definition next_key := loop_until_success (j_next_key j_known_str) (Some COMMA) false.         (* 214-222 *)
Definition next_key_bytes := loop_until_success (j_next_key j_known_bytes) (Some COMMA) false. (* 227-235 *)
Definition next_null := loop_until_success j_next_null None false.                             (* 240-242 *)
Definition next_number := loop_until_success j_next_number None true.                          (* 247-249 *)
Definition next_number_bytes := loop_until_success j_next_number_bytes None true.              (* 254-262 *)
Definition next_object := loop_until_success (j_next_object j_known_str) (Some LBRACE) false.  (* 267-275 *)
Definition next_object_bytes := loop_until_success (j_next_object j_known_bytes) (Some LBRACE) false. (* 280-288 *)
Definition next_skip := loop_until_success j_next_skip None true.                              (* 293-295 *)
Definition next_str := loop_until_success j_next_str None false.                               (* 300-306 *)
Definition next_value := loop_until_success j_next_value None true.                            (* 311-313 *)
Definition next_value_owned := loop_until_success j_next_value None true.                      (* 318-320 *)

(** rjiter.rs:451-470 [finish]. *)
Fixpoint finish_loop (fuel : nat) (s : rj) : outcome (rj * result unit rerror) :=
  match fuel with
  | 0 => Diverge
  | S fuel' =>
      let '(s1, r) := jcall j_finish s in
      match r with
      | Err e => Done (s1, Err (from_jiter_error (current_index s1) e))
      | Ok _ =>
          let continue b := finish_loop fuel' (create_new_jiter (with_bf s1 (shift_buffer b 0 (jidx s1)))) in
          if jidx s1 <? len (buf (bf s1)) then
            match read_more (bf s1) with
            | (b, Err e) => Done (with_bf s1 b, Err e)
            | (b, Ok 0) => Done (with_bf s1 b, Ok tt)
            | (b, Ok _) => continue b
            end
          else continue (bf s1)
      end
  end.
(** Two iterations consume at least one byte, unless the loop is endless. *)
Definition finish_fuel (s : rj) : nat := 2 * len (src (rd (bf s))) + 3.
Definition finish (s : rj) := finish_loop (finish_fuel s) s.

(** rjiter.rs:482-489 [error_position]: line, column. The subtraction panics (or wraps) below zero. *)
Definition error_position (s : rj) (index : nat) : outcome (nat * nat) :=
  if index <? n_shifted_out (bf s) then Panic
  else
    let '(l, c) := j_error_position (firstn (jlen s) (buf (bf s))) (index - n_shifted_out (bf s)) in
    Done (l + pos_line (bf s), c + pos_col (bf s)).

(** The writer of the caller, with [embedded_io::Write::write_all] (a loop around [write]). [delivered] is what has reached
    its destination; if the destination is going to fail, [wfail] tells after how many more bytes and with which error.
    The destination takes what it is offered, or as much of it as it can. In front of it can be a [std::io::BufWriter]
    with the capacity [wcap], which holds back the bytes [held]; without one, [wcap] is 0. *)
Record writer := mkBuffered { delivered : bytes; held : bytes; wcap : nat; wfail : option (nat * io_kind) }.
Definition mkWriter (d : bytes) (f : option (nat * io_kind)) : writer := mkBuffered d [] 0 f.
(** What has been accepted. *)
Definition written (w : writer) : bytes := if wcap w =? 0 then delivered w else delivered w ++ held w.
(** Offering bytes to the destination until they are taken: what is left over then, and the error. *)
Definition deliver (w : writer) (d : bytes) : bytes * option (nat * io_kind) * bytes * result unit io_kind :=
  match wfail w with
  | None => (delivered w ++ d, None, [], Ok tt)
  | Some (k, e) =>
      if len d <=? k then (delivered w ++ d, Some (k - len d, e), [], Ok tt)
      else (delivered w ++ firstn k d, Some (0, e), skipn k d, Err e)
  end.
(** [BufWriter::flush_buf]. *)
Definition flush_held (w : writer) : writer * result unit io_kind :=
  let '(d, f, rest, r) := deliver w (held w) in (mkBuffered d rest (wcap w) f, r).
(** [BufWriter::write] and [write_cold] in the loop of [write_all]: bytes that fit are held back; otherwise what is held
    back goes first, and then bytes that would fill the buffer go directly. If the destination takes only a part of
    these, the loop goes on with the other part, which can be small enough to be held back. (An interrupted [write] is an error here.) *)
Definition write_all (w : writer) (d : bytes) : writer * result unit io_kind :=
  if wcap w =? 0 then
    let '(d', f, _, r) := deliver w d in (mkBuffered d' (held w) 0 f, r)
  else if (len d <? wcap w - len (held w)) || (len d =? 0) then (mkBuffered (delivered w) (held w ++ d) (wcap w) (wfail w), Ok tt)
  else
    let '(w1, r) := if wcap w - len (held w) <? len d then flush_held w else (w, Ok tt) in
    match r with
    | Err e => (w1, Err e)
    | Ok _ =>
        if wcap w <=? len d then
          let '(d', f, rest, r) := deliver w1 d in
          if len rest <? wcap w then (mkBuffered d' rest (wcap w) f, Ok tt) else (mkBuffered d' [] (wcap w) f, r)
        else (mkBuffered (delivered w1) (held w1 ++ d) (wcap w) (wfail w1), Ok tt)
    end.

(** rjiter.rs:866-872. *)
Definition is_utf8_leading_byte (x : byte) : bool := ((x <? 128) || (192 <=? x))%N.
(** rjiter.rs:580-587: [(0..=p).rev().find(...).unwrap_or(0)]; [None] is the index panic. *)
Fixpoint find_leading (l : bytes) (p : nat) : option nat :=
  match nth_error l p with
  | None => None
  | Some x => if is_utf8_leading_byte x then Some p
              else match p with 0 => Some 0 | S p' => find_leading l p' end
  end.

(** rjiter.rs:538-578: the end of the segment to write, before the correction. *)
Definition raw_segment_end (b : buffer) : nat :=
  let filled := firstn (n_bytes b) (buf b) in
  let bs_pos := run_length (fun x => negb (N.eqb x BACKSLASH)) filled in
  if bs_pos <? n_bytes b then
    if 1 <? bs_pos then bs_pos
    else if n_bytes b <? 3 then bs_pos
    else
      let after_bs := nth 2 (buf b) 0%N in
      if negb (N.eqb after_bs 117) && negb (N.eqb after_bs 85) then bs_pos + 2
      else if n_bytes b <? 7 then bs_pos else bs_pos + 6
  else n_bytes b - 1.

(** rjiter.rs:500-607 [handle_long]; [segment buf end] is what [write_segment] writes. *)
Fixpoint handle_long (fuel : nat) (parser : jop bytes) (segment : bytes -> nat -> result bytes jerr)
  (s : rj) (w : writer) : outcome (rj * writer * result unit rerror) :=
  match fuel with
  | 0 => Diverge
  | S fuel' =>
      let '(s1, r) := jcall parser s in
      let write_or w d (k : writer -> outcome (rj * writer * result unit rerror)) (s : rj) :=
        match write_all w d with
        | (w', Err e) => Done (s, w', Err (mkErr (IoError e) (current_index s)))
        | (w', Ok _) => k w'
        end in
      match r with
      | Ok v => write_or w v (fun w' => Done (s1, w', Ok tt)) s1
      | Err err =>
          if can_retry (fst err) then
            let s2 := if 0 <? jidx s1
                      then create_new_jiter (with_bf s1 (shift_buffer (bf s1) 0 (jidx s1)))
                      else s1 in
            match find_leading (buf (bf s2)) (raw_segment_end (bf s2)) with
            | None => Panic
            | Some seg_end =>
                let read_on s3 w3 :=
                  match read_more (bf s3) with
                  | (b, Err e) => Done (with_bf s3 b, w3, Err e)
                  | (b, Ok 0) => let s4 := with_bf s3 b in
                                 Done (s4, w3, Err (from_jiter_error (current_index s4) err))
                  | (b, Ok _) => handle_long fuel' parser segment (create_new_jiter (with_bf s3 b)) w3
                  end in
                if 1 <? seg_end then
                  match segment (buf (bf s2)) seg_end with
                  | Err e => Done (s2, w, Err (from_jiter_error (current_index s2) e))
                  | Ok d => write_or w d
                              (fun w' => read_on (with_bf s2 (shift_buffer (bf s2) 1 seg_end)) w') s2
                  end
                else read_on s2 w
            end
          else Done (s1, w, Err (from_jiter_error (current_index s1) err))
      end
  end.

(** rjiter.rs:618-649 [write_long_bytes]. *)
Definition bytes_segment (b : bytes) (e : nat) : result bytes jerr := Ok (firstn (e - 1) (skipn 1 b)).
Definition write_long_bytes (s : rj) (w : writer) :=
  handle_long (fuel_for (bf s)) j_known_bytes bytes_segment s w.

(** rjiter.rs:659-712 [write_long_str]: the segment is parsed with a quote put behind it. *)
Definition str_segment (b : bytes) (e : nat) : result bytes jerr :=
  fst (j_known_str (firstn e b ++ [QUOTE])).
Definition write_long_str (s : rj) (w : writer) :=
  handle_long (fuel_for (bf s)) j_known_str str_segment s w.

(** rjiter.rs:732-763 and 779-806: what [lookahead_while] and [lookahead_n] do around the collecting. *)
Definition lookahead (collect : buffer -> nat -> outcome (buffer * result (nat * nat) rerror)) (s : rj)
  : outcome (rj * result bytes rerror) :=
  let b0 := bf s in
  let start_pos := jidx s in
  match collect b0 start_pos with
  | Panic => Panic
  | Diverge => Diverge
  | Done (b1, Err e) => Done (with_bf s b1, Err e)
  | Done (b1, Ok (start1, end1)) =>
      let '(s2, start2, end2) :=
        if is_changed b0 b1 then
          if (n_shifted_out b0 =? n_shifted_out b1) && (0 <? start_pos)
          then (create_new_jiter (with_bf s (shift_buffer b1 0 start_pos)), 0, end1 - start_pos)
          else (create_new_jiter (with_bf s b1), start1, end1)
        else (with_bf s b1, start1, end1) in
      match slice (buf (bf s2)) start2 end2 with
      | Some d => Done (s2, Ok d)
      | None => Panic
      end
  end.
Definition lookahead_while (pred : byte -> bool) : rj -> outcome (rj * result bytes rerror) :=
  lookahead (fun b p => collect_while b pred p true).
Definition lookahead_n (count : nat) : rj -> outcome (rj * result bytes rerror) :=
  lookahead (fun b p => collect_count b count p true).

(** rjiter.rs:821-835 [skip_n_bytes]. *)
Definition skip_n_bytes (count : nat) (s : rj) : outcome (rj * result nat rerror) :=
  match skip_n (bf s) count (jidx s) with
  | Panic => Panic
  | Diverge => Diverge
  | Done (b, Err e) => Done (with_bf s b, Err e)
  | Done (b, Ok (new_pos, skipped)) =>
      Done (create_new_jiter (with_bf s (shift_buffer b 0 new_pos)), Ok skipped)
  end.

(** rjiter.rs:846-863 [known_skip_token]. *)
Definition known_skip_token (token : bytes) (s : rj) : outcome (rj * result unit rerror) :=
  match lookahead_n (len token) s with
  | Panic => Panic
  | Diverge => Diverge
  | Done (s1, Err e) => Done (s1, Err e)
  | Done (s1, Ok d) =>
      if beq d token then
        match skip_n_bytes (len token) s1 with
        | Done (s2, Ok _) => Done (s2, Ok tt)
        | Done (s2, Err e) => Done (s2, Err e)
        | Panic => Panic
        | Diverge => Diverge
        end
      else Done (s1, Err (from_json_error (current_index s1) ExpectedSomeIdent))
  end.
