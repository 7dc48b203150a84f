(** Properties C15-C27 of the streaming parser (and the lookahead part of C12, C13).
    Only statements, examples and assumptions. *)
From Verif Require Import Base Buffer BufferSpec Jiter RJiter RJiterSpec.
From Verif Require Import JiterProofs RJiterProofs RJiterOpProofs RJiterLookProofs RJiterLongProofs RJiterIndexProofs RJiterWitness.

(** The parsers of the examples: input, schedule, buffer size; [at_] has moved to a position inside the buffer. *)
Definition ex_new (i : bytes) (sc : list event) (n : nat) : rj := rj_new (mkReader i sc) (repeat 0%N n).
Definition st {A} (x : outcome (rj * A)) : rj := match x with Done (s, _) => s | _ => ex_new [] [] 0 end.
Definition ans {A} (x : outcome (rj * A)) : option A := match x with Done (_, r) => Some r | _ => None end.
Ltac now_true := solve [vm_compute; repeat split; repeat constructor].
Ltac now_valid := unfold valid, wf; now_true.
Definition ex_at : rj := st (peek (ex_new (bs "  [true, {""key"": 12.5}]  ") [Chunk 3; Chunk 0; Chunk 4; Chunk 0] 10)).
Definition ex_inner : rj := st (next_bool (st (next_array ex_at))).
Example ex_at_valid : valid ex_at /\ rcap ex_at = 10 /\ rquiet ex_at = true /\ rest ex_at = bs "[true, {""key"": 12.5}]  ".
Proof. split; [now_valid|now_true]. Qed.
Example ex_inner_valid : valid ex_inner /\ 0 < jidx ex_inner /\ rquiet ex_inner = true /\ rest ex_inner = bs ", {""key"": 12.5}]  ".
Proof. split; [now_valid|now_true]. Qed.

(** C12 for [lookahead_while]: the longest run of the remaining input. *)
Theorem C12_lookahead_while_longest : forall pred s, valid s ->
  exists s' r, lookahead_while pred s = Done (s', r) /\
    match r with
    | Ok d => longest_run pred (rest s) d /\
              valid s' /\ rest s' = rest s /\ total s' = total s /\ rcap s' = rcap s /\ (rquiet s = true -> rquiet s' = true)
    | Err er => match err_type er with
                | BufferFull => exists run, longest_run pred (rest s) run /\ rcap s <= len run
                | IoError _ => rquiet s = false
                | _ => False
                end
    end.
Proof. exact lookahead_while_spec. Qed.
Print Assumptions C12_lookahead_while_longest.
Example C12_lookahead_example : ans (lookahead_while (fun x => negb (N.eqb x 34)) ex_inner) = Some (Ok (bs ", {")).
Proof. vm_compute. reflexivity. Qed.

(** C13 for [lookahead_n]: exactly the next bytes, or all that are left; too large a request is refused. *)
Theorem C13_lookahead_n_exact : forall count s, valid s ->
  exists s' r, lookahead_n count s = Done (s', r) /\
    match r with
    | Ok d => d = firstn count (rest s) /\
              valid s' /\ rest s' = rest s /\ total s' = total s /\ rcap s' = rcap s /\ (rquiet s = true -> rquiet s' = true)
    | Err er => match err_type er with
                | BufferFull => rcap s < count /\ rest s' = rest s /\ current_index s' = current_index s
                | IoError _ => rquiet s = false
                | _ => False
                end
    end.
Proof. exact lookahead_n_spec. Qed.
Print Assumptions C13_lookahead_n_exact.
Example C13_lookahead_example : ans (lookahead_n 8 ex_inner) = Some (Ok (bs ", {""key""")).
Proof. vm_compute. reflexivity. Qed.

(** C15, successful lookahead. *)
Theorem C15_lookahead_partial : forall s s' d, valid s ->
  (exists pred, lookahead_while pred s = Done (s', Ok d)) \/ (exists n, lookahead_n n s = Done (s', Ok d)) ->
  valid s' /\ rest s' = rest s /\ current_index s' = current_index s /\ exists l, rest s = d ++ l.
Proof. exact lookahead_keeps. Qed.
Print Assumptions C15_lookahead_partial.
Example C15_example : let s' := st (lookahead_n 8 ex_inner) in
  lookahead_n 8 ex_inner = Done (s', Ok (bs ", {""key""")) /\ current_index s' = current_index ex_inner /\
  n_shifted_out (bf s') <> n_shifted_out (bf ex_inner).
Proof. vm_compute. split; [vm_compute; reflexivity|]. split; [reflexivity|discriminate]. Qed.
(** C15 is false for failed calls: after BufferFull the parser still looks at its old, empty view, and a [peek]
    that would have returned the next byte reports the end of the input. *)
Theorem C15_lookahead_refuted : exists s s' e,
  valid s /\ lookahead_n 5 s = Done (s', Err e) /\ err_type e = BufferFull /\
  ans (peek s) = Some (Ok 97%N) /\ ans (peek s') = Some (Err (mkErr (JsonError EofWhileParsingValue) 0)).
Proof.
  exists (ex_new (bs "abcdefgh") [] 4). do 2 eexists. split; [now_valid|].
  split; [vm_compute; reflexivity|]. now_true.
Qed.
Print Assumptions C15_lookahead_refuted.
(** The same for the position: a failed [lookahead_while] that shifted the buffer leaves [current_index] too large. *)
Theorem C15_index_refuted : exists s s' e pred,
  valid s /\ lookahead_while pred s = Done (s', Err e) /\ current_index s = 2 /\ current_index s' = 3.
Proof.
  exists (st (next_array (ex_new (bs "[ abcdefgh") [Chunk 3] 4))).
  do 2 eexists. exists (fun x => N.ltb 64 x). split; [now_valid|].
  split; [vm_compute; reflexivity|]. now_true.
Qed.
Print Assumptions C15_index_refuted.

(** C16: [skip_n_bytes]. *)
Theorem C16_skip_n_bytes : forall count s, valid s -> 0 < rcap s ->
  exists s' r, skip_n_bytes count s = Done (s', r) /\
    match r with
    | Ok t => t = Nat.min count (len (rest s)) /\ rest s' = skipn count (rest s) /\
              valid s' /\ total s' = total s /\ rcap s' = rcap s /\ (rquiet s = true -> rquiet s' = true)
    | Err er => is_io er = true /\ rquiet s = false
    end.
Proof. exact skip_n_bytes_spec. Qed.
Print Assumptions C16_skip_n_bytes.
Example C16_example : ans (skip_n_bytes 15 ex_inner) = Some (Ok 15) /\ rest (st (skip_n_bytes 15 ex_inner)) = bs "]  ".
Proof. now_true. Qed.

(** C17: [known_skip_token]. *)
Theorem C17_known_skip_token : forall token s,
  valid s -> 0 < rcap s -> len token <= rcap s -> rquiet s = true ->
  exists s' r, known_skip_token token s = Done (s', r) /\
    valid s' /\ total s' = total s /\ rcap s' = rcap s /\ rquiet s' = true /\
    ((r = Ok tt /\ rest s = token ++ rest s') \/
     (r = Err (mkErr (JsonError ExpectedSomeIdent) (current_index s)) /\ rest s' = rest s /\
      forall l, rest s <> token ++ l)).
Proof. exact known_skip_token_spec. Qed.
Print Assumptions C17_known_skip_token.
Example C17_example : ans (known_skip_token (bs ", {""key""") ex_inner) = Some (Ok tt) /\
  ans (known_skip_token (bs ", {""kez""") ex_inner) = Some (Err (mkErr (JsonError ExpectedSomeIdent) 7)).
Proof. now_true. Qed.

(** C18: after any history of successful calls, what remains is the input without its first [current_index] bytes. *)
Theorem C18_current_index : forall input schedule cells s,
  2 <= len cells -> rsteps (rj_new (mkReader input schedule) cells) s ->
  current_index s <= len input /\ rest s = skipn (current_index s) input.
Proof. exact index_absolute. Qed.
Print Assumptions C18_current_index.
Theorem C18_never_decreases : forall s s',
  valid s -> 2 <= rcap s -> rsteps s s' -> current_index s <= current_index s'.
Proof. exact index_grows. Qed.
Print Assumptions C18_never_decreases.
Example C18_example : rsteps (ex_new (bs "  [true, {""key"": 12.5}]  ") [Chunk 3; Chunk 0; Chunk 4; Chunk 0] 10) ex_inner /\
  current_index ex_inner = 7.
Proof.
  split; [|vm_compute; reflexivity].
  eapply rs_step; [eapply rs_step; [eapply rs_step; [apply rs_nil|]|]|].
  - eapply st_method; [apply m_peek|]. vm_compute. reflexivity.
  - eapply st_method; [apply m_next_array|]. vm_compute. reflexivity.
  - eapply st_method; [apply m_next_bool|]. vm_compute. reflexivity.
Qed.

(** C19 for literals and strings in front of the parser: the index of a reported error is absolute, unless the token
    does not fit in the buffer. *)
Theorem C19_error_index_partial : forall A (f : jop A) op s s' e,
  scalar f op -> valid s -> 2 <= rcap s -> on_token true (rest s) -> op s = Done (s', Err e) ->
  (is_io e = true /\ rquiet s = false) \/
  (exists ty off, fst (f (rest s)) = Err (ty, off) /\ e = mkErr ty (current_index s + off)) \/
  rcap s < len (rest s).
Proof. exact @scalar_error. Qed.
Print Assumptions C19_error_index_partial.
Definition ex_bad : rj := st (array_step (st (next_bool (st (next_array (ex_new (bs "[true,""a" ++ [BACKSLASH] ++ bs "x"" ]") [Chunk 8] 20)))))).
Example C19_example : valid ex_bad /\ on_token true (rest ex_bad) /\ current_index ex_bad = 6 /\
  ans (known_str ex_bad) = Some (Err (mkErr (JsonError InvalidEscape) 9)).
Proof. split; [now_valid|]. split; [intros _; vm_compute; reflexivity|now_true]. Qed.
(** C19 is false in general: the offset of the failing byte is counted twice. The offending byte is at 2. *)
Theorem C19_error_index_refuted : exists s s' e,
  valid s /\ current_index s = 0 /\ rest s = bs ", x" /\
  next_key s = Done (s', Err e) /\ e = mkErr (JsonError KeyMustBeAString) 3 /\
  j_next_key j_known_str (rest s) = (Err (JsonError KeyMustBeAString, 2), 2).
Proof.
  exists (ex_new (bs ", x") [] 8). do 2 eexists. split; [now_valid|].
  do 2 (split; [vm_compute; reflexivity|]). split; [vm_compute; reflexivity|]. now_true.
Qed.
Print Assumptions C19_error_index_refuted.

(** C20: exact result of [error_position] when [d] is what was dropped in front of the buffer: the line is right;
    the column is right unless a newline follows in the buffer, then the column of the cut is added to it. *)
Theorem C20_error_position_partial : forall input s d index,
  dropped_front input (bf s) d -> valid s ->
  n_shifted_out (bf s) <= index < n_shifted_out (bf s) + n_bytes (bf s) ->
  error_position s index =
    Done (line_of input index,
          if existsb (N.eqb newline) (firstn (S index - len d) (skipn (len d) input))
          then column_of input index + tail_length d else column_of input index).
Proof. exact error_position_spec. Qed.
Print Assumptions C20_error_position_partial.
Definition ex_lines : rj := st (skip_n_bytes 6 (ex_new (bs "[1," ++ [10%N] ++ bs "  x, y]") [] 8)).
Example C20_example : dropped_front (bs "[1," ++ [10%N] ++ bs "  x, y]") (bf ex_lines) (bs "[1," ++ [10%N] ++ bs "  ") /\
  valid ex_lines /\ error_position ex_lines 6 = Done (2, 3).
Proof. split; [now_true|]. split; [now_valid|now_true]. Qed.
(** C20 is false when the buffer was cut in the middle of a line. *)
Theorem C20_error_position_refuted : exists s d input index,
  dropped_front input (bf s) d /\ valid s /\ n_shifted_out (bf s) <= index < n_shifted_out (bf s) + n_bytes (bf s) /\
  column_of input index = 2 /\ error_position s index = Done (line_of input index, 5).
Proof.
  exists (st (skip_n_bytes 3 (ex_new (bs "[1," ++ [10%N] ++ bs " x]") [] 8))), (bs "[1,"), (bs "[1," ++ [10%N] ++ bs " x]"), 5.
  split; [now_true|]. split; [now_valid|]. split; [now_true|now_true].
Qed.
Print Assumptions C20_error_position_refuted.

(** C21: the streaming method returns what the plain parser returns on the whole rest, for every chunking.
    Beyond the property's own proviso: the buffer has 2 cells or more and one byte more than the token needs; no form
    feed; opening an object and a number that ends the input need the parser not to be at the start of the buffer. *)
Theorem C21_any_chunking_partial : forall A k known token (f : jop A) op s v l',
  method k known token f op ->
  valid s -> 2 <= rcap s -> rquiet s = true ->
  on_token known (rest s) -> no_form_feed token (rest s) ->
  parsed f (rest s) v l' ->
  len (strip token (rest s)) < rcap s + len l' ->
  match k with
  | Plain | Separator => True
  | Number | Whole => 0 < jidx s \/ l' <> [] \/ n_bytes (bf s) = 0
  | ObjectOpen => 0 < jidx s
  end ->
  exists s', op s = Done (s', Ok v) /\ valid s' /\ rest s' = l' /\ total s' = total s /\ rcap s' = rcap s /\ rquiet s' = true.
Proof. exact @op_complete. Qed.
Print Assumptions C21_any_chunking_partial.
Example C21_example : let s := st (array_step ex_inner) in
  valid s /\ 2 <= rcap s /\ rquiet s = true /\ on_token false (rest s) /\ no_form_feed (Some LBRACE) (rest s) /\
  parsed (j_next_object j_known_str) (rest s) (Some (bs "key")) (bs " 12.5}]  ") /\
  len (strip (Some LBRACE) (rest s)) < rcap s + len (bs " 12.5}]  ") /\ 0 < jidx s /\ jview s = bs "{".
Proof.
  cbn zeta. split; [now_valid|]. split; [now_true|]. split; [vm_compute; reflexivity|].
  split; [intros X; discriminate X|]. split; [vm_compute; reflexivity|]. split; [exists 7; now_true|].
  split; [now_true|]. now_true.
Qed.
(** C21 when the token is already in the buffer: all methods, no other condition. *)
Theorem C21_buffered_partial : forall A k known token (f : jop A) op s v a,
  method k known token f op -> valid s ->
  f (jview s) = (Ok v, a) -> (k = Number \/ k = Whole -> a < len (jview s)) ->
  op s = Done (mkRj (bf s) (jlen s) (jidx s + a), Ok v) /\ valid (mkRj (bf s) (jlen s) (jidx s + a)) /\
  rest (mkRj (bf s) (jlen s) (jidx s + a)) = skipn a (rest s).
Proof. exact @op_buffered. Qed.
Print Assumptions C21_buffered_partial.
Example C21_buffered_example : j_next_array (jview (ex_new [] [] 1)) <> j_next_array (jview ex_at) /\
  j_peek (jview ex_at) = (Ok LBRACK, 0).
Proof. vm_compute. split; [discriminate|reflexivity]. Qed.
(** C21 is false at the start of the buffer: a valid object whose first key has not arrived completely is refused.
    The retry goes on behind the brace and the quote. *)
Theorem C21_first_key_refuted : exists s s' e l',
  valid s /\ rquiet s = true /\ parsed (j_next_object j_known_str) (rest s) (Some (bs "key")) l' /\ len (rest s) < rcap s /\
  next_object s = Done (s', Err e) /\ err_type e = WrongType TObject TString.
Proof.
  exists (st (peek (ex_new (bs "{""key"":1}") [Chunk 3] 16))). do 3 eexists.
  split; [now_valid|]. split; [vm_compute; reflexivity|].
  split; [exists 7; now_true|]. split; [now_true|]. split; vm_compute; reflexivity.
Qed.
Print Assumptions C21_first_key_refuted.
(** C21 is false with a form feed: it is white space for the buffer but not for the parser, so the answer depends on
    the chunking. *)
Theorem C21_form_feed_refuted : exists input s1 s2,
  s1 = st (peek (ex_new input [Chunk 9] 8)) /\ s2 = st (peek (ex_new input [Chunk 0] 8)) /\
  ans (next_array s1) = Some (Ok (Some 12%N)) /\ ans (next_array s2) = Some (Ok (Some 49%N)).
Proof. exists (bs "[" ++ [12%N] ++ bs "1]"). do 2 eexists. do 2 (split; [vm_compute; reflexivity|]). now_true. Qed.
Print Assumptions C21_form_feed_refuted.

(** C22: a value is only ever returned if the plain parser returns it on the whole rest (so what it rejects is
    rejected), for every chunking and read errors included. *)
Theorem C22_no_false_accept_partial : forall A k known token (f : jop A) op s,
  method k known token f op ->
  valid s -> 2 <= rcap s -> on_token known (rest s) -> no_form_feed token (rest s) ->
  match k with Plain | Number => True | Separator | ObjectOpen | Whole => 0 < jidx s end ->
  match k with Number | Whole => run_length number_char (skip_jw (rest s)) < rcap s | _ => True end ->
  exists s' r, op s = Done (s', r) /\
    match r with
    | Ok v => parsed f (rest s) v (rest s') /\
              valid s' /\ rcap s' = rcap s /\ total s' = total s /\ (rquiet s = true -> rquiet s' = true)
    | Err e => True
    end.
Proof. exact @op_sound. Qed.
Print Assumptions C22_no_false_accept_partial.
Example C22_example : let s := st (next_bool (st (next_array (ex_new (bs "[true ,]") [Chunk 5; Chunk 0] 8)))) in
  valid s /\ 0 < jidx s /\ no_form_feed (Some COMMA) (rest s) /\
  ans (array_step s) = Some (Err (mkErr (JsonError TrailingComma) 8)).
Proof.
  cbn zeta. split; [now_valid|]. split; [now_true|]. split; [vm_compute; reflexivity|].
  vm_compute. reflexivity.
Qed.
(** C22 is false at the start of the buffer: a trailing comma is accepted. *)
Theorem C22_trailing_comma_refuted : exists s s',
  valid s /\ rquiet s = true /\ fst (j_array_step (rest s)) = Err (JsonError TrailingComma, 1) /\
  array_step s = Done (s', Ok None).
Proof.
  exists (st (peek (ex_new (bs ",]") [] 8))). eexists. split; [now_valid|].
  split; [vm_compute; reflexivity|]. split; vm_compute; reflexivity.
Qed.
Print Assumptions C22_trailing_comma_refuted.
(** C22: the same when an object opens: garbage between the brace and the end is accepted. *)
Theorem C22_object_refuted : exists s s',
  valid s /\ rquiet s = true /\ fst (j_known_object j_known_str (rest s)) = Err (JsonError KeyMustBeAString, 1) /\
  known_object s = Done (s', Ok None).
Proof.
  exists (st (peek (ex_new (bs "{x}") [] 8))). eexists. split; [now_valid|].
  split; [vm_compute; reflexivity|]. split; vm_compute; reflexivity.
Qed.
Print Assumptions C22_object_refuted.

(** C23: numbers that fit with one byte to spare; a number that ends the input must not start the buffer. *)
Theorem C23_numbers_partial : forall s v l',
  valid s -> 2 <= rcap s -> rquiet s = true -> no_form_feed None (rest s) ->
  parsed j_next_number_bytes (rest s) v l' ->
  len (strip None (rest s)) < rcap s + len l' ->
  0 < jidx s \/ l' <> [] ->
  exists s', next_number_bytes s = Done (s', Ok v) /\ valid s' /\ rest s' = l' /\ total s' = total s /\ rcap s' = rcap s /\ rquiet s' = true.
Proof. exact number_complete. Qed.
Print Assumptions C23_numbers_partial.
Example C23_example : let s := st (known_skip_token (bs "a") (st (peek (ex_new (bs "a 12.5") [Chunk 3] 5)))) in
  valid s /\ no_form_feed None (rest s) /\ parsed j_next_number_bytes (rest s) (bs "12.5") [] /\
  len (strip None (rest s)) < rcap s + 0 /\ jidx s = 0.
Proof.
  cbn zeta. split; [now_valid|]. split; [vm_compute; reflexivity|].
  split; [exists 5; now_true|]. now_true.
Qed.
(** C23 is false for a number that is all of the input. *)
Theorem C23_last_number_refuted : exists s s' e,
  valid s /\ rquiet s = true /\ parsed j_next_number_bytes (rest s) (bs "12") [] /\ 2 < rcap s /\
  next_number_bytes s = Done (s', Err e) /\ err_type e = JsonError EofWhileParsingValue.
Proof.
  exists (st (peek (ex_new (bs "12") [] 8))). do 2 eexists. split; [now_valid|].
  split; [vm_compute; reflexivity|]. split; [exists 2; now_true|]. split; [now_true|]. split; vm_compute; reflexivity.
Qed.
Print Assumptions C23_last_number_refuted.
(** C23: a number longer than the buffer is not refused but cut. *)
Theorem C23_cut_refuted : exists s s',
  valid s /\ rquiet s = true /\ parsed j_next_number_bytes (rest s) (bs "123456789012") (bs " ") /\
  next_number_bytes s = Done (s', Ok (bs "12345678")) /\ rest s' = bs "9012 ".
Proof.
  exists (ex_new (bs " 123456789012 ") [] 8). eexists. split; [now_valid|].
  split; [vm_compute; reflexivity|]. split; [exists 13; now_true|]. split; vm_compute; reflexivity.
Qed.
Print Assumptions C23_cut_refuted.

(** C24: strings without escapes (any UTF-8, any buffer contents), and ASCII strings with any escapes but surrogate
    pairs when no cell of the buffer holds a continuation byte. If the reader fills what it is asked to fill, any UTF-8 with any
    escapes but surrogate pairs, if there is no escape at the very start. If the reader or the writer fails, a prefix was
    written. *)
Theorem C24_write_long_bytes_partial : forall s w T after,
  valid s -> 8 <= rcap s -> rest s = QUOTE :: T ++ QUOTE :: after -> parsed j_known_bytes (rest s) T after ->
  long_text (buf (bf s)) T \/ (fills (bf s) /\ steady_text T) ->
  exists s' w' r p q, write_long_bytes s w = Done (s', w', r) /\
    T = p ++ q /\ written w' = written w ++ p /\ (wfail w = None -> wfail w' = None) /\
    match r with
    | Ok _ => q = [] /\ valid s' /\ rest s' = after /\ total s' = total s /\ rcap s' = rcap s /\ (rquiet s = true -> rquiet s' = true)
    | Err e => is_io e = true /\ (rquiet s = false \/ wfail w <> None)
    end.
Proof. exact write_long_bytes_spec. Qed.
Print Assumptions C24_write_long_bytes_partial.
Definition ex_long_text : bytes := bs "a long text with " ++ BACKSLASH :: QUOTE :: bs "escapes" ++ BACKSLASH :: bs "u00e9" ++ BACKSLASH :: bs "n.".
Definition ex_long : rj := st (array_step (st (next_bool (st (next_array
  (ex_new (bs "[true," ++ QUOTE :: ex_long_text ++ QUOTE :: bs "]") (repeat (Chunk 1) 5 ++ repeat (Chunk 0) 25) 9)))))).
Example C24_example : valid ex_long /\ rcap ex_long = 9 /\ rest ex_long = QUOTE :: ex_long_text ++ QUOTE :: bs "]" /\
  parsed j_known_bytes (rest ex_long) ex_long_text (bs "]") /\ long_text (buf (bf ex_long)) ex_long_text.
Proof.
  split; [now_valid|]. split; [vm_compute; reflexivity|]. split; [vm_compute; reflexivity|].
  split; [eexists; split; vm_compute; reflexivity|]. right.
  split; [vm_compute; repeat constructor|]. split; [vm_compute; repeat constructor|].
  eexists. unfold ex_long_text. cbn [bs app N_of_ascii N_of_digits].
  repeat (first [apply jt_nil | apply jt_char; [discriminate|discriminate|vm_compute; discriminate|]
                | eapply jt_escape; [vm_compute; reflexivity|] | eapply jt_hex; [vm_compute; reflexivity|reflexivity|reflexivity|]]).
Qed.
Definition ex_utf8_text : bytes := bs "gr" ++ [195; 188; 195; 159; 101; 228; 189; 160; 229; 165; 189]%N ++ bs " 12345678".
Example C24_utf8_example : long_text [] ex_utf8_text.
Proof. left. split; [vm_compute; repeat (constructor; [discriminate|]); constructor|vm_compute; reflexivity]. Qed.
Definition ex_mixed_text : bytes := bs "Zürich" ++ BACKSLASH :: bs "n" ++ BACKSLASH :: bs "u00e9" ++ bs "你好" ++ BACKSLASH :: bs "n€uro".
Definition ex_mixed : rj := st (peek (st (next_array (ex_new (bs "[" ++ QUOTE :: ex_mixed_text ++ QUOTE :: bs "]") [] 8)))).
Example C24_mixed_example : valid ex_mixed /\ rcap ex_mixed = 8 /\ rest ex_mixed = QUOTE :: ex_mixed_text ++ QUOTE :: bs "]" /\
  parsed j_known_bytes (rest ex_mixed) ex_mixed_text (bs "]") /\ fills (bf ex_mixed) /\ steady_text ex_mixed_text.
Proof.
  split; [now_valid|]. split; [vm_compute; reflexivity|]. split; [vm_compute; reflexivity|].
  split; [eexists; split; vm_compute; reflexivity|]. split; [vm_compute; reflexivity|].
  split; [vm_compute; reflexivity|]. split; [discriminate|].
  eexists. unfold ex_mixed_text. cbn [bs app N_of_ascii N_of_digits].
  repeat (first [apply jt_nil | apply jt_char; [discriminate|discriminate|vm_compute; discriminate|]
                | eapply jt_escape; [vm_compute; reflexivity|] | eapply jt_hex; [vm_compute; reflexivity|reflexivity|reflexivity|]]).
Qed.
(** With an escape at the start it is false also for such readers: when the string begins three bytes before the end of the
    buffer, a cell with an old continuation byte is taken for part of it. *)
Theorem C24_filled_stale_cell_refuted : exists s s' w',
  valid s /\ rcap s = 12 /\ fills (bf s) /\ parsed j_known_bytes (rest s) (BACKSLASH :: QUOTE :: bs "abc") (bs "]") /\
  write_long_bytes s (mkWriter [] None) = Done (s', w', Ok tt) /\
  written w' = [BACKSLASH] /\ rest s' = bs "abc" ++ QUOTE :: bs "]".
Proof.
  exists (st (array_step (st (next_bytes (st (next_array (ex_new (bs "[" ++ QUOTE :: bs "你ab" ++ QUOTE :: COMMA :: QUOTE :: BACKSLASH :: QUOTE :: bs "abc" ++ QUOTE :: bs "]") [] 12))))))). do 2 eexists.
  split; [now_valid|]. split; [vm_compute; reflexivity|]. split; [vm_compute; reflexivity|]. split; [eexists; split; vm_compute; reflexivity|].
  split; [vm_compute; reflexivity|]. now_true.
Qed.
Print Assumptions C24_filled_stale_cell_refuted.
(** C24 is false for surrogate pairs: the pair is written in two segments and the second half is refused. *)
Definition ex_pair_text : bytes := BACKSLASH :: bs "ud83d" ++ BACKSLASH :: bs "ude00abc".
Theorem C24_surrogate_pair_refuted : exists s s' w' e,
  valid s /\ rcap s = 32 /\ rquiet s = true /\ parsed j_known_bytes (rest s) ex_pair_text [] /\
  write_long_bytes s (mkWriter [] None) = Done (s', w', Err e) /\ err_type e = JsonError LoneLeadingSurrogateInHexEscape.
Proof.
  exists (st (peek (ex_new (QUOTE :: ex_pair_text ++ [QUOTE]) (repeat (Chunk 0) 20) 32))). do 3 eexists.
  split; [now_valid|]. do 2 (split; [vm_compute; reflexivity|]). split; [eexists; split; vm_compute; reflexivity|].
  split; vm_compute; reflexivity.
Qed.
Print Assumptions C24_surrogate_pair_refuted.
(** Also if the reader fills the buffer, if more of the string is behind the pair than the buffer holds. *)
Theorem C24_filled_pair_refuted : exists s s' w' e T,
  valid s /\ rcap s = 32 /\ fills (bf s) /\ T = ex_pair_text ++ bs ", and more than thirty-two bytes behind it" /\ parsed j_known_bytes (rest s) T [] /\
  write_long_bytes s (mkWriter [] None) = Done (s', w', Err e) /\ err_type e = JsonError LoneLeadingSurrogateInHexEscape.
Proof.
  exists (st (peek (ex_new (QUOTE :: ex_pair_text ++ bs ", and more than thirty-two bytes behind it" ++ [QUOTE]) [] 32))). do 4 eexists.
  split; [now_valid|]. do 2 (split; [vm_compute; reflexivity|]). split; [reflexivity|]. split; [eexists; split; vm_compute; reflexivity|].
  split; vm_compute; reflexivity.
Qed.
Print Assumptions C24_filled_pair_refuted.
(** C24 is false for escapes when an old continuation byte is in the buffer: success is reported, the output is
    truncated and the parser left inside the string. *)
Definition ex_stale_text : bytes := [228; 189; 160]%N ++ BACKSLASH :: QUOTE :: bs "abc".
Theorem C24_stale_cell_refuted : exists s s' w',
  valid s /\ rcap s = 8 /\ rquiet s = true /\ parsed j_known_bytes (rest s) ex_stale_text [] /\
  write_long_bytes s (mkWriter [] None) = Done (s', w', Ok tt) /\
  written w' = [228; 189; 160]%N ++ [BACKSLASH] /\ rest s' = bs "abc" ++ [QUOTE].
Proof.
  exists (st (peek (ex_new (QUOTE :: ex_stale_text ++ [QUOTE]) (repeat (Chunk 0) 20) 8))). do 2 eexists.
  split; [now_valid|]. do 2 (split; [vm_compute; reflexivity|]). split; [eexists; split; vm_compute; reflexivity|].
  split; [vm_compute; reflexivity|]. now_true.
Qed.
Print Assumptions C24_stale_cell_refuted.

(** C25: the same for the decoded text. *)
Theorem C25_write_long_str_partial : forall s w T o after,
  valid s -> 8 <= rcap s -> rest s = QUOTE :: T ++ QUOTE :: after -> parsed j_known_str (rest s) o after ->
  long_text (buf (bf s)) T \/ (fills (bf s) /\ steady_text T) ->
  exists s' w' r p q, write_long_str s w = Done (s', w', r) /\
    o = p ++ q /\ written w' = written w ++ p /\ (wfail w = None -> wfail w' = None) /\
    match r with
    | Ok _ => q = [] /\ valid s' /\ rest s' = after /\ total s' = total s /\ rcap s' = rcap s /\ (rquiet s = true -> rquiet s' = true)
    | Err e => is_io e = true /\ (rquiet s = false \/ wfail w <> None)
    end.
Proof. exact write_long_str_spec. Qed.
Print Assumptions C25_write_long_str_partial.
Example C25_example : exists o s' w', parsed j_known_str (rest ex_long) o (bs "]") /\
  write_long_str ex_long (mkWriter [] None) = Done (s', w', Ok tt) /\ written w' = o /\ len o = 29.
Proof. do 3 eexists. split; [eexists; split; vm_compute; reflexivity|]. split; [vm_compute; reflexivity|]. vm_compute. repeat split. Qed.
Theorem C25_surrogate_pair_refuted : exists s s' w' e o,
  valid s /\ rcap s = 32 /\ rquiet s = true /\ parsed j_known_str (rest s) o [] /\
  write_long_str s (mkWriter [] None) = Done (s', w', Err e) /\ err_type e = JsonError UnexpectedEndOfHexEscape.
Proof.
  exists (st (peek (ex_new (QUOTE :: ex_pair_text ++ [QUOTE]) (repeat (Chunk 0) 20) 32))). do 4 eexists.
  split; [now_valid|]. do 2 (split; [vm_compute; reflexivity|]). split; [eexists; split; vm_compute; reflexivity|].
  split; vm_compute; reflexivity.
Qed.
Print Assumptions C25_surrogate_pair_refuted.

(** C26: [finish] always returns; success exactly if only white space is left. *)
Theorem C26_finish : forall s, valid s -> 0 < rcap s ->
  exists s' r, finish s = Done (s', r) /\
    match r with
    | Ok tt => skip_jw (rest s) = [] /\ valid s' /\ rest s' = [] /\ total s' = total s /\ rcap s' = rcap s
    | Err e => (is_io e = true /\ rquiet s = false) \/
               (err_type e = JsonError TrailingCharacters /\ skip_jw (rest s) <> [] /\
                valid s' /\ rest s' = skip_jw (rest s) /\ total s' = total s)
    end.
Proof. exact finish_spec. Qed.
Print Assumptions C26_finish.
Example C26_example : ans (finish (ex_new (bs "      ") [Chunk 0; Chunk 1] 2)) = Some (Ok tt) /\
  rest (st (finish (ex_new (bs "      x ") [Chunk 0; Chunk 1] 2))) = bs "x ".
Proof. now_true. Qed.

(** C27: every method returns, for every input, schedule (errors included) and parser position. *)
Theorem C27_termination_partial : forall s, valid s -> 2 <= rcap s ->
  (forall A k known token (f : jop A) op, method k known token f op -> exists s' r, op s = Done (s', r)) /\
  (forall pred, exists s' r, lookahead_while pred s = Done (s', r)) /\
  (forall n, exists s' r, lookahead_n n s = Done (s', r)) /\
  (forall n, exists s' r, skip_n_bytes n s = Done (s', r)) /\
  (forall t, exists s' r, known_skip_token t s = Done (s', r)) /\
  (exists s' r, finish s = Done (s', r)) /\
  (forall w, write_long_bytes s w <> Diverge /\ (8 <= rcap s -> write_long_bytes s w <> Panic)) /\
  (forall w, write_long_str s w <> Diverge /\ (8 <= rcap s -> write_long_str s w <> Panic)).
Proof. exact all_end. Qed.
Print Assumptions C27_termination_partial.
(** C27 is false for tiny buffers: with an empty buffer [peek] and [finish] loop for ever, with one cell [array_step]
    on a comma does. *)
Theorem C27_tiny_buffer_refuted : exists s0 s1 b,
  valid s0 /\ rcap s0 = 0 /\ (forall fuel, skip_spaces_loop fuel (bf s0) 0 = Diverge) /\ peek s0 = Diverge /\
  (forall fuel, finish_loop fuel s0 = Diverge) /\
  valid s1 /\ rcap s1 = 1 /\ array_step s1 = Diverge /\
  b = bf s1 /\ (forall fuel, skip_spaces_loop fuel b 1 = Diverge).
Proof. exact tiny_buffers. Qed.
Print Assumptions C27_tiny_buffer_refuted.
(** C27: index panic of [write_long_bytes] in a buffer of 7 cells. *)
Theorem C27_long_panic_refuted : exists s w, valid s /\ rcap s = 7 /\ write_long_bytes s w = Panic.
Proof.
  exists (st (peek (ex_new (QUOTE :: BACKSLASH :: bs "u0041abc" ++ [QUOTE]) (repeat (Chunk 0) 20) 7))), (mkWriter [] None).
  split; [now_valid|]. split; vm_compute; reflexivity.
Qed.
Print Assumptions C27_long_panic_refuted.
