(** Properties C56-C60: whole values and numbers. Only statements, examples and assumptions. *)
From Coq Require Import ZArith.
From Verif Require Import Base Buffer Jiter JiterValue RJiter RJiterSpec Scan ScanSpec SoundSpec ValueSpec.
From Verif Require Import ScanExamples Prop_RJiter ValueProofs.

(** A parser behind the first token of an input. *)
Definition ex_behind (i : bytes) (sc : list event) (n : nat) : rj := st (next_bool (ex_new (bs "true" ++ i) sc n)).

Definition ex_value_text : bytes := bs "  { ""a"" : [1, -20 ,3.5e1 ,[ ]], ""b" ++ [BACKSLASH] ++ bs "n"": null, ""a"": ""x""}".
Definition ex_value : json := JObject [(bs "a", JArray [JNumber (bs "1"); JNumber (bs "-20"); JNumber (bs "3.5e1"); JArray []]);
  (bs "b" ++ [BACKSLASH] ++ bs "n", JNull); (bs "a", JString (bs "x"))].
Definition ex_result : jvalue := VObject [(bs "a", VArray [VInt 1; VInt (-20); VFloat (bs "3.5e1"); VArray []]);
  (bs "b" ++ [10%N], VNull); (bs "a", VStr (bs "x"))].
Definition ex_value_at : rj := ex_behind (ex_value_text ++ bs ",") [Chunk 9; Chunk 2; Chunk 0; Chunk 30] 64.
Ltac now_json_text := repeat first [apply jt_nil | eapply jt_escape; [vm_compute; reflexivity|] | eapply jt_char; [discriminate|discriminate|vm_compute; discriminate|]].
Ltac now_string := split; [now_json_text|vm_compute; reflexivity].
Ltac now_int := first [left; reflexivity | right; do 2 eexists; split; [reflexivity|]; split; [split; vm_compute; discriminate|now_digits]].
Ltac now_number :=
  first [ apply is_float; [now_integer|unfold fractional; repeat (first [apply Exists_cons_hd; tauto | apply Exists_cons_tl])]
        | apply is_int; match goal with |- integer_is ?t ?z => change z with (decimal t); apply is_positive; now_int end
        | apply is_int; match goal with |- integer_is (45%N :: ?t) ?z => change z with (- decimal t)%Z; apply is_negative; now_int end ].
Ltac now_means := repeat first [apply mn_null|apply mn_true|apply mn_false|apply mn_number; now_number|apply mn_string; now_string|apply mn_array|apply mn_object
  |apply ma_nil|apply ma_cons|apply mm_nil|apply mm_cons; [now_string| |]].
Example ex_value_means : value_of ex_value ex_result.
Proof. unfold ex_value, ex_result. vm_compute bs. cbn [app]. now_means. Qed.
Example ex_value_at_state : valid ex_value_at /\ 2 <= rcap ex_value_at /\ rquiet ex_value_at = true /\ 0 < jidx ex_value_at /\
  rest ex_value_at = bs "  " ++ skipn 2 ex_value_text ++ bs "," /\ jview ex_value_at = firstn 6 ex_value_text.
Proof. split; [now_valid|]. now_true. Qed.
Example ex_value_reads : value_at any_layout false ex_value (skipn 2 ex_value_text ++ bs ",") (bs ",").
Proof.
  let l := eval vm_compute in (skipn 2 ex_value_text ++ bs ",") in change (skipn 2 ex_value_text ++ bs ",") with l.
  let v := eval vm_compute in ex_value in change ex_value with v. vm_compute bs. now_value.
Qed.

(** C56: the value is read, for every chunking. The buffer has one byte more than the value needs; a value that ends the
    input must not start the buffer. *)
Theorem C56_value_read_partial : forall op s w l v x r,
  value_method op -> valid s -> 2 <= rcap s -> rquiet s = true ->
  rest s = w ++ l -> spaces w -> value_at any_layout false v l r -> value_of v x -> depth v <= 200 -> len l < rcap s + len r ->
  0 < jidx s \/ r <> [] \/ n_bytes (bf s) = 0 ->
  exists s', op s = Done (s', Ok x) /\ valid s' /\ rest s' = r /\ total s' = total s /\ rcap s' = rcap s /\ rquiet s' = true.
Proof. exact value_streamed. Qed.
Print Assumptions C56_value_read_partial.
Example C56_example : let s := ex_value_at in let l := skipn 2 ex_value_text ++ bs "," in
  valid s /\ 2 <= rcap s /\ rquiet s = true /\ rest s = bs "  " ++ l /\ spaces (bs "  ") /\ value_at any_layout false ex_value l (bs ",") /\
  value_of ex_value ex_result /\ depth ex_value <= 200 /\ len l < rcap s + len (bs ",") /\ 0 < jidx s /\
  ans (next_value s) = Some (Ok ex_result) /\ rest (st (next_value s)) = bs ",".
Proof.
  cbn zeta. split; [now_valid|]. split; [now_true|]. split; [vm_compute; reflexivity|]. split; [vm_compute; reflexivity|]. split; [vm_compute bs; now_spaces|].
  split; [exact ex_value_reads|]. split; [exact ex_value_means|]. split; [now_true|]. split; [now_true|]. split; [now_true|]. split; vm_compute; reflexivity.
Qed.
(** C56, what was read: whatever the chunks and the failures of the reader. Not at the start of the buffer. *)
Theorem C56_value_only_partial : forall op s s' x,
  value_method op -> valid s -> 2 <= rcap s -> 0 < jidx s -> op s = Done (s', Ok x) ->
  exists u v, blanks u /\ value_of v x /\ depth v <= 200 /\ exists l, rest s = u ++ l /\ text_of v l (rest s').
Proof. exact value_read. Qed.
Print Assumptions C56_value_only_partial.
Example C56_only_example : let s := ex_behind (bs " [1, 2 x") [Chunk 7; Chunk 2; Chunk 0] 16 in
  valid s /\ 0 < jidx s /\ ans (next_value s) = Some (Err (mkErr (JsonError ExpectedListCommaOrEnd) 17)) /\
  (exists s', next_value ex_value_at = Done (s', Ok ex_result)).
Proof. cbn zeta. split; [now_valid|]. split; [now_true|]. split; [vm_compute; reflexivity|]. eexists. vm_compute. reflexivity. Qed.
(** C56 is false at the start of the buffer: a malformed array is accepted, and what is returned is its second number. *)
Theorem C56_malformed_refuted : exists s s',
  valid s /\ rquiet s = true /\ rest s = bs "[1 2]" /\ len (rest s) < rcap s /\
  next_value s = Done (s', Ok (VInt 2)) /\ rest s' = bs "]".
Proof.
  exists (st (peek (ex_new (bs "[1 2]") [] 16))). eexists. split; [now_valid|].
  split; [vm_compute; reflexivity|]. split; [vm_compute; reflexivity|]. split; [now_true|]. split; vm_compute; reflexivity.
Qed.
Print Assumptions C56_malformed_refuted.
(** C56: at the start of the buffer an object that is all of the input is refused. *)
Theorem C56_last_value_refuted : exists s s' e,
  valid s /\ rquiet s = true /\ rest s = bs "{}" /\ len (rest s) < rcap s /\
  value_at any_layout false (JObject []) (rest s) [] /\
  next_value s = Done (s', Err e) /\ err_type e = JsonError EofWhileParsingValue.
Proof.
  exists (st (peek (ex_new (bs "{}") [] 16))). do 2 eexists. split; [now_valid|].
  split; [vm_compute; reflexivity|]. split; [vm_compute; reflexivity|]. split; [now_true|].
  split; [vm_compute rest; now_value|]. split; vm_compute; reflexivity.
Qed.
Print Assumptions C56_last_value_refuted.
(** C56: a number that does not fit in the buffer is cut. *)
Theorem C56_cut_refuted : exists s s',
  valid s /\ rquiet s = true /\ 0 < jidx s /\ rest s = bs "  123456789012 " /\
  next_value s = Done (s', Ok (VInt 12345678)) /\ rest s' = bs "9012 ".
Proof.
  exists (ex_behind (bs "  123456789012 ") [] 8). eexists. split; [now_valid|].
  split; [vm_compute; reflexivity|]. split; [now_true|]. split; [vm_compute; reflexivity|]. split; vm_compute; reflexivity.
Qed.
Print Assumptions C56_cut_refuted.

(** C57: exactly one value is skipped, for every chunking. The same conditions; strings may hold any bytes. *)
Theorem C57_skip_partial : forall s w l v r,
  valid s -> 2 <= rcap s -> rquiet s = true ->
  rest s = w ++ l -> spaces w -> value_at any_layout false v l r -> depth v <= 200 -> len l < rcap s + len r ->
  0 < jidx s \/ r <> [] \/ n_bytes (bf s) = 0 ->
  exists s', next_skip s = Done (s', Ok tt) /\ valid s' /\ rest s' = r /\ total s' = total s /\ rcap s' = rcap s /\ rquiet s' = true.
Proof. exact skip_streamed. Qed.
Print Assumptions C57_skip_partial.
Example C57_example : let s := ex_value_at in let l := skipn 2 ex_value_text ++ bs "," in
  valid s /\ 2 <= rcap s /\ rquiet s = true /\ rest s = bs "  " ++ l /\ value_at any_layout false ex_value l (bs ",") /\
  depth ex_value <= 200 /\ len l < rcap s + len (bs ",") /\ 0 < jidx s /\
  ans (next_skip s) = Some (Ok tt) /\ rest (st (next_skip s)) = bs ",".
Proof.
  cbn zeta. split; [now_valid|]. split; [now_true|]. split; [vm_compute; reflexivity|]. split; [vm_compute; reflexivity|].
  split; [exact ex_value_reads|]. split; [now_true|]. split; [now_true|]. split; [now_true|]. split; vm_compute; reflexivity.
Qed.
Theorem C57_skip_only_partial : forall s s',
  valid s -> 2 <= rcap s -> 0 < jidx s -> next_skip s = Done (s', Ok tt) ->
  exists u v, blanks u /\ depth v <= 200 /\ exists l, rest s = u ++ l /\ text_of v l (rest s').
Proof. exact skip_read. Qed.
Print Assumptions C57_skip_only_partial.
(** C57 is false at the start of the buffer: a part of a malformed array counts as a value. *)
Theorem C57_malformed_refuted : exists s s',
  valid s /\ rquiet s = true /\ rest s = bs "[1 2]" /\ len (rest s) < rcap s /\
  next_skip s = Done (s', Ok tt) /\ rest s' = bs "]".
Proof.
  exists (st (peek (ex_new (bs "[1 2]") [] 16))). eexists. split; [now_valid|].
  split; [vm_compute; reflexivity|]. split; [vm_compute; reflexivity|]. split; [now_true|]. split; vm_compute; reflexivity.
Qed.
Print Assumptions C57_malformed_refuted.

(** C58: the number is read, for every chunking, if it fits in the buffer with one byte to spare; a number that ends the
    input must not start the buffer. *)
Theorem C58_number_read_partial : forall A (nmeans : bytes -> A -> Prop) op s w t x r,
  number_method nmeans op -> valid s -> 2 <= rcap s -> rquiet s = true ->
  rest s = w ++ t ++ r -> spaces w -> nmeans t x -> delimited r -> len t < rcap s ->
  0 < jidx s \/ r <> [] \/ n_bytes (bf s) = 0 ->
  exists s', op s = Done (s', Ok x) /\ valid s' /\ rest s' = r /\ total s' = total s /\ rcap s' = rcap s /\ rquiet s' = true.
Proof. exact @number_streamed. Qed.
Print Assumptions C58_number_read_partial.
Definition ex_number_at : rj := ex_behind (bs "  -12345678901234567890123 ,") [Chunk 9; Chunk 2; Chunk 0] 30.
Example C58_example : valid ex_number_at /\ rquiet ex_number_at = true /\ rest ex_number_at = bs "  " ++ bs "-12345678901234567890123" ++ bs " ," /\
  integer_is (bs "-12345678901234567890123") (-12345678901234567890123)%Z /\ delimited (bs " ,") /\
  len (bs "-12345678901234567890123") < rcap ex_number_at /\ 0 < jidx ex_number_at /\
  ans (next_int ex_number_at) = Some (Ok (-12345678901234567890123)%Z).
Proof.
  split; [now_valid|]. split; [vm_compute; reflexivity|]. split; [vm_compute; reflexivity|].
  split; [vm_compute bs; match goal with |- integer_is (45%N :: ?t) ?z => replace z with (- decimal t)%Z by (vm_compute; reflexivity); apply is_negative; now_int end|].
  split; [now_true|]. split; [now_true|]. split; [now_true|]. vm_compute. reflexivity.
Qed.
(** C58: what was read is the number in front of the parser, in every state. *)
Theorem C58_number_only : forall A (nmeans : bytes -> A -> Prop) op s s' x,
  number_method nmeans op -> valid s -> 2 <= rcap s -> op s = Done (s', Ok x) ->
  exists u t, rest s = u ++ t ++ rest s' /\ blanks u /\ nmeans t x.
Proof. exact @number_read. Qed.
Print Assumptions C58_number_only.
(** C58: a number with a fraction or an exponent is not taken for an integer. *)
Theorem C58_no_integer : forall s w t r,
  valid s -> 2 <= rcap s -> rest s = w ++ t ++ r -> spaces w -> number_text t -> fractional t -> delimited r -> len t < rcap s ->
  exists s' e, next_int s = Done (s', Err e).
Proof. exact int_refused. Qed.
Print Assumptions C58_no_integer.
Example C58_no_integer_example : let s := ex_behind (bs " 12e3 ") [Chunk 3] 8 in
  valid s /\ rest s = bs " " ++ bs "12e3" ++ bs " " /\ number_text (bs "12e3") /\ fractional (bs "12e3") /\ len (bs "12e3") < rcap s /\
  ans (next_int s) = Some (Err (mkErr (JsonError FloatExpectingInt) 7)).
Proof.
  cbn zeta. split; [now_valid|]. split; [vm_compute; reflexivity|]. split; [vm_compute bs; now_integer|].
  split; [apply Exists_cons_tl, Exists_cons_tl, Exists_cons_hd; right; left; reflexivity|]. split; [now_true|]. vm_compute. reflexivity.
Qed.
(** C58 is false for a number longer than the buffer: it is cut, also where the rest would have made it a fraction. *)
Theorem C58_cut_refuted : exists s s',
  valid s /\ rquiet s = true /\ rest s = bs "  12345678.5 " /\ next_int s = Done (s', Ok 12345678%Z) /\ rest s' = bs ".5 ".
Proof.
  exists (ex_new (bs "  12345678.5 ") [] 8). eexists. split; [now_valid|].
  split; [vm_compute; reflexivity|]. split; [vm_compute; reflexivity|]. split; vm_compute; reflexivity.
Qed.
Print Assumptions C58_cut_refuted.
(** C58: at the start of the buffer a number that is all of the input is refused. *)
Theorem C58_last_number_refuted : exists s s' e,
  valid s /\ rquiet s = true /\ rest s = bs "42" /\ 2 < rcap s /\
  next_int s = Done (s', Err e) /\ err_type e = JsonError EofWhileParsingValue.
Proof.
  exists (st (peek (ex_new (bs "42") [] 8))). do 2 eexists. split; [now_valid|].
  split; [vm_compute; reflexivity|]. split; [vm_compute; reflexivity|]. split; [now_true|]. split; vm_compute; reflexivity.
Qed.
Print Assumptions C58_last_number_refuted.

(** C59: more than 200 arrays and objects inside each other are never read as a value, whatever the chunks, the failures
    of the reader and the size of the buffer. Not at the start of the buffer. *)
Theorem C59_never_deeper_partial : forall s w l v r,
  valid s -> 2 <= rcap s -> 0 < jidx s -> rest s = w ++ l -> spaces w -> value_at any_layout false v l r -> 200 < depth v ->
  (exists s' e, next_skip s = Done (s', Err e)) /\
  (forall op x, value_method op -> value_of v x -> exists s' e, op s = Done (s', Err e)).
Proof. exact deep_never. Qed.
Print Assumptions C59_never_deeper_partial.
(** C59: the error is the one for recursion, if the rest of the input fits in the buffer. *)
Theorem C59_limit_reported_partial : forall s w l v r,
  valid s -> 2 <= rcap s -> rquiet s = true -> 0 < jidx s -> rest s = w ++ l -> spaces w -> value_at any_layout false v l r -> 200 < depth v ->
  len l <= rcap s ->
  (exists s' e, next_skip s = Done (s', Err e) /\ err_type e = JsonError RecursionLimitExceeded) /\
  (forall op x, value_method op -> value_of v x -> exists s' e, op s = Done (s', Err e) /\ err_type e = JsonError RecursionLimitExceeded).
Proof. exact deep_reported. Qed.
Print Assumptions C59_limit_reported_partial.
Definition ex_deep (n : nat) : rj := ex_behind (bs " " ++ nested n (bs " ")) [Chunk 100; Chunk 0; Chunk 50] 500.
Example C59_example : let s := ex_deep 201 in
  valid s /\ rquiet s = true /\ 0 < jidx s /\ rest s = bs " " ++ nested 201 (bs " ") /\
  value_at any_layout false (nest 201) (nested 201 (bs " ")) (bs " ") /\ 200 < depth (nest 201) /\ value_of (nest 201) (nest_value 201) /\
  len (nested 201 (bs " ")) <= rcap s /\
  ans (next_skip s) = Some (Err (mkErr (JsonError RecursionLimitExceeded) 407)) /\ ans (next_skip (ex_deep 200)) = Some (Ok tt) /\
  ans (next_value (ex_deep 200)) = Some (Ok (nest_value 200)).
Proof.
  cbn zeta. split; [now_valid|]. split; [vm_compute; reflexivity|]. split; [now_true|]. split; [vm_compute; reflexivity|].
  split; [apply nested_text; reflexivity|]. split; [rewrite nested_depth; repeat constructor|]. split; [apply nested_value|].
  split; [vm_compute; repeat constructor|]. split; [vm_compute; reflexivity|]. split; vm_compute; reflexivity.
Qed.
(** C59 is false at the start of the buffer: the second attempt goes on inside, and returns what it finds there. *)
Theorem C59_start_refuted : exists s s',
  valid s /\ rquiet s = true /\ rest s = nested 201 (bs " ") /\ len (rest s) < rcap s /\
  next_value s = Done (s', Ok (VInt 1)).
Proof.
  exists (st (peek (ex_new (nested 201 (bs " ")) [] 500))). eexists. split; [now_valid|].
  split; [vm_compute; reflexivity|]. split; [vm_compute; reflexivity|]. split; [vm_compute; repeat constructor|]. vm_compute. reflexivity.
Qed.
Print Assumptions C59_start_refuted.

(** C60: with the first byte of the value known, the [known_] method does what the [next_] method does. Not at the start
    of the buffer. *)
Theorem C60_known_is_next_partial : forall A (known : byte -> rj -> outcome (rj * result A rerror)) next p m s,
  known_method known next -> valid s -> 0 < jidx s -> jview s = p :: m -> is_ascii_whitespace p = false -> known p s = next s.
Proof. exact @known_is_next. Qed.
Print Assumptions C60_known_is_next_partial.
Example C60_example : let s := ex_behind (bs "[1, 2] ") [Chunk 5] 12 in
  valid s /\ 0 < jidx s /\ jview s = bs "[1" /\ is_ascii_whitespace 91%N = false /\
  ans (known_value 91%N s) = Some (Ok (VArray [VInt 1; VInt 2])) /\ ans (known_skip 91%N s) = Some (Ok tt).
Proof. cbn zeta. split; [now_valid|]. split; [now_true|]. now_true. Qed.
(** C60 is false at the start of the buffer: a valid array, not yet complete in the buffer, that [next_skip] skips. *)
Theorem C60_start_refuted : exists s s' e,
  valid s /\ rquiet s = true /\ rest s = bs "[true]" /\ jview s = bs "[tru" /\
  ans (next_skip s) = Some (Ok tt) /\ known_skip 91%N s = Done (s', Err e) /\ err_type e = JsonError ExpectedSomeValue.
Proof.
  exists (st (peek (ex_new (bs "[true]") [Chunk 3] 16))). do 2 eexists. split; [now_valid|].
  split; [vm_compute; reflexivity|]. split; [vm_compute; reflexivity|]. split; [vm_compute; reflexivity|]. split; [vm_compute; reflexivity|]. split; vm_compute; reflexivity.
Qed.
Print Assumptions C60_start_refuted.
(** C60: a number that is all of the input comes out wrong: the first digit is put in front of nothing. *)
Theorem C60_number_refuted : exists s s',
  valid s /\ rquiet s = true /\ rest s = bs "42" /\ jview s = bs "42" /\ 2 < rcap s /\ known_int 52%N s = Done (s', Ok 4%Z).
Proof.
  exists (st (peek (ex_new (bs "42") [] 8))). eexists. split; [now_valid|].
  split; [vm_compute; reflexivity|]. split; [vm_compute; reflexivity|]. split; [vm_compute; reflexivity|]. split; [now_true|]. vm_compute. reflexivity.
Qed.
Print Assumptions C60_number_refuted.
