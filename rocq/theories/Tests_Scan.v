(** The tests of scan_json, scan_json/tests/scan_test.rs, matcher_test.rs and idtransform_test.rs, as examples: a check of
    the model, not of the program. Every example has the name (with [test_] in front) and the values of the test it copies;
    the number above it is the line of the test.
    Where a test writes the [Debug] form of a peeked byte or of a value, or a number, the example collects the byte, the
    value or the number. *)
From Coq Require Import ZArith.
From Verif Require Import Base U8Pool Buffer Jiter JiterValue RJiter Scan IdTransform Messages ScanExamples.

Definition plain (input : bytes) (size : nat) : rj := rj_new (mkReader input []) (repeat 0%N size).
Definition plain_options : options := mkOptions [] false.
(** [scan] on a fresh parser with a buffer of [size] bytes, and a fresh working buffer of [bytes_] bytes and [slots] slots. *)
Definition scanning {B} (cb : callbacks B) (o : options) (u : B) (input : bytes) (size bytes_ : nat) (slots : N) : sres B unit :=
  scan cb o 4000 (mkS (plain input size) u (ex_pool bytes_ slots)).
Definition succeeds {B} (x : sres B unit) (P : sstate B -> Prop) : Prop := match x with Done (s, Ok _) => P s | _ => False end.
(** None of the texts of jiter and embedded_io occurs in a test. *)
Definition any_words : vocabulary := mkVocabulary (fun _ => []) (fun _ => []) (fun _ => []) (fun _ => []) (fun _ => []) (fun l => l).
Definition fails_saying {B} (x : sres B unit) (text : string) : Prop :=
  match x with Done (_, Err e) => scan_message any_words e = bs text | _ => False end.
Fixpoint again {B} (n : nat) (f : sstate B -> sres B unit) (s : sstate B) : sres B unit :=
  match n with 0 => Done (s, Ok tt) | S n => sbind (f s) (fun s _ => again n f s) end.

(** The callbacks of the tests. *)
Definition when {X} (b : bool) (x : X) : option X := if b then Some x else None.
Definition matcher := pseudoname -> context -> bool.
Definition never : matcher := fun _ _ => false.
Definition path_is (path : list string) : matcher := fun n c => iter_match (map bs path) n (names c).
Definition first_is (name : bytes) : matcher := fun n c =>
  match n, names c with PNone, key :: _ => beq key name | _, _ => false end.
Definition two {B} (m : matcher) (f : action B) (m' : matcher) (g : end_action B) : callbacks B :=
  mkCallbacks (fun n c u => (u, when (m n c) f)) (fun n c u => (u, when (m' n c) g)).
Definition both {B} (m : matcher) (f : action B) (g : end_action B) : callbacks B := two m f m g.
Definition says {B} (v : B) (op : stream_op) : action B := fun r _ => Done (r, v, op).
Definition begins {B} (m : matcher) (f : action B) : callbacks B := two m f never (fun u => Done (u, Ok tt)).
Definition ends {B} (m : matcher) (g : end_action B) : callbacks B := two never (fun r u => Done (r, u, OpNone)) m g.
Definition nothing : callbacks unit := begins never (says tt OpNone).
(** scan_test.rs:994-1007. *)
Definition consume_content_value : action writer := fun r w =>
  match peek r with
  | Done (r, Ok _) =>
      match write_long_bytes r w with
      | Done (r, w, Ok _) => Done (r, w, ValueIsConsumed)
      | Done (r, w, Err _) => Done (r, w, OpError "RJiter error: {:?}")
      | Panic => Panic
      | Diverge => Diverge
      end
  | Done (r, Err _) => Done (r, w, OpError "RJiter error: {:?}")
  | Panic => Panic
  | Diverge => Diverge
  end.
(** scan_test.rs:1053-1062. *)
Definition write_matched_peek : action bytes := fun r seen =>
  match peek r with Done (r, Ok x) => Done (r, seen ++ [x], OpNone) | _ => Panic end.
(** scan_test.rs:1213-1236. *)
Definition handle_peek_conditionally : action bytes := fun r said =>
  match peek r with
  | Done (r, Ok x) =>
      if N.eqb x PeekTrue then
        match next_value r with Done (r, Ok _) => Done (r, said ++ bs "consumed,", ValueIsConsumed) | _ => Panic end
      else if N.eqb x PeekFalse then Done (r, said ++ bs "not consumed,", OpNone)
      else Done (r, said ++ bs "unexpected,", OpError "Expected error for the test")
  | _ => Panic
  end.
(** scan_test.rs:1267-1338 [scan_llm_output]. *)
Definition put (d : bytes) (w : writer) : writer := fst (write_all w d).
Definition llm_callbacks : callbacks writer :=
  mkCallbacks
    (fun n c w => (w, if path_is ["message"%string] n c then Some (fun r w => Done (r, put (bs "(new message)" ++ [10%N]) w, OpNone))
                      else when (path_is ["content"%string] n c) consume_content_value))
    (fun n c w => (w, when (path_is ["message"%string] n c) (fun w => Done (put [10%N] w, Ok tt)))).
(** scan_test.rs:1496-1539. *)
Definition handle_f_number : action (list number_any) := fun r seen =>
  let consumed x := match x with Done (r, Ok n) => Done (r, seen ++ [n], ValueIsConsumed) | _ => Panic end in
  match peek r with
  | Done (r, Ok x) =>
      if is_num x then
        match next_number r with
        | Done (r, Ok n) => consumed (Done (r, Ok n))
        | Done (r, Err _) =>
            match lookahead_while (N.eqb 48) r with
            | Done (r, Ok zeros) =>
                match lookahead_n (len zeros + 1) r with
                | Done (r, Ok next) =>
                    let after_zeros := nth (len zeros) next 0%N in
                    let to_skip := if is_digit after_zeros || N.eqb after_zeros 46 then len zeros else len zeros - 1 in
                    if 0 <? to_skip then
                      match skip_n_bytes to_skip r with Done (r, Ok _) => consumed (next_number r) | _ => Panic end
                    else consumed (next_number r)
                | _ => Panic
                end
            | _ => Panic
            end
        | _ => Panic
        end
      else Done (r, seen, OpNone)
  | _ => Panic
  end.

(** matcher_test.rs: [iter_match] on a working buffer with these names. *)
Fixpoint pushed (l : list string) (p : pool) : pool :=
  match l with
  | [] => p
  | x :: l => match push_assoc p pos_ty [pos_code ObjectMiddle] (bs x) with Done (p, _) => pushed l p | _ => p end
  end.
Definition matches (l : list string) (n : pseudoname) (expected : list string) : bool :=
  match context_of (pushed l (ex_pool 1024 32)) with Done c => iter_match (map bs expected) n (names c) | _ => false end.

(** idtransform_test.rs: the output of one call; of several calls, with a space behind each but the last. *)
Definition copied (input : bytes) (size : nat) : option bytes :=
  match idtransform 4000 (plain input size) (mkWriter [] None) (ex_pool 512 20) with
  | Done (_, w, _, Ok _) => Some (written w)
  | _ => None
  end.
Fixpoint calls (n : nat) (r : rj) (w : writer) (p : pool) : option bytes :=
  match n with
  | 0 => Some (removelast (written w))
  | S n => match idtransform 4000 r w p with Done (r, w, p, Ok _) => calls n r (put [32%N] w) p | _ => None end
  end.
Definition repeated (n : nat) (r : rj) (d : bytes) : option bytes := calls n r (mkWriter d None) (ex_pool 512 20).
(** The [FailingWriter]s of the tests fail at the first call behind a number of bytes, the model's writer behind a number
    of bytes: 15 are written when the first test's writer fails; the second one's fails in the middle of the string. *)
Definition write_zero : io_kind := 1%N.

Open Scope string_scope.
Open Scope list_scope.

(** * scan_test.rs *)

(** 11 *)
Example test_scan_json_empty_input :
  succeeds (scanning nothing plain_options tt [] 16 512 20) (fun _ => True).
Proof. vm_compute. repeat split. Qed.

(** 41 *)
Example test_scan_json_top_level_types :
  succeeds (scanning nothing plain_options tt (bs "null true false 42 3.14 ""hello"" [] {}") 16 512 20) (fun _ => True).
Proof. vm_compute. repeat split. Qed.

(** 72 *)
Example test_scan_json_simple_object :
  succeeds (scanning nothing plain_options tt (bs "{""null"": null, ""bool"": true, ""num"": 42, ""float"": 3.14, ""str"": ""hello""}") 16 512 20) (fun _ => True).
Proof. vm_compute. repeat split. Qed.

(** 103 *)
Example test_scan_json_simple_array :
  succeeds (scanning nothing plain_options tt (bs "[null, true, false, 42, 3.14, ""hello""]") 16 512 20) (fun _ => True).
Proof. vm_compute. repeat split. Qed.

(** 134 *)
Example test_scan_json_nested_complex :
  succeeds (scanning nothing plain_options tt (bs "{" ++ [10%N] ++ bs "        ""array_of_objects"": [" ++ [10%N] ++
    bs "            {""name"": ""obj1"", ""values"": [1, 2, 3]}," ++ [10%N] ++
    bs "            {""name"": ""obj2"", ""nested"": {""x"": 10, ""y"": 20}}" ++ [10%N] ++ bs "        ]," ++
    [10%N] ++ bs "        ""object_with_arrays"": {" ++ [10%N] ++
    bs "            ""nums"": [1, 2, [3, 4, [5, 6]], 7]," ++ [10%N] ++ bs "            ""mixed"": [" ++ [10%N] ++
    bs "                {""a"": 1}," ++ [10%N] ++ bs "                [true, false]," ++ [10%N] ++
    bs "                {""b"": [""hello"", ""world""]}," ++ [10%N] ++ bs "                42" ++ [10%N] ++
    bs "            ]" ++ [10%N] ++ bs "        }," ++ [10%N] ++ bs "        ""deep_nesting"": {" ++ [10%N] ++
    bs "            ""level1"": {" ++ [10%N] ++ bs "                ""level2"": [" ++ [10%N] ++
    bs "                    {""level3"": {""value"": [1, {""final"": ""deepest""}]}}" ++ [10%N] ++
    bs "                ]" ++ [10%N] ++ bs "            }" ++ [10%N] ++ bs "        }" ++ [10%N] ++ bs "    }") 64 512 20) (fun _ => True).
Proof. vm_compute. repeat split. Qed.

(** 186 *)
Example test_skip_long_string :
  succeeds (scanning nothing plain_options tt (bs "{""foo"": """ ++ repeat 97%N 100 ++ bs """, ""bar"": ""baz""}") 8 512 20) (fun _ => True).
Proof. vm_compute. repeat split. Qed.

(** 215 *)
Example test_skip_sse_tokens :
  succeeds (scanning nothing (mkOptions [bs "data:"; bs "DONE"] false) tt (bs "data: {""foo"": ""bar""} [DONE] ") 16 512 20) (fun _ => True).
Proof. vm_compute. repeat split. Qed.

(** 247 *)
Example test_call_begin_dont_touch_value :
  succeeds (scanning (begins (first_is (bs "foo")) (says true OpNone)) plain_options false (bs "{""foo"": ""bar"", ""baz"": ""qux""}") 16 512 20) (fun s => user s = true).
Proof. vm_compute. repeat split. Qed.

(** 296 *)
Example test_call_begin_consume_value :
  succeeds (scanning (begins (first_is (bs "foo")) (fun r _ => match next_value r with Done (r, Ok _) => Done (r, true, ValueIsConsumed) | _ => Panic end))
    plain_options false (bs "{""foo"": ""bar"", ""baz"": ""qux""}") 16 512 20) (fun s => user s = true).
Proof. vm_compute. repeat split. Qed.

(** 348 *)
Example test_call_end :
  succeeds (scanning (ends (first_is (bs "foo")) (fun n => Done (S n, Ok tt))) plain_options 0
    (bs "{""aa"": ""bb""," ++ [10%N] ++
    bs "        ""foo"": {""foo is an object"": true, ""foo"": ""nested foo, string""}," ++ [10%N] ++
    bs "        ""foo"": ""string""," ++ [10%N] ++ bs "        ""foo"": [""foo is an array""]," ++ [10%N] ++
    bs "        ""foo"": 42," ++ [10%N] ++ bs "        ""foo"": true," ++ [10%N] ++ bs "        ""foo"": null" ++
    [10%N] ++ bs "    }") 32 512 20) (fun s => user s = 7).
Proof. vm_compute. repeat split. Qed.

(** 408 *)
Example test_notify_for_top_level_object :
  succeeds (scanning (both (path_is ["#object"; "#top"])
      (fun r u => Done (r, (true, snd u), OpNone))
      (fun u => Done ((fst u, true), Ok tt))) plain_options (false, false)
    (bs "{}") 16 512 20) (fun s => user s = (true, true)).
Proof. vm_compute. repeat split. Qed.

(** 468 *)
Example test_notify_for_object_in_array :
  succeeds (scanning (both (path_is ["#object"; "#array"; "#top"])
      (fun r u => Done (r, (S (fst u), snd u), OpNone))
      (fun u => Done ((fst u, S (snd u)), Ok tt))) plain_options (0, 0)
    (bs "[{}, {}, {}]") 16 512 20) (fun s => user s = (3, 3)).
Proof. vm_compute. repeat split. Qed.

(** 534 *)
Example test_notify_for_array :
  succeeds (scanning (both (path_is ["#array"; "items"; "#top"])
      (fun r u => Done (r, (true, snd u), OpNone))
      (fun u => Done ((fst u, true), Ok tt))) plain_options (false, false)
    (bs "{""items"": [1, 2, 3]}") 16 512 20) (fun s => user s = (true, true)).
Proof. vm_compute. repeat split. Qed.

(** 597 *)
Example test_client_can_consume_array :
  succeeds (scanning (both (path_is ["#array"; "items"; "#top"])
      (fun r u => match next_value r with
                  | Done (r, Ok v) => Done (r, u ++ [inl (bs "Consuming array: "); inr v], ValueIsConsumed)
                  | _ => Panic
                  end)
      (fun u => Done (u ++ [inl (bs "</array>")], Ok tt))) plain_options []
    (bs "{""items"": [1, 2, 3]}") 16 512 20) (fun s => user s = [inl (bs "Consuming array: "); inr (VArray [VInt 1; VInt 2; VInt 3])]).
Proof. vm_compute. repeat split. Qed.

(** 662 *)
Example test_several_arrays_top_level :
  succeeds (scanning (both (path_is ["#array"; "#top"])
      (fun r u => Done (r, u ++ bs "<array>", OpNone))
      (fun u => Done (u ++ bs "</array>", Ok tt))) plain_options []
    (bs "[1,2,3]  [4,5,6]  [7,8,9]") 16 512 20) (fun s => user s = bs "<array></array><array></array><array></array>").
Proof. vm_compute. repeat split. Qed.

(** 732 *)
Example test_max_nesting_array :
  fails_saying (scanning nothing plain_options tt (repeat LBRACK 10) 16 64 3) "Max nesting exceeded at position 2 with level 3".
Proof. vm_compute. repeat split. Qed.

(** 765 *)
Example test_max_nesting_object :
  fails_saying (scanning nothing plain_options tt (List.concat (repeat (bs "{""a"":") 10)) 16 64 3) "Max nesting exceeded at position 15 with level 3".
Proof. vm_compute. repeat split. Qed.

(** 798 *)
Example test_error_in_begin_action :
  fails_saying (scanning (begins (path_is ["foo"; "#top"]) (says tt (OpError "Test error in begin-action"))) plain_options tt (bs "{""foo"": 123}") 16 64 3)
    "Action error: Test error in begin-action at position 7".
Proof. vm_compute. repeat split. Qed.

(** 850 *)
Example test_error_in_end_action :
  fails_saying (scanning (ends (path_is ["foo"; "#top"]) (fun u => Done (u, Err "Test error in end-action"%string))) plain_options tt (bs "{""foo"": 123}") 16 512 20)
    "Action error: Test error in end-action at position 11".
Proof. vm_compute. repeat split. Qed.

(** 902 *)
Example test_several_objects_top_level :
  succeeds (scanning (both (path_is ["foo"; "#top"])
      (fun r u => Done (r, u ++ bs "<foo>", OpNone))
      (fun u => Done (u ++ bs "</foo>", Ok tt))) plain_options []
    (bs "{""foo"":1}  {""foo"":2}  {""foo"":3}") 16 512 20) (fun s => user s = bs "<foo></foo><foo></foo><foo></foo>").
Proof. vm_compute. repeat split. Qed.

(** 966 *)
Example test_match_in_array_context :
  succeeds (scanning (begins (path_is ["name"; "#array"; "items"; "#top"]) consume_content_value) plain_options (mkWriter [] None)
    (bs "{""items"": [{""name"": ""first""}, {""name"": ""second""}]}") 16 512 20) (fun s => written (user s) = bs "firstsecond").
Proof. vm_compute. repeat split. Qed.

(** 1031 *)
Example test_atoms_on_top_level :
  succeeds (scanning (begins (path_is ["#atom"; "#top"]) write_matched_peek) plain_options []
    (bs "null true false 42 3.14 ""hello""") 16 512 20) (fun s => user s = [110; 116; 102; 52; 51; 34]%N).
Proof. vm_compute. repeat split. Qed.

(** 1090 *)
Example test_atoms_in_array :
  succeeds (scanning (begins (path_is ["#atom"; "#array"; "#top"]) write_matched_peek) plain_options []
    (bs "[null, true, false, 42, 3.14, ""hello""]") 16 512 20) (fun s => user s = [110; 116; 102; 52; 51; 34]%N).
Proof. vm_compute. repeat split. Qed.

(** 1146 *)
Example test_atoms_in_object :
  succeeds (scanning (begins (fun n c => existsb (fun f => path_is ["#atom"; f; "#top"]%string n c) ["a"; "b"; "c"; "d"; "e"; "f"]%string) write_matched_peek) plain_options []
    (bs "{""a"": null, ""b"": true, ""c"": false, ""d"": 42, ""e"": 3.14, ""f"": ""hello""}") 16 512 20) (fun s => user s = [110; 116; 102; 52; 51; 34]%N).
Proof. vm_compute. repeat split. Qed.

(** 1202 *)
Example test_atoms_stream_op_return_values :
  match scanning (begins (path_is ["#atom"; "#top"]) handle_peek_conditionally) plain_options [] (bs "true false 42 777") 16 512 20 with
  | Done (s, Err _) => user s = bs "consumed,not consumed,unexpected," /\
                       match next_int (parser s) with Done (_, Ok z) => z = 42%Z | _ => False end
  | _ => False
  end.
Proof. vm_compute. repeat split. Qed.

(** 1348 *)
Example test_scan_basic_llm_output :
  succeeds (scanning llm_callbacks (mkOptions [bs "data:"; bs "DONE"] false) (mkWriter [] None)
   (bs "{" ++ [10%N] ++ bs "  ""id"": ""chatcmpl-Ahpq4nZeP9mESaKsCVdmZdK96IrUH""," ++ [10%N] ++
    bs "  ""object"": ""chat.completion""," ++ [10%N] ++ bs "  ""created"": 1735010736," ++ [10%N] ++
    bs "  ""model"": ""gpt-4o-mini-2024-07-18""," ++ [10%N] ++ bs "  ""choices"": [" ++ [10%N] ++ bs "    {" ++
    [10%N] ++ bs "      ""index"": 0," ++ [10%N] ++ bs "      ""message"": {" ++ [10%N] ++
    bs "        ""role"": ""assistant""," ++ [10%N] ++
    bs "        ""content"": ""Hello! How can I assist you today?""," ++ [10%N] ++
    bs "        ""refusal"": null" ++ [10%N] ++ bs "      }," ++ [10%N] ++ bs "      ""logprobs"": null," ++
    [10%N] ++ bs "      ""finish_reason"": ""stop""" ++ [10%N] ++ bs "    }" ++ [10%N] ++ bs "  ]," ++ [10%N] ++
    bs "  ""usage"": {" ++ [10%N] ++ bs "    ""prompt_tokens"": 9," ++ [10%N] ++
    bs "    ""completion_tokens"": 10," ++ [10%N] ++ bs "    ""total_tokens"": 19," ++ [10%N] ++
    bs "    ""prompt_tokens_details"": {" ++ [10%N] ++ bs "      ""cached_tokens"": 0," ++ [10%N] ++
    bs "      ""audio_tokens"": 0" ++ [10%N] ++ bs "    }," ++ [10%N] ++
    bs "    ""completion_tokens_details"": {" ++ [10%N] ++ bs "      ""reasoning_tokens"": 0," ++ [10%N] ++
    bs "      ""audio_tokens"": 0," ++ [10%N] ++ bs "      ""accepted_prediction_tokens"": 0," ++ [10%N] ++
    bs "      ""rejected_prediction_tokens"": 0" ++ [10%N] ++ bs "    }" ++ [10%N] ++ bs "  }," ++ [10%N] ++
    bs "  ""system_fingerprint"": ""fp_0aa8d3e20b""" ++ [10%N] ++ bs "}") 32 512 20)
    (fun s => written (user s) = bs "(new message)" ++ [10%N] ++ bs "Hello! How can I assist you today?" ++ [10%N]).
Proof. vm_compute. repeat split. Qed.

(** 1392 *)
Example test_scan_streaming_llm_output :
  succeeds (scanning llm_callbacks (mkOptions [bs "data:"; bs "DONE"] false) (mkWriter [] None)
   ([10%N] ++
    bs "data: {""choices"":[{""index"":0,""delta"":{""role"":""assistant"",""content"":"""",""refusal"":null},""logprobs"":null,""finish_reason"":null}],""id"":""chatcmpl-AgMB1khICnwswjgqIl2X2jr587Nep"",""object"":""chat.completion.chunk"",""created"":1734658387,""model"":""gpt-4o-mini-2024-07-18"",""system_fingerprint"":""fp_d02d531b47""}" ++
    [10%N] ++ [10%N] ++
    bs "data: {""choices"":[{""index"":0,""delta"":{""content"":""Hello""},""logprobs"":null,""finish_reason"":null}],""id"":""chatcmpl-AgMB1khICnwswjgqIl2X2jr587Nep"",""object"":""chat.completion.chunk"",""created"":1734658387,""model"":""gpt-4o-mini-2024-07-18"",""system_fingerprint"":""fp_d02d531b47""}" ++
    [10%N] ++ [10%N] ++
    bs "data: {""choices"":[{""index"":0,""delta"":{""content"":""!""},""logprobs"":null,""finish_reason"":null}],""id"":""chatcmpl-AgMB1khICnwswjgqIl2X2jr587Nep"",""object"":""chat.completion.chunk"",""created"":1734658387,""model"":""gpt-4o-mini-2024-07-18"",""system_fingerprint"":""fp_d02d531b47""}" ++
    [10%N] ++ [10%N] ++
    bs "data: {""choices"":[{""index"":0,""delta"":{""content"":"" How""},""logprobs"":null,""finish_reason"":null}],""id"":""chatcmpl-AgMB1khICnwswjgqIl2X2jr587Nep"",""object"":""chat.completion.chunk"",""created"":1734658387,""model"":""gpt-4o-mini-2024-07-18"",""system_fingerprint"":""fp_d02d531b47""}" ++
    [10%N] ++ [10%N] ++
    bs "data: {""choices"":[{""index"":0,""delta"":{""content"":"" can""},""logprobs"":null,""finish_reason"":null}],""id"":""chatcmpl-AgMB1khICnwswjgqIl2X2jr587Nep"",""object"":""chat.completion.chunk"",""created"":1734658387,""model"":""gpt-4o-mini-2024-07-18"",""system_fingerprint"":""fp_d02d531b47""}" ++
    [10%N] ++ [10%N] ++
    bs "data: {""choices"":[{""index"":0,""delta"":{""content"":"" I""},""logprobs"":null,""finish_reason"":null}],""id"":""chatcmpl-AgMB1khICnwswjgqIl2X2jr587Nep"",""object"":""chat.completion.chunk"",""created"":1734658387,""model"":""gpt-4o-mini-2024-07-18"",""system_fingerprint"":""fp_d02d531b47""}" ++
    [10%N] ++ [10%N] ++
    bs "data: {""choices"":[{""index"":0,""delta"":{""content"":"" assist""},""logprobs"":null,""finish_reason"":null}],""id"":""chatcmpl-AgMB1khICnwswjgqIl2X2jr587Nep"",""object"":""chat.completion.chunk"",""created"":1734658387,""model"":""gpt-4o-mini-2024-07-18"",""system_fingerprint"":""fp_d02d531b47""}" ++
    [10%N] ++ [10%N] ++
    bs "data: {""choices"":[{""index"":0,""delta"":{""content"":"" you""},""logprobs"":null,""finish_reason"":null}],""id"":""chatcmpl-AgMB1khICnwswjgqIl2X2jr587Nep"",""object"":""chat.completion.chunk"",""created"":1734658387,""model"":""gpt-4o-mini-2024-07-18"",""system_fingerprint"":""fp_d02d531b47""}" ++
    [10%N] ++ [10%N] ++
    bs "data: {""choices"":[{""index"":0,""delta"":{""content"":"" today""},""logprobs"":null,""finish_reason"":null}],""id"":""chatcmpl-AgMB1khICnwswjgqIl2X2jr587Nep"",""object"":""chat.completion.chunk"",""created"":1734658387,""model"":""gpt-4o-mini-2024-07-18"",""system_fingerprint"":""fp_d02d531b47""}" ++
    [10%N] ++ [10%N] ++
    bs "data: {""choices"":[{""index"":0,""delta"":{""content"":""?""},""logprobs"":null,""finish_reason"":null}],""id"":""chatcmpl-AgMB1khICnwswjgqIl2X2jr587Nep"",""object"":""chat.completion.chunk"",""created"":1734658387,""model"":""gpt-4o-mini-2024-07-18"",""system_fingerprint"":""fp_d02d531b47""}" ++
    [10%N] ++ [10%N] ++
    bs "data: {""choices"":[{""index"":0,""delta"":{},""logprobs"":null,""finish_reason"":""stop""}],""id"":""chatcmpl-AgMB1khICnwswjgqIl2X2jr587Nep"",""object"":""chat.completion.chunk"",""created"":1734658387,""model"":""gpt-4o-mini-2024-07-18"",""system_fingerprint"":""fp_d02d531b47""}" ++
    [10%N] ++ [10%N] ++ bs "data: [DONE]" ++ [10%N]) 32 512 20)
    (fun s => written (user s) = bs "Hello! How can I assist you today?").
Proof. vm_compute. repeat split. Qed.

(** 1424 *)
Example test_stop_early :
  let input := (bs "{} [] {""foo"": ""bar""} [{}, []] 777 true") in
  match scanning nothing plain_options tt input 16 512 20 with
  | Done (s, Ok _) =>
      match finish (parser s) with
      | Done (r, Ok _) =>
          match again 4 (scan nothing (mkOptions [] true) 4000) (mkS (rj_new (mkReader input []) (buf (bf r))) tt (ex_pool 512 20)) with
          | Done (s, Ok _) => match next_int (parser s) with Done (_, Ok z) => z = 777%Z | _ => False end
          | _ => False
          end
      | _ => False
      end
  | _ => False
  end.
Proof. vm_compute. repeat split. Qed.

(** 1487 *)
Example test_lookahead_repair :
  succeeds (scanning (begins (fun _ c => match names c with key :: _ => beq key (bs "f") | [] => false end) handle_f_number) plain_options []
    (bs "{""f"": 000000, ""f"": 0.0, ""f"": 001, ""f"": 0016, ""f"": 0017, ""f"": 0.42}") 16 512 20)
    (fun s => user s = [AnyInt 0; AnyFloat (bs "0.0"); AnyInt 1; AnyInt 16; AnyInt 17; AnyFloat (bs "0.42")]).
Proof. vm_compute. repeat split. Qed.

(** * matcher_test.rs *)

(** 9 *)
Example test_iter_match_empty_iterator :
  matches ["any"] PNone [] = true /\
  matches ["parent"; "name"] PNone [] = true /\
  matches ["grandparent"; "parent"; "field"] PNone [] = true.
Proof. vm_compute. repeat split. Qed.

(** 48 *)
Example test_iter_match_single_name :
  matches ["field"] PNone ["field"] = true /\
  matches ["other"] PNone ["field"] = false /\
  matches ["parent"; "field"] PNone ["field"] = true.
Proof. vm_compute. repeat split. Qed.

(** 72 *)
Example test_iter_match_name_and_parent :
  matches ["parent"; "child"] PNone ["child"; "parent"] = true /\
  matches ["parent"; "wrong"] PNone ["child"; "parent"] = false /\
  matches ["wrong"; "child"] PNone ["child"; "parent"] = false /\
  matches ["child"] PNone ["child"; "parent"] = false /\
  matches ["grandparent"; "parent"; "child"] PNone ["child"; "parent"] = true.
Proof. vm_compute. repeat split. Qed.

(** 134 *)
Example test_iter_match_name_parent_grandparent :
  matches ["grandparent"; "parent"; "child"] PNone ["child"; "parent"; "grandparent"] = true /\
  matches ["grandparent"; "parent"; "wrong"] PNone ["child"; "parent"; "grandparent"] = false /\
  matches ["grandparent"; "wrong"; "child"] PNone ["child"; "parent"; "grandparent"] = false /\
  matches ["wrong"; "parent"; "child"] PNone ["child"; "parent"; "grandparent"] = false /\
  matches ["parent"; "child"] PNone ["child"; "parent"; "grandparent"] = false /\
  matches ["great"; "grandparent"; "parent"; "child"] PNone ["child"; "parent"; "grandparent"] = true.
Proof. vm_compute. repeat split. Qed.

(** 247 *)
Example test_iter_match_reusable :
  matches ["parent"; "field"] PNone ["field"; "parent"] = true /\
  matches ["parent"; "field"] PNone ["field"; "parent"] = true /\
  matches ["parent"; "wrong"] PNone ["field"; "parent"] = false /\
  matches ["parent"; "wrong"] PNone ["field"; "parent"] = false.
Proof. vm_compute. repeat split. Qed.

(** 288 *)
Example test_iter_match_deep_nesting :
  matches ["level4"; "level3"; "level2"; "level1"; "field"] PNone ["field"; "level1"; "level2"; "level3"; "level4"] = true /\
  matches ["level4"; "level3"; "wrong"; "level1"; "field"] PNone ["field"; "level1"; "level2"; "level3"; "level4"] = false.
Proof. vm_compute. repeat split. Qed.

(** 332 *)
Example test_iter_match_empty_iterator_structural_pseudonames :
  matches [] PArray [] = true /\
  matches [] PObject [] = true /\
  matches [] PAtom [] = true.
Proof. vm_compute. repeat split. Qed.

(** 360 *)
Example test_iter_match_structural_pseudonames :
  matches [] PArray ["#array"] = true /\
  matches [] PArray ["#object"] = false /\
  matches [] PArray ["#atom"] = false /\
  matches [] PObject ["#object"] = true /\
  matches [] PObject ["#array"] = false /\
  matches [] PObject ["#atom"] = false /\
  matches [] PAtom ["#atom"] = true /\
  matches [] PAtom ["#array"] = false /\
  matches [] PAtom ["#object"] = false.
Proof. vm_compute. repeat split. Qed.

(** 432 *)
Example test_iter_match_structural_pseudonames_with_context :
  matches ["parent"] PArray ["#array"; "parent"] = true /\
  matches ["wrong"] PArray ["#array"; "parent"] = false /\
  matches ["parent"] PObject ["#object"; "parent"] = true /\
  matches ["wrong"] PObject ["#object"; "parent"] = false /\
  matches ["parent"] PAtom ["#atom"; "parent"] = true /\
  matches ["wrong"] PAtom ["#atom"; "parent"] = false /\
  matches ["grandparent"; "parent"] PArray ["#array"; "parent"; "grandparent"] = true /\
  matches ["grandparent"; "wrong"] PArray ["#array"; "parent"; "grandparent"] = false.
Proof. vm_compute. repeat split. Qed.

(** * idtransform_test.rs *)

(** 7 *)
Example test_idt_atomic_on_top :
  repeated 6 (plain ([10%N] ++ bs "        null" ++ [10%N] ++ bs "        true false" ++ [10%N] ++ bs "        42 3.14" ++ [10%N] ++
    bs "        ""hello""" ++ [10%N] ++ bs "    ") 16) [] = Some (bs "null true false 42 3.14 ""hello""").
Proof. vm_compute. reflexivity. Qed.

(** 39 *)
Example test_idt_atomic_in_object :
  copied ([10%N] ++ bs "        {" ++ [10%N] ++ bs "            ""null"": null," ++ [10%N] ++
    bs "            ""bool"": true," ++ [10%N] ++ bs "            ""number"": 42," ++ [10%N] ++
    bs "            ""float"": 3.14," ++ [10%N] ++ bs "            ""string"": ""hello""" ++ [10%N] ++
    bs "        }" ++ [10%N] ++ bs "    ") 16 = Some (bs "{""null"":null,""bool"":true,""number"":42,""float"":3.14,""string"":""hello""}").
Proof. vm_compute. reflexivity. Qed.

(** 71 *)
Example test_idt_atomic_in_array :
  copied ([10%N] ++ bs "        [" ++ [10%N] ++ bs "            null," ++ [10%N] ++ bs "            true," ++ [10%N] ++
    bs "            42," ++ [10%N] ++ bs "            3.14," ++ [10%N] ++ bs "            ""hello""" ++ [10%N] ++
    bs "        ]" ++ [10%N] ++ bs "    ") 16 = Some (bs "[null,true,42,3.14,""hello""]").
Proof. vm_compute. reflexivity. Qed.

(** 103 *)
Example test_idt_object_in_object :
  copied (bs "{ ""foo"": { ""bar"": ""baz"" } }") 16 = Some (bs "{""foo"":{""bar"":""baz""}}").
Proof. vm_compute. reflexivity. Qed.

(** 127 *)
Example test_idt_array_in_array :
  copied ([10%N] ++ bs "        [" ++ [10%N] ++ bs "            [1, 2, 3]," ++ [10%N] ++
    bs "            [""a"", ""b"", ""c""]," ++ [10%N] ++ bs "            [true, false, null]" ++ [10%N] ++
    bs "        ]" ++ [10%N] ++ bs "    ") 16 = Some (bs "[[1,2,3],[""a"",""b"",""c""],[true,false,null]]").
Proof. vm_compute. reflexivity. Qed.

(** 157 *)
Example test_idt_deeply_nested :
  copied ([10%N] ++ bs "        {" ++ [10%N] ++ bs "            ""name"": ""John""," ++ [10%N] ++
    bs "            ""age"": 42," ++ [10%N] ++ bs "            ""address"": {" ++ [10%N] ++
    bs "                ""street"": ""123_Main_St""," ++ [10%N] ++ bs "                ""city"": ""Anytown""," ++
    [10%N] ++ bs "                ""country"": ""USA""," ++ [10%N] ++ bs "                ""coordinates"": {" ++
    [10%N] ++ bs "                    ""lat"": 40.7128," ++ [10%N] ++
    bs "                    ""long"": -74.0060" ++ [10%N] ++ bs "                }" ++ [10%N] ++
    bs "            }," ++ [10%N] ++ bs "            ""contacts"": [" ++ [10%N] ++ bs "                {" ++
    [10%N] ++ bs "                    ""type"": ""email""," ++ [10%N] ++
    bs "                    ""value"": ""john@example.com""," ++ [10%N] ++
    bs "                    ""tags"": [""personal"", ""primary""]" ++ [10%N] ++ bs "                }," ++
    [10%N] ++ bs "                {" ++ [10%N] ++ bs "                    ""type"": ""phone""," ++ [10%N] ++
    bs "                    ""value"": ""+1-555-123-4567""," ++ [10%N] ++
    bs "                    ""tags"": [""work""]," ++ [10%N] ++ bs "                    ""hours"": {" ++
    [10%N] ++ bs "                        ""mon-fri"": ""9-5""," ++ [10%N] ++
    bs "                        ""sat-sun"": ""closed""" ++ [10%N] ++ bs "                    }" ++ [10%N] ++
    bs "                }" ++ [10%N] ++ bs "            ]," ++ [10%N] ++ bs "            ""active"": true," ++
    [10%N] ++ bs "            ""preferences"": {" ++ [10%N] ++ bs "                ""notifications"": {" ++
    [10%N] ++ bs "                    ""email"": true," ++ [10%N] ++ bs "                    ""sms"": false," ++
    [10%N] ++ bs "                    ""frequency"": {" ++ [10%N] ++
    bs "                        ""marketing"": ""weekly""," ++ [10%N] ++
    bs "                        ""updates"": ""daily""" ++ [10%N] ++ bs "                    }" ++ [10%N] ++
    bs "                }" ++ [10%N] ++ bs "            }," ++ [10%N] ++
    bs "            ""x"": [{}, {}, [[],[]]]" ++ [10%N] ++ bs "        }" ++ [10%N] ++ bs "    ") 32 = Some (bs "{""name"":""John"",""age"":42,""address"":{""street"":""123_Main_St"",""city"":""Anytown"",""country"":""USA"",""coordinates"":{""lat"":40.7128,""long"":-74.0060}},""contacts"":[{""type"":""email"",""value"":""john@example.com"",""tags"":[""personal"",""primary""]},{""type"":""phone"",""value"":""+1-555-123-4567"",""tags"":[""work""],""hours"":{""mon-fri"":""9-5"",""sat-sun"":""closed""}}],""active"":true,""preferences"":{""notifications"":{""email"":true,""sms"":false,""frequency"":{""marketing"":""weekly"",""updates"":""daily""}}},""x"":[{},{},[[],[]]]}").
Proof. vm_compute. reflexivity. Qed.

(** 227 *)
Example test_idt_long_strings :
  copied ([10%N] ++ bs "        {" ++ [10%N] ++
    bs "            ""long_key"": ""this_is_a_much_longer_string_value_that_spans_multiple_words_and_includes_punctuation!""," ++
    [10%N] ++ bs "            ""array"": [" ++ [10%N] ++
    bs "                ""another_lengthy_string_value_in_the_array_context_that_spans_multiple_words_and_includes_punctuation!""" ++
    [10%N] ++ bs "            ]" ++ [10%N] ++ bs "        }" ++ [10%N] ++ bs "    ") 16 = Some (bs "{""long_key"":""this_is_a_much_longer_string_value_that_spans_multiple_words_and_includes_punctuation!"",""array"":[""another_lengthy_string_value_in_the_array_context_that_spans_multiple_words_and_includes_punctuation!""]}").
Proof. vm_compute. reflexivity. Qed.

(** 256 *)
Example test_idt_special_symbols :
  copied ([10%N] ++ bs "        {" ++ [10%N] ++ bs "            ""key!@#$%"": ""value!@#$%""," ++ [10%N] ++
    bs "            ""unicode★"": ""symbols★""," ++ [10%N] ++
    bs "            ""escaped\""quotes\"""": ""with\""quotes\""""," ++ [10%N] ++
    bs "            ""back\\slash"": ""with\\slash""," ++ [10%N] ++
    bs "            ""control\n\t\r"": ""chars\n\t\r""" ++ [10%N] ++ bs "        }" ++ [10%N] ++ bs "    ") 32 = Some (bs "{""key!@#$%"":""value!@#$%"",""unicode★"":""symbols★"",""escaped\""quotes\"""":""with\""quotes\"""",""back\\slash"":""with\\slash"",""control\n\t\r"":""chars\n\t\r""}").
Proof. vm_compute. reflexivity. Qed.

(** 286 *)
Example test_idt_stop_after_object :
  match idtransform 4000 (plain ([10%N] ++ bs "        {" ++ [10%N] ++ bs "            ""key1"": ""value1""," ++ [10%N] ++
    bs "            ""key2"": ""value2""" ++ [10%N] ++ bs "        }" ++ [10%N] ++ bs "        {" ++ [10%N] ++
    bs "            ""next_obj_key"": ""next_obj_value""" ++ [10%N] ++ bs "        }" ++ [10%N] ++ bs "    ") 32) (mkWriter [] None) (ex_pool 512 20) with
  | Done (r, w, _, Ok _) => written w = bs "{""key1"":""value1"",""key2"":""value2""}" /\
                            match next_object r with Done (_, Ok k) => k = Some (bs "next_obj_key") | _ => False end
  | _ => False
  end.
Proof. vm_compute. repeat split. Qed.

(** 328 *)
Example test_idt_preserves_io_error_kind :
  match idtransform 4000 (plain (bs "{""key1"": ""value1"", ""key2"": ""value2""}") 32) (mkWriter [] (Some (15, write_zero))) (ex_pool 512 20) with
  | Done (_, _, _, Err e) => e = IOError write_zero
  | _ => False
  end.
Proof. vm_compute. repeat split. Qed.

(** 382 *)
Example test_idt_preserves_io_error_from_long_string :
  match idtransform 4000 (plain (bs "{""key"": ""this_is_a_very_long_string_value_that_will_trigger_the_write_long_bytes_function""}") 16) (mkWriter [] (Some (12, write_zero))) (ex_pool 512 20) with
  | Done (_, _, _, Err e) => e = IOError write_zero
  | _ => False
  end.
Proof. vm_compute. repeat split. Qed.

(** 436 *)
Example test_idt_preserves_rjiter_error :
  match idtransform 4000 (plain (bs "{""key"": ""unclosed string}") 32) (mkWriter [] None) (ex_pool 512 20) with
  | Done (_, _, _, Err (RJiterError (mkErr (JsonError _) _))) => True
  | _ => False
  end.
Proof. vm_compute. repeat split. Qed.
