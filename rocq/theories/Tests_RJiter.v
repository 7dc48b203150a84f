(** The tests of rjiter, rjiter/tests/lookahead_test.rs, rjiter_test.rs and error_test.rs, as examples: a check of the model, not
    of the program. Every example has the name (with [test_] in front) and the values of the test it copies; the number
    above it is the line of the test.
    A float is its text, as in the whole model. *)
From Coq Require Import ZArith.
From Verif Require Import Base Buffer Jiter JiterValue RJiter Messages Scan Readme.

Definition spaces (n : nat) : bytes := repeat 32%N n.
Definition is_ascii_digit (x : byte) : bool := ((48 <=? x) && (x <=? 57))%N.
(** [input.as_bytes()]; one_byte_reader.rs; chunk_reader.rs with chunks of these lengths, all shorter than the room for them. *)
Definition plain (input : bytes) (size : nat) : rj := rj_new (mkReader input []) (repeat 0%N size).
Definition one_byte_reader (input : bytes) : reader := mkReader input (repeat (Chunk 0) 1000).
Definition one_byte (input : bytes) (size : nat) : rj := rj_new (one_byte_reader input) (repeat 0%N size).
Definition chunk_reader (lengths : list nat) (input : bytes) : reader := mkReader input (map (fun n => Chunk (n - 1)) lengths).
Definition chunks (lengths : list nat) (input : bytes) (size : nat) : rj := rj_new (chunk_reader lengths input) (repeat 0%N size).

(** A test is a list of calls, each with what the test asserts about it. *)
Definition step := (rj -> Prop) -> rj -> Prop.
Definition test (s : rj) (l : list step) : Prop := fold_right (fun (x : step) k => x k) (fun _ => True) l s.
Definition call (A : Type) := rj -> outcome (rj * result A rerror).
Definition gives {A} (f : call A) (v : A) : step := fun k s => match f s with Done (s', Ok x) => x = v /\ k s' | _ => False end.
Definition fails {A} (f : call A) : step := fun k s => match f s with Done (s', Err _) => k s' | _ => False end.
Definition fails_with {A} (f : call A) (t : error_type) : step :=
  fun k s => match f s with Done (s', Err e) => err_type e = t /\ k s' | _ => False end.
Definition fails_at {A} (f : call A) (p : nat) : step :=
  fun k s => match f s with Done (s', Err e) => err_index e = p /\ k s' | _ => False end.
Definition any {A} (f : call A) : step := fun k s => match f s with Done (s', _) => k s' | _ => False end.
Definition index (p : nat) : step := fun k s => current_index s = p /\ k s.
Definition writes (f : rj -> writer -> outcome (rj * writer * result unit rerror)) (text : bytes) : step :=
  fun k s => match f s (mkWriter [] None) with Done (s', w, Ok _) => written w = text /\ k s' | _ => False end.
Definition failing {A} (s : rj) (f : call A) (P : rj -> rerror -> Prop) : Prop :=
  match f s with Done (s', Err e) => P s' e | _ => False end.
Fixpoint for_each (l : list nat) (P : nat -> Prop) : Prop := match l with [] => True | n :: l => P n /\ for_each l P end.

(** error_test.rs:20. *)
Definition leading_text : bytes := [10%N] ++ bs " " ++ [10%N] ++ bs "  " ++ [10%N] ++ bs "   " ++ [10%N] ++ bs "    " ++ [10%N] ++ bs "      " ++ [10%N] ++ bs "   ".
(** None of the texts of jiter and embedded_io occurs in a test. *)
Definition any_words : vocabulary := mkVocabulary (fun _ => []) (fun _ => []) (fun _ => []) (fun _ => []) (fun _ => []) (fun l => l).

(** * lookahead_test.rs *)

(** 14 *)
Example test_known_skip_token :
  for_each (seq 6 9) (fun n => test (plain (spaces 6 ++ bs "trux true") n)
    [any peek; gives (known_skip_token (bs "trux")) tt; gives peek 116%N; fails (known_skip_token (bs "trux")); gives next_bool true]).
Proof. vm_compute. repeat split. Qed.

(** 51 *)
Example test_lookahead_while_without_shift :
  test (plain (bs "12345abc") 16)
    [index 0; gives (lookahead_while is_ascii_digit) (bs "12345"); index 0; gives peek 49%N; index 0].
Proof. vm_compute. repeat split. Qed.

(** 79 *)
Example test_lookahead_while_with_shift :
  test (plain (bs "   12345abc") 16)
    [any peek; index 3; gives (lookahead_while is_ascii_digit) (bs "12345"); index 3; gives peek 49%N; index 3].
Proof. vm_compute. repeat split. Qed.

(** 113 *)
Example test_lookahead_while_buffer_full :
  test (plain (bs "123456789012345678901234567890abc") 4)
    [fails_with (lookahead_while is_ascii_digit) BufferFull].
Proof. vm_compute. repeat split. Qed.

(** 129 *)
Example test_lookahead_while_with_buffer_read :
  test (one_byte (bs "{""key"":""value"",""num"":12345}") 20)
    [gives next_object (Some (bs "key")); gives next_str (bs "value"); gives next_key (Some (bs "num")); index 21; gives (lookahead_while is_ascii_digit) (bs "12345"); index 21; gives next_int 12345%Z].
Proof. vm_compute. repeat split. Qed.

(** 173 *)
Example test_lookahead_n_normal_get :
  test (plain (bs "1234567890abcdef") 32)
    [gives (lookahead_n 5) (bs "12345"); gives (lookahead_n 3) (bs "123"); gives (lookahead_n 10) (bs "1234567890")].
Proof. vm_compute. repeat split. Qed.

(** 201 *)
Example test_lookahead_n_buffer_too_small :
  test (plain (bs "1234567890abcdef") 8)
    [fails_with (lookahead_n 20) BufferFull].
Proof. vm_compute. repeat split. Qed.

(** 217 *)
Example test_lookahead_n_eof_less_than_n :
  test (plain (bs "12345") 32)
    [gives (lookahead_n 10) (bs "12345")].
Proof. vm_compute. repeat split. Qed.

(** 235 *)
Example test_lookahead_n_shift_in_collect :
  test (one_byte (bs "false1234567890abcdefghij") 12)
    [gives next_bool false; gives (lookahead_n 8) (bs "12345678")].
Proof. vm_compute. repeat split. Qed.

(** 258 *)
Example test_lookahead_n_read_in_collect :
  test (chunks [15] (bs "1234567890abcdeghijklmnop") 32)
    [gives (lookahead_n 15) (bs "1234567890abcde")].
Proof. vm_compute. repeat split. Qed.

(** 276 *)
Example test_lookahead_n_after_consume :
  test (plain (bs "{""key"":""value""}") 32)
    [gives next_object (Some (bs "key")); gives (lookahead_n 7) (bs """value""")].
Proof. vm_compute. repeat split. Qed.

(** 296 *)
Example test_lookahead_n_zero_bytes :
  test (plain (bs "1234567890") 16)
    [gives (lookahead_n 0) (bs "")].
Proof. vm_compute. repeat split. Qed.

(** 312 *)
Example test_lookahead_n_multiple_sizes :
  test (plain (bs "abcdefghijklmnop") 32)
    [gives (lookahead_n 3) (bs "abc"); gives (lookahead_n 7) (bs "abcdefg"); gives (lookahead_n 2) (bs "ab")].
Proof. vm_compute. repeat split. Qed.

(** 340 *)
Example test_lookahead_n_one_byte_reader :
  test (one_byte (bs "The quick brown fox") 32)
    [gives (lookahead_n 10) (bs "The quick ")].
Proof. vm_compute. repeat split. Qed.

(** 357 *)
Example test_lookahead_n_exact_buffer_size :
  test (plain (bs "1234567890abcdefghij") 10)
    [gives (lookahead_n 10) (bs "1234567890")].
Proof. vm_compute. repeat split. Qed.

(** 377 *)
Example test_skip_n_bytes_no_read_no_shift :
  test (plain (bs "1234567890abcdef") 32)
    [index 0; gives (skip_n_bytes 5) 5; index 5; gives peek 54%N; gives (skip_n_bytes 3) 3; index 8; gives peek 57%N].
Proof. vm_compute. repeat split. Qed.

(** 418 *)
Example test_skip_n_bytes_read_no_shift :
  test (one_byte (bs "1234567890abcdefghij") 32)
    [index 0; gives (skip_n_bytes 10) 10; index 10; gives peek 97%N].
Proof. vm_compute. repeat split. Qed.

(** 446 *)
Example test_skip_n_bytes_read_and_shift :
  test (one_byte (bs "false1234567890abcdefghij") 12)
    [gives next_bool false; index 5; gives (skip_n_bytes 8) 8; index 13; gives peek 57%N].
Proof. vm_compute. repeat split. Qed.

(** 479 *)
Example test_skip_n_bytes_eof :
  test (plain (bs "12345") 32)
    [gives (skip_n_bytes 10) 5; index 5].
Proof. vm_compute. repeat split. Qed.

(** 498 *)
Example test_skip_n_bytes_zero :
  test (plain (bs "1234567890") 16)
    [index 0; gives (skip_n_bytes 0) 0; index 0].
Proof. vm_compute. repeat split. Qed.

(** 518 *)
Example test_skip_n_bytes_after_consume :
  test (plain (bs "{""key"":""value""}") 32)
    [gives next_object (Some (bs "key")); index 7; gives (skip_n_bytes 7) 7; index 14].
Proof. vm_compute. repeat split. Qed.

(** 542 *)
Example test_skip_n_bytes_small_buffer :
  test (plain (bs "1234567890abcdefghijklmnopqrstuvwxyz") 8)
    [gives (skip_n_bytes 20) 20; index 20; gives peek 107%N; gives (skip_n_bytes 10) 10; index 30; gives peek 117%N].
Proof. vm_compute. repeat split. Qed.

(** * rjiter_test.rs *)

(** 12 *)
Example test_sanity_check :
  test (plain (bs "{}") 16)
    [gives next_value (VObject [])].
Proof. vm_compute. repeat split. Qed.

(** 27 *)
Example test_many_known_foo :
  test (one_byte (bs "  42  ""hello""  true  false  null  []  {}") 10)
    [gives (known_int 52%N) 42%Z; gives known_str (bs "hello"); gives (known_bool 116%N) true; gives (known_bool 102%N) false; gives known_null tt; gives known_array None; gives known_object None; gives finish tt].
Proof. vm_compute. repeat split. Qed.

(** 66 *)
Example test_jiter_doc_example :
  test (plain ([10%N] ++ bs "    {" ++ [10%N] ++ bs "        ""name"": ""John Doe"", " ++ [10%N] ++ bs "        ""age"": 43," ++ [10%N] ++ bs "        ""phones"": [" ++ [10%N] ++ bs "            ""+44 1234567""," ++ [10%N] ++ bs "            ""+44 2345678""" ++ [10%N] ++ bs "        ]" ++ [10%N] ++ bs "    }") 16)
    [gives next_object (Some (bs "name")); gives next_str (bs "John Doe"); gives next_key (Some (bs "age")); gives next_int 43%Z; gives next_key (Some (bs "phones")); gives next_array (Some QUOTE); gives known_str (bs "+44 1234567"); gives array_step (Some QUOTE); gives known_str (bs "+44 2345678"); gives array_step None; gives next_key None; gives finish tt].
Proof. vm_compute. repeat split. Qed.

(** 104 *)
Example test_skip_spaces :
  test (plain (bs "               {}") 16)
    [gives next_value (VObject [])].
Proof. vm_compute. repeat split. Qed.

(** 121 *)
Example test_pass_through_small_bytes :
  test (plain (bs """small text""") 100)
    [writes write_long_bytes (bs "small text")].
Proof. vm_compute. repeat split. Qed.

(** 135 *)
Example test_pass_through_long_bytes :
  test (one_byte (bs """very very very long string""") 5)
    [writes write_long_bytes (bs "very very very long string")].
Proof. vm_compute. repeat split. Qed.

(** 150 *)
Example test_pass_through_long_string :
  test (one_byte (bs """very very very long string""") 5)
    [writes write_long_str (bs "very very very long string")].
Proof. vm_compute. repeat split. Qed.

(** 165 *)
Example test_regression_pass_through_long_string_with_chunk_reader :
  test (plain (bs """very very very long string""") 5)
    [writes write_long_str (bs "very very very long string")].
Proof. vm_compute. repeat split. Qed.

(** 180 *)
Example test_write_long_with_unicode_code_point_on_border :
  for_each (seq 15 10) (fun n => test (one_byte (bs """Viele Grüße""") n) [writes write_long_bytes (bs "Viele Grüße")] /\ test (one_byte (bs """Viele Grüße""") n) [writes write_long_str (bs "Viele Grüße")]).
Proof. vm_compute. repeat split. Qed.

(** 212 *)
Example test_escapes_in_pass_through_long_bytes :
  for_each (seq 9 14) (fun n => test (one_byte (bs """escapes X\n\\\""\u0410""") n) [writes write_long_bytes (bs "escapes X\n\\\""\u0410")]).
Proof. vm_compute. repeat split. Qed.

(** 229 *)
Example test_pass_through_long_string_with_escapes :
  for_each (seq 37 14) (fun n => test (one_byte (bs """I'm a very long string with escapes X\n\\\""\u0410""") n) [writes write_long_str (bs "I'm a very long string with escapes X" ++ [10%N] ++ bs "\""А")]).
Proof. vm_compute. repeat split. Qed.

(** 249 *)
Example test_long_write_regression_segment_from_quote :
  test (plain (bs "      ""bar"" true") 8)
    [fails finish; writes write_long_bytes (bs "bar"); gives peek 116%N].
Proof. vm_compute. repeat split. Qed.

(** 268 *)
Example test_long_write_regression_quote_last_buffer_byte :
  test (plain (bs "      ""bar"" true") 7)
    [fails finish; writes write_long_bytes (bs "bar"); gives peek 116%N].
Proof. vm_compute. repeat split. Qed.

(** 287 *)
Example test_write_long_with_bs_in_first_position :
  test (plain (bs """\\ how can I help you?""") 10)
    [writes write_long_str (bs "\ how can I help you?")].
Proof. vm_compute. repeat split. Qed.

(** 301 *)
Example test_write_long_with_unicode_bs_in_first_position :
  test (plain (bs """\u4F60\u597d, how can I help you?""") 10)
    [writes write_long_str (bs "你好, how can I help you?")].
Proof. vm_compute. repeat split. Qed.

(** 319 *)
Example test_skip_spaces_for_next_key :
  test (plain (spaces 32 ++ bs "," ++ spaces 32 ++ bs """foo"": ""bar""") 10)
    [gives next_key (Some (bs "foo")); gives next_str (bs "bar")].
Proof. vm_compute. repeat split. Qed.

(** 341 *)
Example test_next_key_from_one_byte_reader :
  test (one_byte (bs " , ""foo"": ""bar""}") 10)
    [gives next_key (Some (bs "foo")); gives next_str (bs "bar")].
Proof. vm_compute. repeat split. Qed.

(** 361 *)
Example test_next_str_with_spaces_one_byte_reader :
  test (one_byte (spaces 32 ++ bs """hello""") 10)
    [gives next_str (bs "hello")].
Proof. vm_compute. repeat split. Qed.

(** 381 *)
Example test_finish_yes_when_in_buffer :
  test (plain (bs "  " ++ [10; 9]%N ++ bs "  ") 10)
    [gives finish tt].
Proof. vm_compute. repeat split. Qed.

(** 392 *)
Example test_finish_no_when_in_buffer :
  test (plain (bs "    x") 10)
    [fails finish].
Proof. vm_compute. repeat split. Qed.

(** 403 *)
Example test_finish_yes_when_need_feed :
  test (one_byte (spaces 32) 10)
    [gives finish tt].
Proof. vm_compute. repeat split. Qed.

(** 414 *)
Example test_finish_no_when_need_feed :
  test (one_byte (spaces 32 ++ bs "42") 10)
    [fails finish].
Proof. vm_compute. repeat split. Qed.

(** 426 *)
Example test_handle_buffer_end_pos_in_finish :
  test (plain (bs "true  }  false") 7)
    [gives next_bool true; gives next_key None; index 7; fails finish].
Proof. vm_compute. repeat split. Qed.

(** 450 *)
Example test_skip_tokens_example_for_readme :
  test (plain ([10%N] ++ bs "        event: ping" ++ [10%N] ++ bs "        data: {""type"": ""ping""}" ++ [10%N] ++ bs "    ") 10)
    [gives (peek_skipping_tokens 100 [bs "data:"; bs "event:"; bs "ping"]) LBRACE; gives next_object (Some (bs "type"))].
Proof. vm_compute. repeat split. Qed.

(** 489 *)
Example test_current_index :
  for_each (seq 8 20) (fun n => test (plain (bs " data+   {  ""foo"":  ""bar""}  ") n)
    [fails finish; index 1; gives (known_skip_token (bs "data+")) tt; index 6; gives next_object (Some (bs "foo")); index 18; gives peek QUOTE; index 20; writes write_long_str (bs "bar"); index 25; gives next_key None; index 26; gives finish tt; index 28]).
Proof. vm_compute. repeat split. Qed.

(** 540 *)
Example test_regression_next_value_empty_object_with_extra_bracket :
  test (plain (bs "{}}") 16)
    [gives next_value (VObject [])].
Proof. vm_compute. repeat split. Qed.

(** 555 *)
Example test_regression_oversize_string_with_long_unicode_code_point :
  test (plain (bs """AAA\n├AAAAAAAAAAAAAAAAAAAAAAAAAAAAAAAAA""") 16)
    [writes write_long_str (bs "AAA" ++ [10%N] ++ bs "├AAAAAAAAAAAAAAAAAAAAAAAAAAAAAAAAA")].
Proof. vm_compute. repeat split. Qed.

(** 572 *)
Example test_regression_long_writer_search_escape_in_nbytes :
  test (rj_new (chunk_reader [4] (bs """123456""")) (bs "AAAAAA\n"))
    [writes write_long_str (bs "123456")].
Proof. vm_compute. repeat split. Qed.

(** 592 *)
Example test_regression_long_writer_search_escape_in_nbytes_2 :
  test (rj_new (one_byte_reader (bs """123456""")) (bs """*\n****"))
    [writes write_long_str (bs "123456")].
Proof. vm_compute. repeat split. Qed.

(** 614 *)
Example test_peek :
  test (one_byte (spaces 32 ++ bs """hello""") 10)
    [gives peek QUOTE].
Proof. vm_compute. repeat split. Qed.

(** 627 *)
Example test_next_null :
  test (one_byte (spaces 32 ++ bs "null") 10)
    [gives next_null tt].
Proof. vm_compute. repeat split. Qed.

(** 639 *)
Example test_known_null :
  test (one_byte (spaces 32 ++ bs "null") 10)
    [gives peek 110%N; gives known_null tt].
Proof. vm_compute. repeat split. Qed.

(** 653 *)
Example test_next_bool :
  test (one_byte (spaces 32 ++ bs "true") 10)
    [gives next_bool true].
Proof. vm_compute. repeat split. Qed.

(** 666 *)
Example test_known_bool :
  test (one_byte (spaces 32 ++ bs "false") 10)
    [gives peek 102%N; gives (known_bool 102%N) false].
Proof. vm_compute. repeat split. Qed.

(** 681 *)
Example test_next_number :
  test (one_byte (spaces 32 ++ bs "123.45") 10)
    [gives next_number (AnyFloat (bs "123.45"))].
Proof. vm_compute. repeat split. Qed.

(** 694 *)
Example test_known_number :
  test (one_byte (spaces 32 ++ bs "123.45") 10)
    [gives peek 49%N; gives (known_number 49%N) (AnyFloat (bs "123.45"))].
Proof. vm_compute. repeat split. Qed.

(** 709 *)
Example test_next_int :
  test (one_byte (spaces 32 ++ bs "42") 10)
    [gives next_int 42%Z].
Proof. vm_compute. repeat split. Qed.

(** 722 *)
Example test_known_int :
  test (one_byte (spaces 32 ++ bs "42") 10)
    [gives peek 52%N; gives (known_int 52%N) 42%Z].
Proof. vm_compute. repeat split. Qed.

(** 737 *)
Example test_next_float :
  test (one_byte (spaces 32 ++ bs "3.14") 10)
    [gives next_float (bs "3.14")].
Proof. vm_compute. repeat split. Qed.

(** 750 *)
Example test_known_float :
  test (one_byte (spaces 32 ++ bs "3.14") 10)
    [gives peek 51%N; gives (known_float 51%N) (bs "3.14")].
Proof. vm_compute. repeat split. Qed.

(** 765 *)
Example test_next_number_bytes :
  test (one_byte (spaces 32 ++ bs "123.45") 10)
    [gives next_number_bytes (bs "123.45")].
Proof. vm_compute. repeat split. Qed.

(** 778 *)
Example test_next_str :
  test (one_byte (spaces 32 ++ bs """hello""") 10)
    [gives next_str (bs "hello")].
Proof. vm_compute. repeat split. Qed.

(** 791 *)
Example test_known_str :
  test (one_byte (spaces 32 ++ bs """hello""") 10)
    [any finish; gives known_str (bs "hello")].
Proof. vm_compute. repeat split. Qed.

(** 805 *)
Example test_next_bytes :
  test (one_byte (spaces 32 ++ bs """hello""") 10)
    [gives next_bytes (bs "hello")].
Proof. vm_compute. repeat split. Qed.

(** 818 *)
Example test_known_bytes :
  test (one_byte (spaces 32 ++ bs """hello""") 10)
    [any finish; gives known_bytes (bs "hello")].
Proof. vm_compute. repeat split. Qed.

(** 832 *)
Example test_next_value :
  test (one_byte (spaces 32 ++ bs """hello""") 10)
    [gives next_value (VStr (bs "hello"))].
Proof. vm_compute. repeat split. Qed.

(** 848 *)
Example test_known_value :
  test (one_byte (spaces 32 ++ bs """hello""") 10)
    [gives peek QUOTE; gives (known_value QUOTE) (VStr (bs "hello"))].
Proof. vm_compute. repeat split. Qed.

(** 866 *)
Example test_next_skip :
  test (one_byte (spaces 32 ++ bs """hello""  42") 10)
    [gives next_skip tt; gives next_number (AnyInt 42)].
Proof. vm_compute. repeat split. Qed.

(** 886 *)
Example test_known_skip :
  test (one_byte (spaces 32 ++ bs """hello""  42") 10)
    [gives peek QUOTE; gives (known_skip QUOTE) tt; gives next_number (AnyInt 42)].
Proof. vm_compute. repeat split. Qed.

(** 908 *)
Example test_next_value_owned :
  test (one_byte (spaces 32 ++ bs """hello""") 10)
    [gives next_value_owned (VStr (bs "hello"))].
Proof. vm_compute. repeat split. Qed.

(** 924 *)
Example test_known_value_owned :
  test (one_byte (spaces 32 ++ bs """hello""") 10)
    [gives peek QUOTE; gives (known_value_owned QUOTE) (VStr (bs "hello"))].
Proof. vm_compute. repeat split. Qed.

(** 942 *)
Example test_next_array :
  test (one_byte (spaces 32 ++ bs "[" ++ spaces 32 ++ bs "false" ++ spaces 32 ++ bs ", 2, 3]") 10)
    [gives next_array (Some 102%N)].
Proof. vm_compute. repeat split. Qed.

(** 955 *)
Example test_known_array :
  test (one_byte (spaces 32 ++ bs "[" ++ spaces 32 ++ bs """hello""" ++ spaces 32 ++ bs ", 2, 3]") 10)
    [any finish; gives known_array (Some QUOTE)].
Proof. vm_compute. repeat split. Qed.

(** 969 *)
Example test_array_step :
  test (one_byte (spaces 32 ++ bs "," ++ spaces 32 ++ bs " true" ++ spaces 32 ++ bs ", 3]") 10)
    [gives array_step (Some 116%N)].
Proof. vm_compute. repeat split. Qed.

(** 982 *)
Example test_next_object :
  test (one_byte (spaces 32 ++ bs "{" ++ spaces 32 ++ bs """key"": ""value""}") 10)
    [gives next_object (Some (bs "key"))].
Proof. vm_compute. repeat split. Qed.

(** 995 *)
Example test_known_object :
  test (one_byte (spaces 32 ++ bs "{" ++ spaces 32 ++ bs """key"": ""value""}") 10)
    [any finish; gives known_object (Some (bs "key"))].
Proof. vm_compute. repeat split. Qed.

(** 1009 *)
Example test_next_object_bytes :
  test (one_byte (spaces 32 ++ bs "{" ++ spaces 32 ++ bs """key"": ""value""}") 10)
    [gives next_object_bytes (Some (bs "key"))].
Proof. vm_compute. repeat split. Qed.

(** 1022 *)
Example test_next_key_bytes :
  test (one_byte (spaces 32 ++ bs "," ++ spaces 32 ++ bs """key"": ""value""}") 10)
    [gives next_key_bytes (Some (bs "key"))].
Proof. vm_compute. repeat split. Qed.

(** * error_test.rs *)

(** 5 *)
Example test_index_in_error :
  test (plain (spaces 32 ++ bs """hello""") 16)
    [fails_at next_bool 32].
Proof. vm_compute. repeat split. Qed.

(** 19 *)
Example test_position_for_error :
  failing (plain (leading_text ++ bs "null null") 10) next_str (fun s e => error_position s (err_index e) = Done (7, 4)).
Proof. vm_compute. repeat split. Qed.

(** 37 *)
Example test_description_of_error :
  failing (plain (leading_text ++ bs "null null") 10) next_str (fun s e => description any_words e s = Done (bs "expected string but found null at line 7 column 4")).
Proof. vm_compute. repeat split. Qed.

(** 55 *)
Example test_display_of_error :
  failing (plain (leading_text ++ bs "null null") 10) next_str (fun s e => error_message any_words e = bs "expected string but found null at index 25").
Proof. vm_compute. repeat split. Qed.
