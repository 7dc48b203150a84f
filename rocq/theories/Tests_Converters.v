(** The tests of the converters, examples/dynamodb/tests, as examples: a check of the model, not of the program.
    Every example has the name and the values of the test it copies. Buffers as there: 4096 and 2048 bytes; the output is never full. *)
From Verif Require Import Base U8Pool Buffer Jiter RJiter Scan Conv NormalToDdb DdbToNormal.

Definition rjiter_buffer : bytes := repeat 0%N 4096.
Definition context_buffer : bytes := repeat 0%N 2048.
(** toddb_tests.rs:2-33, nesting_tests.rs:137-159. *)
Definition to_ddb_result (pretty wrapper : bool) (input : bytes) : option (bytes * result unit (conversion_error * nat)) :=
  match convert_normal_to_ddb 1000 (mkReader input []) (mkWriter [] None) rjiter_buffer context_buffer pretty wrapper with
  | Done (w, v) => Some (written w, v)
  | _ => None
  end.
(** fromddb_tests.rs:2-38, nesting_tests.rs:162-184, fromddb_invalid_tests.rs:4-22. *)
Definition from_ddb_result (pretty : bool) (mode : wrapper_mode) (input : bytes) : option (bytes * result unit (conversion_error * nat)) :=
  match convert_ddb_to_normal 1000 (mkReader input []) (mkWriter [] None) rjiter_buffer context_buffer pretty mode with
  | Done (w, v) => Some (written w, v)
  | _ => None
  end.
Definition success {E} (x : option (bytes * result unit E)) : option bytes :=
  match x with Some (text, Ok _) => Some text | _ => None end.
Definition failure {E} (x : option (bytes * result unit E)) : option E :=
  match x with Some (_, Err e) => Some e | _ => None end.
Definition to_ddb (pretty wrapper : bool) (input : bytes) : option bytes := success (to_ddb_result pretty wrapper input).
Definition from_ddb (pretty : bool) (mode : wrapper_mode) (input : bytes) : option bytes := success (from_ddb_result pretty mode input).
Definition then_from_ddb (x : option bytes) : option bytes :=
  match x with Some text => from_ddb false AsWrapper text | None => None end.

(** The derived [Debug] of a [ConversionError], its text parts only; an unknown descriptor is a list of numbers there. *)
Definition debug_text (e : conversion_error) : string :=
  match e with
  | CRJiter _ context => "RJiterError " ++ context
  | CIo _ context => "IOError " ++ context
  | CParse context _ => "ParseError " ++ context
  | CScan (ActionError m _) => "ScanError ActionError " ++ m
  | CScan _ => "ScanError"
  end.
Fixpoint starts (s t : string) : bool :=
  match s, t with
  | EmptyString, _ => true
  | String a s', String b t' => Ascii.eqb a b && starts s' t'
  | _, _ => false
  end.
Fixpoint contains (s t : string) : bool :=
  starts s t || match t with EmptyString => false | String _ t' => contains s t' end.
(** The call fails and the text of the error has one of the words. *)
Definition refused (input : bytes) (words : list string) : bool :=
  match failure (from_ddb_result false AsWrapper input) with
  | Some (e, _) => existsb (fun s => contains s (debug_text e)) words
  | None => false
  end.


(** ** toddb_tests.rs *)
(** 36 *)
Example test_to_ddb_string :
  to_ddb false true (bs "{""name"": ""Alice""}") = Some (bs "{""Item"":{""name"":{""S"":""Alice""}}}" ++ [10%N]).
Proof. vm_compute. reflexivity. Qed.
(** 45 *)
Example test_to_ddb_number_integer :
  to_ddb false true (bs "{""age"": 42}") = Some (bs "{""Item"":{""age"":{""N"":""42""}}}" ++ [10%N]).
Proof. vm_compute. reflexivity. Qed.
(** 54 *)
Example test_to_ddb_number_float :
  to_ddb false true (bs "{""price"": 3.14159}") = Some (bs "{""Item"":{""price"":{""N"":""3.14159""}}}" ++ [10%N]).
Proof. vm_compute. reflexivity. Qed.
(** 63 *)
Example test_to_ddb_boolean_true :
  to_ddb false true (bs "{""active"": true}") = Some (bs "{""Item"":{""active"":{""BOOL"":true}}}" ++ [10%N]).
Proof. vm_compute. reflexivity. Qed.
(** 72 *)
Example test_to_ddb_boolean_false :
  to_ddb false true (bs "{""inactive"": false}") = Some (bs "{""Item"":{""inactive"":{""BOOL"":false}}}" ++ [10%N]).
Proof. vm_compute. reflexivity. Qed.
(** 81 *)
Example test_to_ddb_null :
  to_ddb false true (bs "{""empty"": null}") = Some (bs "{""Item"":{""empty"":{""NULL"":true}}}" ++ [10%N]).
Proof. vm_compute. reflexivity. Qed.
(** 90 *)
Example test_to_ddb_array_strings :
  to_ddb false true (bs "{""tags"": [""apple"", ""banana"", ""cherry""]}") = Some (bs "{""Item"":{""tags"":{""L"":[{""S"":""apple""},{""S"":""banana""},{""S"":""cherry""}]}}}" ++ [10%N]).
Proof. vm_compute. reflexivity. Qed.
(** 99 *)
Example test_to_ddb_array_numbers :
  to_ddb false true (bs "{""scores"": [1, 2, 3, 5, 8]}") = Some (bs "{""Item"":{""scores"":{""L"":[{""N"":""1""},{""N"":""2""},{""N"":""3""},{""N"":""5""},{""N"":""8""}]}}}" ++ [10%N]).
Proof. vm_compute. reflexivity. Qed.
(** 108 *)
Example test_to_ddb_array_mixed :
  to_ddb false true (bs "{""items"": [""string"", 123, true, null]}") = Some (bs "{""Item"":{""items"":{""L"":[{""S"":""string""},{""N"":""123""},{""BOOL"":true},{""NULL"":true}]}}}" ++ [10%N]).
Proof. vm_compute. reflexivity. Qed.
(** 117 *)
Example test_to_ddb_empty_array :
  to_ddb false true (bs "{""empty"": []}") = Some (bs "{""Item"":{""empty"":{""L"":[]}}}" ++ [10%N]).
Proof. vm_compute. reflexivity. Qed.
(** 126 *)
Example test_to_ddb_nested_object :
  to_ddb false true (bs "{""metadata"": {""key1"": ""value1"", ""key2"": 999}}") = Some (bs "{""Item"":{""metadata"":{""M"":{""key1"":{""S"":""value1""},""key2"":{""N"":""999""}}}}}" ++ [10%N]).
Proof. vm_compute. reflexivity. Qed.
(** 135 *)
Example test_to_ddb_empty_object :
  to_ddb false true (bs "{""empty"": {}}") = Some (bs "{""Item"":{""empty"":{""M"":{}}}}" ++ [10%N]).
Proof. vm_compute. reflexivity. Qed.
(** 144 *)
Example test_to_ddb_nested_arrays :
  to_ddb false true (bs "{""nested"": [[""a"", ""b""], [1, 2]]}") = Some (bs "{""Item"":{""nested"":{""L"":[{""L"":[{""S"":""a""},{""S"":""b""}]},{""L"":[{""N"":""1""},{""N"":""2""}]}]}}}" ++ [10%N]).
Proof. vm_compute. reflexivity. Qed.
(** 153 *)
Example test_to_ddb_array_with_objects :
  to_ddb false true (bs "{""users"": [{""name"": ""Alice"", ""age"": 30}, {""name"": ""Bob"", ""age"": 25}]}") = Some (bs "{""Item"":{""users"":{""L"":[{""M"":{""name"":{""S"":""Alice""},""age"":{""N"":""30""}}},{""M"":{""name"":{""S"":""Bob""},""age"":{""N"":""25""}}}]}}}" ++ [10%N]).
Proof. vm_compute. reflexivity. Qed.
(** 162 *)
Example test_to_ddb_deeply_nested :
  to_ddb false true (bs "{""outer"": {""inner"": {""deep"": ""nested""}}}") = Some (bs "{""Item"":{""outer"":{""M"":{""inner"":{""M"":{""deep"":{""S"":""nested""}}}}}}}" ++ [10%N]).
Proof. vm_compute. reflexivity. Qed.
(** 171 *)
Example test_to_ddb_multiple_fields :
  to_ddb false true (bs "{""name"": ""Bob"", ""age"": 30, ""active"": true}") = Some (bs "{""Item"":{""name"":{""S"":""Bob""},""age"":{""N"":""30""},""active"":{""BOOL"":true}}}" ++ [10%N]).
Proof. vm_compute. reflexivity. Qed.
(** 180 *)
Example test_to_ddb_all_types :
  to_ddb false true (bs "{""id"": ""test-001"", ""count"": 42, ""enabled"": false, ""nothing"": null, ""tags"": [""tag1"", ""tag2""]}") = Some (bs "{""Item"":{""id"":{""S"":""test-001""},""count"":{""N"":""42""},""enabled"":{""BOOL"":false},""nothing"":{""NULL"":true},""tags"":{""L"":[{""S"":""tag1""},{""S"":""tag2""}]}}}" ++ [10%N]).
Proof. vm_compute. reflexivity. Qed.
(** 189 *)
Example test_to_ddb_without_item_wrapper :
  to_ddb false false (bs "{""name"": ""Alice"", ""age"": 30}") = Some (bs "{""name"":{""S"":""Alice""},""age"":{""N"":""30""}}" ++ [10%N]).
Proof. vm_compute. reflexivity. Qed.
(** 198 *)
Example test_to_ddb_special_characters :
  to_ddb false true (bs "{""message"": ""Hello \""World\""!\nNew line\tTab""}") = Some (bs "{""Item"":{""message"":{""S"":""Hello \""World\""!\nNew line\tTab""}}}" ++ [10%N]).
Proof. vm_compute. reflexivity. Qed.
(** 207 *)
Example test_to_ddb_unicode :
  to_ddb false true (bs "{""emoji"": ""🚀 Hello 世界""}") = Some (bs "{""Item"":{""emoji"":{""S"":""🚀 Hello 世界""}}}" ++ [10%N]).
Proof. vm_compute. reflexivity. Qed.
(** 216 *)
Example test_to_ddb_empty_string :
  to_ddb false true (bs "{""empty"": """"}") = Some (bs "{""Item"":{""empty"":{""S"":""""}}}" ++ [10%N]).
Proof. vm_compute. reflexivity. Qed.
(** 225 *)
Example test_to_ddb_zero_number :
  to_ddb false true (bs "{""zero"": 0}") = Some (bs "{""Item"":{""zero"":{""N"":""0""}}}" ++ [10%N]).
Proof. vm_compute. reflexivity. Qed.
(** 234 *)
Example test_to_ddb_negative_number :
  to_ddb false true (bs "{""temp"": -273.15}") = Some (bs "{""Item"":{""temp"":{""N"":""-273.15""}}}" ++ [10%N]).
Proof. vm_compute. reflexivity. Qed.
(** 243 *)
Example test_to_ddb_large_number :
  to_ddb false true (bs "{""bigNum"": 123456789012345678901234567890}") = Some (bs "{""Item"":{""bigNum"":{""N"":""123456789012345678901234567890""}}}" ++ [10%N]).
Proof. vm_compute. reflexivity. Qed.
(** 379 *)
Example test_to_ddb_root_string :
  to_ddb false false (bs """hello world""") = Some (bs "{""S"":""hello world""}" ++ [10%N]).
Proof. vm_compute. reflexivity. Qed.
(** 388 *)
Example test_to_ddb_root_number_integer :
  to_ddb false false (bs "42" ++ [10%N]) = Some (bs "{""N"":""42""}" ++ [10%N]).
Proof. vm_compute. reflexivity. Qed.
(** 397 *)
Example test_to_ddb_root_number_float :
  to_ddb false false (bs "3.14159" ++ [10%N]) = Some (bs "{""N"":""3.14159""}" ++ [10%N]).
Proof. vm_compute. reflexivity. Qed.
(** 406 *)
Example test_to_ddb_root_boolean_true :
  to_ddb false false (bs "true") = Some (bs "{""BOOL"":true}" ++ [10%N]).
Proof. vm_compute. reflexivity. Qed.
(** 415 *)
Example test_to_ddb_root_boolean_false :
  to_ddb false false (bs "false") = Some (bs "{""BOOL"":false}" ++ [10%N]).
Proof. vm_compute. reflexivity. Qed.
(** 424 *)
Example test_to_ddb_root_null :
  to_ddb false false (bs "null") = Some (bs "{""NULL"":true}" ++ [10%N]).
Proof. vm_compute. reflexivity. Qed.
(** 433 *)
Example test_to_ddb_root_array_simple :
  to_ddb false false (bs "[""a"", ""b"", ""c""]") = Some (bs "{""L"":[{""S"":""a""},{""S"":""b""},{""S"":""c""}]}" ++ [10%N]).
Proof. vm_compute. reflexivity. Qed.
(** 442 *)
Example test_to_ddb_root_array_mixed :
  to_ddb false false (bs "[""string"", 123, true, null]") = Some (bs "{""L"":[{""S"":""string""},{""N"":""123""},{""BOOL"":true},{""NULL"":true}]}" ++ [10%N]).
Proof. vm_compute. reflexivity. Qed.
(** 451 *)
Example test_to_ddb_root_array_nested :
  to_ddb false false (bs "[[""a"", ""b""], [1, 2]]") = Some (bs "{""L"":[{""L"":[{""S"":""a""},{""S"":""b""}]},{""L"":[{""N"":""1""},{""N"":""2""}]}]}" ++ [10%N]).
Proof. vm_compute. reflexivity. Qed.
(** 460 *)
Example test_to_ddb_root_array_with_objects :
  to_ddb false false (bs "[{""name"": ""Alice""}, {""name"": ""Bob""}]") = Some (bs "{""L"":[{""M"":{""name"":{""S"":""Alice""}}},{""M"":{""name"":{""S"":""Bob""}}}]}" ++ [10%N]).
Proof. vm_compute. reflexivity. Qed.
(** 469 *)
Example test_to_ddb_root_empty_array :
  to_ddb false false (bs "[]") = Some (bs "{""L"":[]}" ++ [10%N]).
Proof. vm_compute. reflexivity. Qed.
(** 478 *)
Example test_to_ddb_root_string_with_item_wrapper :
  to_ddb false true (bs """hello""") = Some (bs "{""S"":""hello""}" ++ [10%N]).
Proof. vm_compute. reflexivity. Qed.
(** 488 *)
Example test_to_ddb_root_array_with_item_wrapper :
  to_ddb false true (bs "[1, 2, 3]") = Some (bs "{""L"":[{""N"":""1""},{""N"":""2""},{""N"":""3""}]}" ++ [10%N]).
Proof. vm_compute. reflexivity. Qed.

(** ** fromddb_tests.rs *)
(** 41 *)
Example test_string_type :
  from_ddb false AsWrapper (bs "{""Item"":{""name"": {""S"": ""Alice""}}}") = Some (bs "{""name"":""Alice""}" ++ [10%N]).
Proof. vm_compute. reflexivity. Qed.
(** 50 *)
Example test_number_type :
  from_ddb false AsWrapper (bs "{""Item"":{""age"": {""N"": ""42""}}}") = Some (bs "{""age"":42}" ++ [10%N]).
Proof. vm_compute. reflexivity. Qed.
(** 59 *)
Example test_number_decimal :
  from_ddb false AsWrapper (bs "{""Item"":{""price"": {""N"": ""3.14159""}}}") = Some (bs "{""price"":3.14159}" ++ [10%N]).
Proof. vm_compute. reflexivity. Qed.
(** 68 *)
Example test_boolean_true :
  from_ddb false AsWrapper (bs "{""Item"":{""active"": {""BOOL"": true}}}") = Some (bs "{""active"":true}" ++ [10%N]).
Proof. vm_compute. reflexivity. Qed.
(** 77 *)
Example test_boolean_false :
  from_ddb false AsWrapper (bs "{""Item"":{""inactive"": {""BOOL"": false}}}") = Some (bs "{""inactive"":false}" ++ [10%N]).
Proof. vm_compute. reflexivity. Qed.
(** 86 *)
Example test_null_type :
  from_ddb false AsWrapper (bs "{""Item"":{""empty"": {""NULL"": true}}}") = Some (bs "{""empty"":null}" ++ [10%N]).
Proof. vm_compute. reflexivity. Qed.
(** 95 *)
Example test_string_set :
  from_ddb false AsWrapper (bs "{""Item"":{""tags"": {""SS"": [""apple"", ""banana"", ""cherry""]}}}") = Some (bs "{""tags"":[""apple"",""banana"",""cherry""]}" ++ [10%N]).
Proof. vm_compute. reflexivity. Qed.
(** 104 *)
Example test_number_set :
  from_ddb false AsWrapper (bs "{""Item"":{""scores"": {""NS"": [""1"", ""2"", ""3"", ""5"", ""8""]}}}") = Some (bs "{""scores"":[1,2,3,5,8]}" ++ [10%N]).
Proof. vm_compute. reflexivity. Qed.
(** 113 *)
Example test_binary_type :
  from_ddb false AsWrapper (bs "{""Item"":{""data"": {""B"": ""VGhpcyBpcyBiYXNlNjQ=""}}}") = Some (bs "{""data"":""VGhpcyBpcyBiYXNlNjQ=""}" ++ [10%N]).
Proof. vm_compute. reflexivity. Qed.
(** 122 *)
Example test_binary_set :
  from_ddb false AsWrapper (bs "{""Item"":{""binaries"": {""BS"": [""Zmlyc3Q="", ""c2Vjb25k"", ""dGhpcmQ=""]}}}") = Some (bs "{""binaries"":[""Zmlyc3Q="",""c2Vjb25k"",""dGhpcmQ=""]}" ++ [10%N]).
Proof. vm_compute. reflexivity. Qed.
(** 131 *)
Example test_list_type :
  from_ddb false AsWrapper (bs "{""Item"":{""items"": {""L"": [{""S"": ""string""}, {""N"": ""123""}, {""BOOL"": true}]}}}") = Some (bs "{""items"":[""string"",123,true]}" ++ [10%N]).
Proof. vm_compute. reflexivity. Qed.
(** 140 *)
Example test_list_with_maps :
  from_ddb false AsWrapper (bs "{""Item"":{""users"": {""L"": [{""M"": {""name"": {""S"": ""Alice""}, ""age"": {""N"": ""30""}}}, {""M"": {""name"": {""S"": ""Bob""}, ""age"": {""N"": ""25""}}}]}}}") = Some (bs "{""users"":[{""name"":""Alice"",""age"":30},{""name"":""Bob"",""age"":25}]}" ++ [10%N]).
Proof. vm_compute. reflexivity. Qed.
(** 149 *)
Example test_nested_lists :
  from_ddb false AsWrapper (bs "{""Item"":{""nested"": {""L"": [{""L"": [{""S"": ""a""}, {""S"": ""b""}]}, {""L"": [{""N"": ""1""}, {""N"": ""2""}]}]}}}") = Some (bs "{""nested"":[[""a"",""b""],[1,2]]}" ++ [10%N]).
Proof. vm_compute. reflexivity. Qed.
(** 158 *)
Example test_empty_list :
  from_ddb false AsWrapper (bs "{""Item"":{""empty"": {""L"": []}}}") = Some (bs "{""empty"":[]}" ++ [10%N]).
Proof. vm_compute. reflexivity. Qed.
(** 167 *)
Example test_map_type :
  from_ddb false AsWrapper (bs "{""Item"":{""metadata"": {""M"": {""key1"": {""S"": ""value1""}, ""key2"": {""N"": ""999""}}}}}") = Some (bs "{""metadata"":{""key1"":""value1"",""key2"":999}}" ++ [10%N]).
Proof. vm_compute. reflexivity. Qed.
(** 177 *)
Example test_nested_map :
  from_ddb false AsWrapper (bs "{""Item"":{""outer"": {""M"": {""inner"": {""M"": {""deep"": {""S"": ""nested""}}}}}}}") = Some (bs "{""outer"":{""inner"":{""deep"":""nested""}}}" ++ [10%N]).
Proof. vm_compute. reflexivity. Qed.
(** 186 *)
Example test_map_with_mixed_types :
  from_ddb false AsWrapper (bs "{""Item"":{""data"": {""M"": {""str"": {""S"": ""hello""}, ""num"": {""N"": ""123""}, ""bool"": {""BOOL"": true}, ""null"": {""NULL"": true}}}}}") = Some (bs "{""data"":{""str"":""hello"",""num"":123,""bool"":true,""null"":null}}" ++ [10%N]).
Proof. vm_compute. reflexivity. Qed.
(** 195 *)
Example test_empty_map :
  from_ddb false AsWrapper (bs "{""Item"":{""empty"": {""M"": {}}}}") = Some (bs "{""empty"":{}}" ++ [10%N]).
Proof. vm_compute. reflexivity. Qed.
(** 204 *)
Example test_multiple_fields :
  from_ddb false AsWrapper (bs "{""Item"":{""name"": {""S"": ""Bob""}, ""age"": {""N"": ""30""}, ""active"": {""BOOL"": true}}}") = Some (bs "{""name"":""Bob"",""age"":30,""active"":true}" ++ [10%N]).
Proof. vm_compute. reflexivity. Qed.
(** 214 *)
Example test_mixed_types :
  from_ddb false AsWrapper (bs "{""Item"":{" ++ [10%N] ++ bs "        ""id"":{""S"": ""test-001""}," ++ [10%N] ++ bs "        ""count"":{""N"": ""42""}," ++ [10%N] ++ bs "        ""enabled"":{""BOOL"": false}," ++ [10%N] ++ bs "        ""nothing"":{""NULL"": true}," ++ [10%N] ++ bs "        ""tags"":{""SS"": [""tag1"", ""tag2""]}" ++ [10%N] ++ bs "    }}") = Some (bs "{""id"":""test-001"",""count"":42,""enabled"":false,""nothing"":null,""tags"":[""tag1"",""tag2""]}" ++ [10%N]).
Proof. vm_compute. reflexivity. Qed.
(** 229 *)
Example test_empty_string_set :
  from_ddb false AsWrapper (bs "{""Item"":{""tags"": {""SS"": []}}}") = Some (bs "{""tags"":[]}" ++ [10%N]).
Proof. vm_compute. reflexivity. Qed.
(** 238 *)
Example test_empty_number_set :
  from_ddb false AsWrapper (bs "{""Item"":{""numbers"": {""NS"": []}}}") = Some (bs "{""numbers"":[]}" ++ [10%N]).
Proof. vm_compute. reflexivity. Qed.
(** 247 *)
Example test_empty_binary_set :
  from_ddb false AsWrapper (bs "{""Item"":{""binaries"": {""BS"": []}}}") = Some (bs "{""binaries"":[]}" ++ [10%N]).
Proof. vm_compute. reflexivity. Qed.
(** 256 *)
Example test_large_number :
  from_ddb false AsWrapper (bs "{""Item"":{""bigNum"": {""N"": ""123456789012345678901234567890""}}}") = Some (bs "{""bigNum"":123456789012345678901234567890}" ++ [10%N]).
Proof. vm_compute. reflexivity. Qed.
(** 265 *)
Example test_negative_number :
  from_ddb false AsWrapper (bs "{""Item"":{""temp"": {""N"": ""-273.15""}}}") = Some (bs "{""temp"":-273.15}" ++ [10%N]).
Proof. vm_compute. reflexivity. Qed.
(** 274 *)
Example test_special_characters_in_string :
  from_ddb false AsWrapper (bs "{""Item"":{""message"": {""S"": ""Hello \""World\""!\nNew line\tTab""}}}") = Some (bs "{""message"":""Hello \""World\""!\nNew line\tTab""}" ++ [10%N]).
Proof. vm_compute. reflexivity. Qed.
(** 283 *)
Example test_unicode_in_string :
  from_ddb false AsWrapper (bs "{""Item"":{""emoji"": {""S"": ""🚀 Hello 世界""}}}") = Some (bs "{""emoji"":""🚀 Hello 世界""}" ++ [10%N]).
Proof. vm_compute. reflexivity. Qed.
(** 292 *)
Example test_empty_string :
  from_ddb false AsWrapper (bs "{""Item"":{""empty"": {""S"": """"}}}") = Some (bs "{""empty"":""""}" ++ [10%N]).
Proof. vm_compute. reflexivity. Qed.
(** 301 *)
Example test_zero_number :
  from_ddb false AsWrapper (bs "{""Item"":{""zero"": {""N"": ""0""}}}") = Some (bs "{""zero"":0}" ++ [10%N]).
Proof. vm_compute. reflexivity. Qed.
(** 311 *)
Example test_field_named_m_inside_m :
  from_ddb false AsWrapper (bs "{""Item"":{""data"": {""M"": {""M"": {""S"": ""value""}}}}}") = Some (bs "{""data"":{""M"":""value""}}" ++ [10%N]).
Proof. vm_compute. reflexivity. Qed.
(** 320 *)
Example test_field_named_l_inside_m :
  from_ddb false AsWrapper (bs "{""Item"":{""data"": {""M"": {""L"": {""S"": ""value""}}}}}") = Some (bs "{""data"":{""L"":""value""}}" ++ [10%N]).
Proof. vm_compute. reflexivity. Qed.
(** 329 *)
Example test_field_named_s_inside_m :
  from_ddb false AsWrapper (bs "{""Item"":{""data"": {""M"": {""S"": {""S"": ""value""}}}}}") = Some (bs "{""data"":{""S"":""value""}}" ++ [10%N]).
Proof. vm_compute. reflexivity. Qed.
(** 338 *)
Example test_field_named_n_inside_m :
  from_ddb false AsWrapper (bs "{""Item"":{""data"": {""M"": {""N"": {""N"": ""123""}}}}}") = Some (bs "{""data"":{""N"":123}}" ++ [10%N]).
Proof. vm_compute. reflexivity. Qed.
(** 347 *)
Example test_field_named_bool_inside_m :
  from_ddb false AsWrapper (bs "{""Item"":{""data"": {""M"": {""BOOL"": {""BOOL"": true}}}}}") = Some (bs "{""data"":{""BOOL"":true}}" ++ [10%N]).
Proof. vm_compute. reflexivity. Qed.
(** 356 *)
Example test_field_named_null_inside_m :
  from_ddb false AsWrapper (bs "{""Item"":{""data"": {""M"": {""NULL"": {""NULL"": true}}}}}") = Some (bs "{""data"":{""NULL"":null}}" ++ [10%N]).
Proof. vm_compute. reflexivity. Qed.
(** 365 *)
Example test_field_named_ss_inside_m :
  from_ddb false AsWrapper (bs "{""Item"":{""data"": {""M"": {""SS"": {""SS"": [""a"", ""b""]}}}}}") = Some (bs "{""data"":{""SS"":[""a"",""b""]}}" ++ [10%N]).
Proof. vm_compute. reflexivity. Qed.
(** 374 *)
Example test_field_named_item_inside_m :
  from_ddb false AsWrapper (bs "{""Item"":{""data"": {""M"": {""Item"": {""S"": ""value""}}}}}") = Some (bs "{""data"":{""Item"":""value""}}" ++ [10%N]).
Proof. vm_compute. reflexivity. Qed.
(** 383 *)
Example test_nested_m_fields :
  from_ddb false AsWrapper (bs "{""Item"":{""a"": {""M"": {""M"": {""M"": {""b"": {""S"": ""c""}}}}}}}") = Some (bs "{""a"":{""M"":{""b"":""c""}}}" ++ [10%N]).
Proof. vm_compute. reflexivity. Qed.
(** 392 *)
Example test_mixed_confusing_fields :
  from_ddb false AsWrapper (bs "{""Item"":{""test"": {""M"": {""M"": {""S"": ""m""}, ""L"": {""L"": [{""S"": ""l""}]}, ""S"": {""S"": ""s""}}}}}") = Some (bs "{""test"":{""M"":""m"",""L"":[""l""],""S"":""s""}}" ++ [10%N]).
Proof. vm_compute. reflexivity. Qed.
(** 403 *)
Example test_no_item_wrapper_simple :
  from_ddb false AsWrapper (bs "{""name"":{""S"": ""Alice""}, ""age"": {""N"": ""30""}}") = Some (bs "{""name"":""Alice"",""age"":30}" ++ [10%N]).
Proof. vm_compute. reflexivity. Qed.
(** 412 *)
Example test_with_item_wrapper_simple :
  from_ddb false AsWrapper (bs "{""Item"":{""name"": {""S"": ""Alice""}, ""age"": {""N"": ""30""}}}") = Some (bs "{""name"":""Alice"",""age"":30}" ++ [10%N]).
Proof. vm_compute. reflexivity. Qed.
(** 491 *)
Example test_item_as_field :
  from_ddb false AsField (bs "{""Item"":{""S"":""test value""},""other"":{""N"":""42""}}") = Some (bs "{""Item"":""test value"",""other"":42}" ++ [10%N]).
Proof. vm_compute. reflexivity. Qed.
(** 501 *)
Example test_jsonl_four_records :
  from_ddb false AsWrapper (bs "{""Item"":{""id"":{""N"":""1""},""name"":{""S"":""Alice""}}}" ++ [10%N] ++ bs "{""Item"":{""id"":{""N"":""2""},""name"":{""S"":""Bob""}}}" ++ [10%N] ++ bs "{""Item"":{""id"":{""N"":""3""},""name"":{""S"":""Charlie""}}}" ++ [10%N] ++ bs "{""Item"":{""id"":{""N"":""4""},""name"":{""S"":""Diana""}}}" ++ [10%N]) = Some (bs "{""id"":1,""name"":""Alice""}" ++ [10%N] ++ bs "{""id"":2,""name"":""Bob""}" ++ [10%N] ++ bs "{""id"":3,""name"":""Charlie""}" ++ [10%N] ++ bs "{""id"":4,""name"":""Diana""}" ++ [10%N]).
Proof. vm_compute. reflexivity. Qed.

(** ** nesting_tests.rs *)
(** 189 *)
Example test_to_ddb_nested_objects_depth_1 :
  to_ddb false true (bs "{""level_0"":{""value"":""leaf""}}") = Some (bs "{""Item"":{""level_0"":{""M"":{""value"":{""S"":""leaf""}}}}}" ++ [10%N]).
Proof. vm_compute. reflexivity. Qed.
(** 197 *)
Example test_to_ddb_nested_objects_depth_16 :
  to_ddb false true (bs "{""level_0"":{""level_1"":{""level_2"":{""level_3"":{""level_4"":{""level_5"":{""level_6"":{""level_7"":{""level_8"":{""level_9"":{""level_10"":{""level_11"":{""level_12"":{""level_13"":{""level_14"":{""level_15"":{""value"":""leaf""}}}}}}}}}}}}}}}}}") = Some (bs "{""Item"":{""level_0"":{""M"":{""level_1"":{""M"":{""level_2"":{""M"":{""level_3"":{""M"":{""level_4"":{""M"":{""level_5"":{""M"":{""level_6"":{""M"":{""level_7"":{""M"":{""level_8"":{""M"":{""level_9"":{""M"":{""level_10"":{""M"":{""level_11"":{""M"":{""level_12"":{""M"":{""level_13"":{""M"":{""level_14"":{""M"":{""level_15"":{""M"":{""value"":{""S"":""leaf""}}}}}}}}}}}}}}}}}}}}}}}}}}}}}}}}}}}" ++ [10%N]).
Proof. vm_compute. reflexivity. Qed.
(** 205 *)
Example test_to_ddb_nested_objects_depth_31 :
  to_ddb false true (bs "{""level_0"":{""level_1"":{""level_2"":{""level_3"":{""level_4"":{""level_5"":{""level_6"":{""level_7"":{""level_8"":{""level_9"":{""level_10"":{""level_11"":{""level_12"":{""level_13"":{""level_14"":{""level_15"":{""level_16"":{""level_17"":{""level_18"":{""level_19"":{""level_20"":{""level_21"":{""level_22"":{""level_23"":{""level_24"":{""level_25"":{""level_26"":{""level_27"":{""level_28"":{""level_29"":{""level_30"":{""value"":""leaf""}}}}}}}}}}}}}}}}}}}}}}}}}}}}}}}}") = Some (bs "{""Item"":{""level_0"":{""M"":{""level_1"":{""M"":{""level_2"":{""M"":{""level_3"":{""M"":{""level_4"":{""M"":{""level_5"":{""M"":{""level_6"":{""M"":{""level_7"":{""M"":{""level_8"":{""M"":{""level_9"":{""M"":{""level_10"":{""M"":{""level_11"":{""M"":{""level_12"":{""M"":{""level_13"":{""M"":{""level_14"":{""M"":{""level_15"":{""M"":{""level_16"":{""M"":{""level_17"":{""M"":{""level_18"":{""M"":{""level_19"":{""M"":{""level_20"":{""M"":{""level_21"":{""M"":{""level_22"":{""M"":{""level_23"":{""M"":{""level_24"":{""M"":{""level_25"":{""M"":{""level_26"":{""M"":{""level_27"":{""M"":{""level_28"":{""M"":{""level_29"":{""M"":{""level_30"":{""M"":{""value"":{""S"":""leaf""}}}}}}}}}}}}}}}}}}}}}}}}}}}}}}}}}}}}}}}}}}}}}}}}}}}}}}}}}}}}}}}}}" ++ [10%N]).
Proof. vm_compute. reflexivity. Qed.
(** 213 *)
Example test_to_ddb_nested_objects_depth_32 :
  to_ddb false true (bs "{""level_0"":{""level_1"":{""level_2"":{""level_3"":{""level_4"":{""level_5"":{""level_6"":{""level_7"":{""level_8"":{""level_9"":{""level_10"":{""level_11"":{""level_12"":{""level_13"":{""level_14"":{""level_15"":{""level_16"":{""level_17"":{""level_18"":{""level_19"":{""level_20"":{""level_21"":{""level_22"":{""level_23"":{""level_24"":{""level_25"":{""level_26"":{""level_27"":{""level_28"":{""level_29"":{""level_30"":{""level_31"":{""value"":""leaf""}}}}}}}}}}}}}}}}}}}}}}}}}}}}}}}}}") = Some (bs "{""Item"":{""level_0"":{""M"":{""level_1"":{""M"":{""level_2"":{""M"":{""level_3"":{""M"":{""level_4"":{""M"":{""level_5"":{""M"":{""level_6"":{""M"":{""level_7"":{""M"":{""level_8"":{""M"":{""level_9"":{""M"":{""level_10"":{""M"":{""level_11"":{""M"":{""level_12"":{""M"":{""level_13"":{""M"":{""level_14"":{""M"":{""level_15"":{""M"":{""level_16"":{""M"":{""level_17"":{""M"":{""level_18"":{""M"":{""level_19"":{""M"":{""level_20"":{""M"":{""level_21"":{""M"":{""level_22"":{""M"":{""level_23"":{""M"":{""level_24"":{""M"":{""level_25"":{""M"":{""level_26"":{""M"":{""level_27"":{""M"":{""level_28"":{""M"":{""level_29"":{""M"":{""level_30"":{""M"":{""level_31"":{""M"":{""value"":{""S"":""leaf""}}}}}}}}}}}}}}}}}}}}}}}}}}}}}}}}}}}}}}}}}}}}}}}}}}}}}}}}}}}}}}}}}}}" ++ [10%N]).
Proof. vm_compute. reflexivity. Qed.
(** 222 *)
Example test_to_ddb_nested_arrays_depth_1 :
  to_ddb false true (bs "{""data"":[""value""]}") = Some (bs "{""Item"":{""data"":{""L"":[{""S"":""value""}]}}}" ++ [10%N]).
Proof. vm_compute. reflexivity. Qed.
(** 230 *)
Example test_to_ddb_nested_arrays_depth_16 :
  to_ddb false true (bs "{""data"":[[[[[[[[[[[[[[[[""value""]]]]]]]]]]]]]]]]}") = Some (bs "{""Item"":{""data"":{""L"":[{""L"":[{""L"":[{""L"":[{""L"":[{""L"":[{""L"":[{""L"":[{""L"":[{""L"":[{""L"":[{""L"":[{""L"":[{""L"":[{""L"":[{""L"":[{""S"":""value""}]}]}]}]}]}]}]}]}]}]}]}]}]}]}]}]}}}" ++ [10%N]).
Proof. vm_compute. reflexivity. Qed.
(** 238 *)
Example test_to_ddb_nested_arrays_depth_31 :
  to_ddb false true (bs "{""data"":[[[[[[[[[[[[[[[[[[[[[[[[[[[[[[[""value""]]]]]]]]]]]]]]]]]]]]]]]]]]]]]]]}") = Some (bs "{""Item"":{""data"":{""L"":[{""L"":[{""L"":[{""L"":[{""L"":[{""L"":[{""L"":[{""L"":[{""L"":[{""L"":[{""L"":[{""L"":[{""L"":[{""L"":[{""L"":[{""L"":[{""L"":[{""L"":[{""L"":[{""L"":[{""L"":[{""L"":[{""L"":[{""L"":[{""L"":[{""L"":[{""L"":[{""L"":[{""L"":[{""L"":[{""L"":[{""S"":""value""}]}]}]}]}]}]}]}]}]}]}]}]}]}]}]}]}]}]}]}]}]}]}]}]}]}]}]}]}]}]}]}}}" ++ [10%N]).
Proof. vm_compute. reflexivity. Qed.
(** 246 *)
Example test_to_ddb_nested_arrays_depth_32 :
  to_ddb false true (bs "{""data"":[[[[[[[[[[[[[[[[[[[[[[[[[[[[[[[[""value""]]]]]]]]]]]]]]]]]]]]]]]]]]]]]]]]}") = Some (bs "{""Item"":{""data"":{""L"":[{""L"":[{""L"":[{""L"":[{""L"":[{""L"":[{""L"":[{""L"":[{""L"":[{""L"":[{""L"":[{""L"":[{""L"":[{""L"":[{""L"":[{""L"":[{""L"":[{""L"":[{""L"":[{""L"":[{""L"":[{""L"":[{""L"":[{""L"":[{""L"":[{""L"":[{""L"":[{""L"":[{""L"":[{""L"":[{""L"":[{""L"":[{""S"":""value""}]}]}]}]}]}]}]}]}]}]}]}]}]}]}]}]}]}]}]}]}]}]}]}]}]}]}]}]}]}]}]}]}}}" ++ [10%N]).
Proof. vm_compute. reflexivity. Qed.
(** 257 *)
Example test_from_ddb_nested_objects_depth_1 :
  from_ddb false AsWrapper (bs "{""Item"":{""level_0"":{""M"":{""value"":{""S"":""leaf""}}}}}" ++ [10%N]) = Some (bs "{""level_0"":{""value"":""leaf""}}" ++ [10%N]).
Proof. vm_compute. reflexivity. Qed.
(** 265 *)
Example test_from_ddb_nested_objects_depth_16 :
  from_ddb false AsWrapper (bs "{""Item"":{""level_0"":{""M"":{""level_1"":{""M"":{""level_2"":{""M"":{""level_3"":{""M"":{""level_4"":{""M"":{""level_5"":{""M"":{""level_6"":{""M"":{""level_7"":{""M"":{""level_8"":{""M"":{""level_9"":{""M"":{""level_10"":{""M"":{""level_11"":{""M"":{""level_12"":{""M"":{""level_13"":{""M"":{""level_14"":{""M"":{""level_15"":{""M"":{""value"":{""S"":""leaf""}}}}}}}}}}}}}}}}}}}}}}}}}}}}}}}}}}}" ++ [10%N]) = Some (bs "{""level_0"":{""level_1"":{""level_2"":{""level_3"":{""level_4"":{""level_5"":{""level_6"":{""level_7"":{""level_8"":{""level_9"":{""level_10"":{""level_11"":{""level_12"":{""level_13"":{""level_14"":{""level_15"":{""value"":""leaf""}}}}}}}}}}}}}}}}}" ++ [10%N]).
Proof. vm_compute. reflexivity. Qed.
(** 273 *)
Example test_from_ddb_nested_objects_depth_31 :
  from_ddb false AsWrapper (bs "{""Item"":{""level_0"":{""M"":{""level_1"":{""M"":{""level_2"":{""M"":{""level_3"":{""M"":{""level_4"":{""M"":{""level_5"":{""M"":{""level_6"":{""M"":{""level_7"":{""M"":{""level_8"":{""M"":{""level_9"":{""M"":{""level_10"":{""M"":{""level_11"":{""M"":{""level_12"":{""M"":{""level_13"":{""M"":{""level_14"":{""M"":{""level_15"":{""M"":{""level_16"":{""M"":{""level_17"":{""M"":{""level_18"":{""M"":{""level_19"":{""M"":{""level_20"":{""M"":{""level_21"":{""M"":{""level_22"":{""M"":{""level_23"":{""M"":{""level_24"":{""M"":{""level_25"":{""M"":{""level_26"":{""M"":{""level_27"":{""M"":{""level_28"":{""M"":{""level_29"":{""M"":{""level_30"":{""M"":{""value"":{""S"":""leaf""}}}}}}}}}}}}}}}}}}}}}}}}}}}}}}}}}}}}}}}}}}}}}}}}}}}}}}}}}}}}}}}}}" ++ [10%N]) = Some (bs "{""level_0"":{""level_1"":{""level_2"":{""level_3"":{""level_4"":{""level_5"":{""level_6"":{""level_7"":{""level_8"":{""level_9"":{""level_10"":{""level_11"":{""level_12"":{""level_13"":{""level_14"":{""level_15"":{""level_16"":{""level_17"":{""level_18"":{""level_19"":{""level_20"":{""level_21"":{""level_22"":{""level_23"":{""level_24"":{""level_25"":{""level_26"":{""level_27"":{""level_28"":{""level_29"":{""level_30"":{""value"":""leaf""}}}}}}}}}}}}}}}}}}}}}}}}}}}}}}}}" ++ [10%N]).
Proof. vm_compute. reflexivity. Qed.
(** 281 *)
Example test_from_ddb_nested_objects_depth_32 :
  from_ddb false AsWrapper (bs "{""Item"":{""level_0"":{""M"":{""level_1"":{""M"":{""level_2"":{""M"":{""level_3"":{""M"":{""level_4"":{""M"":{""level_5"":{""M"":{""level_6"":{""M"":{""level_7"":{""M"":{""level_8"":{""M"":{""level_9"":{""M"":{""level_10"":{""M"":{""level_11"":{""M"":{""level_12"":{""M"":{""level_13"":{""M"":{""level_14"":{""M"":{""level_15"":{""M"":{""level_16"":{""M"":{""level_17"":{""M"":{""level_18"":{""M"":{""level_19"":{""M"":{""level_20"":{""M"":{""level_21"":{""M"":{""level_22"":{""M"":{""level_23"":{""M"":{""level_24"":{""M"":{""level_25"":{""M"":{""level_26"":{""M"":{""level_27"":{""M"":{""level_28"":{""M"":{""level_29"":{""M"":{""level_30"":{""M"":{""level_31"":{""M"":{""value"":{""S"":""leaf""}}}}}}}}}}}}}}}}}}}}}}}}}}}}}}}}}}}}}}}}}}}}}}}}}}}}}}}}}}}}}}}}}}}" ++ [10%N]) = Some (bs "{""level_0"":{""level_1"":{""level_2"":{""level_3"":{""level_4"":{""level_5"":{""level_6"":{""level_7"":{""level_8"":{""level_9"":{""level_10"":{""level_11"":{""level_12"":{""level_13"":{""level_14"":{""level_15"":{""level_16"":{""level_17"":{""level_18"":{""level_19"":{""level_20"":{""level_21"":{""level_22"":{""level_23"":{""level_24"":{""level_25"":{""level_26"":{""level_27"":{""level_28"":{""level_29"":{""level_30"":{""level_31"":{""value"":""leaf""}}}}}}}}}}}}}}}}}}}}}}}}}}}}}}}}}" ++ [10%N]).
Proof. vm_compute. reflexivity. Qed.
(** 290 *)
Example test_from_ddb_nested_arrays_depth_1 :
  from_ddb false AsWrapper (bs "{""Item"":{""data"":{""L"":[{""S"":""value""}]}}}" ++ [10%N]) = Some (bs "{""data"":[""value""]}" ++ [10%N]).
Proof. vm_compute. reflexivity. Qed.
(** 298 *)
Example test_from_ddb_nested_arrays_depth_16 :
  from_ddb false AsWrapper (bs "{""Item"":{""data"":{""L"":[{""L"":[{""L"":[{""L"":[{""L"":[{""L"":[{""L"":[{""L"":[{""L"":[{""L"":[{""L"":[{""L"":[{""L"":[{""L"":[{""L"":[{""L"":[{""S"":""value""}]}]}]}]}]}]}]}]}]}]}]}]}]}]}]}]}}}" ++ [10%N]) = Some (bs "{""data"":[[[[[[[[[[[[[[[[""value""]]]]]]]]]]]]]]]]}" ++ [10%N]).
Proof. vm_compute. reflexivity. Qed.
(** 306 *)
Example test_from_ddb_nested_arrays_depth_31 :
  from_ddb false AsWrapper (bs "{""Item"":{""data"":{""L"":[{""L"":[{""L"":[{""L"":[{""L"":[{""L"":[{""L"":[{""L"":[{""L"":[{""L"":[{""L"":[{""L"":[{""L"":[{""L"":[{""L"":[{""L"":[{""L"":[{""L"":[{""L"":[{""L"":[{""L"":[{""L"":[{""L"":[{""L"":[{""L"":[{""L"":[{""L"":[{""L"":[{""L"":[{""L"":[{""L"":[{""S"":""value""}]}]}]}]}]}]}]}]}]}]}]}]}]}]}]}]}]}]}]}]}]}]}]}]}]}]}]}]}]}]}]}}}" ++ [10%N]) = Some (bs "{""data"":[[[[[[[[[[[[[[[[[[[[[[[[[[[[[[[""value""]]]]]]]]]]]]]]]]]]]]]]]]]]]]]]]}" ++ [10%N]).
Proof. vm_compute. reflexivity. Qed.
(** 314 *)
Example test_from_ddb_nested_arrays_depth_32 :
  from_ddb false AsWrapper (bs "{""Item"":{""data"":{""L"":[{""L"":[{""L"":[{""L"":[{""L"":[{""L"":[{""L"":[{""L"":[{""L"":[{""L"":[{""L"":[{""L"":[{""L"":[{""L"":[{""L"":[{""L"":[{""L"":[{""L"":[{""L"":[{""L"":[{""L"":[{""L"":[{""L"":[{""L"":[{""L"":[{""L"":[{""L"":[{""L"":[{""L"":[{""L"":[{""L"":[{""L"":[{""S"":""value""}]}]}]}]}]}]}]}]}]}]}]}]}]}]}]}]}]}]}]}]}]}]}]}]}]}]}]}]}]}]}]}]}}}" ++ [10%N]) = Some (bs "{""data"":[[[[[[[[[[[[[[[[[[[[[[[[[[[[[[[[""value""]]]]]]]]]]]]]]]]]]]]]]]]]]]]]]]]}" ++ [10%N]).
Proof. vm_compute. reflexivity. Qed.
(** 325 *)
Example test_roundtrip_nested_objects_depth_16 :
  then_from_ddb (to_ddb false true (bs "{""level_0"":{""level_1"":{""level_2"":{""level_3"":{""level_4"":{""level_5"":{""level_6"":{""level_7"":{""level_8"":{""level_9"":{""level_10"":{""level_11"":{""level_12"":{""level_13"":{""level_14"":{""level_15"":{""value"":""leaf""}}}}}}}}}}}}}}}}}")) = Some (bs "{""level_0"":{""level_1"":{""level_2"":{""level_3"":{""level_4"":{""level_5"":{""level_6"":{""level_7"":{""level_8"":{""level_9"":{""level_10"":{""level_11"":{""level_12"":{""level_13"":{""level_14"":{""level_15"":{""value"":""leaf""}}}}}}}}}}}}}}}}}" ++ [10%N]).
Proof. vm_compute. reflexivity. Qed.
(** 339 *)
Example test_roundtrip_nested_objects_depth_32 :
  then_from_ddb (to_ddb false true (bs "{""level_0"":{""level_1"":{""level_2"":{""level_3"":{""level_4"":{""level_5"":{""level_6"":{""level_7"":{""level_8"":{""level_9"":{""level_10"":{""level_11"":{""level_12"":{""level_13"":{""level_14"":{""level_15"":{""level_16"":{""level_17"":{""level_18"":{""level_19"":{""level_20"":{""level_21"":{""level_22"":{""level_23"":{""level_24"":{""level_25"":{""level_26"":{""level_27"":{""level_28"":{""level_29"":{""level_30"":{""level_31"":{""value"":""leaf""}}}}}}}}}}}}}}}}}}}}}}}}}}}}}}}}}")) = Some (bs "{""level_0"":{""level_1"":{""level_2"":{""level_3"":{""level_4"":{""level_5"":{""level_6"":{""level_7"":{""level_8"":{""level_9"":{""level_10"":{""level_11"":{""level_12"":{""level_13"":{""level_14"":{""level_15"":{""level_16"":{""level_17"":{""level_18"":{""level_19"":{""level_20"":{""level_21"":{""level_22"":{""level_23"":{""level_24"":{""level_25"":{""level_26"":{""level_27"":{""level_28"":{""level_29"":{""level_30"":{""level_31"":{""value"":""leaf""}}}}}}}}}}}}}}}}}}}}}}}}}}}}}}}}}" ++ [10%N]).
Proof. vm_compute. reflexivity. Qed.
(** 353 *)
Example test_roundtrip_nested_arrays_depth_16 :
  then_from_ddb (to_ddb false true (bs "{""data"":[[[[[[[[[[[[[[[[""value""]]]]]]]]]]]]]]]]}")) = Some (bs "{""data"":[[[[[[[[[[[[[[[[""value""]]]]]]]]]]]]]]]]}" ++ [10%N]).
Proof. vm_compute. reflexivity. Qed.
(** 367 *)
Example test_roundtrip_nested_arrays_depth_32 :
  then_from_ddb (to_ddb false true (bs "{""data"":[[[[[[[[[[[[[[[[[[[[[[[[[[[[[[[[""value""]]]]]]]]]]]]]]]]]]]]]]]]]]]]]]]]}")) = Some (bs "{""data"":[[[[[[[[[[[[[[[[[[[[[[[[[[[[[[[[""value""]]]]]]]]]]]]]]]]]]]]]]]]]]]]]]]]}" ++ [10%N]).
Proof. vm_compute. reflexivity. Qed.
(** 383 *)
Example test_to_ddb_mixed_nesting_objects_and_arrays :
  to_ddb false true (bs "{""a"":{""b"":[{""c"":[""value""]}]}}") = Some (bs "{""Item"":{""a"":{""M"":{""b"":{""L"":[{""M"":{""c"":{""L"":[{""S"":""value""}]}}}]}}}}}" ++ [10%N]).
Proof. vm_compute. reflexivity. Qed.
(** 393 *)
Example test_from_ddb_mixed_nesting_objects_and_arrays :
  from_ddb false AsWrapper (bs "{""Item"":{""a"":{""M"":{""b"":{""L"":[{""M"":{""c"":{""L"":[{""S"":""value""}]}}}]}}}}}") = Some (bs "{""a"":{""b"":[{""c"":[""value""]}]}}" ++ [10%N]).
Proof. vm_compute. reflexivity. Qed.
(** 402 *)
Example test_roundtrip_complex_mixed_structure :
  then_from_ddb (to_ddb false true (bs "{""users"":[{""id"":""user1"",""settings"":{""preferences"":{""theme"":""dark"",""notifications"":[{""type"":""email"",""enabled"":true}]}}}]}")) = Some (bs "{""users"":[{""id"":""user1"",""settings"":{""preferences"":{""theme"":""dark"",""notifications"":[{""type"":""email"",""enabled"":true}]}}}]}" ++ [10%N]).
Proof. vm_compute. reflexivity. Qed.
(** 419 *)
Example test_to_ddb_empty_nested_structures :
  to_ddb false true (bs "{""a"":{""b"":{""c"":{}}}}") = Some (bs "{""Item"":{""a"":{""M"":{""b"":{""M"":{""c"":{""M"":{}}}}}}}}" ++ [10%N]).
Proof. vm_compute. reflexivity. Qed.
(** 429 *)
Example test_from_ddb_empty_nested_structures :
  from_ddb false AsWrapper (bs "{""Item"":{""a"":{""M"":{""b"":{""M"":{""c"":{""M"":{}}}}}}}}") = Some (bs "{""a"":{""b"":{""c"":{}}}}" ++ [10%N]).
Proof. vm_compute. reflexivity. Qed.
(** 438 *)
Example test_nested_objects_without_item_wrapper :
  to_ddb false false (bs "{""level_0"":{""level_1"":{""level_2"":{""level_3"":{""level_4"":{""value"":""leaf""}}}}}}") = Some (bs "{""level_0"":{""M"":{""level_1"":{""M"":{""level_2"":{""M"":{""level_3"":{""M"":{""level_4"":{""M"":{""value"":{""S"":""leaf""}}}}}}}}}}}}" ++ [10%N]).
Proof. vm_compute. reflexivity. Qed.

(** toddb_tests.rs:251 *)
Example test_to_ddb_nested_object_pretty_indentation :
  to_ddb true true (bs "{""name"":""Test"",""settings"":{""theme"":""dark"",""notifications"":{""email"":true,""push"":false}}}") = Some (bs "{" ++ [10%N] ++ bs "  ""Item"":{" ++ [10%N] ++ bs "    ""name"":{" ++ [10%N] ++ bs "      ""S"":""Test""" ++ [10%N] ++ bs "    }," ++ [10%N] ++ bs "    ""settings"":{" ++ [10%N] ++ bs "      ""M"":{" ++ [10%N] ++ bs "        ""theme"":{" ++ [10%N] ++ bs "          ""S"":""dark""" ++ [10%N] ++ bs "        }," ++ [10%N] ++ bs "        ""notifications"":{" ++ [10%N] ++ bs "          ""M"":{" ++ [10%N] ++ bs "            ""email"":{" ++ [10%N] ++ bs "              ""BOOL"":true" ++ [10%N] ++ bs "            }," ++ [10%N] ++ bs "            ""push"":{" ++ [10%N] ++ bs "              ""BOOL"":false" ++ [10%N] ++ bs "            }" ++ [10%N] ++ bs "          }" ++ [10%N] ++ bs "        }" ++ [10%N] ++ bs "      }" ++ [10%N] ++ bs "    }" ++ [10%N] ++ bs "  }" ++ [10%N] ++ bs "}" ++ [10%N]).
Proof. vm_compute. reflexivity. Qed.
(** toddb_tests.rs:285 *)
Example test_roundtrip_int_like_float :
  then_from_ddb (to_ddb false true (bs "{""value"": 4.0}")) = Some (bs "{""value"":4.0}" ++ [10%N]).
Proof. vm_compute. reflexivity. Qed.
(** toddb_tests.rs:323 *)
Example test_roundtrip_various_int_like_floats :
  map (fun x => then_from_ddb (to_ddb false true (bs "{""val"": " ++ bs x ++ bs "}"))) ["1.0"; "0.0"; "-5.0"; "100.0"]%string =
  map (fun x => Some (bs "{""val"":" ++ bs x ++ bs "}" ++ [10%N])) ["1.0"; "0.0"; "-5.0"; "100.0"]%string.
Proof. vm_compute. reflexivity. Qed.
(** toddb_tests.rs:499: the end of the input is missed, the position is not 0. *)
Example test_error_incomplete_json_to_ddb : exists k position,
  failure (to_ddb_result false true (bs "{""name"": ""Alice""")) = Some (CScan (RJiterError (mkErr (JsonError k) position)), position) /\
  k = EofWhileParsingObject /\ 0 < position.
Proof. do 2 eexists. split; [vm_compute; reflexivity|]. split; [reflexivity|lia]. Qed.
(** fromddb_tests.rs:421 *)
Example test_nested_object_pretty_indentation :
  from_ddb true AsWrapper (bs "{""Item"":{""name"":{""S"":""Test""},""settings"":{""M"":{""theme"":{""S"":""dark""},""notifications"":{""M"":{""email"":{""BOOL"":true},""push"":{""BOOL"":false}}}}}}}") = Some (bs "{" ++ [10%N] ++ bs "  ""name"":""Test""," ++ [10%N] ++ bs "  ""settings"":{" ++ [10%N] ++ bs "    ""theme"":""dark""," ++ [10%N] ++ bs "    ""notifications"":{" ++ [10%N] ++ bs "      ""email"":true," ++ [10%N] ++ bs "      ""push"":false" ++ [10%N] ++ bs "    }" ++ [10%N] ++ bs "  }" ++ [10%N] ++ bs "}" ++ [10%N]).
Proof. vm_compute. reflexivity. Qed.
(** fromddb_tests.rs:440 *)
Example test_error_incomplete_json : exists e position,
  failure (from_ddb_result false AsWrapper (bs "{""aa"": 2")) = Some (e, position) /\ contains "Expected" (debug_text e) = true /\ 0 < position.
Proof. do 2 eexists. split; [vm_compute; reflexivity|]. split; [reflexivity|lia]. Qed.

(** ** fromddb_invalid_tests.rs *)
(** 28 *)
Example test_unknown_type_descriptor_lowercase_s :
  refused (bs "{""Item"":{""Field"": {""s"": ""value""}}}") ["unknown type descriptor"; "'s'"]%string = true.
Proof. vm_compute. reflexivity. Qed.
(** 47 *)
Example test_string_type_with_number_value :
  refused (bs "{""Item"":{""Field"": {""S"": 123}}}") ["Expected string"; "S"]%string = true.
Proof. vm_compute. reflexivity. Qed.
(** 61 *)
Example test_string_type_with_boolean_value :
  refused (bs "{""Item"":{""Field"": {""S"": true}}}") ["Expected string"; "S"]%string = true.
Proof. vm_compute. reflexivity. Qed.
(** 74 *)
Example test_string_type_with_null_value :
  refused (bs "{""Item"":{""Field"": {""S"": null}}}") ["Expected string"; "S"]%string = true.
Proof. vm_compute. reflexivity. Qed.
(** 87 *)
Example test_string_type_with_array_value :
  refused (bs "{""Item"":{""Field"": {""S"": [""value""]}}}") ["Expected string"; "S"]%string = true.
Proof. vm_compute. reflexivity. Qed.
(** 100 *)
Example test_string_type_with_object_value :
  refused (bs "{""Item"":{""Field"": {""S"": {""nested"": ""value""}}}}") ["Expected string"; "S"]%string = true.
Proof. vm_compute. reflexivity. Qed.
(** 117 *)
Example test_binary_type_with_number_value :
  refused (bs "{""Item"":{""Field"": {""B"": 123}}}") ["Expected string"; "B"]%string = true.
Proof. vm_compute. reflexivity. Qed.
(** 130 *)
Example test_binary_type_with_boolean_value :
  refused (bs "{""Item"":{""Field"": {""B"": true}}}") ["Expected string"; "B"]%string = true.
Proof. vm_compute. reflexivity. Qed.
(** 143 *)
Example test_binary_type_with_null_value :
  refused (bs "{""Item"":{""Field"": {""B"": null}}}") ["Expected string"; "B"]%string = true.
Proof. vm_compute. reflexivity. Qed.
(** 156 *)
Example test_binary_type_with_array_value :
  refused (bs "{""Item"":{""Field"": {""B"": [""dGVzdA==""]}}}") ["Expected string"; "B"]%string = true.
Proof. vm_compute. reflexivity. Qed.
(** 169 *)
Example test_binary_type_with_object_value :
  refused (bs "{""Item"":{""Field"": {""B"": {""data"": ""dGVzdA==""}}}}") ["Expected string"; "B"]%string = true.
Proof. vm_compute. reflexivity. Qed.
(** 188 *)
Example test_number_type_with_number_value :
  refused (bs "{""Item"":{""Field"": {""N"": 123}}}") ["Expected string"; "N"]%string = true.
Proof. vm_compute. reflexivity. Qed.
(** 202 *)
Example test_number_type_with_boolean_value :
  refused (bs "{""Item"":{""Field"": {""N"": true}}}") ["Expected string"; "N"]%string = true.
Proof. vm_compute. reflexivity. Qed.
(** 220 *)
Example test_number_type_with_null_value :
  refused (bs "{""Item"":{""Field"": {""N"": null}}}") ["Expected string"; "N"]%string = true.
Proof. vm_compute. reflexivity. Qed.
(** 233 *)
Example test_number_type_with_array_value :
  refused (bs "{""Item"":{""Field"": {""N"": [""123""]}}}") ["Expected string"; "N"]%string = true.
Proof. vm_compute. reflexivity. Qed.
(** 250 *)
Example test_bool_type_with_string_true :
  refused (bs "{""Item"":{""Field"": {""BOOL"": ""true""}}}") ["boolean"; "BOOL"]%string = true.
Proof. vm_compute. reflexivity. Qed.
(** 263 *)
Example test_bool_type_with_string_false :
  refused (bs "{""Item"":{""Field"": {""BOOL"": ""false""}}}") ["boolean"; "BOOL"]%string = true.
Proof. vm_compute. reflexivity. Qed.
(** 276 *)
Example test_bool_type_with_number_zero :
  refused (bs "{""Item"":{""Field"": {""BOOL"": 0}}}") ["boolean"; "BOOL"]%string = true.
Proof. vm_compute. reflexivity. Qed.
(** 289 *)
Example test_bool_type_with_number_one :
  refused (bs "{""Item"":{""Field"": {""BOOL"": 1}}}") ["boolean"; "BOOL"]%string = true.
Proof. vm_compute. reflexivity. Qed.
(** 302 *)
Example test_bool_type_with_null_value :
  refused (bs "{""Item"":{""Field"": {""BOOL"": null}}}") ["boolean"; "BOOL"]%string = true.
Proof. vm_compute. reflexivity. Qed.
(** 319 *)
Example test_null_type_with_false_value :
  refused (bs "{""Item"":{""Field"": {""NULL"": false}}}") ["true"; "NULL"]%string = true.
Proof. vm_compute. reflexivity. Qed.
(** 332 *)
Example test_null_type_with_null_value :
  refused (bs "{""Item"":{""Field"": {""NULL"": null}}}") ["true"; "NULL"; "True"]%string = true.
Proof. vm_compute. reflexivity. Qed.
(** 347 *)
Example test_null_type_with_string_value :
  refused (bs "{""Item"":{""Field"": {""NULL"": ""true""}}}") ["true"; "NULL"; "True"]%string = true.
Proof. vm_compute. reflexivity. Qed.
(** 362 *)
Example test_null_type_with_number_value :
  refused (bs "{""Item"":{""Field"": {""NULL"": 1}}}") ["true"; "NULL"; "True"]%string = true.
Proof. vm_compute. reflexivity. Qed.
(** 381 *)
Example test_map_type_with_string_value :
  refused (bs "{""Item"":{""Field"": {""M"": ""not-an-object""}}}") ["object"; "M"; "Expected"]%string = true.
Proof. vm_compute. reflexivity. Qed.
(** 396 *)
Example test_map_type_with_number_value :
  refused (bs "{""Item"":{""Field"": {""M"": 123}}}") ["object"; "M"; "Expected"]%string = true.
Proof. vm_compute. reflexivity. Qed.
(** 411 *)
Example test_map_type_with_boolean_value :
  refused (bs "{""Item"":{""Field"": {""M"": true}}}") ["object"; "M"; "Expected"]%string = true.
Proof. vm_compute. reflexivity. Qed.
(** 426 *)
Example test_map_type_with_null_value :
  refused (bs "{""Item"":{""Field"": {""M"": null}}}") ["object"; "M"; "Expected"]%string = true.
Proof. vm_compute. reflexivity. Qed.
(** 441 *)
Example test_map_type_with_array_value :
  refused (bs "{""Item"":{""Field"": {""M"": [{""S"": ""value""}]}}}") ["array"; "unexpected"]%string = true.
Proof. vm_compute. reflexivity. Qed.
(** 454 *)
Example test_map_type_with_nested_missing_type_descriptor :
  refused (bs "{""Item"":{""Field"": {""M"": {""Nested"": ""value""}}}}") ["atom"; "array"; "Invalid"]%string = true.
Proof. vm_compute. reflexivity. Qed.
(** 473 *)
Example test_list_type_with_string_value :
  refused (bs "{""Item"":{""Field"": {""L"": ""not-an-array""}}}") ["array"; "L"; "Expected"]%string = true.
Proof. vm_compute. reflexivity. Qed.
(** 488 *)
Example test_list_type_with_number_value :
  refused (bs "{""Item"":{""Field"": {""L"": 123}}}") ["array"; "L"; "Expected"]%string = true.
Proof. vm_compute. reflexivity. Qed.
(** 503 *)
Example test_list_type_with_boolean_value :
  refused (bs "{""Item"":{""Field"": {""L"": true}}}") ["array"; "L"; "Expected"]%string = true.
Proof. vm_compute. reflexivity. Qed.
(** 518 *)
Example test_list_type_with_null_value :
  refused (bs "{""Item"":{""Field"": {""L"": null}}}") ["array"; "L"; "Expected"]%string = true.
Proof. vm_compute. reflexivity. Qed.
(** 533 *)
Example test_list_type_with_object_value :
  refused (bs "{""Item"":{""Field"": {""L"": {""S"": ""value""}}}}") ["array"; "L"; "Expected"]%string = true.
Proof. vm_compute. reflexivity. Qed.
(** 548 *)
Example test_list_type_with_elements_missing_type_descriptor :
  refused (bs "{""Item"":{""Field"": {""L"": [""raw-value""]}}}") ["atom"; "array"; "Invalid"]%string = true.
Proof. vm_compute. reflexivity. Qed.
(** 567 *)
Example test_string_set_with_string_value :
  refused (bs "{""Item"":{""Field"": {""SS"": ""not-an-array""}}}") ["array"; "SS"; "Expected"]%string = true.
Proof. vm_compute. reflexivity. Qed.
(** 582 *)
Example test_string_set_with_number_value :
  refused (bs "{""Item"":{""Field"": {""SS"": 123}}}") ["array"; "SS"; "Expected"]%string = true.
Proof. vm_compute. reflexivity. Qed.
(** 597 *)
Example test_string_set_with_array_of_numbers :
  refused (bs "{""Item"":{""Field"": {""SS"": [123, 456]}}}") ["string"; "SS"; "Expected"]%string = true.
Proof. vm_compute. reflexivity. Qed.
(** 618 *)
Example test_number_set_with_string_value :
  refused (bs "{""Item"":{""Field"": {""NS"": ""not-an-array""}}}") ["array"; "NS"; "Expected"]%string = true.
Proof. vm_compute. reflexivity. Qed.
(** 633 *)
Example test_number_set_with_number_value :
  refused (bs "{""Item"":{""Field"": {""NS"": 123}}}") ["array"; "NS"; "Expected"]%string = true.
Proof. vm_compute. reflexivity. Qed.
(** 648 *)
Example test_number_set_with_array_of_numbers :
  refused (bs "{""Item"":{""Field"": {""NS"": [1, 2]}}}") ["string"; "NS"; "Expected"]%string = true.
Proof. vm_compute. reflexivity. Qed.
(** 671 *)
Example test_binary_set_with_string_value :
  refused (bs "{""Item"":{""Field"": {""BS"": ""not-an-array""}}}") ["array"; "BS"; "Expected"]%string = true.
Proof. vm_compute. reflexivity. Qed.
(** 686 *)
Example test_binary_set_with_number_value :
  refused (bs "{""Item"":{""Field"": {""BS"": 123}}}") ["array"; "BS"; "Expected"]%string = true.
Proof. vm_compute. reflexivity. Qed.
(** 701 *)
Example test_binary_set_with_array_of_numbers :
  refused (bs "{""Item"":{""Field"": {""BS"": [123, 456]}}}") ["string"; "BS"; "Expected"]%string = true.
Proof. vm_compute. reflexivity. Qed.
(** 724 *)
Example test_attribute_with_multiple_type_descriptors :
  refused (bs "{""Item"":{""Field"": {""S"": ""value"", ""N"": ""123""}}}") ["atom"; "array"; "Invalid"]%string = true.
Proof. vm_compute. reflexivity. Qed.
(** 739 *)
Example test_attribute_without_type_descriptor :
  refused (bs "{""Item"":{""Field"": ""value""}}") ["atom"; "array"; "Invalid"]%string = true.
Proof. vm_compute. reflexivity. Qed.
