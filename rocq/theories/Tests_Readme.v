(** The example programs of the README files: what they assert. *)
From Coq Require Import ZArith.
From Verif Require Import Base U8Pool Buffer Jiter JiterValue RJiter Scan Readme Tests_RJiter.
Definition nl : bytes := [10%N].

(** ** scan_json/README.md:92-239 *)
(** scan_json/README.md:170-203 *)
Definition completion : bytes :=
  bs "{" ++ nl ++
  bs "  ""id"": ""chatcmpl-Ahpq4nZeP9mESaKsCVdmZdK96IrUH""," ++ nl ++
  bs "  ""object"": ""chat.completion""," ++ nl ++
  bs "  ""created"": 1735010736," ++ nl ++
  bs "  ""model"": ""gpt-4o-mini-2024-07-18""," ++ nl ++
  bs "  ""choices"": [" ++ nl ++
  bs "    {" ++ nl ++
  bs "      ""index"": 0," ++ nl ++
  bs "      ""message"": {" ++ nl ++
  bs "        ""role"": ""assistant""," ++ nl ++
  bs "        ""content"": ""Hello! How can I assist you today?""," ++ nl ++
  bs "        ""refusal"": null" ++ nl ++
  bs "      }," ++ nl ++
  bs "      ""logprobs"": null," ++ nl ++
  bs "      ""finish_reason"": ""stop""" ++ nl ++
  bs "    }" ++ nl ++
  bs "  ]," ++ nl ++
  bs "  ""usage"": {" ++ nl ++
  bs "    ""prompt_tokens"": 9," ++ nl ++
  bs "    ""completion_tokens"": 10," ++ nl ++
  bs "    ""total_tokens"": 19," ++ nl ++
  bs "    ""prompt_tokens_details"": {" ++ nl ++
  bs "      ""cached_tokens"": 0," ++ nl ++
  bs "      ""audio_tokens"": 0" ++ nl ++
  bs "    }," ++ nl ++
  bs "    ""completion_tokens_details"": {" ++ nl ++
  bs "      ""reasoning_tokens"": 0," ++ nl ++
  bs "      ""audio_tokens"": 0," ++ nl ++
  bs "      ""accepted_prediction_tokens"": 0," ++ nl ++
  bs "      ""rejected_prediction_tokens"": 0" ++ nl ++
  bs "    }" ++ nl ++
  bs "  }," ++ nl ++
  bs "  ""system_fingerprint"": ""fp_0aa8d3e20b""" ++ nl ++
  bs "}".
(** scan_json/README.md:210-234 *)
Definition events : bytes :=
  bs "" ++ nl ++
  bs "data: {""choices"":[{""index"":0,""delta"":{""role"":""assistant"",""content"":"""",""refusal"":null},""logprobs"":null,""finish_reason"":null}],""id"":""chatcmpl-AgMB1khICnwswjgqIl2X2jr587Nep"",""object"":""chat.completion.chunk"",""created"":1734658387,""model"":""gpt-4o-mini-2024-07-18"",""system_fingerprint"":""fp_d02d531b47""}" ++ nl ++
  bs "" ++ nl ++
  bs "data: {""choices"":[{""index"":0,""delta"":{""content"":""Hello""},""logprobs"":null,""finish_reason"":null}],""id"":""chatcmpl-AgMB1khICnwswjgqIl2X2jr587Nep"",""object"":""chat.completion.chunk"",""created"":1734658387,""model"":""gpt-4o-mini-2024-07-18"",""system_fingerprint"":""fp_d02d531b47""}" ++ nl ++
  bs "" ++ nl ++
  bs "data: {""choices"":[{""index"":0,""delta"":{""content"":""!""},""logprobs"":null,""finish_reason"":null}],""id"":""chatcmpl-AgMB1khICnwswjgqIl2X2jr587Nep"",""object"":""chat.completion.chunk"",""created"":1734658387,""model"":""gpt-4o-mini-2024-07-18"",""system_fingerprint"":""fp_d02d531b47""}" ++ nl ++
  bs "" ++ nl ++
  bs "data: {""choices"":[{""index"":0,""delta"":{""content"":"" How""},""logprobs"":null,""finish_reason"":null}],""id"":""chatcmpl-AgMB1khICnwswjgqIl2X2jr587Nep"",""object"":""chat.completion.chunk"",""created"":1734658387,""model"":""gpt-4o-mini-2024-07-18"",""system_fingerprint"":""fp_d02d531b47""}" ++ nl ++
  bs "" ++ nl ++
  bs "data: {""choices"":[{""index"":0,""delta"":{""content"":"" can""},""logprobs"":null,""finish_reason"":null}],""id"":""chatcmpl-AgMB1khICnwswjgqIl2X2jr587Nep"",""object"":""chat.completion.chunk"",""created"":1734658387,""model"":""gpt-4o-mini-2024-07-18"",""system_fingerprint"":""fp_d02d531b47""}" ++ nl ++
  bs "" ++ nl ++
  bs "data: {""choices"":[{""index"":0,""delta"":{""content"":"" I""},""logprobs"":null,""finish_reason"":null}],""id"":""chatcmpl-AgMB1khICnwswjgqIl2X2jr587Nep"",""object"":""chat.completion.chunk"",""created"":1734658387,""model"":""gpt-4o-mini-2024-07-18"",""system_fingerprint"":""fp_d02d531b47""}" ++ nl ++
  bs "" ++ nl ++
  bs "data: {""choices"":[{""index"":0,""delta"":{""content"":"" assist""},""logprobs"":null,""finish_reason"":null}],""id"":""chatcmpl-AgMB1khICnwswjgqIl2X2jr587Nep"",""object"":""chat.completion.chunk"",""created"":1734658387,""model"":""gpt-4o-mini-2024-07-18"",""system_fingerprint"":""fp_d02d531b47""}" ++ nl ++
  bs "" ++ nl ++
  bs "data: {""choices"":[{""index"":0,""delta"":{""content"":"" you""},""logprobs"":null,""finish_reason"":null}],""id"":""chatcmpl-AgMB1khICnwswjgqIl2X2jr587Nep"",""object"":""chat.completion.chunk"",""created"":1734658387,""model"":""gpt-4o-mini-2024-07-18"",""system_fingerprint"":""fp_d02d531b47""}" ++ nl ++
  bs "" ++ nl ++
  bs "data: {""choices"":[{""index"":0,""delta"":{""content"":"" today""},""logprobs"":null,""finish_reason"":null}],""id"":""chatcmpl-AgMB1khICnwswjgqIl2X2jr587Nep"",""object"":""chat.completion.chunk"",""created"":1734658387,""model"":""gpt-4o-mini-2024-07-18"",""system_fingerprint"":""fp_d02d531b47""}" ++ nl ++
  bs "" ++ nl ++
  bs "data: {""choices"":[{""index"":0,""delta"":{""content"":""?""},""logprobs"":null,""finish_reason"":null}],""id"":""chatcmpl-AgMB1khICnwswjgqIl2X2jr587Nep"",""object"":""chat.completion.chunk"",""created"":1734658387,""model"":""gpt-4o-mini-2024-07-18"",""system_fingerprint"":""fp_d02d531b47""}" ++ nl ++
  bs "" ++ nl ++
  bs "data: {""choices"":[{""index"":0,""delta"":{},""logprobs"":null,""finish_reason"":""stop""}],""id"":""chatcmpl-AgMB1khICnwswjgqIl2X2jr587Nep"",""object"":""chat.completion.chunk"",""created"":1734658387,""model"":""gpt-4o-mini-2024-07-18"",""system_fingerprint"":""fp_d02d531b47""}" ++ nl ++
  bs "" ++ nl ++
  bs "data: [DONE]" ++ nl ++
  bs "".
Example completion_text : scan_llm_output 1000 completion = Done (bs "(new message)" ++ nl ++ bs "Hello! How can I assist you today?" ++ nl).
Proof. vm_compute. reflexivity. Qed.
Example events_text : scan_llm_output 1000 events = Done (bs "Hello! How can I assist you today?").
Proof. vm_compute. reflexivity. Qed.

(** ** rjiter/README.md:18-55 *)
Definition john : bytes := nl ++ bs "{" ++ nl ++ bs "    ""name"": ""John Doe"", " ++ nl ++ bs "    ""age"": 43," ++ nl ++
  bs "    ""phones"": [" ++ nl ++ bs "        ""+44 1234567""," ++ nl ++ bs "        ""+44 2345678""" ++ nl ++ bs "    ]" ++ nl ++ bs "}".
Example john_parsed : test (plain john 16)
  [gives next_object (Some (bs "name")); gives next_str (bs "John Doe"); gives next_key (Some (bs "age"));
   gives next_int 43%Z; gives next_key (Some (bs "phones")); gives next_array (Some QUOTE);
   gives known_str (bs "+44 1234567"); gives array_step (Some QUOTE); gives known_str (bs "+44 2345678");
   gives array_step None; gives next_key None; gives finish tt].
Proof. vm_compute. repeat split. Qed.
(** rjiter/README.md:66-70: the error in a buffer of 12 bytes. *)
Example john_too_long : test (plain john 12)
  [gives next_object (Some (bs "name")); gives next_str (bs "John Doe"); gives next_key (Some (bs "age"));
   gives next_int 43%Z; gives next_key (Some (bs "phones")); gives next_array (Some QUOTE);
   fun k s => match known_str s with Done (s', Err e) => err_type e = JsonError EofWhileParsingString /\ err_index e = 79 /\ k s' | _ => False end].
Proof. vm_compute. repeat split. Qed.
(** rjiter/README.md:82-115 *)
Definition cdata : bytes := bs "\""\u4F60\u597d\"",\n\\\\\\\\\\\\\\\\\\\\\\\\ how can I help you today?".
Definition cdata_text : bytes := bs """" ++ [228; 189; 160; 229; 165; 189]%N ++ bs """," ++ nl ++ bs "\\\\\\\\\\\\ how can I help you today?".
Example long_strings : test (plain (bs """" ++ cdata ++ bs """""" ++ cdata ++ bs """") 10)
  [writes write_long_bytes cdata; writes write_long_str cdata_text; gives finish tt].
Proof. vm_compute. repeat split. Qed.
(** rjiter/README.md:129-163 *)
Example tokens_skipped : test (plain (nl ++ bs "    event: ping" ++ nl ++ bs "    data: {""type"": ""ping""}" ++ nl) 10)
  [gives (peek_skipping_tokens 10 [bs "data:"; bs "event:"; bs "ping"]) LBRACE; gives next_object (Some (bs "type"))].
Proof. vm_compute. repeat split. Qed.

(** ** u8pool/README.md:7-57: the slices, and the part of the buffer their descriptors are in *)
From Verif Require Tests_U8Pool.
Import Tests_U8Pool.
Example alice : test (with_default_max_slices 1000)
  [pushes (bs "name"); pushes (bs "Alice"); pushes (bs "age"); pushes (bs "30");
   iterates [(4, Some (bs "name")); (3, Some (bs "Alice")); (2, Some (bs "age")); (1, Some (bs "30")); (0, None)];
   iterates_pairs [(2, Some (bs "name", bs "Alice")); (1, Some (bs "age", bs "30")); (0, None)];
   whole (fun b => len b = 1000 /\ firstn 16 b = [0; 0; 4; 0; 4; 0; 5; 0; 9; 0; 3; 0; 12; 0; 2; 0]%N /\
     firstn 14 (skipn 128 b) = bs "nameAliceage30")].
Proof. vm_compute. repeat split. Qed.
(** u8pool/README.md:67-91 *)
Example center_point : test (with_default_max_slices 256)
  [pushes_assoc point_ty (point 42 100) (bs "center point"); gets_assoc point_ty 0 (Some (point 42 100, bs "center point"))].
Proof. vm_compute. repeat split. Qed.
