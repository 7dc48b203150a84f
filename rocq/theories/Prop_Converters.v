(** Properties C40-C47 of the DynamoDB converters. Only statements, examples and assumptions. *)
From Verif Require Import Base U8Pool Buffer BufferSpec Jiter RJiter RJiterSpec Scan ScanSpec IdSpec DdbSpec Conv NormalToDdb DdbToNormal ConvSpec.
From Verif Require Import ScanExamples NoJson ConvResults TwinConv.

Notation cells := (repeat 0%N).
Definition to_run (input : bytes) (pretty wrapper : bool) : option (bytes * result unit (conversion_error * nat)) :=
  match convert_normal_to_ddb 300 (mkReader input []) (mkWriter [] None) (cells 100) (cells 300) pretty wrapper with
  | Done (w, v) => Some (written w, v)
  | _ => None
  end.
Definition from_run (input : bytes) (mode : wrapper_mode) : option (bytes * result unit (conversion_error * nat)) :=
  match convert_ddb_to_normal 300 (mkReader input []) (mkWriter [] None) (cells 100) (cells 400) false mode with
  | Done (w, v) => Some (written w, v)
  | _ => None
  end.

(** C40, what holds: the stream of values becomes the stream of records. Numbers have at most 32 bytes, no key is "#top"
    or "#array", no atom follows an array or object at top level ([atoms_apart]; objects never break this). *)
Theorem C40_to_ddb_partial : forall m vs rd w rb xb pretty wrapper,
  sane m -> may_fail m = false -> start m (rj_new rd rb) -> documents (layout m) vs (src rd) ->
  n2d_room xb vs -> Forall ordinary vs -> atoms_apart false vs -> Forall (numbers_within 32) vs -> wfail w = None ->
  exists text w',
    eventually (fun fuel => convert_normal_to_ddb fuel rd w rb xb pretty wrapper) (Done (w', Ok tt)) /\ spent w text w' /\
    documents any_layout (map (record wrapper) vs) text /\
    (pretty = false -> text = lines (map (record wrapper) vs)).
Proof. exact n2d_correct. Qed.
Definition ex_object : json :=
  JObject [(bs "a", JArray [JNumber (bs "-1.5e3"); JString (bs "x\n"); JArray []; JObject []]); (bs "b", JObject [(bs "c", JNull); (bs "d", JTrue)])].
Definition ex_json : bytes := bs "{ ""a"": [-1.5e3 , ""x\n"",[],{}],""b"":{ ""c"":null,""d"":true}}  [{""c"":false}] ".
Definition ex_json_values : list json := [ex_object; JArray [JObject [(bs "c", JFalse)]]].
Example C40_example :
  start (InChunks 16 true) (rj_new (mkReader ex_json [Chunk 3; Chunk 0; Chunk 5]) (cells 16)) /\
  documents (layout (InChunks 16 true)) ex_json_values ex_json /\
  n2d_room (cells 200) ex_json_values /\ Forall ordinary ex_json_values /\ atoms_apart false ex_json_values /\
  Forall (numbers_within 32) ex_json_values /\
  lines (map (record true) ex_json_values) =
    bs "{""Item"":{""a"":{""L"":[{""N"":""-1.5e3""},{""S"":""x\n""},{""L"":[]},{""M"":{}}]},""b"":{""M"":{""c"":{""NULL"":true},""d"":{""BOOL"":true}}}}}" ++
    [10%N] ++ bs "{""L"":[{""M"":{""c"":{""BOOL"":false}}}]}" ++ [10%N].
Proof.
  split; [|split; [|split; [|split; [|split; [|split]]]]].
  - split; [unfold valid, wf; vm_compute; repeat split; repeat constructor|]. split; [reflexivity|]. split; [|reflexivity].
    intros _. split; vm_compute; repeat constructor.
  - unfold ex_json_values, ex_object. let l := eval vm_compute in ex_json in change ex_json with l. now_documents.
  - split; [apply Nat.leb_le; vm_compute; reflexivity|]. repeat constructor; vm_compute; discriminate || lia.
  - repeat constructor; vm_compute; discriminate.
  - repeat split; cbn; auto; discriminate.
  - repeat constructor; vm_compute; lia.
  - vm_compute. reflexivity.
Qed.
(** C40 is false of a member named like a marker of the scanner: the output is no JSON. *)
Theorem C40_marker_keys_refuted : exists out1 out2,
  to_run (bs "{""#top"":1}") false false = Some (out1, Ok tt) /\ out1 = bs "{{""N"":""1""}" ++ [10%N] ++ bs "}" ++ [10%N] /\
  to_run (bs "{""#array"":1}") false false = Some (out2, Ok tt) /\ out2 = bs "{""#array"":{{""N"":""1""}}" ++ [10%N] /\
  (forall vs, ~ documents any_layout vs out1) /\ (forall vs, ~ documents any_layout vs out2).
Proof.
  eexists _, _. split; [vm_compute; reflexivity|]. split; [reflexivity|]. split; [vm_compute; reflexivity|]. split; [reflexivity|].
  split; apply rejected; vm_compute; reflexivity.
Qed.
Print Assumptions C40_to_ddb_partial.
Print Assumptions C40_marker_keys_refuted.

(** C41, what holds: the stream of items becomes the stream of plain values. [fit mode]: wrapped or not as the mode says, no
    name is "#array", among the elements of a list only the first can be a set. *)
Theorem C41_from_ddb_partial : forall m (items : item_stream) rd w rb xb pretty mode,
  sane m -> may_fail m = false -> start m (rj_new rd rb) -> documents (layout m) (map item_of items) (src rd) ->
  d2n_room xb (map item_of items) -> Forall (fit mode) items -> Forall (fun x => well_formed_item (snd x)) items -> wfail w = None ->
  exists text w',
    eventually (fun fuel => convert_ddb_to_normal fuel rd w rb xb pretty mode) (Done (w', Ok tt)) /\ spent w text w' /\
    documents any_layout (map (fun x => plain_item (snd x)) items) text /\
    (pretty = false -> text = lines (map (fun x => plain_item (snd x)) items)).
Proof. exact d2n_stream. Qed.
(** ... and whatever the reader does, a success means that the output is right. *)
Theorem C41_from_ddb_honest_partial : forall m (items : item_stream) rd w rb xb pretty mode fuel w',
  sane m -> start m (rj_new rd rb) -> documents (layout m) (map item_of items) (src rd) ->
  277 <= len xb -> Forall (fit mode) items -> Forall (fun x => well_formed_item (snd x)) items ->
  convert_ddb_to_normal fuel rd w rb xb pretty mode = Done (w', Ok tt) ->
  exists text, written w' = written w ++ text /\ documents any_layout (map (fun x => plain_item (snd x)) items) text /\
    (pretty = false -> text = lines (map (fun x => plain_item (snd x)) items)).
Proof. exact d2n_honest. Qed.
Definition ex_items : item_stream :=
  [(true, [(bs "a", DL [DNS [bs "1"; bs "2.5"]; DS (bs "x"); DL []; DM [(bs "b", DNull); (bs "Item", DBool true)]]); (bs "c", DB (bs "aGk="))]);
   (false, [(bs "d", DBS []); (bs "e", DN (bs "7"))])].
Definition ex_ddb : bytes := bs
  "{ ""Item"": { ""a"":{ ""L"":[{""NS"":[""1"",""2.5""]},{""S"":""x""},{""L"":[]},{""M"":{ ""b"": { ""NULL"":true},""Item"":{ ""BOOL"":true}}}]},""c"":{ ""B"":""aGk=""}}} { ""d"":{ ""BS"":[]},""e"":{ ""N"":""7""}}".
Example C41_example :
  start (InChunks 16 true) (rj_new (mkReader ex_ddb [Chunk 3; Chunk 0; Chunk 5]) (cells 16)) /\
  documents (layout (InChunks 16 true)) (map item_of ex_items) ex_ddb /\
  d2n_room (cells 400) (map item_of ex_items) /\ Forall (fit AsWrapper) ex_items /\ Forall (fun x => well_formed_item (snd x)) ex_items /\
  lines (map (fun x => plain_item (snd x)) ex_items) =
    bs "{""a"":[[1,2.5],""x"",[],{""b"":null,""Item"":true}],""c"":""aGk=""}" ++ [10%N] ++ bs "{""d"":[],""e"":7}" ++ [10%N].
Proof.
  split; [|split; [|split; [|split; [|split]]]].
  - split; [unfold valid, wf; vm_compute; repeat split; repeat constructor|]. split; [reflexivity|]. split; [|reflexivity].
    intros _. split; vm_compute; repeat constructor.
  - let v := eval cbv [ex_items map item_of item_json ddb_json bool_json fst snd] in (map item_of ex_items) in change (map item_of ex_items) with v.
    let l := eval vm_compute in ex_ddb in change ex_ddb with l. now_documents.
  - split; [apply Nat.leb_le; vm_compute; reflexivity|]. repeat constructor; vm_compute; discriminate || lia.
  - constructor; [split; [repeat (split || constructor); try discriminate; intros []|left; split; [reflexivity|left; reflexivity]]|].
    constructor; [split; [repeat (split || constructor); discriminate|left; split; [reflexivity|right; intros [H|[H|[]]]; discriminate]]|constructor].
  - unfold ex_items, well_formed_item. cbn [snd well_formed fold_right].
    repeat match goal with
    | |- Forall _ _ => constructor
    | |- _ /\ _ => split
    | |- True => exact I
    | |- well_formed _ => cbn [well_formed fold_right]
    | |- string_text ?t => let l := eval vm_compute in t in change (string_text l); now_text
    | |- number_text ?t => let l := eval vm_compute in t in change (number_text l); now_integer
    end.
  - vm_compute. reflexivity.
Qed.
(** C41 is false of a list with a set behind its first element: the comma is missing. *)
Theorem C41_sets_in_lists_refuted : exists out,
  from_run (compact (item_json false [(bs "a", DL [DS (bs "x"); DSS [bs "y"]])])) AsWrapper = Some (out, Ok tt) /\
  out = bs "{""a"":[""x""[""y""]]}" ++ [10%N] /\ (forall vs, ~ documents any_layout vs out).
Proof. eexists. split; [vm_compute; reflexivity|]. split; [reflexivity|]. apply rejected. vm_compute. reflexivity. Qed.
(** ... and of a name like the marker of arrays: a brace is missing. *)
Theorem C41_marker_names_refuted : exists out,
  from_run (compact (item_json false [(bs "a", DL [DM [(bs "#array", DS (bs "v"))]])])) AsWrapper = Some (out, Ok tt) /\
  (forall vs, ~ documents any_layout vs out).
Proof. eexists. split; [vm_compute; reflexivity|]. apply rejected. vm_compute. reflexivity. Qed.
Print Assumptions C41_from_ddb_partial.
Print Assumptions C41_from_ddb_honest_partial.
Print Assumptions C41_sets_in_lists_refuted.
Print Assumptions C41_marker_names_refuted.

(** C42, what holds: objects of the kind of C40 come back. The second converter has the whole text in its buffer, or its
    reader fills the buffer, or the text was pretty-printed; strings and keys are not too long for the buffer
    ([readable], [tight], [suits]). *)
Theorem C42_round_trip_partial : forall m1 m2 vs rd1 rb1 xb1 rd2 rb2 xb2 pretty1 pretty2 wrapper mode,
  sane m1 -> sane m2 -> may_fail m1 = false -> readable m2 pretty1 ->
  Forall is_object vs -> Forall ordinary vs -> Forall (numbers_within 32) vs -> Forall (suits (layout (tight m2 pretty1))) vs ->
  Forall (way_back wrapper mode) vs ->
  start m1 (rj_new rd1 rb1) -> documents (layout m1) vs (src rd1) -> n2d_room xb1 vs -> d2n_room xb2 (map (record wrapper) vs) ->
  exists text,
    eventually (fun fuel => convert_normal_to_ddb fuel rd1 (mkWriter [] None) rb1 xb1 pretty1 wrapper) (Done (mkWriter text None, Ok tt)) /\
    (src rd2 = text -> start m2 (rj_new rd2 rb2) ->
     exists out,
       eventually (fun fuel => convert_ddb_to_normal fuel rd2 (mkWriter [] None) rb2 xb2 pretty2 mode) (Done (mkWriter out None, Ok tt)) /\
       documents any_layout vs out /\ (pretty2 = false -> out = lines vs)).
Proof. exact round_trip. Qed.
Example C42_example :
  let vs := [ex_object] in
  start (InBuffer 100) (rj_new (mkReader (bs "{""a"":[-1.5e3,""x\n"",[],{}],""b"":{""c"":null,""d"":true}}") []) (cells 100)) /\
  documents (layout (InBuffer 100)) vs (bs "{""a"":[-1.5e3,""x\n"",[],{}],""b"":{""c"":null,""d"":true}}") /\
  Forall is_object vs /\ Forall ordinary vs /\ Forall (numbers_within 32) vs /\ Forall (suits (layout (InChunks 16 true))) vs /\
  Forall (way_back false AsWrapper) vs /\ n2d_room (cells 200) vs /\ d2n_room (cells 400) (map (record false) vs) /\ readable (InChunks 16 true) true.
Proof.
  cbv zeta. split; [|split; [|split; [|split; [|split; [|split; [|split; [|split; [|split]]]]]]]].
  - split; [unfold valid, wf; vm_compute; repeat split; repeat constructor|]. split; [reflexivity|]. split; [|reflexivity].
    right. split; [reflexivity|]. split; [reflexivity|]. apply Nat.leb_le. vm_compute. reflexivity.
  - unfold ex_object.
    let l := eval vm_compute in (bs "{""a"":[-1.5e3,""x\n"",[],{}],""b"":{""c"":null,""d"":true}}") in
    change (bs "{""a"":[-1.5e3,""x\n"",[],{}],""b"":{""c"":null,""d"":true}}") with l. now_documents.
  - repeat constructor.
  - repeat constructor; vm_compute; discriminate.
  - repeat constructor; vm_compute; lia.
  - constructor; [|constructor]. unfold ex_object.
    repeat match goal with
    | |- _ /\ _ => split
    | |- True => exact I
    | |- suits _ _ => cbn [suits fold_right]
    | |- string_text ?t => let l := eval vm_compute in t in change (string_text l); now_text
    | |- number_text ?t => let l := eval vm_compute in t in change (number_text l); now_integer
    | |- string_ok _ ?t => let l := eval vm_compute in t in first [change (copied_text true l)|change (filled_text true l)]; now_layout
    | |- key_ok _ _ _ => vm_compute; lia
    end.
  - constructor; [|constructor]. left. split; [reflexivity|]. right. intros [H|[H|[]]]; discriminate.
  - split; [apply Nat.leb_le; vm_compute; reflexivity|]. repeat constructor; vm_compute; discriminate || lia.
  - split; [apply Nat.leb_le; vm_compute; reflexivity|]. repeat constructor; vm_compute; discriminate || lia.
  - split; [vm_compute; lia|reflexivity].
Qed.
(** C42 is false of an object with a field [Item] and of one with a long number. *)
Theorem C42_round_trip_refuted : exists text1 text2 out2,
  to_run (bs "{""Item"":{}}") false false = Some (text1, Ok tt) /\ from_run text1 AsWrapper = Some (bs "{""M"":}" ++ [10%N], Ok tt) /\
  to_run (bs "{""n"":123456789012345678901234567890123}") false true = Some (text2, Ok tt) /\ from_run text2 AsWrapper = Some (out2, Ok tt) /\
  out2 = bs "{""n"":12345678901234567890123456789012}" ++ [10%N].
Proof. do 3 eexists. split; [vm_compute; reflexivity|]. split; [vm_compute; reflexivity|]. split; [vm_compute; reflexivity|]. split; vm_compute; reflexivity. Qed.
Print Assumptions C42_round_trip_partial.
Print Assumptions C42_round_trip_refuted.

(** C43 is false: digits behind the 32nd are dropped. *)
Theorem C43_digits_refuted :
  to_run (bs "123456789012345678901234567890123456 ") false false = Some (bs "{""N"":""12345678901234567890123456789012""}" ++ [10%N], Ok tt).
Proof. vm_compute. reflexivity. Qed.
(** This is all that is lost: the output is the one for the value with all its numbers cut to 32 bytes; so numbers of at
    most 32 bytes keep all their digits. *)
Theorem C43_clipped_partial : forall m vs rd w rb xb wrapper,
  sane m -> may_fail m = false -> start m (rj_new rd rb) -> documents (layout m) vs (src rd) ->
  n2d_room xb vs -> Forall ordinary vs -> atoms_apart false vs -> wfail w = None ->
  exists w', eventually (fun fuel => convert_normal_to_ddb fuel rd w rb xb false wrapper) (Done (w', Ok tt)) /\
    spent w (lines (map (record wrapper) (map (clip 32) vs))) w'.
Proof. exact n2d_clips. Qed.
Definition ex_long : list json := [JObject [(bs "a", JArray [JNumber (bs "12345678901234567890123456789012345"); JNumber (bs "2.50")])]].
Definition ex_long_text : bytes := bs "{""a"":[12345678901234567890123456789012345, 2.50]}".
Example C43_example :
  start (InBuffer 100) (rj_new (mkReader ex_long_text []) (cells 100)) /\ documents (layout (InBuffer 100)) ex_long ex_long_text /\
  n2d_room (cells 200) ex_long /\ Forall ordinary ex_long /\ atoms_apart false ex_long /\
  map (clip 32) ex_long = [JObject [(bs "a", JArray [JNumber (bs "12345678901234567890123456789012"); JNumber (bs "2.50")])]].
Proof.
  split; [|split; [|split; [|split; [|split]]]].
  - split; [unfold valid, wf; vm_compute; repeat split; repeat constructor|]. split; [reflexivity|]. split; [|reflexivity].
    right. split; [reflexivity|]. split; [reflexivity|]. apply Nat.leb_le. vm_compute. reflexivity.
  - unfold ex_long. let l := eval vm_compute in ex_long_text in change ex_long_text with l. now_documents.
  - split; [apply Nat.leb_le; vm_compute; reflexivity|]. repeat constructor; vm_compute; discriminate || lia.
  - repeat constructor; vm_compute; discriminate.
  - repeat split; cbn; auto; discriminate.
  - vm_compute. reflexivity.
Qed.
Print Assumptions C43_digits_refuted.
Print Assumptions C43_clipped_partial.

(** C44 is false: with a literal cut short at top level the call never returns, whatever the fuel; the writer would have to
    be infinite. *)
Theorem C44_termination_refuted : exists input rb xb, forall fuel,
  convert_normal_to_ddb fuel (mkReader input []) (mkWriter [] None) rb xb false false = Diverge.
Proof. exists (bs "tru "), (cells 16), (cells 200). exact lit_diverges. Qed.
(** What holds: on streams of JSON values it ends, with success, with the failure of the writer, or for lack of room. *)
Theorem C44_termination_partial : forall m vs rd w rb xb pretty wrapper,
  sane m -> may_fail m = false -> start m (rj_new rd rb) -> documents (layout m) vs (src rd) ->
  141 <= len xb -> Forall ordinary vs -> atoms_apart false vs ->
  exists w' v, eventually (fun fuel => convert_normal_to_ddb fuel rd w rb xb pretty wrapper) (Done (w', v)) /\
    (v = Ok tt \/ (exists k, exhausted w' k) \/ ~ n2d_room xb vs).
Proof. exact n2d_ends. Qed.
Print Assumptions C44_termination_refuted.
Print Assumptions C44_termination_partial.

(** C45 is false: an atom behind an array gets a comma inside. *)
Theorem C45_independent_refuted : exists out,
  to_run (bs "[1] 2 ") false false = Some (out, Ok tt) /\ out = bs "{""L"":[{""N"":""1""}]}" ++ [10%N] ++ bs "{,""N"":""2""}" ++ [10%N] /\
  (forall vs, ~ documents any_layout vs out).
Proof. eexists. split; [vm_compute; reflexivity|]. split; [reflexivity|]. apply rejected. vm_compute. reflexivity. Qed.
(** What holds: if no atom follows an array or a non-empty object, every value is converted as if it were alone. *)
Theorem C45_independent_partial : forall pretty wrapper, exists convert_one : json -> bytes,
  forall m vs rd w rb xb, sane m -> may_fail m = false -> start m (rj_new rd rb) -> documents (layout m) vs (src rd) ->
    n2d_room xb vs -> Forall ordinary vs -> atoms_apart false vs -> wfail w = None ->
    exists w', eventually (fun fuel => convert_normal_to_ddb fuel rd w rb xb pretty wrapper) (Done (w', Ok tt)) /\
      spent w (List.concat (map convert_one vs)) w'.
Proof. exact n2d_independent. Qed.
Print Assumptions C45_independent_refuted.
Print Assumptions C45_independent_partial.

(** C46 is false: descriptors without a value, or with one of another kind, are copied (C41 has more: sets in lists, names
    like markers). *)
Theorem C46_valid_output_refuted : exists out1 out2 out3,
  from_run (bs "{""a"":{}}") AsWrapper = Some (out1, Ok tt) /\ out1 = bs "{""a"":}" ++ [10%N] /\
  from_run (bs "{""a"":{""N"":""abc""}}") AsWrapper = Some (out2, Ok tt) /\ out2 = bs "{""a"":abc}" ++ [10%N] /\
  from_run (bs "{""Item"":{""M"":{}}}") AsWrapper = Some (out3, Ok tt) /\ out3 = bs "{""M"":}" ++ [10%N] /\
  (forall vs, ~ documents any_layout vs out1) /\ (forall vs, ~ documents any_layout vs out2) /\ (forall vs, ~ documents any_layout vs out3).
Proof.
  do 3 eexists. do 3 (split; [vm_compute; reflexivity|]; split; [reflexivity|]).
  split; [|split]; apply rejected; vm_compute; reflexivity.
Qed.
Print Assumptions C46_valid_output_refuted.

(** C47: when the writer fails after [n] bytes, what was written are the first [n] bytes of the output. From DynamoDB, the
    error is that of the writer ... *)
Theorem C47_writer_from_ddb : forall m (items : item_stream) rd w rb xb pretty mode n k,
  sane m -> may_fail m = false -> start m (rj_new rd rb) -> documents (layout m) (map item_of items) (src rd) ->
  d2n_room xb (map item_of items) -> Forall (fit mode) items -> wcap w = 0 -> wfail w = Some (n, k) ->
  exists text w' v,
    eventually (fun fuel => convert_ddb_to_normal fuel rd (mkWriter [] None) rb xb pretty mode) (Done (mkWriter text None, Ok tt)) /\
    eventually (fun fuel => convert_ddb_to_normal fuel rd w rb xb pretty mode) (Done (w', v)) /\
    written w' = written w ++ firstn n text /\
    if n <? len text then exists x i, v = Err (CIo k x, i) \/ v = Err (CRJiter (IoError k) x, i) else v = Ok tt.
Proof. exact d2n_writer. Qed.
(** ... to DynamoDB, it is that or the error of an action, without the kind. *)
Theorem C47_writer_to_ddb_partial : forall m vs rd w rb xb pretty wrapper n k,
  sane m -> may_fail m = false -> start m (rj_new rd rb) -> documents (layout m) vs (src rd) ->
  n2d_room xb vs -> Forall ordinary vs -> atoms_apart false vs -> wcap w = 0 -> wfail w = Some (n, k) ->
  exists text w' v,
    eventually (fun fuel => convert_normal_to_ddb fuel rd (mkWriter [] None) rb xb pretty wrapper) (Done (mkWriter text None, Ok tt)) /\
    eventually (fun fuel => convert_normal_to_ddb fuel rd w rb xb pretty wrapper) (Done (w', v)) /\
    written w' = written w ++ firstn n text /\
    if n <? len text then exists e i, v = Err (e, i) /\ ((exists x, e = CIo k x) \/ exists msg j, e = CScan (ActionError msg j)) else v = Ok tt.
Proof. exact n2d_writer. Qed.
Theorem C47_writer_to_ddb_refuted :
  match convert_normal_to_ddb 100 (mkReader (bs "[""abc""]") []) (mkWriter [] (Some (14, 7%N))) (cells 16) (cells 200) false false with
  | Done (w, v) => Some (written w, v)
  | _ => None
  end = Some (bs "{""L"":[{""S"":""ab", Err (CScan (ActionError "Failed to write string value" 6), 6)).
Proof. vm_compute. reflexivity. Qed.
(** Whatever the input is, JSON or not: the first [n] bytes of what would be written, and an error if there is more. *)
Theorem C47_any_input_from_ddb : forall fuel rd w rb xb pretty mode n k text v,
  wcap w = 0 -> wfail w = Some (n, k) ->
  convert_ddb_to_normal fuel rd (mkWriter [] None) rb xb pretty mode = Done (mkWriter text None, v) ->
  exists w' v', convert_ddb_to_normal fuel rd w rb xb pretty mode = Done (w', v') /\ written w' = written w ++ firstn n text /\
    if n <? len text then exists e, v' = Err e else v' = v.
Proof. exact d2n_prefix. Qed.
Theorem C47_any_input_to_ddb : forall fuel rd w rb xb pretty wrapper n k text v,
  wcap w = 0 -> wfail w = Some (n, k) ->
  convert_normal_to_ddb fuel rd (mkWriter [] None) rb xb pretty wrapper = Done (mkWriter text None, v) ->
  exists w' v', convert_normal_to_ddb fuel rd w rb xb pretty wrapper = Done (w', v') /\ written w' = written w ++ firstn n text /\
    if n <? len text then exists e, v' = Err e else v' = v.
Proof. exact n2d_prefix. Qed.
Example C47_any_input_example : exists e1 e2,
  to_run (bs "[1,{""a"":tru}]") false false = Some (bs "{""L"":[{""N"":""1""},{""M"":{""a"":{""BOOL"":true}", Err e1) /\
  from_run (bs "{""a"":{""S"":""x""},]") AsWrapper = Some (bs "{""a"":""x""", Err e2).
Proof. do 2 eexists. split; vm_compute; reflexivity. Qed.
Example C47_example :
  match convert_ddb_to_normal 100 (mkReader (bs "{""a"":{""S"":""abc""}}") []) (mkWriter [] (Some (8, 7%N))) (cells 32) (cells 300) false AsWrapper with
  | Done (w, v) => Some (written w, v)
  | _ => None
  end = Some (bs "{""a"":""ab", Err (CRJiter (IoError 7%N) "S/B (string) type", 15)).
Proof. vm_compute. reflexivity. Qed.
Print Assumptions C47_writer_from_ddb.
Print Assumptions C47_writer_to_ddb_partial.
Print Assumptions C47_writer_to_ddb_refuted.
Print Assumptions C47_any_input_from_ddb.
Print Assumptions C47_any_input_to_ddb.

(** C48 is false: a failing read inside a literal is passed over; here the next read brings the rest, and one value becomes
    two. (From DynamoDB it is true: C41_from_ddb_honest_partial.) *)
Theorem C48_reader_refuted :
  match convert_normal_to_ddb 100 (mkReader (bs "true ") [Chunk 2; Fail 7%N]) (mkWriter [] None) (cells 16) (cells 200) false false with
  | Done (w, v) => Some (written w, v)
  | _ => None
  end = Some (bs "{""BOOL"":true}" ++ [10%N] ++ bs "{""BOOL"":true}" ++ [10%N], Ok tt).
Proof. vm_compute. reflexivity. Qed.
Print Assumptions C48_reader_refuted.
