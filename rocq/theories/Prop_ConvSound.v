(** Properties C61 and C70 of the converters on arbitrary input. Only statements, examples and assumptions. *)
From Verif Require Import Base U8Pool Buffer BufferSpec Jiter RJiter RJiterSpec Scan ScanSpec IdSpec DdbSpec Conv NormalToDdb DdbToNormal ConvSpec SoundSpec.
From Verif Require Import NoJson Prop_Converters ConvSound N2dSound.

(** C61, what holds: whatever the reader, the chunks, the buffers (two bytes and more for the parser) and the writer, a
    conversion that succeeds has read some values and then white space up to the end of the input, none of the values is
    an atom, and what it has written is a function of these values alone; for items it is their plain form. SoundSpec.v
    lists what [lax_documents] allows beyond JSON. *)
Theorem C61_success_means_values_partial : forall pretty mode, exists converted : list json -> option bytes,
  (forall items : item_stream, Forall (fit mode) items -> Forall (fun x => well_formed_item (snd x)) items ->
     exists text, converted (map item_of items) = Some text /\
       documents any_layout (map (fun x => plain_item (snd x)) items) text /\
       (pretty = false -> text = lines (map (fun x => plain_item (snd x)) items))) /\
  forall whole fuel rd w rb xb w',
    2 <= len rb -> (whole = true -> sched rd = [] /\ len (src rd) <= len rb) ->
    convert_ddb_to_normal fuel rd w rb xb pretty mode = Done (w', Ok tt) ->
    exists vs r text, lax_documents whole true vs (src rd) r /\ blanks r /\ Forall (fun v => ~ atom v) vs /\
      converted vs = Some text /\ spent w text w'.
Proof. exact d2n_sound. Qed.
Example C61_example : exists w',
  convert_ddb_to_normal 300 (mkReader ex_ddb [Chunk 3; Chunk 0; Chunk 7; Chunk 1]) (mkWriter [] None) (cells 40) (cells 400) false AsWrapper = Done (w', Ok tt) /\
  written w' = lines (map (fun x => plain_item (snd x)) ex_items).
Proof. eexists. split; vm_compute; reflexivity. Qed.
(** C61 is false: what is accepted need not be a sequence of items, ... *)
Theorem C61_not_an_item_refuted : exists out,
  from_run (bs "{""a"":{""S"":""x"",""b"":{""S"":""y""}}}") AsWrapper = Some (out, Ok tt) /\ out = bs "{""a"":""x"",""b"":""y""}}" ++ [10%N] /\
  (forall vs, ~ documents any_layout vs out).
Proof. eexists. split; [vm_compute; reflexivity|]. split; [reflexivity|]. apply rejected. vm_compute. reflexivity. Qed.
(** ... not even of objects: an array is accepted behind an object that leaves the converter in the wrong state. *)
Theorem C61_not_an_object_refuted : exists out,
  from_run (bs "{""#array"":{""M"":{""a"":{""S"":""x"",""b"":{""S"":""y""}},""c"":{""S"":""x"",""d"":{""S"":""y""}}},""L"":{}}}[]") AsWrapper = Some (out, Ok tt) /\
  (forall vs, ~ documents any_layout vs out) /\
  exists e i, option_map snd (from_run (bs "[]") AsWrapper) = Some (Err (e, i)).
Proof. eexists. split; [vm_compute; reflexivity|]. split; [apply rejected; vm_compute; reflexivity|]. do 2 eexists. vm_compute. reflexivity. Qed.
Print Assumptions C61_success_means_values_partial.
Print Assumptions C61_not_an_item_refuted.
Print Assumptions C61_not_an_object_refuted.

(** C70, what holds: although the converter ignores whether a literal is there, with a reader that does not fail (and eight
    cells for the parser) a conversion that succeeds has read some values and then white space up to the end of the input,
    and what it has written is a function of these values alone; for values of the kind of C40 it is their records. *)
Theorem C70_success_means_values_partial : forall pretty wrapper, exists converted : list json -> option bytes,
  (forall vs, Forall ordinary vs -> atoms_apart false vs -> Forall (numbers_within 32) vs -> Forall (suits any_layout) vs ->
     exists text, converted vs = Some text /\ documents any_layout (map (record wrapper) vs) text /\
       (pretty = false -> text = lines (map (record wrapper) vs))) /\
  forall whole fuel rd w rb xb w',
    8 <= len rb -> (forall e, ~ In (Fail e) (sched rd)) -> (whole = true -> sched rd = [] /\ len (src rd) <= len rb) ->
    convert_normal_to_ddb fuel rd w rb xb pretty wrapper = Done (w', Ok tt) ->
    exists vs r text, lax_documents whole true vs (src rd) r /\ blanks r /\ converted vs = Some text /\ spent w text w'.
Proof. exact n2d_sound. Qed.
Example C70_example : exists w',
  convert_normal_to_ddb 300 (mkReader ex_json [Chunk 3; Chunk 0; Chunk 5]) (mkWriter [] None) (cells 16) (cells 200) false true = Done (w', Ok tt) /\
  written w' = lines (map (record true) ex_json_values).
Proof. eexists. split; vm_compute; reflexivity. Qed.
(** C70 is false of a reader that fails: the record of the only value is written twice. *)
Theorem C70_failing_reader_refuted : exists rd w w',
  convert_normal_to_ddb 100 rd (mkWriter [] None) (cells 16) (cells 200) false false = Done (w, Ok tt) /\
  convert_normal_to_ddb 100 (mkReader (src rd) []) (mkWriter [] None) (cells 16) (cells 200) false false = Done (w', Ok tt) /\
  written w = lines [typed JTrue; typed JTrue] /\ written w' = lines [typed JTrue].
Proof. exists (mkReader (bs "true ") [Chunk 2; Fail 7%N]). do 2 eexists. split; [vm_compute; reflexivity|]. split; [vm_compute; reflexivity|]. split; vm_compute; reflexivity. Qed.
(** It is also false that only values that have a record are accepted: here the output is no JSON. *)
Theorem C70_not_a_record_refuted : exists out,
  to_run (bs "{""a"":[1,{""#top"":null}]}") false false = Some (out, Ok tt) /\ (forall vs, ~ documents any_layout vs out).
Proof. eexists. split; [vm_compute; reflexivity|]. apply rejected. vm_compute. reflexivity. Qed.
Print Assumptions C70_success_means_values_partial.
Print Assumptions C70_failing_reader_refuted.
Print Assumptions C70_not_a_record_refuted.
