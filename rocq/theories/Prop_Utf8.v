(** Property C100: UTF-8 in, UTF-8 out. Only statements, examples and assumptions. *)
From Verif Require Import Base U8Pool Buffer BufferSpec Jiter RJiter RJiterSpec Scan ScanSpec IdSpec IdTransform DdbSpec Conv NormalToDdb DdbToNormal ConvSpec SoundSpec UnicodeSpec Utf8Spec.
From Verif Require Import Cli ScanExamples Prop_IdTransform Prop_Converters Prop_Cli Utf8Proofs Utf8Runs.

(** C100: if the input of a conversion is UTF-8 and the conversion succeeds, what it writes is UTF-8; for every input, JSON or
    not, every reader, all chunks, also inside characters, and every writer. *)
Theorem C100_from_ddb : forall fuel rd w rb xb pretty mode w', 2 <= len rb ->
  convert_ddb_to_normal fuel rd w rb xb pretty mode = Done (w', Ok tt) -> characters (src rd) ->
  exists text, spent w text w' /\ characters text.
Proof. exact from_ddb_characters. Qed.
Print Assumptions C100_from_ddb.
(** The converter to DynamoDB JSON: readers that do not fail, eight bytes for the parser. *)
Theorem C100_to_ddb : forall fuel rd w rb xb pretty wrapper w', 8 <= len rb -> (forall e, ~ In (Fail e) (sched rd)) ->
  convert_normal_to_ddb fuel rd w rb xb pretty wrapper = Done (w', Ok tt) -> characters (src rd) ->
  exists text, spent w text w' /\ characters text.
Proof. exact to_ddb_characters. Qed.
Print Assumptions C100_to_ddb.
(** idtransform: what it leaves in the input is UTF-8 as well; nothing is said if a key is #top or #array (C37). *)
Theorem C100_idtransform : forall c d r w p r' w' p' fuel, 2 <= c -> valid r -> rcap r = c -> fresh d p ->
  idtransform fuel r w p = Done (r', w', p', Ok tt) -> characters (rest r) ->
  (blanks (rest r) /\ w' = w) \/
  exists v, lax_document false true v (rest r) (rest r') /\ characters (rest r') /\
    (ordinary v -> exists text, spent w text w' /\ characters text).
Proof. exact idt_characters. Qed.
Print Assumptions C100_idtransform.
Definition ex_word : bytes := bs "ключ".
Definition ex_item : bytes := bs "{""ключ"":{""S"":""你😀""}}".
Definition ex_plain : bytes := bs "{""ключ"":""你😀""}".
Definition ones : list event := repeat (Chunk 0) 40.
Example C100_example :
  characters ex_item /\ characters ex_plain /\ len ex_word = 8 /\
  (exists w, convert_ddb_to_normal 300 (mkReader ex_item ones) (mkWriter [] None) (cells 16) (cells 400) false AsWrapper = Done (w, Ok tt) /\ written w = ex_plain ++ [10%N]) /\
  (exists w, convert_normal_to_ddb 300 (mkReader ex_plain ones) (mkWriter [] None) (cells 16) (cells 400) false false = Done (w, Ok tt) /\ written w = ex_item ++ [10%N]) /\
  id_run ex_plain ones 16 = Some (ex_plain, Ok tt, []).
Proof.
  split; [apply characters_eq; vm_compute; reflexivity|]. split; [apply characters_eq; vm_compute; reflexivity|]. split; [reflexivity|].
  split; [eexists; split; vm_compute; reflexivity|]. split; [eexists; split; vm_compute; reflexivity|vm_compute; reflexivity].
Qed.
(** Whatever the result, if the writer takes what it is given: also if the reader fails, inside a character or elsewhere, and if the
    input is no JSON, what has been written is UTF-8, for whatever the buffers held before. *)
Theorem C100_from_ddb_always : forall fuel rd w rb xb pretty mode w' v, 2 <= len rb -> wfail w = None -> characters (src rd) ->
  convert_ddb_to_normal fuel rd w rb xb pretty mode = Done (w', v) ->
  exists text, written w' = written w ++ text /\ characters text.
Proof. exact from_ddb_always. Qed.
Print Assumptions C100_from_ddb_always.
Theorem C100_to_ddb_always : forall fuel rd w rb xb pretty wrapper w' v, 2 <= len rb -> wfail w = None -> characters (src rd) ->
  convert_normal_to_ddb fuel rd w rb xb pretty wrapper = Done (w', v) ->
  exists text, written w' = written w ++ text /\ characters text.
Proof. exact to_ddb_always. Qed.
Print Assumptions C100_to_ddb_always.
(** Here nothing is assumed of the keys. *)
Theorem C100_idtransform_always : forall c d r w p r' w' p' v fuel, 2 <= c -> valid r -> rcap r = c -> fresh d p -> wfail w = None -> characters (rest r) ->
  idtransform fuel r w p = Done (r', w', p', v) ->
  exists text, written w' = written w ++ text /\ characters text.
Proof. exact idt_always. Qed.
Print Assumptions C100_idtransform_always.
(** A reader that gives one byte at a time and fails inside the last character; a string without its end; a reader that fails
    inside a literal, which the converter to DynamoDB JSON does not notice at once; a wrong array, with a key that is left out (C37). *)
Definition ex_failing : list event := repeat (Chunk 0) 23 ++ [Fail 5%N].
Example C100_always_example :
  (exists w, convert_ddb_to_normal 300 (mkReader ex_item ex_failing) (mkWriter [] None) (cells 14) (cells 400) false AsWrapper
     = Done (w, Err (CRJiter (IoError 5%N) "S/B (string) type", 20)) /\ written w = bs "{""ключ"":""你") /\
  (exists w, convert_normal_to_ddb 300 (mkReader (firstn 20 ex_plain) ones) (mkWriter [] None) (cells 16) (cells 400) false false
     = Done (w, Err (CScan (ActionError "Failed to write string value" 15), 15)) /\ written w = bs "{""ключ"":{""S"":""你") /\
  (exists w e, convert_normal_to_ddb 300 (mkReader (bs "[""ключ"",true]") (repeat (Chunk 0) 14 ++ [Fail 5%N])) (mkWriter [] None) (cells 8) (cells 400) false false
     = Done (w, Err e) /\ written w = bs "{""L"":[{""S"":""ключ""},{""BOOL"":true}") /\
  (exists e, id_run (bs "{""#top"":[""你"",1 1") ones 8 = Some (bs "{[""你"",1", Err e, [49%N])).
Proof.
  split; [eexists; split; vm_compute; reflexivity|]. split; [eexists; split; vm_compute; reflexivity|].
  split; [do 2 eexists; split; vm_compute; reflexivity|eexists; vm_compute; reflexivity].
Qed.
(** So of the program: what has reached its output is UTF-8, whatever its exit status, though its buffer is lost when it fails (C63). *)
Theorem C100_program : forall a fuel rd d v, characters (src rd) -> run a fuel rd None = Done (d, v) -> characters d.
Proof. exact run_utf8. Qed.
Print Assumptions C100_program.
(** 4094 letters of two bytes, and then a wrong value: what has been written does not fit in the buffer of 8192 bytes. *)
Definition ex_letters : bytes := [QUOTE] ++ List.concat (repeat (bs "я") 4094) ++ [QUOTE].
Example C100_program_example : exists d e i,
  characters (ex_letters ++ bs """я"" ]") /\ run (to_ddb false) 300 (mkReader (ex_letters ++ bs """я"" ]") []) None = Done (d, Failure e i) /\ len d = 8198.
Proof.
  do 3 eexists. split; [apply characters_eq; vm_compute; reflexivity|]. split; vm_compute; reflexivity.
Qed.
(** With a writer that fails it is false: a character is cut if the writer fails inside it. *)
Theorem C100_failure_refuted : exists input n e w,
  characters input /\ convert_ddb_to_normal 300 (mkReader input []) (mkWriter [] (Some (n, e))) (cells 100) (cells 400) false AsWrapper = Done (w, Err (CRJiter (IoError e) "S/B (string) type", 26)) /\
  ~ characters (written w).
Proof.
  exists ex_item, 14, 7%N. eexists. split; [apply characters_eq; vm_compute; reflexivity|]. split; [vm_compute; reflexivity|].
  rewrite <- characters_eq. vm_compute. discriminate.
Qed.
Print Assumptions C100_failure_refuted.
(** Nor is input refused that is not UTF-8: it is copied. *)
Theorem C100_other_input_refuted : exists input out,
  ~ characters input /\ id_run input [] 16 = Some (out, Ok tt, []) /\ ~ characters out.
Proof. exists [QUOTE; 255%N; QUOTE]. eexists. split; [|split; [vm_compute; reflexivity|]]; rewrite <- characters_eq; vm_compute; discriminate. Qed.
Print Assumptions C100_other_input_refuted.
