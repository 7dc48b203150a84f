(** Property C55 of the scanner and what holds of C35 of idtransform. Only statements, examples and assumptions. *)
From Verif Require Import Base U8Pool Buffer BufferSpec Jiter RJiter RJiterSpec Scan ScanSpec IdTransform IdSpec SoundSpec.
From Verif Require Import ScanExamples ScanTop IdProofs ScanSound SoundResults Prop_IdTransform.

(** C55: whatever the reader, the chunks and the buffer (two bytes and more), for all callbacks that read what they say they
    read ([heeds]): a scan that succeeds has read the texts of some values and then white space up to the end of the
    input, and has asked for the callbacks of the walk through these values. SoundSpec.v lists what [lax_documents] allows
    beyond JSON. *)
Theorem C55_success_means_values_partial : forall B (cb : callbacks B) beh whole c d o fuel s s',
  2 <= c -> heeds whole c cb beh -> sse_tokens o = [] -> stop_early o = false ->
  before whole c (parser s) -> fresh d (stack s) -> scan cb o fuel s = Done (s', Ok tt) ->
  exists vs r, lax_documents whole true vs (rest (parser s)) r /\ blanks r /\
    walk_items beh d false [bs "#top"] vs (user s) (user s') Through.
Proof. exact @sound_all. Qed.
(** With [stop_early]: white space up to the end of the input, or one value. *)
Theorem C55_first_value_partial : forall B (cb : callbacks B) beh whole c d o fuel s s',
  2 <= c -> heeds whole c cb beh -> sse_tokens o = [] -> stop_early o = true ->
  before whole c (parser s) -> fresh d (stack s) -> scan cb o fuel s = Done (s', Ok tt) ->
  (blanks (rest (parser s)) /\ user s' = user s) \/
  exists v, lax_document whole true v (rest (parser s)) (rest (parser s')) /\
    walk_value beh d false [bs "#top"] v (user s) (user s') Through.
Proof. exact @sound_first. Qed.
(** Callbacks that note everything: the notes are those of values the input consists of. *)
Theorem C55_notes_partial : forall whole c d o fuel s s',
  2 <= c -> sse_tokens o = [] -> stop_early o = false ->
  before whole c (parser s) -> fresh d (stack s) -> scan observer o fuel s = Done (s', Ok tt) ->
  exists vs r, lax_documents whole true vs (rest (parser s)) r /\ blanks r /\
    user s' = user s ++ fst (trace_values d [bs "#top"] vs).
Proof. exact observed_all. Qed.
Definition ex_anyhow (i : bytes) : sstate (list note) := mkS (ex_rj i [Chunk 3; Chunk 0; Chunk 5] 26) [] (ex_pool 60 5).
Example C55_example : exists s', 2 <= 26 /\ heeds false 26 observer observer_behaviour /\
  before false 26 (parser (ex_anyhow (bs "{""a"":[1]}7 "))) /\ fresh (mkDims 5 40) (stack (ex_anyhow (bs "{""a"":[1]}7 "))) /\
  scan observer (mkOptions [] false) 100 (ex_anyhow (bs "{""a"":[1]}7 ")) = Done (s', Ok tt) /\
  user s' = fst (trace_values (mkDims 5 40) [bs "#top"] [JObject [(bs "a", JArray [JNumber (bs "1")])]; JNumber (bs "7")]).
Proof.
  eexists. split; [lia|]. split; [apply observer_heeds|].
  split; [split; [unfold valid, wf; vm_compute; repeat split; repeat constructor|split; [reflexivity|discriminate]]|].
  split; [exact ex_fresh|]. split; vm_compute; reflexivity.
Qed.
(** Some of what is accepted beyond JSON: an opening brace too many, a key without a value, numbers that run into each other. *)
Theorem C55_junk_refuted : forall i v, In (i, v) [(bs "{{}", [JObject []]); (bs "{""a"" {}", [JObject []]); (bs "1-2 ", [JNumber (bs "1"); JNumber (bs "-2")])] ->
  exists s', scan observer (mkOptions [] false) 100 (mkS (ex_rj i [] 26) [] (ex_pool 60 5)) = Done (s', Ok tt) /\ user s' = fst (trace_values (mkDims 5 40) [bs "#top"] v).
Proof. intros i v [E|[E|[E|[]]]]; injection E as <- <-; eexists; split; vm_compute; reflexivity. Qed.
Print Assumptions C55_success_means_values_partial.
Print Assumptions C55_first_value_partial.
Print Assumptions C55_notes_partial.
Print Assumptions C55_junk_refuted.

(** C35, what holds: whatever the reader, the chunks and the buffer, idtransform succeeds if nothing but white space is in the
    input (then nothing is written), or else the input starts with the text of a value, the parser is left right behind
    it, and the compact copy of the value is written. *)
Theorem C35_success_means_a_value_partial : forall whole c, 2 <= c -> forall d r w p r' w' p' fuel,
  before whole c r -> fresh d p -> idtransform fuel r w p = Done (r', w', p', Ok tt) ->
  (blanks (rest r) /\ w' = w) \/
  exists v, lax_document whole true v (rest r) (rest r') /\ (ordinary v -> spent w (compact v) w').
Proof. exact idt_sound. Qed.
(** Input that is in the buffer after the first read, without form feeds: it starts with white space and plain JSON,
    apart from [junk] in front of it. *)
Theorem C35_success_means_json_partial : forall c d r w p r' w' p' fuel,
  2 <= c -> valid r -> rcap r = c -> at_once (bf r) -> ~ In 12%N (rest r) -> delimited (rest r') -> fresh d p ->
  idtransform fuel r w p = Done (r', w', p', Ok tt) ->
  (spaces (rest r) /\ w' = w) \/
  exists v, (ordinary v -> spent w (compact v) w') /\
    (document any_layout v (rest r) (rest r') \/
     exists w j l, rest r = w ++ j ++ l /\ spaces w /\ junk j /\ value_at any_layout false v l (rest r')).
Proof. exact idt_strict. Qed.
Example C35_example :
  before false 8 (ex_rj ex_input [Chunk 3; Chunk 0; Fail 5%N] 8) /\
  (exists r' w' p', idtransform 100 (ex_rj ex_input [Chunk 3; Chunk 0; Chunk 5] 8) (mkWriter [] None) (ex_pool 60 5) = Done (r', w', p', Ok tt)) /\
  at_once (bf (ex_rj ex_input [] 80)) /\ ~ In 12%N ex_input /\ id_run ex_input [] 80 = Some (compact ex_value, Ok tt, [32%N]).
Proof.
  split; [split; [unfold valid, wf; vm_compute; repeat split; repeat constructor|split; [reflexivity|discriminate]]|].
  split; [do 3 eexists; vm_compute; reflexivity|]. split; [right; vm_compute; repeat split; repeat constructor|].
  split; [|vm_compute; reflexivity]. intros H. vm_compute in H. repeat (destruct H as [H|H]; [discriminate|]). exact H.
Qed.
(** The exceptions do occur. Junk: an opening brace, or a key without a value, is dropped at the start of the input, and
    within it if the buffer is small. *)
Theorem C35_junk_refuted :
  id_run (bs "{""a"" {""b"":1}") [] 16 = Some (bs "{""b"":1}", Ok tt, []) /\
  id_run (bs "{""abcd"":{{""b"":1}}") [] 8 = Some (bs "{""abcd"":{""b"":1}}", Ok tt, []) /\
  id_run (bs "{""abcd"":{{""b"":1}}") [] 32 = Some (bs "{""abcd"":{", Err (RJiterError (mkErr (JsonError KeyMustBeAString) 10)), bs "{""b"":1}}").
Proof. vm_compute. repeat split. Qed.
(** Form feeds: before the value, before and behind an element, behind a colon, behind a member. *)
Theorem C35_form_feed_refuted :
  id_run ([12%N] ++ bs "1 ") [] 8 = Some (bs "1", Ok tt, [32%N]) /\
  id_run (bs "[" ++ [12%N] ++ bs "1]") [] 8 = Some (bs "[1]", Ok tt, []) /\
  id_run (bs "[1" ++ [12%N] ++ bs ",2]") [] 8 = Some (bs "[1,2]", Ok tt, []) /\
  id_run (bs "{""a"":" ++ [12%N] ++ bs "1}") [] 9 = Some (bs "{""a"":1}", Ok tt, []) /\
  id_run (bs "{""a"":1" ++ [12%N] ++ bs "}") [] 9 = Some (bs "{""a"":1}", Ok tt, []).
Proof. vm_compute. repeat split. Qed.
(** A number needs no end. *)
Theorem C35_number_run_on_refuted : id_run (bs "12x") [] 8 = Some (bs "12", Ok tt, bs "x").
Proof. vm_compute. reflexivity. Qed.
Print Assumptions C35_success_means_a_value_partial.
Print Assumptions C35_success_means_json_partial.
Print Assumptions C35_junk_refuted.
Print Assumptions C35_form_feed_refuted.
Print Assumptions C35_number_run_on_refuted.
