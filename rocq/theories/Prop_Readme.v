(** Properties C85 and C86 of the example programs of the README files. Only statements, examples and assumptions. *)
From Verif Require Import Base U8Pool Buffer BufferSpec Jiter RJiter RJiterSpec Scan ScanSpec IdSpec Readme ReadmeSpec.
From Verif Require Import ScanExamples ReadmeProofs PeekTokens Tests_Readme.

(** C85: the program that prints what a language model says, for every answer and every stream of events whose contents
    are strings, ... *)
Theorem C85_what_the_model_says_partial : forall clean pad vs json,
  (clean = true -> Forall leading json) -> indented pad json ->
  sequence llm_tokens (filling_layout 32 clean pad) true vs None json -> Forall chatty vs -> Forall (has_room llm_room) vs ->
  eventually (fun fuel => scan_llm_output fuel json) (Done (List.concat (map said vs))).
Proof. exact llm_output_filled. Qed.
(** ... and in every other setting in which a slice is read into 32 bytes. *)
Theorem C85_in_every_setting_partial : forall m vs json,
  sane m -> may_fail m = false -> start m (rj_new (mkReader json []) (repeat 0%N 32)) ->
  sequence llm_tokens (layout m) true vs None json -> Forall chatty vs -> Forall (has_room llm_room) vs ->
  eventually (fun fuel => scan_llm_output fuel json) (Done (List.concat (map said vs))).
Proof. exact llm_output. Qed.
(** The answer in the README. *)
Definition ex_completion : json :=
  JObject [(bs "id", JString (bs "chatcmpl-Ahpq4nZeP9mESaKsCVdmZdK96IrUH")); (bs "object", JString (bs "chat.completion")); (bs "created", JNumber (bs "1735010736")); (bs "model", JString (bs "gpt-4o-mini-2024-07-18")); (bs "choices", JArray [JObject [(bs "index", JNumber (bs "0")); (bs "message", JObject [(bs "role", JString (bs "assistant")); (bs "content", JString (bs "Hello! How can I assist you today?")); (bs "refusal", JNull)]); (bs "logprobs", JNull); (bs "finish_reason", JString (bs "stop"))]]); (bs "usage", JObject [(bs "prompt_tokens", JNumber (bs "9")); (bs "completion_tokens", JNumber (bs "10")); (bs "total_tokens", JNumber (bs "19")); (bs "prompt_tokens_details", JObject [(bs "cached_tokens", JNumber (bs "0")); (bs "audio_tokens", JNumber (bs "0"))]); (bs "completion_tokens_details", JObject [(bs "reasoning_tokens", JNumber (bs "0")); (bs "audio_tokens", JNumber (bs "0")); (bs "accepted_prediction_tokens", JNumber (bs "0")); (bs "rejected_prediction_tokens", JNumber (bs "0"))])]); (bs "system_fingerprint", JString (bs "fp_0aa8d3e20b"))].
Ltac now_room := split; [vm_compute; discriminate|]; split; [vm_compute; lia|vm_compute; discriminate].
Example C85_completion_example :
  Forall leading completion /\ indented 5 completion /\
  sequence llm_tokens (filling_layout 32 true 5) true [ex_completion] None completion /\
  chatty ex_completion /\ has_room llm_room ex_completion /\
  said ex_completion = bs "(new message)" ++ [10%N] ++ bs "Hello! How can I assist you today?" ++ [10%N].
Proof.
  split; [vm_compute; repeat constructor|]. split; [apply indented_check; vm_compute; reflexivity|].
  split; [|split; [cbn; repeat split; eexists; reflexivity|split; [now_room|vm_compute; reflexivity]]].
  unfold ex_completion.
  eapply seq_value; [let l := eval vm_compute in completion in change completion with l; now_document|apply seq_end; now_spaces].
Qed.
(** The first events and the end of the stream in the README. *)
Definition ex_events : list json :=
  [JObject [(bs "choices", JArray [JObject [(bs "index", JNumber (bs "0")); (bs "delta", JObject [(bs "role", JString (bs "assistant")); (bs "content", JString (bs "")); (bs "refusal", JNull)]); (bs "logprobs", JNull); (bs "finish_reason", JNull)]]); (bs "id", JString (bs "chatcmpl-AgMB1khICnwswjgqIl2X2jr587Nep")); (bs "object", JString (bs "chat.completion.chunk")); (bs "created", JNumber (bs "1734658387")); (bs "model", JString (bs "gpt-4o-mini-2024-07-18")); (bs "system_fingerprint", JString (bs "fp_d02d531b47"))];
   JObject [(bs "choices", JArray [JObject [(bs "index", JNumber (bs "0")); (bs "delta", JObject [(bs "content", JString (bs "Hello"))]); (bs "logprobs", JNull); (bs "finish_reason", JNull)]]); (bs "id", JString (bs "chatcmpl-AgMB1khICnwswjgqIl2X2jr587Nep")); (bs "object", JString (bs "chat.completion.chunk")); (bs "created", JNumber (bs "1734658387")); (bs "model", JString (bs "gpt-4o-mini-2024-07-18")); (bs "system_fingerprint", JString (bs "fp_d02d531b47"))]].
Definition ex_events_text : bytes := firstn 564 events ++ skipn (len events - 15) events.
Ltac now_foreign := split; [reflexivity|]; repeat (constructor; [discriminate|]); constructor.
Ltac now_token l :=
  let w := cut_ l lead in let x := cut_ l (fun z : bytes => hd 0%N (behind z)) in let r := cut_ l (fun z : bytes => skipn 5 (behind z)) in
  refine (seq_token _ _ _ w x (bs "ata:") _ _ r _ _ _ _ _); [now_spaces|now_foreign|reflexivity|intros HO; discriminate HO|].
Ltac now_mark l :=
  let w := cut_ l lead in
  refine (seq_mark _ _ _ w [] 68%N (bs "ONE") [] _ _ _ eq_refl _ _ _ _ _ _ _); [now_spaces|now_spaces|now_foreign|discriminate|now_spaces|reflexivity|].
Ltac now_events :=
  lazymatch goal with
  | |- sequence _ _ _ [] _ ?l =>
      first [apply seq_end; now_spaces | now_token l; now_events | now_mark l; now_events]
  | |- sequence _ _ _ (_ :: _) _ ?l => first [now_token l | eapply seq_value; [now_document|]]; now_events
  end.
Example C85_events_example :
  Forall leading ex_events_text /\ indented 1 ex_events_text /\
  sequence llm_tokens (filling_layout 32 true 1) true ex_events None ex_events_text /\
  Forall chatty ex_events /\ Forall (has_room llm_room) ex_events /\
  List.concat (map said ex_events) = bs "Hello".
Proof.
  split; [vm_compute; repeat constructor|]. split; [apply indented_check; vm_compute; reflexivity|].
  split; [|split; [cbn; repeat constructor; eexists; reflexivity|split; [repeat (constructor; [now_room|]); constructor|vm_compute; reflexivity]]].
  unfold ex_events. let l := eval vm_compute in ex_events_text in change ex_events_text with l. now_events.
Qed.
(** What does not hold: the program ends in a panic if a content is not a string (null, as in answers that call tools), ... *)
Theorem C85_null_refuted : exists v json, documents (filling_layout 32 true 0) [v] json /\ v = JObject [(bs "content", JNull)] /\
  forall fuel, 10 <= fuel -> scan_llm_output fuel json = Panic.
Proof.
  exists (JObject [(bs "content", JNull)]), (bs "{""content"":null} "). split; [|split; [reflexivity|]].
  - let l := eval vm_compute in (bs "{""content"":null} ") in change (bs "{""content"":null} ") with l. now_documents.
  - intros fuel Hf. do 10 (destruct fuel as [|fuel]; [lia|]). vm_compute. reflexivity.
Qed.
(** ... if an event's data follows the colon directly, and its first key is at the end of the buffer, ... *)
Definition ex_event (n : nat) : bytes := bs "data:{""x"":""" ++ repeat 97%N n ++ bs """} data:{""content"":""y""} ".
Theorem C85_direct_data_refuted : exists n m, scan_llm_output 100 (ex_event n) = Done (bs "y") /\ scan_llm_output 100 (ex_event m) = Panic.
Proof. exists 0, 4. vm_compute. split; reflexivity. Qed.
(** ... and if a key does not fit in the buffer. *)
Theorem C85_long_key_refuted : exists k, len k = 29 /\
  scan_llm_output 100 (bs "{ """ ++ tl k ++ bs """:1} ") = Done [] /\ scan_llm_output 100 (bs "{ """ ++ k ++ bs """:1} ") = Panic.
Proof. exists (repeat 97%N 29). vm_compute. repeat split. Qed.
Print Assumptions C85_what_the_model_says_partial.
Print Assumptions C85_in_every_setting_partial.
Print Assumptions C85_null_refuted.
Print Assumptions C85_direct_data_refuted.
Print Assumptions C85_long_key_refuted.

(** C86: the program that looks for a value behind tokens finds it, whatever the chunks, and tells when there is none. *)
Theorem C86_value_behind_tokens : forall tokens s found,
  valid s -> rquiet s = true -> 2 <= rcap s -> Forall (fun k => k <> [] /\ len k <= rcap s) tokens -> token_run tokens (rest s) found ->
  exists s' r, eventually (fun fuel => peek_skipping_tokens fuel tokens s) (Done (s', r)) /\
    valid s' /\ rcap s' = rcap s /\ rquiet s' = true /\ total s' = total s /\
    match found with
    | Some (x, l) => r = Ok x /\ rest s' = x :: l
    | None => (exists e, r = Err e /\ err_type e = JsonError EofWhileParsingValue) /\ rest s' = []
    end.
Proof. exact behind_tokens. Qed.
(** rjiter/README.md:132-135, 151-158. *)
Definition ex_ping : bytes := nl ++ bs "    event: ping" ++ nl ++ bs "    data: {""type"": ""ping""}" ++ nl.
Definition ping_tokens : list bytes := [bs "data:"; bs "event:"; bs "ping"].
Example C86_example : let s := rj_new (mkReader ex_ping [Chunk 3; Chunk 0; Chunk 8]) (repeat 0%N 10) in
  valid s /\ rquiet s = true /\ rcap s = 10 /\ Forall (fun k => k <> [] /\ len k <= rcap s) ping_tokens /\
  token_run ping_tokens (rest s) (Some (LBRACE, bs """type"": ""ping""}" ++ nl)) /\ token_run ping_tokens (bs " ping data: ") None.
Proof.
  cbv zeta. split; [unfold valid, wf; vm_compute; repeat split; repeat constructor|]. split; [reflexivity|]. split; [reflexivity|].
  split; [repeat constructor; try discriminate; vm_compute; repeat constructor|]. split.
  - refine (run_token ping_tokens [10; 32; 32; 32; 32]%N 101%N (bs "vent:") (skipn 11 ex_ping) _ _ _ _ _); [now_spaces|reflexivity|reflexivity|].
    refine (run_token ping_tokens [32]%N 112%N (bs "ing") (skipn 16 ex_ping) _ _ _ _ _); [now_spaces|reflexivity|reflexivity|].
    refine (run_token ping_tokens [10; 32; 32; 32; 32]%N 100%N (bs "ata:") (skipn 26 ex_ping) _ _ _ _ _); [now_spaces|reflexivity|reflexivity|].
    exact (run_here ping_tokens [32]%N LBRACE (skipn 28 ex_ping) ltac:(now_spaces) eq_refl eq_refl).
  - refine (run_token ping_tokens [32]%N 112%N (bs "ing") (bs " data: ") _ _ _ _ _); [now_spaces|reflexivity|reflexivity|].
    refine (run_token ping_tokens [32]%N 100%N (bs "ata:") (bs " ") _ _ _ _ _); [now_spaces|reflexivity|reflexivity|]. apply run_end. now_spaces.
Qed.
(** With an empty token the program goes on for ever, so the above does not hold for it; ... *)
Theorem C86_empty_token_never_ends : forall tokens s w x l,
  valid s -> rquiet s = true -> 2 <= rcap s -> Forall (fun k => len k <= rcap s) tokens ->
  rest s = w ++ x :: l -> spaces w -> is_ascii_whitespace x = false -> first_token tokens (x :: l) = Some [] ->
  forall fuel, peek_skipping_tokens fuel tokens s = Diverge.
Proof. exact empty_token. Qed.
Theorem C86_empty_token_refuted : exists s, valid s /\ rquiet s = true /\ rcap s = 6 /\ token_run [bs "data:"] (rest s) (Some (49%N, [])) /\
  forall fuel, peek_skipping_tokens fuel [bs "data:"; []] s = Diverge.
Proof.
  set (s := rj_new (mkReader (bs " 1") []) (repeat 0%N 6)).
  assert (V : valid s) by (unfold valid, wf; vm_compute; repeat split; repeat constructor).
  exists s. split; [exact V|]. split; [reflexivity|]. split; [reflexivity|]. split.
  - exact (run_here [bs "data:"] [32]%N 49%N [] ltac:(now_spaces) eq_refl eq_refl).
  - apply (C86_empty_token_never_ends _ s [32]%N 49%N []); [exact V|reflexivity|vm_compute; lia|repeat constructor|reflexivity|now_spaces|reflexivity|reflexivity].
Qed.
(** ... a value that starts with a token loses its start. *)
Theorem C86_value_start_refuted : exists s s', rest s = bs "null " /\
  peek_skipping_tokens 3 [bs "data:"; bs "nul"] s = Done (s', Ok 108%N) /\ rest s' = bs "l ".
Proof. exists (rj_new (mkReader (bs "null ") []) (repeat 0%N 8)). eexists. split; [reflexivity|]. split; vm_compute; reflexivity. Qed.
Print Assumptions C86_value_behind_tokens.
Print Assumptions C86_empty_token_never_ends.
Print Assumptions C86_empty_token_refuted.
Print Assumptions C86_value_start_refuted.
