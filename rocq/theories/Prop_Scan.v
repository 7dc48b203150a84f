(** Properties C28-C32 and C39 of the scanner. Only statements, examples and assumptions. *)
From Verif Require Import Base U8Pool Buffer BufferSpec Jiter RJiter RJiterSpec Scan ScanSpec.
From Verif Require Import ScanStack ScanProofs ScanTop ScanBalance ScanSse ScanExamples.

(** C28: path matching is prefix matching. *)
Theorem C28_iter_match_is_prefix : forall expected s path, iter_match expected s path = true <-> matches expected s path.
Proof. exact iter_match_spec. Qed.
Example C28_example : iter_match [bs "#object"; bs "a"] PObject [bs "a"; bs "b"; bs "#top"] = true /\
  iter_match [bs "a"; bs "#top"] PNone [bs "a"; bs "b"; bs "#top"] = false.
Proof. split; reflexivity. Qed.
Print Assumptions C28_iter_match_is_prefix.

(** C29, what holds: whatever the input and the callbacks, a scan that succeeds leaves exactly one name more than it
    found. *)
Theorem C29_one_name_is_left : forall B (cb : callbacks B) o fuel d s es s' v,
  stack_of d (stack s) es -> scan cb o fuel s = Done (s', Ok v) -> stack_of d (stack s') ((pos_code Top, bs "#top") :: es).
Proof. exact @scan_leaves_top. Qed.
(** ... so that the working buffer is not as it was. *)
Theorem C29_buffer_restored_refuted : exists (s s' : sstate (list note)) fuel,
  scan observer (mkOptions [] false) fuel s = Done (s', Ok tt) /\
  context_of (stack s) = Done (mkCtx [] 0) /\ context_of (stack s') = Done (mkCtx [bs "#top"] 1).
Proof. exists (mkS (ex_rj (bs "1 ") [] 8) [] (ex_pool 60 5)). eexists. exists 10. vm_compute. repeat split. Qed.
(** Calls of scan with the same working buffer: the answers. *)
Fixpoint answers (n : nat) (input : bytes) (p : pool) : list (option (result unit scan_error)) :=
  match n with
  | 0 => []
  | S n' =>
      match scan observer (mkOptions [] false) 100 (mkS (ex_rj input [] 8) [] p) with
      | Done (s, r) => Some r :: answers n' input (stack s)
      | _ => [None]
      end
  end.
Theorem C29_reuse_refuted : exists d p input, fresh d p /\ slices d = 5%N /\
  answers 6 input p = repeat (Some (Ok tt)) 5 ++ [Some (Err (MaxNestingExceeded 0 0))].
Proof. exists (mkDims 5 40), (ex_pool 60 5), (bs "1 "). split; [exact ex_fresh|]. vm_compute. split; reflexivity. Qed.
Example C29_example : exists s' : sstate (list note),
  stack_of (mkDims 5 40) (ex_pool 60 5) [] /\
  scan observer (mkOptions [] false) 100 (mkS (ex_rj ex_text [Chunk 3; Chunk 0; Chunk 5] 12) [] (ex_pool 60 5)) = Done (s', Ok tt).
Proof. eexists. split; [exact (stack_fresh _ _ ex_fresh)|vm_compute; reflexivity]. Qed.
Print Assumptions C29_one_name_is_left.
Print Assumptions C29_buffer_restored_refuted.
Print Assumptions C29_reuse_refuted.

(** C30: for all callbacks that keep to the contract ([respects]: a begin callback leaves the parser in front of the value
    or right behind it), the user state and the way the scan ends are those of the tree walk, which asks for every begin
    and end once, in document order, with the names of the enclosing members and arrays. *)
Theorem C30_scan_is_the_tree_walk : forall B (cb : callbacks B) beh m d o s vs,
  sane m -> respects (between m) (layout m) cb beh -> (may_fail m = true -> sse_tokens o = []) -> stop_early o = false ->
  start m (parser s) -> documents (layout m) vs (rest (parser s)) -> fresh d (stack s) ->
  exists u st, walk_top d (fun path => walk_items beh d (may_fail m) path vs) [] (user s) u st /\
    outcome_is (fun fuel => scan cb o fuel s) u st (fun s' => start m (parser s') /\ rest (parser s') = []).
Proof. exact @prop_sequence. Qed.
(** The same for callbacks that note everything: the notes are those of the document, whatever the chunks. *)
Theorem C30_events_in_document_order : forall m d o s vs,
  sane m -> may_fail m = false -> stop_early o = false ->
  start m (parser s) -> documents (layout m) vs (rest (parser s)) -> fresh d (stack s) ->
  let t := room d [] (bs "#top") (trace_values d [bs "#top"] vs) in
  outcome_is (fun fuel => scan observer o fuel s) (user s ++ fst t) (end_of t)
    (fun s' => start m (parser s') /\ rest (parser s') = []).
Proof. exact prop_observe. Qed.
Definition ex_start (i : bytes) : sstate (list note) := mkS (ex_rj i [Chunk 3; Chunk 0; Chunk 5; Chunk 1] 12) [] (ex_pool 60 5).
Example ex_chunked i : Forall leading i -> start (InChunks 12 true) (parser (ex_start i)) /\ rest (parser (ex_start i)) = i.
Proof.
  intros H. split; [|reflexivity]. split; [unfold valid, wf; vm_compute; repeat split; repeat constructor|].
  split; [reflexivity|]. split; [|reflexivity]. intros _. split; [vm_compute; repeat constructor|exact H].
Qed.
Example C30_example :
  sane (InChunks 12 true) /\ start (InChunks 12 true) (parser (ex_start ex_text)) /\
  documents (layout (InChunks 12 true)) ex_values (rest (parser (ex_start ex_text))) /\ fresh (mkDims 5 40) (stack (ex_start ex_text)) /\
  trace_values (mkDims 5 40) [bs "#top"] ex_values =
    ([Begin PObject [bs "#top"];
      Begin PNone [bs "k"; bs "#top"]; Begin PArray [bs "k"; bs "#top"]; Begin PAtom [bs "#array"; bs "k"; bs "#top"];
      Begin PObject [bs "#array"; bs "k"; bs "#top"]; Begin PNone [bs "b"; bs "#array"; bs "k"; bs "#top"];
      Begin PAtom [bs "b"; bs "#array"; bs "k"; bs "#top"]; End PNone [bs "b"; bs "#array"; bs "k"; bs "#top"];
      End PObject [bs "#array"; bs "k"; bs "#top"]; End PArray [bs "k"; bs "#top"]; End PNone [bs "k"; bs "#top"];
      Begin PNone [bs "e"; bs "#top"]; Begin PObject [bs "e"; bs "#top"]; End PObject [bs "e"; bs "#top"]; End PNone [bs "e"; bs "#top"];
      End PObject [bs "#top"]; Begin PAtom [bs "#top"]], None) /\
  respects (between (InChunks 12 true)) (layout (InChunks 12 true)) observer observer_behaviour.
Proof.
  split; [vm_compute; lia|]. split; [apply ex_chunked; vm_compute; repeat constructor|]. split; [exact ex_documents|]. split; [exact ex_fresh|].
  split; [vm_compute; reflexivity|apply observer_respects].
Qed.
Print Assumptions C30_scan_is_the_tree_walk.
Print Assumptions C30_events_in_document_order.

(** C31: with [stop_early] the scan ends right behind the first value, whatever comes then ... *)
Theorem C31_stops_behind_first_value : forall B (cb : callbacks B) beh m d o s v r,
  sane m -> respects (between m) (layout m) cb beh -> (may_fail m = true -> sse_tokens o = []) -> stop_early o = true ->
  start m (parser s) -> document (layout m) v (rest (parser s)) r -> fresh d (stack s) ->
  exists u st, walk_top d (fun path => walk_value beh d (may_fail m) path v) [] (user s) u st /\
    outcome_is (fun fuel => scan cb o fuel s) u st (fun s' => between m (parser s') /\ rest (parser s') = r).
Proof. exact @prop_single. Qed.
(** ... also for callbacks that note everything ... *)
Theorem C31_observed_single : forall m d o s v r,
  sane m -> may_fail m = false -> stop_early o = true ->
  start m (parser s) -> document (layout m) v (rest (parser s)) r -> fresh d (stack s) ->
  let t := room d [] (bs "#top") (trace_value d [bs "#top"] v) in
  outcome_is (fun fuel => scan observer o fuel s) (user s ++ fst t) (end_of t)
    (fun s' => between m (parser s') /\ rest (parser s') = r).
Proof. exact prop_observe_single. Qed.
(** ... without it all values are read, up to the end of the input or to a byte that is out of place, which is an error.
    (Such a byte is first offered to the callback for atoms: here there is none.) *)
Theorem C31_reads_all_or_fails : forall B (cb : callbacks B) beh m d o s vs bad,
  sane m -> respects (between m) (layout m) cb beh -> may_fail m = false -> stop_early o = false -> sse_tokens o = [] ->
  (forall u, find_action cb PAtom (mkCtx [bs "#top"] 1) u = (u, None)) ->
  start m (parser s) -> sequence [] (layout m) false vs bad (rest (parser s)) -> fresh d (stack s) ->
  admit_name d [] (bs "#top") = None ->
  exists u st, walk_items beh d false [bs "#top"] vs (user s) u st /\
    sequence_outcome (fun fuel => scan cb o fuel s) bad u st (fun s' => start m (parser s') /\ rest (parser s') = []).
Proof. exact @prop_all_or_fail. Qed.
Example C31_example :
  (exists r, document (layout (InChunks 12 true)) (JArray [JNumber (bs "12")]) (rest (parser (ex_start (bs " [12 ] xyz")))) r /\ r = bs " xyz") /\
  sequence [] (layout (InChunks 12 true)) false [JArray [JNumber (bs "12")]] (Some 120%N) (rest (parser (ex_start (bs " [12 ] xyz")))).
Proof.
  assert (H : document (layout (InChunks 12 true)) (JArray [JNumber (bs "12")]) [32; 91; 49; 50; 32; 93; 32; 120; 121; 122]%N [32; 120; 121; 122]%N)
    by now_document.
  split.
  - eexists. split; [exact H|reflexivity].
  - eapply seq_value; [exact H|]. refine (seq_bad [] _ _ [32%N] 120%N [121; 122]%N _ _ _); [now_spaces| |reflexivity].
    split; [reflexivity|]. repeat (constructor; [discriminate|]). constructor.
Qed.
Print Assumptions C31_stops_behind_first_value.
Print Assumptions C31_observed_single.
Print Assumptions C31_reads_all_or_fails.

(** C32: if the names of every path fit in the bytes of the working buffer, the scan succeeds if and only if no path has
    more names than the working buffer has slices; otherwise it ends with MaxNestingExceeded with that number and the current position, and the notes are those of
    the document up to the name there is no slice for. *)
Theorem C32_limits_are_exact : forall m d o s vs,
  sane m -> may_fail m = false -> stop_early o = false ->
  start m (parser s) -> documents (layout m) vs (rest (parser s)) -> fresh d (stack s) ->
  (1 <= slices d)%N ->
  let n := 5 + list_max (map mass vs) in n <= space_for d -> (N.of_nat n <= 65535)%N ->
  let t := trace_values d [bs "#top"] vs in
  exists s', user s' = user s ++ fst t /\
    if (N.of_nat (1 + list_max (map depth vs)) <=? slices d)%N
    then snd t = None /\ eventually (fun fuel => scan observer o fuel s) (Done (s', Ok tt))
    else snd t = Some (TooDeep (slices d)) /\
      eventually (fun fuel => scan observer o fuel s) (Done (s', Err (MaxNestingExceeded (current_index (parser s')) (slices d)))).
Proof. exact prop_limits. Qed.
Example C32_example :
  map depth ex_values = [3; 0] /\ map mass ex_values = [11; 0] /\
  snd (trace_values (mkDims 4 40) [bs "#top"] ex_values) = None /\ snd (trace_values (mkDims 3 40) [bs "#top"] ex_values) = Some (TooDeep 3).
Proof. vm_compute. repeat split. Qed.
Print Assumptions C32_limits_are_exact.

(** C39, what holds: tokens between the values are skipped, and the events are those of the values (callbacks without an
    action for atoms at the top level; the first byte of a token does not begin a JSON value). So are tokens in brackets, as
    the [[DONE]] of event streams, if no callback is interested in arrays at the top level or atoms in them ([marks]). *)
Theorem C39_tokens_between_values_skipped : forall B (cb : callbacks B) beh m d o marks s vs bad,
  sane m -> respects (between m) (layout m) cb beh -> may_fail m = false -> stop_early o = false ->
  (forall u, find_action cb PAtom (mkCtx [bs "#top"] 1) u = (u, None)) ->
  Forall (fun t => len t <= size_of m) (sse_tokens o) -> (marks = true -> marks_pass cb d) ->
  start m (parser s) -> sequence (sse_tokens o) (layout m) marks vs bad (rest (parser s)) -> fresh d (stack s) ->
  admit_name d [] (bs "#top") = None ->
  exists u st, walk_items beh d false [bs "#top"] vs (user s) u st /\
    sequence_outcome (fun fuel => scan cb o fuel s) bad u st (fun s' => start m (parser s') /\ rest (parser s') = []).
Proof. exact @prop_tokens. Qed.
Example C39_example :
  sequence [bs "event:"; bs "data:"] (layout (InChunks 12 true)) false [JArray [JNumber (bs "12")]; JNull] None (bs " data: [12]  data:null") /\
  respects (between (InChunks 12 true)) (layout (InChunks 12 true)) struct_observer struct_behaviour /\
  (forall u, find_action struct_observer PAtom (mkCtx [bs "#top"] 1) u = (u, None)).
Proof.
  split; [|split; [apply struct_respects|reflexivity]].
  refine (seq_token _ _ _ [32%N] 100%N (bs "ata:") _ _ (bs " [12]  data:null") _ _ _ _ _); [now_spaces| |reflexivity|exact I|].
  { split; [reflexivity|]. repeat (constructor; [discriminate|]). constructor. }
  eapply seq_value; [let l := eval vm_compute in (bs " [12]  data:null") in change (bs " [12]  data:null") with l; now_document|].
  refine (seq_token _ _ _ [32; 32]%N 100%N (bs "ata:") _ _ (bs "null") _ _ _ _ _); [now_spaces| |reflexivity|exact I|].
  { split; [reflexivity|]. repeat (constructor; [discriminate|]). constructor. }
  eapply seq_value; [let l := eval vm_compute in (bs "null") in change (bs "null") with l; now_document|].
  apply seq_end. now_spaces.
Qed.
(** A reader that fills the buffer, compact JSON, and a token in brackets. *)
Definition ex_stream : bytes := bs "data: {""k"":[{""long_key"":12}]} data: [ DONE ]".
Example C39_marked_example :
  let s := mkS (ex_rj ex_stream [] 16) ([] : list note) (ex_pool 60 5) in
  sane (Filling 16 true 1) /\ start (Filling 16 true 1) (parser s) /\
  sequence [bs "data:"; bs "DONE"] (layout (Filling 16 true 1)) true
    [JObject [(bs "k", JArray [JObject [(bs "long_key", JNumber (bs "12"))]])]] None (rest (parser s)) /\
  respects (between (Filling 16 true 1)) (layout (Filling 16 true 1)) name_observer name_behaviour /\ marks_pass name_observer (mkDims 5 40).
Proof.
  cbv zeta. split; [vm_compute; lia|]. split; [|split; [|split; [apply name_respects|]]].
  - split; [split; [unfold valid, wf; vm_compute; repeat split; repeat constructor|split; [reflexivity|split; [|reflexivity]]]|].
    + intros _. split; [vm_compute; repeat constructor|]. vm_compute. repeat constructor.
    + split; [apply indented_check; vm_compute; reflexivity|intros H; discriminate H].
  - refine (seq_token _ _ _ [] 100%N (bs "ata:") _ _ (skipn 5 ex_stream) _ _ _ _ _); [now_spaces| |reflexivity|intros H; discriminate H|].
    { split; [reflexivity|]. repeat (constructor; [discriminate|]). constructor. }
    eapply seq_value; [let l := eval vm_compute in (skipn 5 ex_stream) in change (skipn 5 ex_stream) with l; now_document|].
    refine (seq_token _ _ _ [32%N] 100%N (bs "ata:") _ _ (bs " [ DONE ]") _ _ _ _ _); [now_spaces| |reflexivity|intros H; discriminate H|].
    { split; [reflexivity|]. repeat (constructor; [discriminate|]). constructor. }
    refine (seq_mark _ _ _ [32%N] [32%N] 68%N (bs "ONE") [32%N] _ _ [] eq_refl _ _ _ _ _ _ _); [now_spaces|now_spaces| |discriminate|now_spaces|reflexivity|].
    { split; [reflexivity|]. repeat (constructor; [discriminate|]). constructor. }
    apply seq_end. now_spaces.
  - split; [reflexivity|]. intros u. repeat split.
Qed.
(** What does not hold: a token in place of an element of a top-level array is skipped too ... *)
Theorem C39_inside_values_refuted : exists (s s' : sstate (list note)) fuel,
  rest (parser s) = bs "[data:, 2] " /\
  scan struct_observer (mkOptions [bs "data:"] false) fuel s = Done (s', Ok tt).
Proof. exists (ex_start (bs "[data:, 2] ")). eexists. exists 100. vm_compute. split; reflexivity. Qed.
(** ... the callbacks for atoms are called for tokens ... *)
Theorem C39_events_refuted : exists (s s' : sstate (list note)) fuel,
  rest (parser s) = bs "data: [] " /\
  scan observer (mkOptions [bs "data:"] false) fuel s = Done (s', Ok tt) /\
  user s' = [Begin PAtom [bs "#top"]; Begin PArray [bs "#top"]; End PArray [bs "#top"]].
Proof. exists (ex_start (bs "data: [] ")). eexists. exists 100. vm_compute. repeat split. Qed.
(** ... and with an empty token the scan may go on for ever. *)
Theorem C39_empty_token_refuted : exists s : sstate (list note), rest (parser s) = bs "x" /\
  forall fuel, scan struct_observer (mkOptions [[]] false) fuel s = Diverge.
Proof. exact empty_token_diverges. Qed.
Print Assumptions C39_tokens_between_values_skipped.
Print Assumptions C39_inside_values_refuted.
Print Assumptions C39_events_refuted.
Print Assumptions C39_empty_token_refuted.
