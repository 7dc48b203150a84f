(** Properties C33-C38 of idtransform. Only statements, examples and assumptions. *)
From Verif Require Import Base U8Pool Buffer BufferSpec Jiter RJiter RJiterSpec Scan ScanSpec IdTransform IdSpec.
From Verif Require Import ScanStack ScanProofs ScanExamples IdProofs ReadErrors TwinId.

Definition id_run (input : bytes) (sched : list event) (size : nat) : option (bytes * result unit scan_error * bytes) :=
  match idtransform 200 (ex_rj input sched size) (mkWriter [] None) (ex_pool 100 10) with
  | Done (r, w, _, v) => Some (written w, v, rest r)
  | _ => None
  end.

(** C33: the value without white space is written and the parser is left right behind it. [layout m] says which inputs
    the buffer is large enough for; the working buffer has room for the names; no key is [#top] or [#array]. *)
Theorem C33_compact_copy_partial : forall m d v r w p l,
  sane m -> may_fail m = false -> ordinary v -> has_room d v -> wfail w = None ->
  start m r -> document (layout m) v (rest r) l -> fresh d p ->
  exists r' w' p', eventually (fun fuel => idtransform fuel r w p) (Done (r', w', p', Ok tt)) /\ spent w (compact v) w' /\
    between m r' /\ rest r' = l.
Proof. exact idt_compact. Qed.
Definition ex_value : json :=
  JObject [(bs "k", JArray [JNumber (bs "-1.5e3"); JObject [(bs "b", JString (bs "x\n y"))]; JNull]); (bs "e", JObject []); (bs "f", JFalse)].
Definition ex_input : bytes := bs " { ""k"":[-1.5e3, {""b"" : ""x\n y""} ,null],""e"":{},  ""f"":false} ".
Example C33_example :
  document (layout (InChunks 12 true)) ex_value ex_input [32%N] /\ ordinary ex_value /\ has_room (mkDims 5 40) ex_value /\
  start (InChunks 12 true) (ex_rj ex_input [Chunk 3; Chunk 0; Chunk 5; Chunk 1] 12) /\ fresh (mkDims 5 40) (ex_pool 60 5) /\
  compact ex_value = bs "{""k"":[-1.5e3,{""b"":""x\n y""},null],""e"":{},""f"":false}".
Proof.
  split; [let l := eval vm_compute in ex_input in change ex_input with l; unfold ex_value; now_document|].
  split; [vm_compute; repeat split; discriminate|]. split; [vm_compute; repeat split; discriminate || lia|].
  split; [|split; [exact ex_fresh|reflexivity]].
  split; [unfold valid, wf; vm_compute; repeat split; repeat constructor|].
  split; [reflexivity|]. split; [|reflexivity]. intros _. split; vm_compute; repeat constructor.
Qed.
(** A reader that fills the buffer; a string in UTF-8 with escapes that is longer than the buffer; the buffer may hold anything. *)
Definition ex_city : json := JObject [(bs "k", JArray [JString (bs "Zürich\n你好, \""grüezi\"" €"); JNumber (bs "1")])].
Definition ex_city_input : bytes := bs "{ ""k"":[ ""Zürich\n你好, \""grüezi\"" €"",1] } ".
Example C33_mixed_example :
  sane (Filling 12 false 1) /\ start (Filling 12 false 1) (ex_rj ex_city_input [] 12) /\
  document (layout (Filling 12 false 1)) ex_city ex_city_input [32%N] /\ ordinary ex_city /\ has_room (mkDims 5 40) ex_city /\
  id_run ex_city_input [] 12 = Some (compact ex_city, Ok tt, [32%N]).
Proof.
  split; [vm_compute; lia|]. split; [|split; [|split; [vm_compute; repeat split; discriminate|split; [vm_compute; repeat split; discriminate || lia|vm_compute; reflexivity]]]].
  - split; [split; [unfold valid, wf; vm_compute; repeat split; repeat constructor|split; [reflexivity|split; [|reflexivity]]]|].
    + intros H. discriminate H.
    + split; [apply indented_check; vm_compute; reflexivity|]. intros _. do 3 right. reflexivity.
  - let l := eval vm_compute in ex_city_input in change ex_city_input with l. unfold ex_city. now_document.
Qed.
(** C33 is false of a number that is all of the input. *)
Theorem C33_last_number_refuted : exists input size e, document any_layout (JNumber (bs "12")) input [] /\ 2 < size /\
  id_run input [] size = Some ([], Err (UnhandledPeek e 2), []).
Proof.
  exists (bs "12"), 8, 49%N. split; [|split; [repeat constructor|vm_compute; reflexivity]].
  let l := eval vm_compute in (bs "12") in change (bs "12") with l. now_document.
Qed.
Print Assumptions C33_compact_copy_partial.
Print Assumptions C33_last_number_refuted.

(** C34, what holds: any reader, any schedule, any layout of the white space, keys of any length, buffers of eight bytes
    and more: a success means a compact copy. (Numbers that do not fit in the buffer and some strings with escapes are
    left out: see [loose_layout].) *)
Theorem C34_no_silent_corruption_partial : forall c clean d v r w p l r' w' p' fuel,
  8 <= c -> ordinary v -> loose c clean r -> document (loose_layout c clean) v (rest r) l -> fresh d p ->
  idtransform fuel r w p = Done (r', w', p', Ok tt) ->
  written w' = written w ++ compact v /\ rest r' = l.
Proof. exact idt_honest. Qed.
Example C34_example :
  loose 8 true (ex_rj ex_input [Chunk 3; Fail 7%N; Chunk 5; Chunk 1] 8) /\ document (loose_layout 8 true) ex_value ex_input [32%N] /\
  exists r' w' p', idtransform 100 (ex_rj ex_input [Chunk 3; Chunk 0; Chunk 5; Chunk 1] 8) (mkWriter [] None) (ex_pool 60 5) = Done (r', w', p', Ok tt).
Proof.
  split; [|split].
  - split; [unfold valid, wf; vm_compute; repeat split; repeat constructor|]. split; [reflexivity|].
    intros _. split; vm_compute; repeat constructor.
  - let l := eval vm_compute in ex_input in change ex_input with l. unfold ex_value. now_document.
  - do 3 eexists. vm_compute. reflexivity.
Qed.
(** What does not hold: a number that is longer than the buffer is cut, and the rest of it left in the input ... *)
Theorem C34_number_cut_refuted : exists input size l, document any_layout (JNumber (bs "123456789012")) input l /\
  id_run input [] size = Some (bs "12345678", Ok tt, bs "9012 ").
Proof.
  exists (bs " 123456789012 "), 8, [32%N]. split; [|vm_compute; reflexivity].
  let l := eval vm_compute in (bs " 123456789012 ") in change (bs " 123456789012 ") with l. now_document.
Qed.
(** ... and so is a string with an escape behind a character of more than one byte. *)
Definition ex_stale_string : bytes := [228; 189; 160]%N ++ BACKSLASH :: QUOTE :: bs "abc".
Theorem C34_string_cut_refuted : exists input sched size, document any_layout (JString ex_stale_string) input [] /\
  id_run input sched size = Some (QUOTE :: [228; 189; 160; BACKSLASH]%N ++ [QUOTE], Ok tt, bs "abc" ++ [QUOTE]).
Proof.
  exists (QUOTE :: ex_stale_string ++ [QUOTE]), (repeat (Chunk 0) 20), 8. split; [|vm_compute; reflexivity].
  exists [], (QUOTE :: ex_stale_string ++ QUOTE :: []). split; [reflexivity|]. split; [constructor|].
  apply at_string; [|exact I]. let l := eval vm_compute in ex_stale_string in change (string_text l). now_text.
Qed.
Print Assumptions C34_no_silent_corruption_partial.
Print Assumptions C34_number_cut_refuted.
Print Assumptions C34_string_cut_refuted.

(** C35 is false: two opening braces are one, a form feed is white space at some places, nothing is a value. *)
Theorem C35_malformed_refuted :
  id_run (bs "{{}") [] 8 = Some (bs "{}", Ok tt, []) /\
  id_run (bs "[{" ++ [12%N] ++ bs "}]") [] 8 = Some (bs "[{}]", Ok tt, []) /\
  id_run [] [] 8 = Some ([], Ok tt, []) /\
  (forall v r, ~ document any_layout v (bs "{{}") r) /\
  (forall v r, ~ document any_layout v [] r).
Proof. split; [|split; [|split; [|split]]]; [vm_compute; reflexivity..| |]; [exact two_braces|exact no_value]. Qed.
Print Assumptions C35_malformed_refuted.

(** C36: whenever the writer (without a buffer) fails (after any number of bytes), idtransform ends with the error of the writer, and what
    was written is a proper prefix of the copy; if it does not fail, the copy is complete. *)
Theorem C36_writer_failure : forall m d v r w p l n k,
  sane m -> may_fail m = false -> ordinary v -> has_room d v -> wcap w = 0 -> wfail w = Some (n, k) ->
  start m r -> document (layout m) v (rest r) l -> fresh d p ->
  exists r' p' w' res, eventually (fun fuel => idtransform fuel r w p) (Done (r', w', p', res)) /\
    written w' = written w ++ firstn n (compact v) /\
    res = (if n <? len (compact v) then Err (IOError k) else Ok tt).
Proof. exact idt_writer. Qed.
(** Whatever happens (readers that fail, buffers that are too small), what was written is a prefix of the copy. *)
Theorem C36_prefix : forall m d v r w p l r' w' p' res fuel,
  sane m -> ordinary v -> start m r -> document (layout m) v (rest r) l -> fresh d p ->
  idtransform fuel r w p = Done (r', w', p', res) -> exists a b, compact v = a ++ b /\ written w' = written w ++ a.
Proof. exact idt_prefix. Qed.
(** Whatever the input is, JSON or not, and whatever the reader does: if the writer fails after [n] bytes, the first [n] bytes of
    what would be written have been written; the error is reported if there is more, otherwise nothing is different. *)
Theorem C36_any_input : forall fuel r w p d n k,
  valid r -> 8 <= rcap r -> stack_of d p [] -> 2 * len (rest r) + 2 <= fuel -> wcap w = 0 -> wfail w = Some (n, k) ->
  exists r0 text p0 v0 r' w' p' v,
    idtransform fuel r (mkWriter [] None) p = Done (r0, mkWriter text None, p0, v0) /\
    idtransform fuel r w p = Done (r', w', p', v) /\ written w' = written w ++ firstn n text /\
    if n <? len text then v = Err (IOError k) else v = v0 /\ r' = r0 /\ p' = p0.
Proof. exact id_prefix. Qed.
Example C36_any_input_example :
  let r := ex_rj (bs "{""a"":[1,tru]}") [Chunk 3; Chunk 0] 16 in
  valid r /\ stack_of (mkDims 5 40) (ex_pool 60 5) [] /\
  match idtransform 100 r (mkWriter [] None) (ex_pool 60 5), idtransform 100 r (mkWriter [] (Some (6, 7%N))) (ex_pool 60 5) with
  | Done (_, w, _, Err (RJiterError _)), Done (_, w', _, Err (IOError 7%N)) => Some (written w, written w')
  | _, _ => None
  end = Some (bs "{""a"":[1,", bs "{""a"":[").
Proof. cbv zeta. split; [unfold valid, wf; vm_compute; repeat split; repeat constructor|]. split; [exact (stack_fresh _ _ ex_fresh)|]. vm_compute. reflexivity. Qed.
Example C36_example :
  match idtransform 100 (ex_rj ex_input [Chunk 3; Chunk 0; Chunk 5; Chunk 1] 12) (mkWriter [] (Some (10, 7%N))) (ex_pool 60 5) with
  | Done (_, w, _, v) => Some (written w, v)
  | _ => None
  end = Some (bs "{""k"":[-1.5", Err (IOError 7%N)).
Proof. vm_compute. reflexivity. Qed.
Print Assumptions C36_writer_failure.
Print Assumptions C36_prefix.
Print Assumptions C36_any_input.

(** C37 is false: of a member named like an internal marker the key is lost, and the comma before it. *)
Theorem C37_marker_keys_refuted :
  id_run (bs "{""#top"":1}") [] 16 = Some (bs "{1}", Ok tt, []) /\
  id_run (bs "[{""a"":1,""#array"":2}]") [] 32 = Some (bs "[{""a"":12}]", Ok tt, []).
Proof. vm_compute. split; reflexivity. Qed.
Print Assumptions C37_marker_keys_refuted.

(** C38, what holds: an error of the reader ends the call at once and is never taken for the end of the input. [scan]
    answers with that error, with the error of a callback, or with [UnhandledPeek] (in front of an atom); with tokens to
    be skipped this is not so. *)
Theorem C38_scan_fails_partial : forall B (cb : callbacks B) stop fuel s s' r,
  passes_on cb -> scan cb (mkOptions [] stop) fuel s = Done (s', r) ->
  faults (parser s') = faults (parser s) \/
  exists k e, faults (parser s) = k :: faults (parser s') /\ r = Err e /\
    ((exists e', e = RJiterError e' /\ read_error k e') \/ (exists m i, e = ActionError m i) \/ (exists x i, e = UnhandledPeek x i)).
Proof. exact @scan_reads. Qed.
(** [idtransform] answers with that error, or with [UnhandledPeek] in front of something that is neither a string nor a
    literal. *)
Theorem C38_idtransform_fails_partial : forall fuel r w p r' w' p' v,
  idtransform fuel r w p = Done (r', w', p', v) ->
  faults r' = faults r \/
  exists k e, faults r = k :: faults r' /\ v = Err e /\
    (e = IOError k \/ (exists e', e = RJiterError e' /\ read_error k e') \/
     (exists x i, e = UnhandledPeek x i /\ ~ In x (QUOTE :: bs "ntf"))).
Proof. exact idt_reads. Qed.
Definition ex_skipper : callbacks unit := mkCallbacks (fun _ _ u => (u, None)) (fun _ _ u => (u, None)).
Example C38_example :
  id_run (bs "[true,13]") [Chunk 1; Fail 3%N; Fail 4%N] 26 = Some (bs "[", Err (IOError 3%N), bs "true,13]") /\
  id_run (bs "[""true"",13]") [Chunk 3; Fail 3%N] 26 = Some (bs "[""t", Err (IOError 3%N), QUOTE :: bs "rue"",13]") /\
  id_run (bs "{""true"":13}") [Chunk 0; Chunk 0; Chunk 0; Fail 3%N] 26 =
    Some (bs "{", Err (RJiterError (mkErr (IoError 3%N) 3)), bs """true"":13}") /\
  passes_on ex_skipper /\
  match scan ex_skipper (mkOptions [] true) 30 (mkS (ex_rj (bs "{""true"":13}") [Chunk 0; Chunk 0; Chunk 0; Fail 3%N] 26) tt (ex_pool 60 5)) with
  | Done (s, r) => r = Err (RJiterError (mkErr (IoError 3%N) 3)) /\ faults (parser s) = []
  | _ => False
  end.
Proof.
  split; [vm_compute; reflexivity|]. split; [vm_compute; reflexivity|]. split; [vm_compute; reflexivity|].
  split; [intros name c u u1 act s s' u' op E; discriminate|]. vm_compute. split; reflexivity.
Qed.
(** What does not hold: when the error arrives before or within a number, or (in [scan]) before or within any atom that
    is skipped, the document is blamed ... *)
Theorem C38_document_blamed_refuted :
  id_run (bs "[12,13]") [Chunk 1; Fail 3%N] 26 = Some (bs "[", Err (UnhandledPeek 49%N 2), bs "2,13]") /\
  exists s, scan ex_skipper (mkOptions [] true) 30 (mkS (ex_rj (bs "[true]") [Chunk 3; Fail 3%N] 26) tt (ex_pool 60 5)) =
    Done (s, Err (UnhandledPeek 116%N 1)) /\ faults (parser s) = [].
Proof. split; [vm_compute; reflexivity|]. eexists. split; [vm_compute; reflexivity|reflexivity]. Qed.
(** ... and when a token is skipped there, the error is lost. *)
Theorem C38_error_swallowed_refuted : exists s,
  scan ex_skipper (mkOptions [bs "tok"] false) 30 (mkS (ex_rj (bs "tok[1]") [Chunk 0; Fail 3%N] 26) tt (ex_pool 60 5)) = Done (s, Ok tt) /\
  faults (parser s) = [] /\ rest (parser s) = [].
Proof. eexists. split; [vm_compute; reflexivity|split; reflexivity]. Qed.
Print Assumptions C38_scan_fails_partial.
Print Assumptions C38_idtransform_fails_partial.
Print Assumptions C38_document_blamed_refuted.
Print Assumptions C38_error_swallowed_refuted.
