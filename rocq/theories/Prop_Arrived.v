(** Property C102: what has arrived is converted before more is awaited. Only statements, examples and assumptions. *)
From Verif Require Import Base U8Pool Buffer BufferSpec Jiter RJiter RJiterSpec Scan ScanSpec IdTransform IdSpec DdbSpec Conv DdbToNormal ConvSpec CutSpec ArrivedSpec.
From Verif Require Import ScanExamples ArrivedConv ArrivedRecords ArrivedEnd Prop_Converters Prop_IdTransform.

(** C102: a reader hands on the bytes [d] one at a time. Then the converter would wait for more; this is modelled by a reader that
    fails at this moment ([q] is what it would do later). What has been written by then is all that is written if the input ends with
    [d]: no output is held back until the next byte comes. The input [d] is any beginning of any input, JSON or not; the writer can be
    any. Two things about numbers: the input has not stopped within one, which may go on with the next byte, and none fills the whole
    buffer. *)
Theorem C102_idtransform : forall d e q cells w pool r1 w1 p1 v1 r2 w2 p2 v2,
  2 <= List.length cells -> ends_apart d -> runs_below (List.length cells) d ->
  eventually (fun fuel => idtransform fuel (rj_new (mkReader d (one_by_one d ++ Fail e :: q)) cells) w pool) (Done (r1, w1, p1, v1)) ->
  eventually (fun fuel => idtransform fuel (rj_new (mkReader d (one_by_one d)) cells) w pool) (Done (r2, w2, p2, v2)) ->
  w1 = w2.
Proof. exact idt_arrived. Qed.
Print Assumptions C102_idtransform.
Theorem C102_from_ddb : forall d e q rb xb w pretty mode w1 v1 w2 v2,
  2 <= List.length rb -> ends_apart d -> runs_below (List.length rb) d ->
  eventually (fun fuel => convert_ddb_to_normal fuel (mkReader d (one_by_one d ++ Fail e :: q)) w rb xb pretty mode) (Done (w1, v1)) ->
  eventually (fun fuel => convert_ddb_to_normal fuel (mkReader d (one_by_one d)) w rb xb pretty mode) (Done (w2, v2)) ->
  w1 = w2.
Proof. exact d2n_arrived. Qed.
Print Assumptions C102_from_ddb.
(** The same for the scanner without SSE tokens: callbacks that leave the parser alone have been called for all that has arrived. *)
Theorem C102_scan : forall B (Le : B -> B -> Prop) cb stop d e q cells u pool s1 v1 s2 v2, adds Le cb ->
  2 <= List.length cells -> ends_apart d -> runs_below (List.length cells) d ->
  eventually (fun fuel => scan cb (mkOptions [] stop) fuel (mkS (rj_new (mkReader d (one_by_one d ++ Fail e :: q)) cells) u pool)) (Done (s1, v1)) ->
  eventually (fun fuel => scan cb (mkOptions [] stop) fuel (mkS (rj_new (mkReader d (one_by_one d)) cells) u pool)) (Done (s2, v2)) ->
  user s1 = user s2.
Proof. exact @scan_arrived. Qed.
Print Assumptions C102_scan.
(** So all items that have arrived have been written, each with its line feed, when the converter waits for the next one. *)
Theorem C102_records : forall m (items : item_stream) d e q w rb xb pretty mode w' v,
  sane m -> may_fail m = false -> start m (rj_new (mkReader d (one_by_one d)) rb) -> documents (layout m) (map item_of items) d ->
  d2n_room xb (map item_of items) -> Forall (fit mode) items -> Forall (fun x => well_formed_item (snd x)) items -> wfail w = None ->
  2 <= List.length rb -> ends_apart d -> runs_below (List.length rb) d ->
  eventually (fun fuel => convert_ddb_to_normal fuel (mkReader d (one_by_one d ++ Fail e :: q)) w rb xb pretty mode) (Done (w', v)) ->
  exists text, spent w text w' /\ documents any_layout (map (fun x => plain_item (snd x)) items) text /\
    (pretty = false -> text = lines (map (fun x => plain_item (snd x)) items)).
Proof. exact records_arrived. Qed.
Print Assumptions C102_records.
(** Nor does idtransform wait for what comes behind the value. If it succeeds when the input ends with [d] and has written something,
    it has returned without asking for more, so that the failure of the reader is not noticed; likewise a scan with [stop_early]. *)
Theorem C102_returns : forall d e q cells w pool r1 w1 p1 v1 r2 w2 p2,
  2 <= List.length cells -> ends_apart d -> runs_below (List.length cells) d ->
  eventually (fun fuel => idtransform fuel (rj_new (mkReader d (one_by_one d ++ Fail e :: q)) cells) w pool) (Done (r1, w1, p1, v1)) ->
  eventually (fun fuel => idtransform fuel (rj_new (mkReader d (one_by_one d)) cells) w pool) (Done (r2, w2, p2, Ok tt)) ->
  v1 = Ok tt \/ w2 = w.
Proof. exact idt_returns. Qed.
Print Assumptions C102_returns.
Theorem C102_scan_returns : forall B (Le : B -> B -> Prop) cb d e q cells u pool s1 v1 s2, adds Le cb ->
  2 <= List.length cells -> ends_apart d -> runs_below (List.length cells) d ->
  eventually (fun fuel => scan cb (mkOptions [] true) fuel (mkS (rj_new (mkReader d (one_by_one d ++ Fail e :: q)) cells) u pool)) (Done (s1, v1)) ->
  eventually (fun fuel => scan cb (mkOptions [] true) fuel (mkS (rj_new (mkReader d (one_by_one d)) cells) u pool)) (Done (s2, Ok tt)) ->
  v1 = Ok tt \/ user s2 = u.
Proof. exact @idt_returns_scan. Qed.
Print Assumptions C102_scan_returns.
(** So a value that has arrived has been copied and idtransform has returned. *)
Theorem C102_document : forall m dm v d l e q cells w pool,
  sane m -> may_fail m = false -> ordinary v -> has_room dm v -> wfail w = None ->
  start m (rj_new (mkReader d (one_by_one d)) cells) -> document (layout m) v d l -> fresh dm pool ->
  8 <= List.length cells -> ends_apart d -> runs_below (List.length cells) d ->
  exists r' w' p', eventually (fun fuel => idtransform fuel (rj_new (mkReader d (one_by_one d ++ Fail e :: q)) cells) w pool) (Done (r', w', p', Ok tt)) /\
    spent w (compact v) w'.
Proof. exact document_arrived. Qed.
Print Assumptions C102_document.
(** If the input stops after a digit, the number waits for what follows it. *)
Example C102_digit_waits : exists d e w1 w2 r1 r2 p1 p2 v1 v2,
  idtransform 100 (ex_rj d (one_by_one d ++ [Fail e]) 16) (mkWriter [] None) (ex_pool 100 10) = Done (r1, w1, p1, v1) /\
  idtransform 100 (ex_rj d (one_by_one d) 16) (mkWriter [] None) (ex_pool 100 10) = Done (r2, w2, p2, v2) /\
  written w1 = bs "[7," /\ written w2 = bs "[7,12".
Proof. exists (bs "[7, 12"), 5%N. do 8 eexists. split; [vm_compute; reflexivity|]. split; [vm_compute; reflexivity|]. split; reflexivity. Qed.

Definition stopped (input : bytes) (sched : list event) : option (bytes * result unit scan_error) :=
  match idtransform 100 (ex_rj input sched 8) (mkWriter [] None) (ex_pool 100 10) with Done (_, w, _, v) => Some (written w, v) | _ => None end.
(** The buffer has eight bytes; the reader has delivered a beginning of the input. *)
Example C102_idtransform_example :
  let d := bs "{""a"" : [-1.5e3, true , ""fairly lo" in
  ends_apart d /\ runs_below 8 d /\
  stopped d (one_by_one d ++ [Fail 5%N]) = Some (bs "{""a"":[-1.5e3,true,""fairly l", Err (IOError 5%N)) /\
  stopped d (one_by_one d) = Some (bs "{""a"":[-1.5e3,true,""fairly l", Err (RJiterError (mkErr (JsonError EofWhileParsingString) 34))).
Proof. split; [apply apart_eq; vm_compute; reflexivity|]. split; [apply runs_eq; vm_compute; lia|]. split; vm_compute; reflexivity. Qed.
Definition stopped_item (input : bytes) (sched : list event) : option (bytes * result unit (conversion_error * nat)) :=
  match convert_ddb_to_normal 100 (mkReader input sched) (mkWriter [] None) (cells 8) (cells 600) false AsWrapper with
  | Done (w, v) => Some (written w, v)
  | _ => None
  end.
(** The three fields have been written when the comma behind them has come. *)
Example C102_from_ddb_example :
  let d := bs "{""Item"":{""a"":{""S"":""some text""},""b"":{""BOOL"":true},""c"":{""N"":""12""}," in
  ends_apart d /\ runs_below 8 d /\
  stopped_item d (one_by_one d ++ [Fail 5%N]) = Some (bs "{""a"":""some text"",""b"":true,""c"":12", Err (CScan (RJiterError (mkErr (IoError 5%N) 1)), 1)) /\
  stopped_item d (one_by_one d) = Some (bs "{""a"":""some text"",""b"":true,""c"":12", Err (CScan (RJiterError (mkErr (JsonError EofWhileParsingValue) 65)), 65)).
Proof. split; [apply apart_eq; vm_compute; reflexivity|]. split; [apply runs_eq; vm_compute; lia|]. split; vm_compute; reflexivity. Qed.
(** Every callback for what has arrived has been called when the reader stops. *)
Example C102_scan_example :
  let d := bs "{""a"":[1, 2 ,{""b"":" in
  ends_apart d /\ runs_below 8 d /\
  exists s1 s2 e1 e2,
    scan observer (mkOptions [] false) 100 (mkS (ex_rj d (one_by_one d ++ [Fail 5%N]) 8) [] (ex_pool 100 10)) = Done (s1, Err e1) /\
    scan observer (mkOptions [] false) 100 (mkS (ex_rj d (one_by_one d) 8) [] (ex_pool 100 10)) = Done (s2, Err e2) /\
    List.length (user s1) = 7 /\ user s2 = user s1.
Proof.
  split; [apply apart_eq; vm_compute; reflexivity|]. split; [apply runs_eq; vm_compute; lia|].
  do 4 eexists. split; [vm_compute; reflexivity|]. split; [vm_compute; reflexivity|]. split; vm_compute; reflexivity.
Qed.
(** The items of [C41_example]; the reader fails behind them. *)
Example C102_records_example :
  start (InChunks 16 true) (rj_new (mkReader ex_ddb (one_by_one ex_ddb)) (cells 16)) /\
  documents (layout (InChunks 16 true)) (map item_of ex_items) ex_ddb /\ ends_apart ex_ddb /\ runs_below 16 ex_ddb /\
  exists w' v, eventually (fun fuel => convert_ddb_to_normal fuel (mkReader ex_ddb (one_by_one ex_ddb ++ [Fail 5%N])) (mkWriter [] None) (cells 16) (cells 400) false AsWrapper) (Done (w', v)) /\
    written w' = lines (map (fun x => plain_item (snd x)) ex_items) /\ v <> Ok tt.
Proof.
  split; [split; [unfold valid, wf; vm_compute; repeat split; repeat constructor|]; split; [reflexivity|]; split; [|reflexivity]; intros _; split; vm_compute; repeat constructor|].
  split; [apply C41_example|]. split; [apply apart_eq; vm_compute; reflexivity|]. split; [apply runs_eq; vm_compute; lia|].
  do 2 eexists. split; [exists 100; intros fuel Hf; replace fuel with (100 + (fuel - 100)) by lia; vm_compute; reflexivity|].
  split; [vm_compute; reflexivity|discriminate].
Qed.
(** The value of [C33_example]; the reader fails behind it. *)
Example C102_document_example :
  start (InChunks 12 true) (rj_new (mkReader ex_input (one_by_one ex_input)) (cells 12)) /\
  document (layout (InChunks 12 true)) ex_value ex_input [32%N] /\ ends_apart ex_input /\ runs_below 12 ex_input /\
  match idtransform 100 (rj_new (mkReader ex_input (one_by_one ex_input ++ [Fail 5%N])) (cells 12)) (mkWriter [] None) (ex_pool 100 10) with
  | Done (_, w, _, v) => written w = compact ex_value /\ v = Ok tt
  | _ => False
  end.
Proof.
  split; [split; [unfold valid, wf; vm_compute; repeat split; repeat constructor|]; split; [reflexivity|]; split; [|reflexivity]; intros _; split; vm_compute; repeat constructor|].
  split; [apply C33_example|]. split; [apply apart_eq; vm_compute; reflexivity|]. split; [apply runs_eq; vm_compute; lia|]. vm_compute. split; reflexivity.
Qed.
Example C102_scan_returns_example : let d := bs "{""a"":[1]}" in
  exists s1 s2, scan observer (mkOptions [] true) 100 (mkS (ex_rj d (one_by_one d ++ [Fail 5%N]) 8) [] (ex_pool 100 10)) = Done (s1, Ok tt) /\
    scan observer (mkOptions [] true) 100 (mkS (ex_rj d (one_by_one d) 8) [] (ex_pool 100 10)) = Done (s2, Ok tt) /\ user s2 <> [].
Proof. do 2 eexists. split; [vm_compute; reflexivity|]. split; [vm_compute; reflexivity|]. vm_compute. discriminate. Qed.
