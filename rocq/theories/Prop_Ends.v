(** Properties C49-C54 about the end of the calls. Only statements, examples and assumptions. *)
From Verif Require Import Base U8Pool Buffer BufferSpec Jiter RJiter RJiterSpec Scan ScanSpec EndsSpec IdTransform IdSpec Conv NormalToDdb DdbToNormal.
From Verif Require Import DdbSpec ConvSpec ScanStack ScanProofs ScanBalance ScanExamples EndResults BackTrip.

(** C49: a scan with dutiful callbacks returns, whatever the input, in a number of rounds bounded by the length of the input.
    Missing: callbacks for the start of a key that claim to have consumed the value are not restricted, all others must have
    consumed something; with sse tokens the reader must not fail (see below) and no token may be empty (see C39); the buffer
    has 8 bytes. *)
Theorem C49_scan_returns_partial : forall B c q (cb : callbacks B) o fuel d s,
  dutiful c q cb -> 8 <= c -> Forall (fun t => 1 <= len t) (sse_tokens o) -> (sse_tokens o = [] \/ q = true) ->
  valid (parser s) -> rcap (parser s) = c -> (q = true -> rquiet (parser s) = true) -> fresh d (stack s) ->
  2 * len (rest (parser s)) + 2 <= fuel ->
  exists s' v, scan cb o fuel s = Done (s', v).
Proof. exact @scan_ends. Qed.
(** A reader that fails while white space is fed leaves the parser behind its buffer: the next look for a token panics. *)
Theorem C49_scan_panics_refuted : exists (s : sstate (list note)) o,
  valid (parser s) /\ 8 <= rcap (parser s) /\ Forall (fun t => 1 <= len t) (sse_tokens o) /\ fresh (mkDims 5 40) (stack s) /\
  forall k, scan (mkCallbacks (fun _ _ u => (u, None)) (fun _ _ u => (u, None))) o (10 + k) s = Panic.
Proof.
  exists (mkS (ex_rj (bs "1 " ++ [12%N]) [Chunk 3; Fail 7%N] 16) [] (ex_pool 60 5)), (mkOptions [bs "data:"] false).
  split; [unfold valid, wf; vm_compute; repeat split; repeat constructor|]. split; [vm_compute; repeat constructor|].
  split; [repeat constructor|]. split; [exact ex_fresh|]. intros k. vm_compute. reflexivity.
Qed.
Example C49_example :
  dutiful 16 true idt_callbacks /\
  let s := mkS (ex_rj (bs "data: {""a"":[1,tru]} data: ") [Chunk 3; Chunk 0] 16) (idt_new (mkWriter [] None)) (ex_pool 60 5) in
  valid (parser s) /\ rcap (parser s) = 16 /\ rquiet (parser s) = true /\ fresh (mkDims 5 40) (stack s).
Proof.
  split; [apply id_dutiful; vm_compute; repeat constructor|]. split; [unfold valid, wf; vm_compute; repeat split; repeat constructor|].
  split; [reflexivity|]. split; [reflexivity|exact ex_fresh].
Qed.
Print Assumptions C49_scan_returns_partial.
Print Assumptions C49_scan_panics_refuted.

(** C50: idtransform returns, whatever the input, the reader and the writer do. *)
Theorem C50_idtransform_returns : forall fuel r w p d,
  valid r -> 8 <= rcap r -> stack_of d p [] -> 2 * len (rest r) + 2 <= fuel ->
  exists r' w' p' v, idtransform fuel r w p = Done (r', w', p', v).
Proof. exact idtransform_ends. Qed.
Example C50_example : valid (ex_rj (bs "{""a"":[1,tru") [Chunk 3; Fail 7%N] 8) /\ stack_of (mkDims 5 40) (ex_pool 60 5) [].
Proof. split; [unfold valid, wf; vm_compute; repeat split; repeat constructor|exact (stack_fresh _ _ ex_fresh)]. Qed.
Print Assumptions C50_idtransform_returns.

(** C51: the conversion from DynamoDB comes to an end, whatever the input, the reader and the writer do. *)
Theorem C51_from_ddb_terminates : forall fuel rd w rb xb is_pretty mode,
  8 <= len rb -> 2 * len (src rd) + 2 <= fuel -> convert_ddb_to_normal fuel rd w rb xb is_pretty mode <> Diverge.
Proof. exact d2n_ends. Qed.
Example C51_example :
  match convert_ddb_to_normal 40 (mkReader (bs "{""a"":{""S"":tru") [Chunk 4; Fail 7%N]) (mkWriter [] None) (repeat 0%N 16) (repeat 0%N 300) false AsWrapper with
  | Done (_, Err _) => true
  | _ => false
  end = true.
Proof. vm_compute. reflexivity. Qed.
Print Assumptions C51_from_ddb_terminates.

(** C52 is false: in builds with overflow checks the conversion from DynamoDB panics (the depth falls below zero). *)
Theorem C52_from_ddb_panics_refuted : exists input, forall k,
  convert_ddb_to_normal (60 + k) (mkReader input []) (mkWriter [] None) (repeat 0%N 200) (repeat 0%N 600) false AsWrapper = Panic.
Proof.
  exists (bs "{""a"":{""S"":""x"",""b"":{""S"":""x"",""c"":{""S"":""x"",""d"":{""S"":""x"",""e"":{""S"":""y""}}}}}}"). intros k. vm_compute. reflexivity.
Qed.
(** What holds: on a stream of items the call returns, whatever the reader, the buffers and the writer do. *)
Theorem C52_items_partial : forall m (items : item_stream) rd w rb xb is_pretty mode,
  sane m -> start m (rj_new rd rb) -> documents (layout m) (map item_of items) (src rd) -> 277 <= len xb -> Forall (fit mode) items ->
  exists w' v n, forall fuel, n <= fuel -> convert_ddb_to_normal fuel rd w rb xb is_pretty mode = Done (w', v).
Proof. exact d2n_returns. Qed.
Definition ex_item : item_stream := [(false, [(bs "a", DM [(bs "b", DL [DS (bs "x")])]); (bs "c", DNull)])].
Definition ex_item_text : bytes := bs "{""a"":{""M"":{""b"":{""L"":[{""S"":""x""}]}}},""c"":{""NULL"":true}}".
Example C52_example :
  start (Anyhow 16 false) (rj_new (mkReader ex_item_text [Chunk 3; Fail 2%N; Chunk 9; Fail 7%N]) (repeat 0%N 16)) /\
  documents (layout (Anyhow 16 false)) (map item_of ex_item) ex_item_text /\ Forall (fit AsWrapper) ex_item.
Proof.
  split; [|split].
  - split; [unfold valid, wf; vm_compute; repeat split; repeat constructor|]. split; [reflexivity|]. discriminate.
  - let v := eval cbv [ex_item map item_of item_json ddb_json bool_json fst snd] in (map item_of ex_item) in change (map item_of ex_item) with v.
    let l := eval vm_compute in ex_item_text in change ex_item_text with l. now_documents.
  - constructor; [split; [repeat (split || constructor); try discriminate; intros []|left; split; [reflexivity|right; intros [H|[H|[]]]; discriminate]]|constructor].
Qed.
Print Assumptions C52_from_ddb_panics_refuted.
Print Assumptions C52_items_partial.

(** C53: the conversion to DynamoDB never panics, whatever the input, the reader and the writer do. *)
Theorem C53_to_ddb_never_panics : forall fuel rd w rb xb is_pretty wrapper,
  8 <= len rb -> convert_normal_to_ddb fuel rd w rb xb is_pretty wrapper <> Panic.
Proof. exact n2d_no_panic. Qed.
Example C53_example :
  match convert_normal_to_ddb 40 (mkReader (bs "]}{""a"":[{},]") [Chunk 4; Fail 7%N]) (mkWriter [] (Some (3, 5%N))) (repeat 0%N 16) (repeat 0%N 300) true true with
  | Done (_, Err _) => true
  | _ => false
  end = true.
Proof. vm_compute. reflexivity. Qed.
Print Assumptions C53_to_ddb_never_panics.

(** C54: the errors kept for impossible situations are never reported, whatever the callbacks do. *)
Theorem C54_nothing_impossible : forall B (cb : callbacks B) o fuel d s es s' e,
  stack_of d (stack s) es -> scan cb o fuel s = Done (s', Err e) -> ~ impossible e.
Proof. exact @scan_never_impossible. Qed.
Example C54_example : exists (s s' : sstate (list note)) e, stack_of (mkDims 5 40) (stack s) [] /\
  scan observer (mkOptions [] false) 20 s = Done (s', Err e) /\ impossible (InternalError 3 "other"%string).
Proof.
  exists (mkS (ex_rj (bs "{""a"":[1,}") [] 8) [] (ex_pool 60 5)). do 2 eexists. split; [exact (stack_fresh _ _ ex_fresh)|].
  split; [vm_compute; reflexivity|]. exists 3, "other"%string. split; [reflexivity|discriminate].
Qed.
Print Assumptions C54_nothing_impossible.
