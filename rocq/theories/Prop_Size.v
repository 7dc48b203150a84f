(** Property C91: how much the conversions write. Only statements, examples and assumptions. *)
From Verif Require Import Base U8Pool Buffer BufferSpec Jiter RJiter RJiterSpec Scan ScanSpec IdTransform Conv NormalToDdb DdbToNormal Wrapping.
From Verif Require Import ScanStack ScanProofs ScanExamples ThriftConv N2dFlood N2dThrift.

(** C91, what holds. idtransform, whether it succeeds or not: at most 25 bytes for a byte of the input, and 24. *)
Theorem C91_idtransform_partial : forall fuel r w p d r' w' p' v,
  valid r -> 8 <= rcap r -> stack_of d p [] -> idtransform fuel r w p = Done (r', w', p', v) ->
  len (written w') <= len (written w) + 25 * len (rest r) + 24.
Proof. exact idtransform_size. Qed.
Example C91_idtransform_example :
  let r := ex_rj (bs "{""a"":[1,tru]}") [Chunk 3; Chunk 0] 16 in
  valid r /\ stack_of (mkDims 5 40) (ex_pool 60 5) [] /\
  match idtransform 100 r (mkWriter [] None) (ex_pool 60 5) with Done (_, w, _, Err _) => len (written w) | _ => 0 end = 8.
Proof. cbv zeta. split; [unfold valid, wf; vm_compute; repeat split; repeat constructor|]. split; [exact (stack_fresh _ _ ex_fresh)|]. vm_compute. reflexivity. Qed.
Print Assumptions C91_idtransform_partial.

(** The same for the converter from DynamoDB JSON without pretty-printing, in builds with and without overflow checks. *)
Theorem C91_from_ddb_partial : forall fuel rd w rb xb mode w' v,
  8 <= len rb -> convert_ddb_to_normal fuel rd w rb xb false mode = Done (w', v) ->
  len (written w') <= len (written w) + 25 * len (src rd) + 24.
Proof. exact from_ddb_compact_size. Qed.
Theorem C91_release_partial : forall top fuel rd w rb xb mode w' v,
  8 <= len rb -> convert_ddb_to_normal_wrapping top fuel rd w rb xb false mode = Done (w', v) ->
  len (written w') <= len (written w) + 25 * len (src rd) + 24.
Proof. exact release_compact_size. Qed.
(** With pretty-printing and overflow checks the bound grows with the square of the input: each line is indented by the depth. Missing:
    builds without overflow checks (see Prop_Wrapping.v); for the converter to DynamoDB JSON see below. *)
Theorem C91_pretty_partial : forall fuel rd w rb xb mode w' v,
  8 <= len rb -> convert_ddb_to_normal fuel rd w rb xb true mode = Done (w', v) ->
  let n := len (src rd) in len (written w') <= len (written w) + 32 * n * n + 97 * n + 64.
Proof. exact from_ddb_pretty_size. Qed.
Example C91_example :
  let text := bs "{""a"":{""M"":{""b"":{""L"":[{""N"":""1""},{""N"":""2""}]}}}} {""a"":{""N"":""3""},tru" in
  let size r := match r with Done (w, Err _) => len (written w) | _ => 0 end in
  let rd := mkReader text [Chunk 3] in let w := mkWriter [] None in let rb := repeat 0%N 16 in let xb := repeat 0%N 300 in
  size (convert_ddb_to_normal 200 rd w rb xb false AsWrapper) = 24 /\
  size (convert_ddb_to_normal_wrapping 600 200 rd w rb xb false AsWrapper) = 24 /\
  size (convert_ddb_to_normal 200 rd w rb xb true AsWrapper) = 40.
Proof. vm_compute. split; [|split]; [reflexivity..]. Qed.
Print Assumptions C91_from_ddb_partial.
Print Assumptions C91_release_partial.
Print Assumptions C91_pretty_partial.

(** The converter to DynamoDB JSON, if it ends, the reader does not fail, and either the writer does not fail or the conversion succeeds. *)
Theorem C91_to_ddb_partial : forall fuel rd w rb xb wrapper w' v,
  8 <= len rb -> (forall e, ~ In (Fail e) (sched rd)) -> wfail w = None \/ v = Ok tt ->
  convert_normal_to_ddb fuel rd w rb xb false wrapper = Done (w', v) -> len (written w') <= len (written w) + 65 * len (src rd) + 64.
Proof. exact to_ddb_compact_size. Qed.
Theorem C91_to_ddb_pretty_partial : forall fuel rd w rb xb wrapper w' v,
  8 <= len rb -> (forall e, ~ In (Fail e) (sched rd)) -> wfail w = None \/ v = Ok tt ->
  convert_normal_to_ddb fuel rd w rb xb true wrapper = Done (w', v) ->
  let n := len (src rd) in len (written w') <= len (written w) + 128 * n * n + 369 * n + 240.
Proof. exact to_ddb_pretty_size. Qed.
(** A conversion that fails, and one that succeeds with a writer that would fail later. *)
Example C91_to_ddb_example :
  let size r := match r with Done (w, Err _) => len (written w) | Done (w, Ok _) => 1000 + len (written w) | _ => 0 end in
  let run text w pretty := size (convert_normal_to_ddb 200 (mkReader text [Chunk 3; Chunk 0]) w (repeat 0%N 16) (repeat 0%N 300) pretty true) in
  run (bs "{""a"":[1,true,[null]]} [tru]") (mkWriter [] None) false = 88 /\
  run (bs "{""a"":[1,true,[null]]} ") (mkWriter [] (Some (500, 7%N))) true = 1181.
Proof. vm_compute. split; reflexivity. Qed.
Print Assumptions C91_to_ddb_partial.
Print Assumptions C91_to_ddb_pretty_partial.
(** It is false of readers that fail: a failure inside a literal is passed over, and the literal is written once more. *)
Theorem C91_failing_reader_refuted : forall e k fuel, k + 4 <= fuel -> exists w,
  convert_normal_to_ddb fuel (mkReader (bs "true ") (Chunk 2 :: repeat (Fail e) (S k))) (mkWriter [] None) (repeat 0%N 16) (repeat 0%N 200) false false = Done (w, Ok tt) /\
  len (written w) = 14 * k + 28.
Proof. exact shaky_converts. Qed.
Print Assumptions C91_failing_reader_refuted.

(** C91 is false of writers that fail: given the four bytes "tru ", the converter to DynamoDB JSON fills every writer, however much it takes. *)
Theorem C91_to_ddb_refuted : forall e m fuel, S m < fuel -> exists w v,
  convert_normal_to_ddb fuel (mkReader (bs "tru ") []) (mkWriter [] (Some (14 * m + 15, e))) (repeat 0%N 16) (repeat 0%N 200) false false = Done (w, Err v) /\
  len (delivered w) = 14 * m + 15.
Proof. exact flood_converts. Qed.
Print Assumptions C91_to_ddb_refuted.
