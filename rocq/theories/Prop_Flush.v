(** Property C95: the converters with the flag [unbuffered]. Only statements, examples and assumptions. *)
From Verif Require Import Base U8Pool Buffer Jiter RJiter RJiterSpec Scan Conv NormalToDdb DdbToNormal FlushConv FlushToDdb FlushFromDdb.
From Verif Require Import ScanExamples FlushProofs FlushResults.

Notation cells := (repeat 0%N).
(** C95: let a run with a writer that takes everything give [text] and the result [v]. A run with the flag set and any writer that
    holds nothing back at first either gives the same result, and the same bytes; if it succeeds, all of them have arrived, however
    large the buffer of the writer is. Or the destination is full: then the run fails, and what has arrived are as many bytes as the
    destination takes; the error names the kind of the destination's error (to DynamoDB, it may also be one of the scanner). *)
Theorem C95_to_ddb : forall fuel rd w rb xb pretty wrapper text v,
  held w = [] -> convert_normal_to_ddb fuel rd (mkWriter [] None) rb xb pretty wrapper = Done (mkWriter text None, v) ->
  exists w' v', fl_convert_normal_to_ddb true fuel rd w rb xb pretty wrapper = Done (w', v') /\
    ((v' = v /\ written w' = delivered w ++ text /\ (v = Ok tt -> delivered w' = delivered w ++ text)) \/
     exists n k e i, wfail w = Some (n, k) /\ n < len text /\ delivered w' = delivered w ++ firstn n text /\
       v' = Err (e, i) /\ ((exists m, e = CIo k m) \/ exists s, e = CScan s)).
Proof. exact n2d_results. Qed.
Theorem C95_from_ddb : forall fuel rd w rb xb pretty mode text v,
  held w = [] -> convert_ddb_to_normal fuel rd (mkWriter [] None) rb xb pretty mode = Done (mkWriter text None, v) ->
  exists w' v', fl_convert_ddb_to_normal true fuel rd w rb xb pretty mode = Done (w', v') /\
    ((v' = v /\ written w' = delivered w ++ text /\ (v = Ok tt -> delivered w' = delivered w ++ text)) \/
     exists n k m i, wfail w = Some (n, k) /\ n < len text /\ delivered w' = delivered w ++ firstn n text /\
       (v' = Err (CIo k m, i) \/ v' = Err (CRJiter (IoError k) m, i))).
Proof. exact d2n_results. Qed.
(** Without the flag, or for a writer without a buffer, the runs are those of NormalToDdb.v and DdbToNormal.v, which all other
    properties are about. *)
Theorem C95_no_difference : forall b fuel rd w rb xb pretty, b = false \/ wcap w = 0 ->
  (forall wrapper, fl_convert_normal_to_ddb b fuel rd w rb xb pretty wrapper = convert_normal_to_ddb fuel rd w rb xb pretty wrapper) /\
  (forall mode, fl_convert_ddb_to_normal b fuel rd w rb xb pretty mode = convert_ddb_to_normal fuel rd w rb xb pretty mode).
Proof. intros b fuel rd w rb xb pretty H. split; [intros wrapper; apply n2d_flag, H|intros mode; apply d2n_flag, H]. Qed.
(** For a writer without a buffer this says what the error is if not everything fits, whatever the input is. *)
Theorem C47_kind_from_ddb : forall fuel rd d n k rb xb pretty mode text v,
  convert_ddb_to_normal fuel rd (mkWriter [] None) rb xb pretty mode = Done (mkWriter text None, v) ->
  exists w' v', convert_ddb_to_normal fuel rd (mkWriter d (Some (n, k))) rb xb pretty mode = Done (w', v') /\
    if n <? len text then exists m i, v' = Err (CIo k m, i) \/ v' = Err (CRJiter (IoError k) m, i) else v' = v.
Proof. exact d2n_kind. Qed.
Example C47_kind_example : let d := bs "{""a"":{""S"":""text""},]" in
  (exists e, convert_ddb_to_normal 100 (mkReader d []) (mkWriter [] None) (cells 64) (cells 600) false AsWrapper = Done (mkWriter (bs "{""a"":""text""") None, Err e)) /\
  match convert_ddb_to_normal 100 (mkReader d []) (mkWriter [] (Some (8, 7%N))) (cells 64) (cells 600) false AsWrapper with
  | Done (w, v) => Some (written w, v)
  | _ => None
  end = Some (bs "{""a"":""te", Err (CRJiter (IoError 7%N) "S/B (string) type", 16)).
Proof. split; [eexists; vm_compute; reflexivity|vm_compute; reflexivity]. Qed.
(** If the run fails because of the input, this is false: the pieces of a long string go to the writer without a flush between them,
    and there is none behind an error. *)
Theorem C95_to_ddb_refuted : exists rd w' e,
  fl_convert_normal_to_ddb true 100 rd (mkBuffered [] [] 50 None) (cells 16) (cells 600) false false = Done (w', Err e) /\
  exists p, written w' = delivered w' ++ p /\ p <> [].
Proof.
  exists (mkReader (bs "{""a"":""some text that is longer than the buffer") []). eexists _, _. split; [vm_compute; reflexivity|].
  exists (bs "some text that is longer than the buffe"). split; [vm_compute; reflexivity|discriminate].
Qed.
Theorem C95_from_ddb_refuted : exists rd w' e,
  fl_convert_ddb_to_normal true 100 rd (mkBuffered [] [] 50 None) (cells 16) (cells 600) false AsWrapper = Done (w', Err e) /\
  exists p, written w' = delivered w' ++ p /\ p <> [].
Proof.
  exists (mkReader (bs "{""a"":{""S"":""some text that is longer than the buffer") []). eexists _, _. split; [vm_compute; reflexivity|].
  exists (bs "some text that is longer than the buffe"). split; [vm_compute; reflexivity|discriminate].
Qed.
Definition fl_run (b : bool) (input : bytes) (w : writer) : option (bytes * bytes * result unit (conversion_error * nat)) :=
  match fl_convert_normal_to_ddb b 100 (mkReader input []) w (cells 64) (cells 600) false false with
  | Done (w, v) => Some (delivered w, held w, v)
  | _ => None
  end.
(** A writer with a buffer of 30 bytes. *)
Example C95_to_ddb_example :
  let d := bs "{""a"":[1,""x""],""b"":null}" in
  let t := bs "{""a"":{""L"":[{""N"":""1""},{""S"":""x""}]},""b"":{""NULL"":true}}" ++ [10%N] in
  convert_normal_to_ddb 100 (mkReader d []) (mkWriter [] None) (cells 64) (cells 600) false false = Done (mkWriter t None, Ok tt) /\
  fl_run true d (mkBuffered [] [] 30 None) = Some (t, [], Ok tt) /\
  fl_run false d (mkBuffered [] [] 30 None) = Some (firstn 30 t, skipn 30 t, Ok tt) /\
  (exists h e, fl_run true d (mkBuffered [] [] 30 (Some (20, 5%N))) = Some (firstn 20 t, h, Err e)).
Proof. split; [|split; [|split]]; [vm_compute; reflexivity..|]. eexists _, _. vm_compute. reflexivity. Qed.
(** The destination becomes full inside a string: the flush behind it reports this. *)
Example C95_from_ddb_example :
  let d := bs "{""Item"":{""a"":{""S"":""some text""}}}" in
  match fl_convert_ddb_to_normal true 100 (mkReader d []) (mkBuffered [] [] 50 (Some (9, 5%N))) (cells 64) (cells 600) false AsWrapper with
  | Done (w, v) => Some (delivered w, v)
  | _ => None
  end = Some (bs "{""a"":""som", Err (CIo 5%N "flushing after write_long_bytes", 29)) /\
  match fl_convert_ddb_to_normal true 100 (mkReader d []) (mkBuffered [] [] 50 None) (cells 64) (cells 600) false AsWrapper with
  | Done (w, v) => Some (delivered w, v)
  | _ => None
  end = Some (bs "{""a"":""some text""}" ++ [10%N], Ok tt).
Proof. split; vm_compute; reflexivity. Qed.

Print Assumptions C95_to_ddb.
Print Assumptions C95_from_ddb.
Print Assumptions C47_kind_from_ddb.
Print Assumptions C95_no_difference.
Print Assumptions C95_to_ddb_refuted.
Print Assumptions C95_from_ddb_refuted.
