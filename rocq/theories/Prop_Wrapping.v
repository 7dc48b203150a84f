(** Properties C90 and C91 about the converter from DynamoDB in builds with and without overflow checks. Only statements, examples and assumptions. *)
From Verif Require Import Base U8Pool Buffer Jiter RJiter Scan Conv DdbToNormal Wrapping WrapProofs WrapCases.

(** C90: a build without overflow checks does the same as one with them, for every input, reader, writer and word size, unless that one
    panics; and itself it returns. Missing: the case of the panic (see below), and inputs of more than a sixth of the largest number. *)
Theorem C90_same_in_release_partial : forall top fuel rd w rb xb is_pretty mode,
  8 <= len rb -> 2 * len (src rd) + 2 <= fuel -> 3 * fuel <= top ->
  exists w' v, convert_ddb_to_normal_wrapping top fuel rd w rb xb is_pretty mode = Done (w', v) /\
    (convert_ddb_to_normal fuel rd w rb xb is_pretty mode = Panic \/ convert_ddb_to_normal fuel rd w rb xb is_pretty mode = Done (w', v)).
Proof. exact release_same. Qed.
Example C90_example :
  let text := bs "{""a"":{""M"":{""b"":{""N"":""7""}}}} {""a"":{}}" in
  let run f := f (mkReader text [Chunk 3]) (mkWriter [] (Some (30, 5%N))) (repeat 0%N 16) (repeat 0%N 300) true AsWrapper in
  run (convert_ddb_to_normal 90) = run (convert_ddb_to_normal_wrapping 300 90) /\
  match run (convert_ddb_to_normal 90) with Done (_, Err _) => True | _ => False end.
Proof. split; vm_compute; [reflexivity|exact I]. Qed.
Print Assumptions C90_same_in_release_partial.
(** Where the one build panics, the other one reports success, with an output that is no JSON (the brackets do not match). *)
Theorem C90_panic_or_success_refuted : exists input output, (forall k,
    convert_ddb_to_normal (60 + k) (mkReader input []) (mkWriter [] None) (repeat 0%N 200) (repeat 0%N 600) false AsWrapper = Panic) /\
  (forall k, convert_ddb_to_normal_wrapping (10 + k) 60 (mkReader input []) (mkWriter [] None) (repeat 0%N 200) (repeat 0%N 600) false AsWrapper =
    Done (mkWriter output None, Ok tt)) /\
  count_occ N.eq_dec output LBRACE <> count_occ N.eq_dec output RBRACE.
Proof.
  exists endless, (bs "{""a"":""x"",""b"":""x"",""c"":""x"",""d"":""x"",""e"":""y""}}}" ++ [10%N]).
  split; [intros k; vm_compute; reflexivity|]. split; [intros k; vm_compute; reflexivity|]. vm_compute. discriminate.
Qed.
Print Assumptions C90_panic_or_success_refuted.

(** C91 is false: with an input of 78 bytes and pretty-printing, a build without overflow checks writes twice as many bytes as its
    numbers go, 2^65 in a build for 64 bits: a writer that takes [n] bytes gets all [n] of them. *)
Theorem C91_endless_output_refuted : exists input, len input <= 78 /\ forall top n e, 10 <= top -> 100 <= n -> n <= 2 * top -> exists w i,
  convert_ddb_to_normal_wrapping top 60 (mkReader input []) (mkWriter [] (Some (n, e))) (repeat 0%N 200) (repeat 0%N 600) true AsWrapper =
    Done (w, Err (CIo e "writing indentation", i)) /\ len (delivered w) = n.
Proof. exists endless. split; [vm_compute; repeat constructor|exact endless_output]. Qed.
Print Assumptions C91_endless_output_refuted.
