(** Property C94: what the programs have done when the reader fails. Only statements, examples and assumptions. *)
From Verif Require Import Base U8Pool Buffer BufferSpec Jiter RJiter RJiterSpec Scan ScanSpec IdTransform Conv NormalToDdb DdbToNormal CutSpec.
From Verif Require Import ScanExamples SeveredConv.

Notation cells := (repeat 0%N).
(** C94: two readers with the same input behave alike at first ([p]); then one fails and the other goes on in any way ([q']),
    and what the first does later ([q]) does not matter either. What idtransform has written with the first is the
    beginning of what it writes with the second; and if it succeeds with the first (the failing call was not needed), all is
    the same. The input need not be JSON, buffers and working buffer can have any size, the writer can be any. *)
Theorem C94_idtransform : forall d p e q q' cells w pool r1 w1 p1 v1 r2 w2 p2 v2,
  eventually (fun fuel => idtransform fuel (rj_new (mkReader d (p ++ Fail e :: q)) cells) w pool) (Done (r1, w1, p1, v1)) ->
  eventually (fun fuel => idtransform fuel (rj_new (mkReader d (p ++ q')) cells) w pool) (Done (r2, w2, p2, v2)) ->
  (exists a, written w2 = written w1 ++ a) /\ (v1 = Ok tt -> w2 = w1 /\ v2 = Ok tt).
Proof. exact idt_cut. Qed.
Theorem C94_from_ddb : forall d p e q q' rb xb w pretty mode w1 v1 w2 v2,
  eventually (fun fuel => convert_ddb_to_normal fuel (mkReader d (p ++ Fail e :: q)) w rb xb pretty mode) (Done (w1, v1)) ->
  eventually (fun fuel => convert_ddb_to_normal fuel (mkReader d (p ++ q')) w rb xb pretty mode) (Done (w2, v2)) ->
  (exists a, written w2 = written w1 ++ a) /\ (v1 = Ok tt -> w2 = w1 /\ v2 = Ok tt).
Proof. exact d2n_cut. Qed.
(** The same for the scanner with callbacks of any kind that leave the parser alone, without SSE tokens. *)
Theorem C94_scan_partial : forall B (Le : B -> B -> Prop) cb stop d p e q q' cells u pool s1 v1 s2 v2,
  (forall u, Le u u) -> (forall u v w, Le u v -> Le v w -> Le u w) -> adds Le cb ->
  eventually (fun fuel => scan cb (mkOptions [] stop) fuel (mkS (rj_new (mkReader d (p ++ Fail e :: q)) cells) u pool)) (Done (s1, v1)) ->
  eventually (fun fuel => scan cb (mkOptions [] stop) fuel (mkS (rj_new (mkReader d (p ++ q')) cells) u pool)) (Done (s2, v2)) ->
  Le (user s1) (user s2) /\ (v1 = Ok tt -> user s2 = user s1 /\ v2 = Ok tt).
Proof. exact @scan_cut. Qed.
(** It is false of the converter to DynamoDB JSON: the failing read inside a literal is not reported, and the value comes
    twice. *)
Theorem C94_to_ddb_refuted : exists d p e w1 w2,
  convert_normal_to_ddb 100 (mkReader d (p ++ [Fail e])) (mkWriter [] None) (cells 64) (cells 600) false false = Done (w1, Ok tt) /\
  convert_normal_to_ddb 100 (mkReader d p) (mkWriter [] None) (cells 64) (cells 600) false false = Done (w2, Ok tt) /\
  len (written w2) < len (written w1).
Proof.
  exists (bs "true"), [Chunk 1], 5%N. eexists _, _. split; [vm_compute; reflexivity|]. split; [vm_compute; reflexivity|].
  vm_compute. repeat constructor.
Qed.
(** And of the scanner with SSE tokens: it passes over an error that it meets while it looks for one. *)
Theorem C94_sse_refuted : exists tokens d p e s1 s2,
  scan observer (mkOptions tokens false) 100 (mkS (ex_rj d (p ++ [Fail e]) 32) [] (ex_pool 100 10)) = Done (s1, Ok tt) /\
  scan observer (mkOptions tokens false) 100 (mkS (ex_rj d p 32) [] (ex_pool 100 10)) = Done (s2, Ok tt) /\
  List.length (user s2) < List.length (user s1).
Proof.
  exists [bs "x5 "; bs "x"], (bs "x5 1 "), [Chunk 0], 5%N. eexists _, _. split; [vm_compute; reflexivity|]. split; [vm_compute; reflexivity|].
  vm_compute. repeat constructor.
Qed.
Definition cut_run (input : bytes) (sched : list event) : option (bytes * result unit (conversion_error * nat)) :=
  match convert_ddb_to_normal 100 (mkReader input sched) (mkWriter [] None) (cells 64) (cells 600) false AsWrapper with
  | Done (w, v) => Some (written w, v)
  | _ => None
  end.
(** The input is no item; the read fails in the first string, or would have failed behind the wrong descriptor. *)
Example C94_from_ddb_example :
  let d := bs "{""Item"":{""a"":{""S"":""some text""},""b"":{""X"":""12""}}}" in
  cut_run d [Chunk 22; Fail 5%N] = Some (bs "{""a"":""som", Err (CRJiter (IoError 5%N) "S/B (string) type", 21)) /\
  cut_run d [Chunk 22; Chunk 30] = Some (bs "{""a"":""some text"",""b"":", Err (CParse "Invalid DynamoDB JSON format: unknown type descriptor" (Some (bs "X")), 40)) /\
  cut_run d [Chunk 22; Chunk 30; Fail 5%N] = cut_run d [Chunk 22; Chunk 30].
Proof. split; [|split]; vm_compute; reflexivity. Qed.
Definition cut_copy (input : bytes) (sched : list event) : option (bytes * result unit scan_error) :=
  match idtransform 100 (ex_rj input sched 16) (mkWriter [] None) (ex_pool 100 10) with
  | Done (_, w, _, v) => Some (written w, v)
  | _ => None
  end.
Example C94_idtransform_example :
  cut_copy (bs "[1, {""a"" : tru}") [Chunk 3; Fail 5%N] = Some (bs "[1", Err (RJiterError (mkErr (IoError 5%N) 2))) /\
  cut_copy (bs "[1, {""a"" : tru}") [Chunk 3; Chunk 3; Fail 5%N] = Some (bs "[1,{", Err (RJiterError (mkErr (IoError 5%N) 4))) /\
  cut_copy (bs "[1, {""a"" : tru}") [Chunk 3; Chunk 3] = Some (bs "[1,{""a"":", Err (RJiterError (mkErr (JsonError ExpectedSomeIdent) 14))).
Proof. split; [|split]; vm_compute; reflexivity. Qed.
Definition prefix_of (a b : list note) : Prop := exists c, b = a ++ c.
Example C94_scan_example :
  adds prefix_of observer /\
  exists s1 s2 e,
    scan observer (mkOptions [] false) 100 (mkS (ex_rj ex_text [Chunk 9; Fail 5%N] 32) [] (ex_pool 100 10)) = Done (s1, Err e) /\
    scan observer (mkOptions [] false) 100 (mkS (ex_rj ex_text [Chunk 9] 32) [] (ex_pool 100 10)) = Done (s2, Ok tt) /\
    List.length (user s1) = 4 /\ List.length (user s2) = 17.
Proof.
  split.
  - split; cbn [find_action find_end_action observer]; intros n c u u' a H; injection H as <- <-;
      (split; [exists []; rewrite app_nil_r; reflexivity|right]).
    + exists (fun u => Done (u ++ [Begin n (names c)], OpNone)). split; [reflexivity|]. intros x y op E. injection E as <- <-. eexists. reflexivity.
    + eexists. split; [reflexivity|]. intros x y r E. injection E as <- <-. eexists. reflexivity.
  - eexists _, _, _. split; [vm_compute; reflexivity|]. split; [vm_compute; reflexivity|]. split; vm_compute; reflexivity.
Qed.
Print Assumptions C94_idtransform.
Print Assumptions C94_from_ddb.
Print Assumptions C94_scan_partial.
Print Assumptions C94_to_ddb_refuted.
Print Assumptions C94_sse_refuted.
