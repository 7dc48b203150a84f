(** Property C105: called again, idtransform goes on with the next value. Only statements, examples and assumptions. *)
From Verif Require Import Base U8Pool Buffer BufferSpec Jiter RJiter RJiterSpec Scan ScanSpec IdTransform IdSpec AgainSpec ArrivedSpec.
From Verif Require Import ScanStack ScanProofs ScanExamples IdProofs Again.

(** C105: the n-th call copies the n-th value: nothing is left out, nothing is copied twice. Layout and names as in C33; every call has a
    new working buffer. *)
Theorem C105_values_partial : forall m d vs ps r w l, sane m -> may_fail m = false -> Forall ordinary vs -> Forall (has_room d) vs -> wfail w = None ->
  start m r -> values_then (layout m) vs (rest r) l -> Forall (fresh d) ps -> List.length ps = List.length vs ->
  exists r' w', calls ps r w r' w' /\ spent w (List.concat (map compact vs)) w' /\ start m r' /\ rest r' = l.
Proof. exact again_values. Qed.
Print Assumptions C105_values_partial.
(** After the last value a call succeeds as well, and writes nothing. *)
Theorem C105_end : forall m d r w p, sane m -> may_fail m = false -> start m r -> spaces (rest r) -> fresh d p -> (1 <= slices d)%N -> 5 <= space_for d ->
  exists r' p', eventually (fun fuel => idtransform fuel r w p) (Done (r', w, p', Ok tt)) /\ start m r' /\ rest r' = [].
Proof. exact again_end. Qed.
Print Assumptions C105_end.
(** So that a document is one value and nothing else can be found out by finish behind idtransform; otherwise the error says that there is more. *)
Theorem C105_finish_partial : forall m d v r w p l, sane m -> may_fail m = false -> ordinary v -> has_room d v -> wfail w = None ->
  start m r -> document (layout m) v (rest r) l -> fresh d p ->
  exists r1 w1 p1 r2 x, eventually (fun fuel => idtransform fuel r w p) (Done (r1, w1, p1, Ok tt)) /\ spent w (compact v) w1 /\
    finish r1 = Done (r2, x) /\ (x = Ok tt <-> spaces l) /\ (forall e, x = Err e -> err_type e = JsonError TrailingCharacters).
Proof. exact then_finish. Qed.
Print Assumptions C105_finish_partial.
Definition then_finished (input : bytes) (sched : list event) : option (bytes * result unit rerror) :=
  match idtransform 100 (ex_rj input sched 8) (mkWriter [] None) (ex_pool 60 5) with
  | Done (r, w, _, Ok _) => match finish r with Done (_, x) => Some (written w, x) | _ => None end
  | _ => None
  end.
(** (The index of the error should be 7, see C19.) *)
Example C105_finish_example :
  start (InChunks 8 true) (ex_rj (bs "[1, 2]  ") [Chunk 2; Chunk 0; Chunk 4] 8) /\
  document (layout (InChunks 8 true)) (JArray [JNumber (bs "1"); JNumber (bs "2")]) (bs "[1, 2]  ") (bs "  ") /\ spaces (bs "  ") /\
  then_finished (bs "[1, 2]  ") [Chunk 2; Chunk 0; Chunk 4] = Some (bs "[1,2]", Ok tt) /\
  then_finished (bs "[1, 2] ]") [Chunk 2; Chunk 0; Chunk 4] = Some (bs "[1,2]", Err (mkErr (JsonError TrailingCharacters) 11)).
Proof.
  split; [split; [unfold valid, wf; vm_compute; repeat split; repeat constructor|]; split; [reflexivity|]; split; [|reflexivity]; intros _; split; vm_compute; repeat constructor|].
  split. { let l := eval vm_compute in (bs "[1, 2]  ") in change (bs "[1, 2]  ") with l. now_document. }
  split; [vm_compute; repeat constructor|]. split; vm_compute; reflexivity.
Qed.
(** It is false if the working buffer is used again: every call leaves its name for the top level there (C29), and the third does not find room. *)
Definition three_calls (input : bytes) (p : pool) : option (bytes * result unit scan_error) :=
  match idtransform 100 (ex_rj input [] 16) (mkWriter [] None) p with
  | Done (r1, w1, p1, Ok _) =>
      match idtransform 100 r1 w1 p1 with
      | Done (r2, w2, p2, Ok _) => match idtransform 100 r2 w2 p2 with Done (_, w3, _, v) => Some (written w3, v) | _ => None end
      | _ => None
      end
  | _ => None
  end.
Theorem C105_same_buffer_refuted : exists input vs d p e, fresh d p /\ Forall ordinary vs /\ Forall (has_room d) vs /\
  List.length vs = 3 /\ values_then (layout (InBuffer 16)) vs input [] /\ three_calls input p = Some (bs "[1][2][", Err e).
Proof.
  exists (bs "[1] [2] [3]"), [JArray [JNumber (bs "1")]; JArray [JNumber (bs "2")]; JArray [JNumber (bs "3")]], (mkDims 3 32), (ex_pool 44 3).
  eexists. split; [exists true, (repeat 0%N 44); split; [vm_compute; reflexivity|]; split; [vm_compute; reflexivity|reflexivity]|]. split; [vm_compute; repeat constructor|]. split; [vm_compute; repeat constructor; discriminate || lia|].
  split; [reflexivity|]. split; [|vm_compute; reflexivity].
  let l := eval vm_compute in (bs "[1] [2] [3]") in change (bs "[1] [2] [3]") with l. repeat (eapply then_value; [now_document|]). constructor.
Qed.
Print Assumptions C105_same_buffer_refuted.

(** Three values in odd chunks; no separators are written between them. *)
Definition ex_three : bytes := bs " [1, 2]""a"" { } ".
Definition ex_three_values : list json := [JArray [JNumber (bs "1"); JNumber (bs "2")]; JString (bs "a"); JObject []].
Example C105_example :
  start (InChunks 8 true) (ex_rj ex_three [Chunk 2; Chunk 0; Chunk 4] 8) /\ values_then (layout (InChunks 8 true)) ex_three_values ex_three [32%N] /\
  Forall ordinary ex_three_values /\ Forall (has_room (mkDims 5 40)) ex_three_values /\ Forall (fresh (mkDims 5 40)) (repeat (ex_pool 60 5) 3) /\
  List.concat (map compact ex_three_values) = bs "[1,2]""a""{}".
Proof.
  split; [split; [unfold valid, wf; vm_compute; repeat split; repeat constructor|]; split; [reflexivity|]; split; [|reflexivity]; intros _; split; vm_compute; repeat constructor|].
  split. { let l := eval vm_compute in ex_three in change ex_three with l. unfold ex_three_values. repeat (eapply then_value; [now_document|]). constructor. }
  split; [vm_compute; repeat constructor|]. split; [vm_compute; repeat constructor; discriminate || lia|]. split; [repeat constructor; apply ex_fresh|]. vm_compute. reflexivity.
Qed.
Example C105_end_example : start (InChunks 8 true) (ex_rj (bs "  ") [Chunk 0] 8) /\ spaces (bs "  ") /\
  match idtransform 100 (ex_rj (bs "  ") [Chunk 0] 8) (mkWriter (bs "x") None) (ex_pool 60 5) with Done (_, w, _, v) => written w = bs "x" /\ v = Ok tt | _ => False end.
Proof.
  split; [split; [unfold valid, wf; vm_compute; repeat split; repeat constructor|]; split; [reflexivity|]; split; [|reflexivity]; intros _; split; vm_compute; repeat constructor|].
  split; [vm_compute; repeat constructor|]. vm_compute. split; reflexivity.
Qed.
