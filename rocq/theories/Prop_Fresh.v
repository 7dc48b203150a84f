(** C96: what the caller's buffers hold beforehand does not matter. Statements and examples only. The full statement, without the
    condition [leading], is refuted below ([C96_parser_refuted], [C96_to_ddb_refuted]); what is proved leaves out buffers that hold
    continuation bytes. *)
From Verif Require Import Base U8Pool Buffer Jiter JiterValue RJiter RJiterSpec Scan ScanSpec IdTransform Conv NormalToDdb DdbToNormal
  FlushToDdb FlushFromDdb FreshSpec FreshConv.

(** Any program over the methods of the parser answers the same on two new parsers whose buffers have the same length and hold
    anything but bytes that continue a UTF-8 character. *)
Theorem C96_parser_partial : forall A (program : rj -> outcome (rj * A)) r c1 c2, uses program ->
  len c1 = len c2 -> Forall leading c1 -> Forall leading c2 ->
  answer (program (rj_new r c1)) = answer (program (rj_new r c2)).
Proof. exact (fun A program r c1 c2 H => uses_fresh program H r c1 c2). Qed.
Print Assumptions C96_parser_partial.
(** Peeks, reads an array of strings, and looks ahead at what follows. *)
Definition ex_program : rj -> outcome (rj * (writer * result unit rerror * result bytes rerror)) := fun r =>
  do (r, _) <- known_array r;
  do (r, x) <- (do (r', w', v) <- write_long_bytes r (mkWriter [] None); Done (r', (w', v)));
  do (r, y) <- lookahead_n 3 r;
  Done (r, (x, y)).
Example C96_parser_example : uses ex_program /\ Forall leading (bs "left over") /\ Forall leading (repeat 0%N 9) /\
  answer (ex_program (rj_new (mkReader (bs "[""café au lait"", 1]") (repeat (Chunk 0) 12)) (bs "left over"))) =
    Done (mkWriter (bs "café au lait") None, Ok tt, Ok (bs ", 1")) /\
  answer (ex_program (rj_new (mkReader (bs "[""café au lait"", 1]") (repeat (Chunk 0) 12)) (repeat 0%N 9))) =
    Done (mkWriter (bs "café au lait") None, Ok tt, Ok (bs ", 1")).
Proof.
  split; [|split; [repeat constructor|split; [repeat constructor|split; vm_compute; reflexivity]]].
  unfold ex_program. apply (uses_call known_array); [exact (api_method _ _ _ _ _ m_known_array)|]. intros _.
  apply (uses_call (fun r => do (r', w', v) <- write_long_bytes r (mkWriter [] None); Done (r', (w', v)))); [apply api_long_bytes|]. intros x.
  apply (uses_call (lookahead_n 3)); [apply api_lookahead_n|]. intros y. apply uses_ret.
Qed.
(** A buffer that holds continuation bytes, such as one that has been used for a text in another script, changes what is read: the
    string is cut off behind its first backslash. *)
Theorem C96_parser_refuted : exists A (program : rj -> outcome (rj * A)) r c1 c2, uses program /\ len c1 = len c2 /\
  Forall leading c1 /\ answer (program (rj_new r c1)) <> answer (program (rj_new r c2)).
Proof.
  exists _, (fun r => do (r', x) <- peek r; (fun x r => do (r', y) <- (do (r', w', v) <- write_long_bytes r (mkWriter [] None); Done (r', (w', v))); (fun y r => Done (r, y)) y r') x r').
  exists (mkReader (bs """\""abc""") (repeat (Chunk 0) 7)), (repeat 0%N 8), (repeat 160%N 8).
  split; [|split; [reflexivity|split; [repeat constructor|vm_compute; discriminate]]].
  apply (uses_call peek); [exact (api_method _ _ _ _ _ m_peek)|]. intros _.
  apply (uses_call (fun r => do (r', w', v) <- write_long_bytes r (mkWriter [] None); Done (r', (w', v)))); [apply api_long_bytes|]. intros x. apply uses_ret.
Qed.
Print Assumptions C96_parser_refuted.

(** The scanner, with callbacks that use the parser through its methods: the baton and the result are the same. Of the working
    buffer nothing matters but its size. *)
Theorem C96_scan_partial : forall B (cb : callbacks B) o fuel r u c1 c2 d p1 p2,
  (forall name c u, match find_action cb name c u with (_, Some a) => forall u, uses (program_of a u) | _ => True end) ->
  len c1 = len c2 -> Forall leading c1 -> Forall leading c2 -> fresh d p1 -> fresh d p2 ->
  sanswer (scan cb o fuel (mkS (rj_new r c1) u p1)) = sanswer (scan cb o fuel (mkS (rj_new r c2) u p2)).
Proof. exact @scan_fresh. Qed.
Print Assumptions C96_scan_partial.
(** Collects the names of the members of the top-level objects and reads their values. *)
Definition ex_read : action (list bytes) := fun r u =>
  do (r, v) <- next_bytes r; Done (r, match v with Ok d => d :: u | Err _ => u end, ValueIsConsumed).
Definition ex_callbacks : callbacks (list bytes) :=
  mkCallbacks (fun name c u => match name, names c with PNone, k :: _ => (k :: u, Some ex_read) | _, _ => (u, None) end) (fun _ _ u => (u, None)).
Definition ex_pool (x : bytes) : pool := match pool_new true x 3 with Done (Ok p) => p | _ => mkPool 0 0 [] [] end.
Example C96_scan_example :
  (forall name c u, match find_action ex_callbacks name c u with (_, Some a) => forall u, uses (program_of a u) | _ => True end) /\
  fresh (mkDims 3 38) (ex_pool (repeat 255%N 50)) /\ fresh (mkDims 3 38) (ex_pool (repeat 7%N 50)) /\
  sanswer (scan ex_callbacks (mkOptions [] false) 50 (mkS (rj_new (mkReader (bs "{""a"":""x"", ""b"":""y""} {}") [Chunk 3; Chunk 5]) (bs "whatever it")) [] (ex_pool (repeat 255%N 50)))) =
    Done (map bs ["y"; "b"; "x"; "a"]%string, Ok tt) /\
  sanswer (scan ex_callbacks (mkOptions [] false) 50 (mkS (rj_new (mkReader (bs "{""a"":""x"", ""b"":""y""} {}") [Chunk 3; Chunk 5]) (repeat 0%N 11)) [] (ex_pool (repeat 7%N 50)))) =
    Done (map bs ["y"; "b"; "x"; "a"]%string, Ok tt).
Proof.
  split; [|split; [exists true, (repeat 255%N 50); split; [|split]; vm_compute; reflexivity|split; [exists true, (repeat 7%N 50); split; [|split]; vm_compute; reflexivity|split; vm_compute; reflexivity]]].
  intros name c u. destruct name; try exact Logic.I. cbn [ex_callbacks find_action]. destruct (names c) as [|k l]; [exact Logic.I|]. intros v.
  apply (uses_same (fun r => do (r', x) <- next_bytes r; (fun x r => Done (r, (match x with Ok d => d :: v | Err _ => v end, ValueIsConsumed))) x r')).
  - intros r. unfold program_of, ex_read. destruct (next_bytes r) as [[r' x]| |]; reflexivity.
  - apply uses_call; [exact (api_method _ _ _ _ _ m_next_bytes)|]. intros x. apply uses_ret.
Qed.

(** idtransform: what is written and the result. *)
Theorem C96_idtransform_partial : forall fuel r w c1 c2 d p1 p2,
  len c1 = len c2 -> Forall leading c1 -> Forall leading c2 -> fresh d p1 -> fresh d p2 ->
  (do (_, w', _, v) <- idtransform fuel (rj_new r c1) w p1; Done (w', v)) = (do (_, w', _, v) <- idtransform fuel (rj_new r c2) w p2; Done (w', v)).
Proof. exact id_fresh. Qed.
Print Assumptions C96_idtransform_partial.
Example C96_idtransform_example :
  (do (_, w', _, v) <- idtransform 50 (rj_new (mkReader (bs "{""a"" : [1, ""x\ny""]}") [Chunk 6; Chunk 2]) (bs "whatever it")) (mkWriter [] None) (ex_pool (repeat 255%N 50)); Done (w', v)) =
    Done (mkWriter (bs "{""a"":[1,""x\ny""]}") None, Ok tt) /\
  (do (_, w', _, v) <- idtransform 50 (rj_new (mkReader (bs "{""a"" : [1, ""x\ny""]}") [Chunk 6; Chunk 2]) (repeat 0%N 11)) (mkWriter [] None) (ex_pool (repeat 7%N 50)); Done (w', v)) =
    Done (mkWriter (bs "{""a"":[1,""x\ny""]}") None, Ok tt).
Proof. split; vm_compute; reflexivity. Qed.

(** The converters, with and without the flag [unbuffered]. *)
Theorem C96_to_ddb_partial : forall fuel r w c1 c2 x1 x2 is_pretty wrapper,
  len c1 = len c2 -> Forall leading c1 -> Forall leading c2 -> len x1 = len x2 ->
  convert_normal_to_ddb fuel r w c1 x1 is_pretty wrapper = convert_normal_to_ddb fuel r w c2 x2 is_pretty wrapper.
Proof. exact n2d_fresh. Qed.
Print Assumptions C96_to_ddb_partial.
Theorem C96_from_ddb_partial : forall fuel r w c1 c2 x1 x2 is_pretty mode,
  len c1 = len c2 -> Forall leading c1 -> Forall leading c2 -> len x1 = len x2 ->
  convert_ddb_to_normal fuel r w c1 x1 is_pretty mode = convert_ddb_to_normal fuel r w c2 x2 is_pretty mode.
Proof. exact d2n_fresh. Qed.
Print Assumptions C96_from_ddb_partial.
Theorem C96_to_ddb_unbuffered_partial : forall unbuffered fuel r w c1 c2 x1 x2 is_pretty wrapper,
  len c1 = len c2 -> Forall leading c1 -> Forall leading c2 -> len x1 = len x2 ->
  fl_convert_normal_to_ddb unbuffered fuel r w c1 x1 is_pretty wrapper = fl_convert_normal_to_ddb unbuffered fuel r w c2 x2 is_pretty wrapper.
Proof. exact n2d_fresh_flush. Qed.
Print Assumptions C96_to_ddb_unbuffered_partial.
Theorem C96_from_ddb_unbuffered_partial : forall unbuffered fuel r w c1 c2 x1 x2 is_pretty mode,
  len c1 = len c2 -> Forall leading c1 -> Forall leading c2 -> len x1 = len x2 ->
  fl_convert_ddb_to_normal unbuffered fuel r w c1 x1 is_pretty mode = fl_convert_ddb_to_normal unbuffered fuel r w c2 x2 is_pretty mode.
Proof. exact d2n_fresh_flush. Qed.
Print Assumptions C96_from_ddb_unbuffered_partial.
Example C96_to_ddb_example :
  convert_normal_to_ddb 50 (mkReader (bs "{""a"":true}") (repeat (Chunk 0) 5)) (mkWriter [] None) (bs "whatever it") (repeat 255%N 200) false true =
    Done (mkWriter (bs "{""Item"":{""a"":{""BOOL"":true}}}" ++ [10%N]) None, Ok tt) /\
  convert_normal_to_ddb 50 (mkReader (bs "{""a"":true}") (repeat (Chunk 0) 5)) (mkWriter [] None) (repeat 0%N 11) (repeat 7%N 200) false true =
    Done (mkWriter (bs "{""Item"":{""a"":{""BOOL"":true}}}" ++ [10%N]) None, Ok tt).
Proof. split; vm_compute; reflexivity. Qed.
Example C96_from_ddb_example :
  fl_convert_ddb_to_normal true 50 (mkReader (bs "{""a"":{""S"":""x\ny""}}") (repeat (Chunk 0) 5)) (mkWriter [] None) (bs "whatever it") (repeat 255%N 300) false AsWrapper =
    Done (mkWriter (bs "{""a"":""x\ny""}" ++ [10%N]) None, Ok tt) /\
  fl_convert_ddb_to_normal true 50 (mkReader (bs "{""a"":{""S"":""x\ny""}}") (repeat (Chunk 0) 5)) (mkWriter [] None) (repeat 0%N 11) (repeat 7%N 300) false AsWrapper =
    Done (mkWriter (bs "{""a"":""x\ny""}" ++ [10%N]) None, Ok tt).
Proof. split; vm_compute; reflexivity. Qed.
(** With continuation bytes in the parser's buffer a valid document is refused, after part of a string has been written as if it were
    the whole string. *)
Theorem C96_to_ddb_refuted : exists fuel r w c1 c2 xb is_pretty wrapper, len c1 = len c2 /\ Forall leading c1 /\
  convert_normal_to_ddb fuel r w c1 xb is_pretty wrapper = Done (mkWriter (bs "{""S"":""\""bcd""}" ++ [10%N]) None, Ok tt) /\
  exists w' e, convert_normal_to_ddb fuel r w c2 xb is_pretty wrapper = Done (w', Err e) /\
    written w' = bs "{""S"":""\""}" ++ [10%N] ++ bs "{" ++ [10%N].
Proof.
  exists 50, (mkReader (bs """\""bcd""") (repeat (Chunk 0) 20)), (mkWriter [] None), (repeat 0%N 16), (repeat 160%N 16), (repeat 0%N 200), false, true.
  split; [reflexivity|]. split; [repeat constructor|]. split; [vm_compute; reflexivity|]. do 2 eexists. split; vm_compute; reflexivity.
Qed.
Print Assumptions C96_to_ddb_refuted.
