(** Property C92 of the two DynamoDB converters, one behind the other, and C93 of idtransform behind itself. Only statements, examples and assumptions. *)
From Verif Require Import Base U8Pool Buffer BufferSpec Jiter RJiter RJiterSpec Scan ScanSpec IdSpec DdbSpec Conv NormalToDdb DdbToNormal ConvSpec BackSpec.
From Verif Require Import IdTransform ScanStack ScanExamples ConvResults BackTrip.

Notation cells := (repeat 0%N).
(** C92, what holds: a stream of items comes back byte by byte from plain JSON, if it was compact, has neither sets nor binary
    values ([expressible]) and numbers of at most 32 bytes, no name is "#top" or "#array", and all items are wrapped or all
    are not. Buffers and readers are as for C42; [seated]: what is too long for the second buffer. *)
Theorem C92_back_partial : forall m1 m2 (items : item_stream) rd1 rb1 xb1 rd2 rb2 xb2 pretty1 wrapper mode,
  sane m1 -> sane m2 -> may_fail m1 = false -> readable m2 pretty1 ->
  Forall (fit mode) items -> let vs := map (fun x => plain_item (snd x)) items in
  Forall ordinary vs -> Forall (numbers_within 32) vs -> Forall (seated (layout (tight m2 pretty1))) vs ->
  Forall (fun x => fst x = wrapper /\ Forall (fun '(_, d) => expressible d) (snd x)) items ->
  start m1 (rj_new rd1 rb1) -> documents (layout m1) (map item_of items) (src rd1) -> d2n_room xb1 (map item_of items) -> n2d_room xb2 vs ->
  exists text,
    eventually (fun fuel => convert_ddb_to_normal fuel rd1 (mkWriter [] None) rb1 xb1 pretty1 mode) (Done (mkWriter text None, Ok tt)) /\
    (src rd2 = text -> start m2 (rj_new rd2 rb2) ->
     exists out,
       eventually (fun fuel => convert_normal_to_ddb fuel rd2 (mkWriter [] None) rb2 xb2 false wrapper) (Done (mkWriter out None, Ok tt)) /\
       out = lines (map item_of items)).
Proof. exact there_and_back_same. Qed.
(** With sets and binary values, other wrappers and pretty-printing: what comes back is the form of the plain values. *)
Theorem C92_plain_form_partial : forall m1 m2 (items : item_stream) rd1 rb1 xb1 rd2 rb2 xb2 pretty1 pretty2 wrapper mode,
  sane m1 -> sane m2 -> may_fail m1 = false -> readable m2 pretty1 ->
  Forall (fit mode) items -> let vs := map (fun x => plain_item (snd x)) items in
  Forall ordinary vs -> Forall (numbers_within 32) vs -> Forall (seated (layout (tight m2 pretty1))) vs ->
  start m1 (rj_new rd1 rb1) -> documents (layout m1) (map item_of items) (src rd1) -> d2n_room xb1 (map item_of items) -> n2d_room xb2 vs ->
  exists text,
    eventually (fun fuel => convert_ddb_to_normal fuel rd1 (mkWriter [] None) rb1 xb1 pretty1 mode) (Done (mkWriter text None, Ok tt)) /\
    (src rd2 = text -> start m2 (rj_new rd2 rb2) ->
     exists out,
       eventually (fun fuel => convert_normal_to_ddb fuel rd2 (mkWriter [] None) rb2 xb2 pretty2 wrapper) (Done (mkWriter out None, Ok tt)) /\
       documents any_layout (map (record wrapper) vs) out /\ (pretty2 = false -> out = lines (map (record wrapper) vs))).
Proof. exact there_and_back. Qed.
Definition ex_back : item_stream :=
  [(true, [(bs "a", DL [DN (bs "-1.5e3"); DS (bs "x\n"); DL []; DM []]); (bs "b", DM [(bs "Item", DNull); (bs "d", DBool true)])])].
Definition ex_back_text : bytes := compact (item_json true (snd (hd (true, []) ex_back))).
Example C92_example :
  let vs := map (fun x => plain_item (snd x)) ex_back in
  start (InBuffer 200) (rj_new (mkReader ex_back_text []) (cells 200)) /\ documents (layout (InBuffer 200)) (map item_of ex_back) ex_back_text /\
  Forall (fit AsWrapper) ex_back /\ Forall ordinary vs /\ Forall (numbers_within 32) vs /\
  readable (InChunks 16 true) true /\ Forall (seated (layout (tight (InChunks 16 true) true))) vs /\
  readable (Filling 16 true 2) false /\ Forall (seated (layout (tight (Filling 16 true 2) false))) vs /\
  Forall (fun x => fst x = true /\ Forall (fun '(_, d) => expressible d) (snd x)) ex_back /\
  d2n_room (cells 400) (map item_of ex_back) /\ n2d_room (cells 200) vs /\
  lines (map item_of ex_back) =
    bs "{""Item"":{""a"":{""L"":[{""N"":""-1.5e3""},{""S"":""x\n""},{""L"":[]},{""M"":{}}]},""b"":{""M"":{""Item"":{""NULL"":true},""d"":{""BOOL"":true}}}}}" ++ [10%N].
Proof.
  cbv zeta. split; [|split; [|split; [|split; [|split; [|split; [|split; [|split; [|split; [|split; [|split; [|split]]]]]]]]]]].
  - split; [unfold valid, wf; vm_compute; repeat split; repeat constructor|]. split; [reflexivity|]. split; [|reflexivity].
    right. split; [reflexivity|]. split; [reflexivity|]. apply Nat.leb_le. vm_compute. reflexivity.
  - let v := eval cbv [ex_back map item_of item_json ddb_json bool_json fst snd] in (map item_of ex_back) in change (map item_of ex_back) with v.
    let l := eval vm_compute in ex_back_text in change ex_back_text with l. now_documents.
  - constructor; [split; [repeat (split || constructor); try discriminate; intros []|left; split; [reflexivity|left; reflexivity]]|constructor].
  - repeat constructor; vm_compute; discriminate.
  - repeat constructor; vm_compute; lia.
  - split; [vm_compute; lia|reflexivity].
  - constructor; [|constructor]. cbn [ex_back snd plain_item plain map bool_json seated fold_right].
    repeat match goal with
    | |- _ /\ _ => split
    | |- True => exact I
    | |- string_text ?t => let l := eval vm_compute in t in change (string_text l); now_text
    | |- number_text ?t => let l := eval vm_compute in t in change (number_text l); now_integer
    | |- string_ok _ ?t => let l := eval vm_compute in t in first [change (copied_text true l)|change (filled_text true l)]; now_layout
    | |- key_ok _ _ _ => vm_compute; lia
    | |- forall r, _ => intros r Hr; split; [vm_compute; lia|exact Hr]
    end.
  - vm_compute. lia.
  - constructor; [|constructor]. cbn [ex_back snd plain_item plain map bool_json seated fold_right].
    repeat match goal with
    | |- _ /\ _ => split
    | |- True => exact I
    | |- string_text ?t => let l := eval vm_compute in t in change (string_text l); now_text
    | |- number_text ?t => let l := eval vm_compute in t in change (number_text l); now_integer
    | |- string_ok _ ?t => let l := eval vm_compute in t in first [change (copied_text true l)|change (filled_text true l)]; now_layout
    | |- key_ok _ _ _ => vm_compute; lia
    | |- forall r, _ => intros r Hr; split; [vm_compute; lia|exact Hr]
    end.
  - repeat constructor.
  - split; [apply Nat.leb_le; vm_compute; reflexivity|]. repeat constructor; vm_compute; discriminate || lia.
  - split; [apply Nat.leb_le; vm_compute; reflexivity|]. repeat constructor; vm_compute; discriminate || lia.
  - vm_compute. reflexivity.
Qed.
Definition there_run (input : bytes) : option bytes :=
  match convert_ddb_to_normal 300 (mkReader input []) (mkWriter [] None) (cells 100) (cells 400) false AsWrapper with
  | Done (w, Ok _) => Some (written w)
  | _ => None
  end.
Definition back_run (input : bytes) : option bytes :=
  match convert_normal_to_ddb 300 (mkReader input []) (mkWriter [] None) (cells 100) (cells 300) false false with
  | Done (w, Ok _) => Some (written w)
  | _ => None
  end.
(** C92 is false of sets, of binary values and of numbers with more than 32 digits: DynamoDB allows 38. *)
Theorem C92_back_refuted : exists text1 text2 text3,
  there_run (bs "{""a"":{""SS"":[""x"",""y""]}}") = Some text1 /\ back_run text1 = Some (bs "{""a"":{""L"":[{""S"":""x""},{""S"":""y""}]}}" ++ [10%N]) /\
  there_run (bs "{""a"":{""B"":""aGk=""}}") = Some text2 /\ back_run text2 = Some (bs "{""a"":{""S"":""aGk=""}}" ++ [10%N]) /\
  there_run (bs "{""a"":{""N"":""12345678901234567890123456789012345678""}}") = Some text3 /\
  back_run text3 = Some (bs "{""a"":{""N"":""12345678901234567890123456789012""}}" ++ [10%N]).
Proof. do 3 eexists. split; [vm_compute; reflexivity|]. split; [vm_compute; reflexivity|]. split; [vm_compute; reflexivity|]. split; [vm_compute; reflexivity|]. split; [vm_compute; reflexivity|]. vm_compute. reflexivity. Qed.
Print Assumptions C92_back_partial.
Print Assumptions C92_plain_form_partial.
Print Assumptions C92_back_refuted.

(** C93, what holds: idtransform copies its own output unchanged. The value is no number (see below); the second reader has the
    whole text in its buffer or fills the buffer ([readable]). *)
Theorem C93_idempotent_partial : forall m1 m2 d v r1 p1 l r2 p2,
  sane m1 -> sane m2 -> may_fail m1 = false -> readable m2 false ->
  ordinary v -> has_room d v -> seated (layout (tight m2 false)) v -> (forall n, v <> JNumber n) ->
  start m1 r1 -> document (layout m1) v (rest r1) l -> fresh d p1 ->
  exists text r1' p1',
    eventually (fun fuel => idtransform fuel r1 (mkWriter [] None) p1) (Done (r1', mkWriter text None, p1', Ok tt)) /\
    (rest r2 = text -> start m2 r2 -> fresh d p2 ->
     exists r2' p2',
       eventually (fun fuel => idtransform fuel r2 (mkWriter [] None) p2) (Done (r2', mkWriter text None, p2', Ok tt)) /\ rest r2' = []).
Proof. exact idt_twice. Qed.
Definition ex_copied : json := JObject [(bs "k", JArray [JNumber (bs "-1.5e3"); JObject [(bs "b", JString (bs "x\n y"))]; JNull]); (bs "e", JObject [])].
Definition ex_copied_text : bytes := bs " { ""k"":[-1.5e3, {""b"" : ""x\n y""} ,null],""e"":{}} ".
Example C93_example :
  start (InChunks 12 true) (ex_rj ex_copied_text [Chunk 3; Chunk 0; Chunk 5] 12) /\ document (layout (InChunks 12 true)) ex_copied ex_copied_text [32%N] /\
  ordinary ex_copied /\ has_room (mkDims 5 40) ex_copied /\ seated (layout (tight (Filling 12 true 0) false)) ex_copied /\
  start (Filling 12 true 0) (ex_rj (compact ex_copied) [] 12) /\ fresh (mkDims 5 40) (ex_pool 60 5).
Proof.
  split; [|split; [|split; [|split; [|split; [|split]]]]].
  - split; [unfold valid, wf; vm_compute; repeat split; repeat constructor|]. split; [reflexivity|]. split; [|reflexivity].
    intros _. split; vm_compute; repeat constructor.
  - unfold ex_copied. let l := eval vm_compute in ex_copied_text in change ex_copied_text with l. now_document.
  - repeat constructor; vm_compute; discriminate.
  - repeat constructor; vm_compute; discriminate || lia.
  - cbn [ex_copied seated fold_right].
    repeat match goal with
    | |- _ /\ _ => split
    | |- True => exact I
    | |- string_text ?t => let l := eval vm_compute in t in change (string_text l); now_text
    | |- number_text ?t => let l := eval vm_compute in t in change (number_text l); now_integer
    | |- string_ok _ ?t => let l := eval vm_compute in t in first [change (copied_text true l)|change (filled_text true l)]; now_layout
    | |- key_ok _ _ _ => vm_compute; lia
    | |- forall r, _ => intros r Hr; split; [vm_compute; lia|exact Hr]
    end.
  - split; [split; [unfold valid, wf; vm_compute; repeat split; repeat constructor|]; split; [reflexivity|]; split; [|reflexivity]; intros _; split; vm_compute; repeat constructor|].
    split; [apply indented_check; vm_compute; reflexivity|]. intros _. do 3 right. reflexivity.
  - exact ex_fresh.
Qed.
Definition copy_run (input : bytes) (sched : list event) : option (bytes * result unit scan_error) :=
  match idtransform 200 (ex_rj input sched 8) (mkWriter [] None) (ex_pool 100 10) with
  | Done (_, w, _, v) => Some (written w, v)
  | _ => None
  end.
(** C93 is false of a number: nothing ends the copy. It is also false if the input comes in chunks: white space behind an opening
    brace can be needed. *)
Theorem C93_idempotent_refuted : exists text1 text2 chunks e1 e2,
  copy_run (bs "12 ") [] = Some (text1, Ok tt) /\ copy_run text1 [] = Some ([], Err e1) /\
  copy_run (bs "{ ""a"":1}") chunks = Some (text2, Ok tt) /\ copy_run text2 chunks = Some (bs "{", Err e2).
Proof. eexists _, _, [Chunk 1], _, _. split; [vm_compute; reflexivity|]. split; [vm_compute; reflexivity|]. split; [vm_compute; reflexivity|]. vm_compute. reflexivity. Qed.
Print Assumptions C93_idempotent_partial.
Print Assumptions C93_idempotent_refuted.
