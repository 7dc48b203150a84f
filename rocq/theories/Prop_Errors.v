(** Properties C78-C80 of reported errors, and what C19 is in general. Only statements, examples and assumptions. *)
From Verif Require Import Base U8Pool Buffer BufferSpec Jiter RJiter RJiterSpec Scan Conv NormalToDdb DdbToNormal ErrorSpec ReadsSpec.
From Verif Require Import ErrorProofs ConvPosition.

Definition ex_new (i : bytes) (sc : list event) (n : nat) : rj := rj_new (mkReader i sc) (repeat 0%N n).
Definition st {A} (x : outcome (rj * A)) : rj := match x with Done (s, _) => s | _ => ex_new [] [] 0 end.
Definition ans {A} (x : outcome (rj * A)) : option A := match x with Done (_, r) => Some r | _ => None end.
Ltac now_true := solve [vm_compute; repeat split; repeat constructor].
Ltac now_valid := unfold valid, wf; now_true.

(** C19, any parsing method that begins inside the buffer or behind white space: the index of the error is the place [o]
    where the plain parser reports it, plus the number [a] of bytes the plain parser has passed. So it is right if and only if
    the plain parser has not moved. *)
Theorem C19_exact_partial : forall A k known token (f : jop A) op s s' e,
  method k known token f op -> valid s -> 2 <= rcap s -> 0 < jidx s \/ strip token (rest s) <> rest s ->
  op s = Done (s', Err e) ->
  (is_io e = true /\ rquiet s = false) \/
  exists n ty o a, f (firstn n (strip token (rest s))) = (Err (ty, o), a) /\
    e = mkErr ty (total s - len (strip token (rest s)) + o + a) /\
    (len (strip token (rest s)) <= n \/ n = rcap s \/ ~ seems_unfinished ty).
Proof. exact @error_exact_named. Qed.
Print Assumptions C19_exact_partial.
(** In front of the comma at 6. The plain parser stops at offset 14, where the number is instead of a colon, and has passed
    14 bytes. *)
Definition ex_colon (sc : list event) (n : nat) : rj :=
  st (next_number_bytes (st (next_object_bytes (ex_new (bs "{""a"":1,""bcdefghijk"" 3}") sc n)))).
Example C19_exact_example : let s := ex_colon [Chunk 3; Chunk 4; Chunk 2; Chunk 6] 20 in
  valid s /\ 0 < jidx s /\ rest s = bs ",""bcdefghijk"" 3}" /\ total s = 22 /\
  j_next_key j_known_bytes (rest s) = (Err (JsonError ExpectedColon, 14), 14) /\
  ans (next_key_bytes s) = Some (Err (mkErr (JsonError ExpectedColon) (22 - 16 + 14 + 14))).
Proof. cbv zeta. split; [now_valid|now_true]. Qed.

(** C78, what holds: unless the reader has failed, the error of a failed call can be described. *)
Theorem C78_described_partial : forall s s' e, failed s s' e -> valid s -> is_io e = false \/ rquiet s = true ->
  exists p, error_position s' (err_index e) = Done p.
Proof. exact described. Qed.
Print Assumptions C78_described_partial.
Example C78_example : let s := st (next_array (ex_new (bs "  [  abcdefgh") [Chunk 4] 6)) in
  let s' := st (lookahead_n 9 s) in let e := mkErr BufferFull 4 in
  valid s /\ failed s s' e /\ is_io e = false /\ error_position s' 4 = Done (1, 5).
Proof.
  cbv zeta. split; [now_valid|]. split; [|now_true].
  apply by_lookahead_n with 9. vm_compute. reflexivity.
Qed.
(** C78 is false when the reader fails: the index of the error counts from the start of the buffer, and asking for the
    position subtracts what was dropped in front of the buffer. *)
Theorem C78_described_refuted : exists s s' e, valid s /\ failed s s' e /\ e = mkErr (IoError 5%N) 2 /\
  error_position s' (err_index e) = Panic.
Proof.
  exists (st (skip_n_bytes 6 (ex_new (bs "[true,""abcdefgh""]") [Chunk 7; Fail 5%N] 8))). eexists. eexists.
  split; [now_valid|]. split; [apply (by_parsing _ _ _ _ _ a_known_str); vm_compute; reflexivity|].
  split; [vm_compute; reflexivity|]. vm_compute. reflexivity.
Qed.
Print Assumptions C78_described_refuted.

(** C79, what holds: an error of the document is never reported in front of the place where the call began. *)
Theorem C79_index_partial : forall s s' e, failed s s' e -> valid s -> about_document e -> current_index s <= err_index e.
Proof. exact not_before. Qed.
Print Assumptions C79_index_partial.
Example C79_example : let s := ex_colon [] 30 in let s' := st (next_key_bytes s) in let e := mkErr (JsonError ExpectedColon) 34 in
  valid s /\ failed s s' e /\ about_document e /\ current_index s = 6.
Proof.
  cbv zeta. split; [now_valid|]. split; [|now_true].
  apply (by_parsing _ _ _ _ _ a_next_key_bytes). vm_compute. reflexivity.
Qed.
(** C79 is false in general: of a full buffer and of a failing reader the index can be in front of the call, and of the
    document it can be behind the end. *)
Theorem C79_index_refuted :
  (exists s s' e, valid s /\ failed s s' e /\ err_type e = BufferFull /\ current_index s = 5 /\ err_index e = 4) /\
  (exists s s' e, valid s /\ failed s s' e /\ is_io e = true /\ current_index s = 6 /\ err_index e = 2) /\
  (exists s s' e, valid s /\ failed s s' e /\ about_document e /\ rquiet s = true /\ total s = 22 /\ err_index e = 34).
Proof.
  split; [|split].
  - exists (st (next_array (ex_new (bs "  [  abcdefgh") [] 6))). eexists. eexists.
    split; [now_valid|]. split; [apply by_lookahead_n with 9; vm_compute; reflexivity|]. now_true.
  - exists (st (skip_n_bytes 6 (ex_new (bs "[true,""abcdefgh""]") [Chunk 7; Fail 5%N] 8))). eexists. eexists.
    split; [now_valid|]. split; [apply (by_parsing _ _ _ _ _ a_known_str); vm_compute; reflexivity|]. now_true.
  - exists (ex_colon [] 30). eexists. eexists.
    split; [now_valid|]. split; [apply (by_parsing _ _ _ _ _ a_next_key_bytes); vm_compute; reflexivity|]. now_true.
Qed.
Print Assumptions C79_index_refuted.

(** C80, what holds: if no read fails, the position lies in the input unless it was the parser that has failed. *)
Definition of_parser (e : conversion_error) : Prop := match e with CScan (RJiterError _) => True | _ => False end.
Theorem C80_to_ddb_partial : forall fuel rd w rb xb pretty wrapper w' e p, 2 <= len rb -> quiet (buffer_new rd rb) = true ->
  convert_normal_to_ddb fuel rd w rb xb pretty wrapper = Done (w', Err (e, p)) -> ~ of_parser e -> p <= len (src rd).
Proof. exact n2d_early. Qed.
Print Assumptions C80_to_ddb_partial.
Theorem C80_from_ddb_partial : forall fuel rd w rb xb pretty mode w' e p, 2 <= len rb -> quiet (buffer_new rd rb) = true ->
  convert_ddb_to_normal fuel rd w rb xb pretty mode = Done (w', Err (e, p)) -> ~ of_parser e -> p <= len (src rd).
Proof. exact d2n_early. Qed.
Print Assumptions C80_from_ddb_partial.
(** A wrong descriptor, and no room for the output. *)
Example C80_example :
  let input := bs "{""Item"":{""a"":{""Z"":1}}}" in let rd := mkReader input [Chunk 12; Chunk 4] in
  quiet (buffer_new rd (repeat 0%N 20)) = true /\
  (exists w' e, convert_ddb_to_normal 100 rd (mkWriter [] None) (repeat 0%N 20) (repeat 0%N 1000) false AsWrapper = Done (w', Err (e, 18)) /\ ~ of_parser e) /\
  (exists w' e, convert_normal_to_ddb 100 rd (mkWriter [] (Some (19, 7%N))) (repeat 0%N 20) (repeat 0%N 1000) false true = Done (w', Err (e, 8)) /\ ~ of_parser e) /\
  len input = 22.
Proof.
  cbv zeta. split; [reflexivity|]. split; [|split; [|reflexivity]].
  - do 2 eexists. split; [vm_compute; reflexivity|exact (fun H => H)].
  - do 2 eexists. split; [vm_compute; reflexivity|exact (fun H => H)].
Qed.
(** C80 is false for both converters: the position of the error is behind the end of the input. *)
Theorem C80_position_refuted :
  (exists fuel input rb xb w' e, convert_normal_to_ddb fuel (mkReader input []) (mkWriter [] None) rb xb false false = Done (w', Err (e, 34)) /\
     len input = 22) /\
  (exists fuel input rb xb w' e, convert_ddb_to_normal fuel (mkReader input []) (mkWriter [] None) rb xb false AsWrapper = Done (w', Err (e, 50)) /\
     len input = 39).
Proof.
  split.
  - exists 50, (bs "{""a"":1,""bcdefghijk"" 3}"), (repeat 0%N 100), (repeat 0%N 300). eexists. eexists.
    split; vm_compute; reflexivity.
  - exists 50, (bs "{""Item"":{""a"":{""N"":""1""},""bcdefghijk"" 3}}"), (repeat 0%N 100), (repeat 0%N 400). eexists. eexists.
    split; vm_compute; reflexivity.
Qed.
Print Assumptions C80_position_refuted.
