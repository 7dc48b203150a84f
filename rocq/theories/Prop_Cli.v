(** Properties C62-C69 of the command line program. Only statements, examples and assumptions. *)
From Verif Require Import Base U8Pool Buffer BufferSpec Jiter RJiter RJiterSpec Scan ScanSpec IdSpec DdbSpec Conv NormalToDdb DdbToNormal ConvSpec Cli CliSpec.
From Verif Require Import ScanExamples CliProofs.

Definition from_ddb (direct : bool) : args := mkArgs FromDdb (Some "in"%string) (Some "out"%string) false false direct.
Definition to_ddb (direct : bool) : args := mkArgs ToDdb (Some "in"%string) (Some "out"%string) false false direct.
Definition with_input (input : bytes) : world :=
  mkWorld (fun p => if String.eqb p "in" then Some input else if String.eqb p "out" then Some (bs "old") else None) [] [] (fun _ => Some None).

(** C62 is false: the [BufWriter] is flushed by its destructor, which ignores the error; a full disk leaves half a file and
    status 0. *)
Theorem C62_complete_refuted : exists input room d,
  run (from_ddb false) 100 (mkReader input []) room = Done (d, Success) /\
  conversion (from_ddb false) 100 (mkReader input []) (mkWriter [] None) = Done (mkWriter (d ++ bs """x""}" ++ [10%N]) None, Ok tt).
Proof. exists (bs "{""a"":{""S"":""x""}}"), (Some (5, 7%N)), (bs "{""a"":"). split; vm_compute; reflexivity. Qed.
(** What holds of every input: with [--unbuffered], or if the output takes everything, status 0 means that the output is
    complete, and otherwise at most 8192 bytes at its end are missing, behind as many bytes as the output could take. *)
Theorem C62_complete_partial : forall a fuel rd room d x, run a fuel rd room = Done (d, x) -> status x = 0 ->
  exists text missing, conversion a fuel rd (mkWriter [] None) = Done (mkWriter text None, Ok tt) /\ text = d ++ missing /\
    len missing <= under_way a /\ match room with None => missing = [] | Some (n, _) => missing <> [] -> len d = n end.
Proof. exact cli_status. Qed.
Example C62_example : exists d x, run (from_ddb true) 100 (mkReader (bs "{""a"":{""S"":""x""}}") [Chunk 6; Chunk 3]) (Some (100, 7%N)) = Done (d, x) /\ status x = 0 /\ 0 < len d.
Proof. do 2 eexists. split; [vm_compute; reflexivity|]. split; [reflexivity|]. vm_compute. repeat constructor. Qed.
(** The same of the whole program: it has read the input, and this output is all that it has left. *)
Theorem C62_program_partial : forall a fuel o c x, same_file a = false -> main a fuel o = Done (c, x) -> status x = 0 ->
  exists input room d text missing, input_of a o = Some input /\ budget o (output_path a) = Some room /\ leaves a o d c /\
    conversion a fuel (mkReader input (chunks o)) (mkWriter [] None) = Done (mkWriter text None, Ok tt) /\ text = d ++ missing /\
    len missing <= under_way a /\ match room with None => missing = [] | Some (n, _) => missing <> [] -> len d = n end.
Proof. exact program_status. Qed.
Example C62_program_example : exists c x, main (mkArgs FromDdb None None false false true) 100 (mkWorld (fun _ => None) (bs "{""a"":{""S"":""x""}}") [Chunk 6] (fun _ => Some None)) = Done (c, x) /\
  status x = 0 /\ stdout c = bs "{""a"":""x""}" ++ [10%N].
Proof. do 2 eexists. split; [vm_compute; reflexivity|]. split; vm_compute; reflexivity. Qed.
Print Assumptions C62_complete_refuted.
Print Assumptions C62_complete_partial.
Print Assumptions C62_program_partial.

(** C63 is false: [exit] drops nothing, so that the output in the [BufWriter] is lost; here two lines. *)
Theorem C63_kept_refuted : exists input e i,
  run (to_ddb false) 100 (mkReader input []) None = Done ([], Failure e i) /\
  conversion (to_ddb false) 100 (mkReader input []) (mkWriter [] None) =
    Done (mkWriter (bs "{""Item"":{""a"":{""N"":""1""}}}" ++ [10%N] ++ bs "{""Item"":{""b"":{""N"":""2""}}}" ++ [10%N] ++ bs "{""Item"":{") None, Err (e, i)).
Proof. exists (bs "{""a"":1} {""b"":2} {"). do 2 eexists. split; vm_compute; reflexivity. Qed.
(** What holds of every input: after an error at most 8192 bytes (with [--unbuffered] none) of what was converted before it are
    missing, or the output was full. *)
Theorem C63_kept_partial : forall a fuel rd room d e i text v,
  run a fuel rd room = Done (d, Failure e i) -> conversion a fuel rd (mkWriter [] None) = Done (mkWriter text None, v) ->
  exists missing, text = d ++ missing /\
    (v = Err (e, i) /\ len missing <= under_way a \/ exists k, room = Some (len d, k) /\ missing <> []).
Proof. exact cli_kept. Qed.
Example C63_example : exists e i d v, let rd := mkReader (bs "{""a"":1} {""b"":2} ]") [Chunk 1] in
  run (to_ddb true) 100 rd (Some (70, 7%N)) = Done (d, Failure e i) /\ conversion (to_ddb true) 100 rd (mkWriter [] None) = Done (mkWriter d None, v) /\ 0 < len d.
Proof. do 4 eexists. split; [vm_compute; reflexivity|]. split; [vm_compute; reflexivity|]. vm_compute. repeat constructor. Qed.
Print Assumptions C63_kept_refuted.
Print Assumptions C63_kept_partial.

(** C64, what holds of every input: with [--unbuffered] an output that takes [n] bytes receives the first [n] bytes, and the
    status is 1 if there are more. Without it the status can be 0 then (C62). *)
Theorem C64_full_output_partial : forall a fuel rd n k text v,
  unbuffered a = true -> conversion a fuel rd (mkWriter [] None) = Done (mkWriter text None, v) ->
  exists x, run a fuel rd (Some (n, k)) = Done (firstn n text, x) /\ if n <? len text then exists e i, x = Failure e i else answered v x.
Proof. exact cli_full. Qed.
Example C64_example : exists x,
  conversion (to_ddb true) 100 (mkReader (bs "{""a"":[true, 1]} ") []) (mkWriter [] None) =
    Done (mkWriter (bs "{""Item"":{""a"":{""L"":[{""BOOL"":true},{""N"":""1""}]}}}" ++ [10%N]) None, Ok tt) /\
  run (to_ddb true) 100 (mkReader (bs "{""a"":[true, 1]} ") []) (Some (20, 7%N)) = Done (bs "{""Item"":{""a"":{""L"":[{", x) /\ x <> Success.
Proof. eexists. split; [vm_compute; reflexivity|]. split; [vm_compute; reflexivity|discriminate]. Qed.
(** If the input or the output cannot be opened, the status is 1 and nothing has changed. *)
Theorem C64_not_opened : forall a fuel o, input_of a o = None \/ budget o (output_path a) = None ->
  exists c x, main a fuel o = Done (c, x) /\ nothing_changed o c /\ status x = 1.
Proof. exact program_stopped. Qed.
Example C64_not_opened_example : let o := mkWorld (fun p => if String.eqb p "in" then Some (bs "{}") else None) [] [] (fun _ => None) in
  input_of (to_ddb true) o = Some (bs "{}") /\ exists c, main (to_ddb true) 10 o = Done (c, NoOutput).
Proof. split; [reflexivity|]. eexists. vm_compute. reflexivity. Qed.
Print Assumptions C64_full_output_partial.
Print Assumptions C64_not_opened.

(** C65: if the output takes everything, [--unbuffered] changes neither the status nor the message nor, on success, the output.
    After an error, both outputs are prefixes of the same text, and both lack at most 8192 bytes of it. (The reader delivers the
    same pieces to both.) *)
Theorem C65_buffering : forall a1 a2 fuel rd,
  to_convert a1 = to_convert a2 -> pretty_print a1 = pretty_print a2 -> without_item a1 = without_item a2 ->
  match run a1 fuel rd None, run a2 fuel rd None with
  | Done (d1, x1), Done (d2, x2) => x1 = x2 /\ (x1 = Success -> d1 = d2) /\
      exists text missing1 missing2, text = d1 ++ missing1 /\ text = d2 ++ missing2 /\ len missing1 <= under_way a1 /\ len missing2 <= under_way a2
  | Panic, Panic | Diverge, Diverge => True
  | _, _ => False
  end.
Proof. exact cli_alike. Qed.
Example C65_example : exists d1 d2 e i, let rd := mkReader (bs "{""a"":[true, 1]} [{""b"":nul") [Chunk 5] in
  run (to_ddb true) 100 rd None = Done (d1, Failure e i) /\ run (to_ddb false) 100 rd None = Done (d2, Failure e i) /\ d2 <> d1.
Proof. do 4 eexists. split; [vm_compute; reflexivity|]. split; [vm_compute; reflexivity|discriminate]. Qed.
Print Assumptions C65_buffering.

(** C66, what holds: values of the kind of C40 become a file of records ... *)
Theorem C66_to_ddb_partial : forall m vs a o input,
  to_convert a = ToDdb -> input_of a o = Some input -> budget o (output_path a) = Some None -> same_file a = false ->
  sane m -> may_fail m = false -> start m (rj_new (mkReader input (chunks o)) rjiter_buffer) -> documents (layout m) vs input ->
  n2d_room context_buffer vs -> Forall ordinary vs -> atoms_apart false vs -> Forall (numbers_within 32) vs ->
  exists text c,
    eventually (fun fuel => main a fuel o) (Done (c, Success)) /\ leaves a o text c /\
    documents any_layout (map (record (negb (without_item a))) vs) text /\
    (pretty_print a = false -> text = lines (map (record (negb (without_item a))) vs)).
Proof. exact main_to_ddb. Qed.
(** ... and items of the kind of C41 become a file of plain values, *)
Theorem C66_from_ddb_partial : forall m (items : item_stream) a o input,
  to_convert a = FromDdb -> input_of a o = Some input -> budget o (output_path a) = Some None -> same_file a = false ->
  sane m -> may_fail m = false -> start m (rj_new (mkReader input (chunks o)) rjiter_buffer) -> documents (layout m) (map item_of items) input ->
  d2n_room context_buffer (map item_of items) -> Forall (fit AsWrapper) items -> Forall (fun x => well_formed_item (snd x)) items ->
  exists text c,
    eventually (fun fuel => main a fuel o) (Done (c, Success)) /\ leaves a o text c /\
    documents any_layout (map (fun x => plain_item (snd x)) items) text /\
    (pretty_print a = false -> text = lines (map (fun x => plain_item (snd x)) items)).
Proof. exact main_from_ddb. Qed.
(** C67, what holds: ... and objects of the kind of C42 come back when the output of the first run is the input of the second. *)
Theorem C67_round_trip_partial : forall m1 m2 vs a1 a2 o1 o2 input there back,
  to_convert a1 = ToDdb -> input_of a1 o1 = Some input -> output_path a1 = Some there -> budget o1 (Some there) = Some None -> same_file a1 = false ->
  to_convert a2 = FromDdb -> input_path a2 = Some there -> output_path a2 = Some back -> budget o2 (Some back) = Some None -> there <> back ->
  sane m1 -> sane m2 -> may_fail m1 = false -> readable m2 (pretty_print a1) ->
  Forall is_object vs -> Forall ordinary vs -> Forall (numbers_within 32) vs -> Forall (suits (layout (tight m2 (pretty_print a1)))) vs ->
  Forall (way_back (negb (without_item a1)) AsWrapper) vs ->
  start m1 (rj_new (mkReader input (chunks o1)) rjiter_buffer) -> documents (layout m1) vs input ->
  n2d_room context_buffer vs -> d2n_room context_buffer (map (record (negb (without_item a1))) vs) ->
  exists c1 text, eventually (fun fuel => main a1 fuel o1) (Done (c1, Success)) /\ new_file c1 there = Some text /\
    (start m2 (rj_new (mkReader text (chunks o2)) rjiter_buffer) ->
     exists c2 out, eventually (fun fuel => main a2 fuel (later c1 o2)) (Done (c2, Success)) /\ new_file c2 back = Some out /\
       documents any_layout vs out /\ (pretty_print a2 = false -> out = lines vs)).
Proof. exact main_round_trip. Qed.
(** An object that meets all this; the file fits in the buffer of 64 KiB. *)
Definition ex_object : json := JObject [(bs "a", JArray [JNumber (bs "1"); JNull]); (bs "b", JString (bs "x"))].
Definition ex_file : bytes := bs "{""a"":[1,null],""b"":""x""} ".
Definition ex_ddb : bytes := bs "{""Item"":{""a"":{""L"":[{""N"":""1""},{""NULL"":true}]},""b"":{""S"":""x""}}}" ++ [10%N].
Example C66_example :
  let items := [(true, [(bs "a", DL [DN (bs "1"); DNull]); (bs "b", DS (bs "x"))])] in
  start whole (rj_new (mkReader ex_ddb []) rjiter_buffer) /\ documents (layout whole) (map item_of items) ex_ddb /\
  Forall (fit AsWrapper) items /\ Forall (fun x => well_formed_item (snd x)) items /\
  main (from_ddb false) 100 (with_input ex_ddb) = Done (write_file (Some "out"%string) (lines [ex_object]) (untouched (with_input ex_ddb)), Success).
Proof.
  cbv zeta. split; [apply whole_loads; apply Nat.leb_le; vm_compute; reflexivity|]. split; [|split; [|split]].
  - let v := eval cbv [map item_of item_json ddb_json bool_json fst snd] in (map item_of [(true, [(bs "a", DL [DN (bs "1"); DNull]); (bs "b", DS (bs "x"))])]) in
    change (documents (layout whole) v ex_ddb).
    let l := eval vm_compute in ex_ddb in change ex_ddb with l. now_documents.
  - constructor; [split; [repeat (split || constructor); try discriminate; intros []|left; split; [reflexivity|left; reflexivity]]|constructor].
  - unfold well_formed_item. cbn [snd well_formed fold_right].
    repeat match goal with
    | |- Forall _ _ => constructor
    | |- _ /\ _ => split
    | |- True => exact I
    | |- well_formed _ => cbn [well_formed fold_right]
    | |- string_text ?t => let l := eval vm_compute in t in change (string_text l); now_text
    | |- number_text ?t => let l := eval vm_compute in t in change (number_text l); now_integer
    end.
  - apply (main_success (from_ddb false) (with_input ex_ddb) 100 ex_ddb); [reflexivity..|]. vm_compute. reflexivity.
Qed.
Example C67_example :
  start whole (rj_new (mkReader ex_file []) rjiter_buffer) /\ documents (layout whole) [ex_object] ex_file /\
  readable whole false /\ is_object ex_object /\ ordinary ex_object /\ numbers_within 32 ex_object /\ suits (layout whole) ex_object /\
  way_back true AsWrapper ex_object /\ n2d_room context_buffer [ex_object] /\ d2n_room context_buffer [record true ex_object] /\
  main (to_ddb false) 100 (with_input ex_file) = Done (write_file (Some "out"%string) ex_ddb (untouched (with_input ex_file)), Success).
Proof.
  split; [apply whole_loads; apply Nat.leb_le; vm_compute; reflexivity|].
  split; [|split; [|split; [|split; [|split; [|split; [|split; [|split; [|split]]]]]]]].
  - unfold ex_object. let l := eval vm_compute in ex_file in change ex_file with l. now_documents.
  - exact I.
  - exact I.
  - repeat constructor; vm_compute; discriminate.
  - repeat constructor; apply Nat.leb_le; vm_compute; reflexivity.
  - unfold ex_object.
    repeat match goal with
    | |- _ /\ _ => split
    | |- True => exact I
    | |- suits _ _ => cbn [suits fold_right]
    | |- string_text ?t => let l := eval vm_compute in t in change (string_text l); now_text
    | |- number_text ?t => let l := eval vm_compute in t in change (number_text l); now_integer
    | |- string_ok _ ?t => exact I
    | |- key_ok _ _ _ => exact I
    end.
  - left. split; [reflexivity|left; reflexivity].
  - split; [apply Nat.leb_le; vm_compute; reflexivity|]. repeat constructor; (apply Nat.leb_le || apply N.leb_le); vm_compute; reflexivity.
  - split; [apply Nat.leb_le; vm_compute; reflexivity|]. repeat constructor; (apply Nat.leb_le || apply N.leb_le); vm_compute; reflexivity.
  - apply (main_success (to_ddb false) (with_input ex_file) 100 ex_file); [reflexivity..|]. vm_compute. reflexivity.
Qed.
Print Assumptions C66_to_ddb_partial.
Print Assumptions C66_from_ddb_partial.
Print Assumptions C67_round_trip_partial.

(** C68 is false: an input file that is also the output file is emptied, whatever it contains, and the status is 0. *)
Theorem C68_input_refuted : forall mode pretty_ plain_ direct p contents,
  exists a o c, a = mkArgs mode (Some p) (Some p) pretty_ plain_ direct /\ file o p = Some contents /\
    main a 10 o = Done (c, Success) /\ new_file c p = Some [].
Proof. exact main_destroys. Qed.
(** What holds: no other file is touched, and a file named for the output is not touched if the input cannot be opened. *)
Theorem C68_input_partial : forall a fuel o c x, main a fuel o = Done (c, x) ->
  (forall p, output_path a <> Some p -> new_file c p = file o p) /\ (output_path a <> None -> stdout c = []) /\
  (input_of a o = None -> c = untouched o /\ x = NoInput).
Proof. exact main_spares. Qed.
Example C68_example : exists c e i, main (from_ddb true) 100 (with_input (bs "{""a"":{""S"":""x""}")) = Done (c, Failure e i) /\
  new_file c "out" = Some (bs "{""a"":""x""").
Proof. do 3 eexists. split; vm_compute; reflexivity. Qed.
Print Assumptions C68_input_refuted.
Print Assumptions C68_input_partial.

(** C69 is false: the program does not end, for a literal cut short at the top level, and it can panic. *)
Theorem C69_ends_refuted : exists a o, forall fuel, main a fuel o = Diverge.
Proof. exists to_ddb_unbuffered, (mkWorld (fun _ => None) (bs "tru ") [] (fun _ => Some None)). exact busy_main. Qed.
Theorem C69_panics_refuted : exists input, main (from_ddb false) 100 (with_input input) = Panic.
Proof.
  exists (bs "{""a"":{""S"":""x"",""b"":{""S"":""x"",""c"":{""S"":""x"",""d"":{""S"":""x"",""e"":{""S"":""y""}}}}}}"). vm_compute. reflexivity.
Qed.
(** What holds of every input: from DynamoDB it ends; to DynamoDB it does not panic. *)
Theorem C69_ends_partial : forall a fuel o input, input_of a o = Some input ->
  (to_convert a = FromDdb -> 2 * len input + 2 <= fuel -> main a fuel o <> Diverge) /\ (to_convert a = ToDdb -> main a fuel o <> Panic).
Proof. exact main_ends. Qed.
Example C69_example : exists c e i, main (from_ddb true) 40 (with_input (bs "{""a"":{""S"":[]}}")) = Done (c, Failure e i).
Proof. do 3 eexists. vm_compute. reflexivity. Qed.
Print Assumptions C69_ends_refuted.
Print Assumptions C69_panics_refuted.
Print Assumptions C69_ends_partial.
