(** Properties C87-C89 of the converter in Python. Only statements, examples and assumptions. *)
From Coq Require Import ZArith.
From Verif Require Import Base Buffer Jiter RJiter RJiterSpec ScanSpec ValueSpec DdbSpec Cli Bench BenchSpec BenchKit PyBench PyBenchSpec PyKit.
From Verif Require Import PyBenchProofs PyBenchRun PyNumbers PyCases.
Local Opaque default_capacity.

(** C87: the conversions of the program in Python are those of the library. A value that has been converted to DynamoDB and back is the
    same, if it is an object, its integers have at most 4300 digits and its floats are read again from what they are shown as; without
    the wrapper, if it has not [Item] as its only member. *)
Theorem C87_there_and_back_partial : forall (float : Type) (float_of : bytes -> option float) (str_float : float -> bytes) x wrap,
  proper x -> sound_numbers float_of str_float x -> (exists m, x = SObject m) -> (wrap = false -> ~ only_item x) ->
  exists y, py_to str_float x wrap = Ok y /\ py_from float_of y = Ok x.
Proof. exact @py_round. Qed.
Example C87_back_example :
  let x := SObject [(bs "a", py_int (-120)); (bs "Item", SArray [SNull; SBool true; py_text "x"; SObject []; py_float "1.5"])] in
  proper x /\ sound_numbers kit_read (fun t => t) x /\ ~ only_item x /\ exists y, py_to (fun t => t) x false = Ok y /\ py_from kit_read y = Ok x.
Proof. exact py_back_case. Qed.
(** The value of a JSON object becomes the value of its record ([record] is what C40 and C42 are about), if all its numbers are integers
    of at most 4300 digits and no zero has a sign. *)
Theorem C87_same_records_partial : forall (float : Type) (float_of : bytes -> option float) (str_float : float -> bytes) ms x wrap,
  denotes (py_read float_of) (JObject ms) x -> whole_numbers (JObject ms) ->
  exists y, py_to str_float x wrap = Ok y /\ denotes (py_read float_of) (record wrap (JObject ms)) y.
Proof. exact @py_record. Qed.
(** The value of an item becomes the value of the plain object. *)
Theorem C87_same_items_partial : forall (float : Type) (float_of : bytes -> option float) wrapped ms y,
  denotes (py_read float_of) (item_json wrapped ms) y -> Forall (fun kd => readable_numbers (py_read float_of) (snd kd)) ms -> (wrapped = false -> ~ only_item y) ->
  exists x, py_from float_of y = Ok x /\ denotes (py_read float_of) (plain_item ms) x.
Proof. exact @py_item. Qed.
Example C87_same_example :
  let ms := [(bs "a", JNumber (bs "-12")); (bs "b\n", JArray [JNull; JNumber (bs "0")])] in
  let x := SObject [(bs "a", py_int (-12)); (bs "b" ++ feed, SArray [SNull; py_int 0])] in
  let ds := [(bs "c", DNS [bs "1"; bs "2.5"]); (bs "l", DL [DNull; DSS [bs "x"]])] in
  let y := SObject [(bs "Item", SObject [(bs "c", SObject [(bs "NS", SArray [py_text "1"; py_text "2.5"])]);
    (bs "l", SObject [(bs "L", SArray [SObject [(bs "NULL", SBool true)]; SObject [(bs "SS", SArray [py_text "x"])]])])])] in
  denotes py_kit_read (JObject ms) x /\ whole_numbers (JObject ms) /\
  denotes py_kit_read (item_json true ds) y /\ Forall (fun kd => readable_numbers py_kit_read (snd kd)) ds.
Proof. exact py_same_case. Qed.
(** It is false for a zero with a sign: the sign is lost. *)
Theorem C87_minus_zero_refuted : forall (float : Type) (float_of : bytes -> option float) (str_float : float -> bytes), exists ms x y,
  ms = [(bs "a", JNumber (bs "-0"))] /\ denotes (py_read float_of) (JObject ms) x /\ py_to str_float x false = Ok y /\ ~ denotes (py_read float_of) (record false (JObject ms)) y.
Proof. exact @py_minus_zero. Qed.
Print Assumptions C87_there_and_back_partial.
Print Assumptions C87_same_records_partial.
Print Assumptions C87_same_items_partial.
Print Assumptions C87_minus_zero_refuted.

(** C88: which texts are taken for an integer in a member [N] or [NS], for texts in ASCII: white space may be around them, they may have
    a sign and leading zeros, and single underscores between the digits. *)
Theorem C88_integers : forall (float : Type) (float_of : bytes -> option float) (t : bytes) (z : Z), Forall (fun x => x < 128)%N t ->
  (py_from float_of (SObject [(bs "a", SObject [(bs "N", SString t)])]) = Ok (SObject [(bs "a", SNumber (PyInt z))]) <-> python_integer t z).
Proof. exact @integers_taken. Qed.
Example C88_example : python_integer (bs " +1_000_007 ") 1000007 /\ python_integer (bs "-042") (-42).
Proof. exact integers_case. Qed.
(** Thus texts are accepted that are no numbers of JSON, and the value that is written for them is one. *)
Theorem C88_only_numbers_refuted : forall (float : Type) (float_of : bytes -> option float), exists t z,
  ~ number_text t /\ py_from float_of (SObject [(bs "a", SObject [(bs "N", SString t)])]) = Ok (SObject [(bs "a", SNumber (PyInt z))]).
Proof. exact @underscores_taken. Qed.
(** Integers of more digits are refused, though they are numbers of JSON (and the library converts them). *)
Theorem C88_long_refuted : forall (float : Type) (float_of : bytes -> option float), exists t, number_text t /\ len t = N.to_nat 4301 /\
  py_from float_of (SObject [(bs "a", SObject [(bs "N", SString t)])]) = Err (BadNumber t).
Proof. exact @long_refused. Qed.
Print Assumptions C88_integers.
Print Assumptions C88_only_numbers_refuted.
Print Assumptions C88_long_refuted.

(** C89: the two benchmark programs do the same with the same input: their outputs are created or not, they have the same values line
    for line, and the programs end with the same error or none. This is so if the parsers agree about the documents that are parsed, the
    input is UTF-8 without carriage returns and the separators 28 to 31, and the output takes everything. *)
Theorem C89_same_runs_partial : forall (float R : Type) (float_of : bytes -> option float) (str_float : float -> bytes) (show' : R -> bytes) (read' : bytes -> option R)
  (alike : pynum float -> R -> Prop), shown_alike alike (py_show str_float) show' ->
  forall loads dumps dumps_pretty from_str to_string to_string_pretty a o, bsame_file a = false -> (bbudget o (boutput a) = None \/ bbudget o (boutput a) = Some None) ->
  (forall i, match binput a with Some p => bfile o p | None => Some (bstdin o) end = Some i ->
     is_utf8 (coming i) /\ ordinary (coming i) /\ forall t, document_of (coming i) t -> parsed_alike alike (py_read float_of) read' (loads t) (from_str t)) ->
  ends_alike (fun _ _ => True) (snd (py_main float_of str_float loads dumps dumps_pretty a o)) (snd (bench_main show' read' from_str to_string to_string_pretty a o)) /\
  match fst (py_main float_of str_float loads dumps dumps_pretty a o), fst (bench_main show' read' from_str to_string to_string_pretty a o) with
  | Some d, Some d' => side_by_side alike (if bpretty a then dumps_pretty else dumps) (if bpretty a then to_string_pretty else to_string) d d'
  | None, None => True
  | _, _ => False
  end.
Proof. exact @main_alike. Qed.
Example C89_example :
  let l := bs "{""a"":{""N"":""5""}}" ++ feed ++ bs "{""b"":{""L"":[{""N"":""x""}]}}" ++ feed in
  is_utf8 l /\ ordinary l /\ shown_alike kit_alike py_kit_show (fun t => t) /\
  (forall t, document_of l t -> parsed_alike kit_alike py_kit_read shown_read (py_kit_loads t) (shown_from_str t)) /\
  py_kit_main (input_named "" FromDdb) (alone (mkInput l None)) = (Some (bs "{""a"": 5}" ++ feed), Err (BadNumber (bs "x"))) /\
  shown_main (input_named "" FromDdb) (alone (mkInput l None)) = (Some (bs "{""a"":5}" ++ feed), Err (Said "Invalid number format")).
Proof. exact same_case. Qed.
(** It is false with a carriage return: what is one line, and no document, in Rust, is two lines in Python. *)
Theorem C89_carriage_return_refuted : exists l d, is_utf8 l /\ Forall (fun x => x <> 10)%N l /\
  py_kit_main (input_named "" ToDdb) (alone (mkInput l None)) = (Some d, Ok tt) /\ line_feeds d = 2 /\
  kit_main (input_named "" ToDdb) (alone (mkInput l None)) = (Some [], Err InvalidJson).
Proof. exact return_case. Qed.
(** It is false with a separator in front of a document, which Python cuts off. *)
Theorem C89_separator_refuted : exists l d, is_utf8 l /\ ~ In 13%N l /\
  py_kit_main (input_named "jsonl" ToDdb) (alone (mkInput l None)) = (Some d, Ok tt) /\
  kit_main (input_named "jsonl" ToDdb) (alone (mkInput l None)) = (Some [], Err (InvalidLine 2)).
Proof. exact separator_case. Qed.
Print Assumptions C89_same_runs_partial.
Print Assumptions C89_carriage_return_refuted.
Print Assumptions C89_separator_refuted.
