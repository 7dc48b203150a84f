(** Properties C71-C77 of the benchmark program. Only statements, examples and assumptions. *)
From Verif Require Import Base Buffer Jiter RJiter RJiterSpec ScanSpec ValueSpec DdbSpec Cli Bench BenchSpec BenchKit.
From Verif Require Import BenchProofs BenchRun BenchCases BenchTrim.
Local Opaque default_capacity.

(** The examples. *)
Definition number (t : string) : value bytes := SNumber (bs t).
Definition text (t : string) : value bytes := SString (bs t).
Definition to_kit := to_dynamodb (fun t : bytes => t).
Definition from_kit := from_dynamodb kit_read.
Definition named (d : direction) : bargs := mkBargs d (Some "in.jsonl"%string) true (Some "out"%string) false false.
Definition unnamed (d : direction) : bargs := mkBargs d (Some "in"%string) false (Some "out"%string) false false.
Definition LF : bytes := [10%N].

(** C71: a value that has been converted to DynamoDB and back is the same, if it is an object and its numbers are read again from
    what they are shown as; without the wrapper, if it has not [Item] as its only member. *)
Theorem C71_there_and_back_partial : forall (num : Type) (show_num : num -> bytes) (read_num : bytes -> option num) x wrap,
  proper x -> legible show_num read_num x -> (exists m, x = SObject m) -> (wrap = false -> ~ only_item x) ->
  exists y, to_dynamodb show_num x wrap = Ok y /\ from_dynamodb read_num y = Ok x.
Proof. exact @round_value. Qed.
Example C71_example :
  let x := SObject [(bs "a", number "-1.5e3"); (bs "Item", SArray [SNull; SBool true; text "x"; SObject []])] in
  proper x /\ legible (fun t : bytes => t) kit_read x /\ ~ only_item x /\ exists y, to_kit x false = Ok y /\ from_kit y = Ok x.
Proof.
  cbn zeta. split; [|split; [|split]].
  - cbn. repeat split; repeat constructor; cbn; intuition discriminate.
  - cbn. repeat split.
  - intros (y & H). discriminate.
  - eexists. split; vm_compute; reflexivity.
Qed.
(** It is false without this: another value comes back, and no error. *)
Theorem C71_only_item_refuted : exists x y z, proper x /\ legible (fun t : bytes => t) kit_read x /\ (exists m, x = SObject m) /\
  to_kit x false = Ok y /\ from_kit y = Ok z /\ z <> x.
Proof.
  exists (SObject [(bs "Item", SObject [(bs "S", text "x")])]). do 2 eexists. split; [|split; [|split; [|split; [|split]]]].
  - cbn. repeat split; repeat constructor; intros [].
  - cbn. repeat split.
  - eexists. reflexivity.
  - vm_compute. reflexivity.
  - vm_compute. reflexivity.
  - discriminate.
Qed.
Print Assumptions C71_there_and_back_partial.
Print Assumptions C71_only_item_refuted.

(** C72: the conversions are those of the library. A value in memory is the value of a text; the value of a JSON object becomes the
    value of its record ([record] is what C40 and C42 are about), if its numbers are written the way they are shown. *)
Theorem C72_same_records_partial : forall (num : Type) (show_num : num -> bytes) (read_num : bytes -> option num) ms x wrap,
  denotes read_num (JObject ms) x -> canonical show_num read_num (JObject ms) ->
  exists y, to_dynamodb show_num x wrap = Ok y /\ denotes read_num (record wrap (JObject ms)) y.
Proof. exact @to_record. Qed.
(** The value of an item becomes the value of the plain object, whatever sets are in its lists (compare C41). *)
Theorem C72_same_items_partial : forall (num : Type) (read_num : bytes -> option num) wrapped ms y,
  denotes read_num (item_json wrapped ms) y -> Forall (fun kd => readable_numbers read_num (snd kd)) ms -> (wrapped = false -> ~ only_item y) ->
  exists x, from_dynamodb read_num y = Ok x /\ denotes read_num (plain_item ms) x.
Proof. exact @from_item. Qed.
Example C72_example :
  let ms := [(bs "a", JNumber (bs "12")); (bs "b\n", JArray [JNull; JTrue])] in
  let x := SObject [(bs "a", number "12"); (bs "b" ++ LF, SArray [SNull; SBool true])] in
  let ds := [(bs "c", DNS [bs "1"; bs "2"]); (bs "l", DL [DNull; DSS [bs "x"]; DSS [bs "y"]])] in
  let y := SObject [(bs "Item", SObject [(bs "c", SObject [(bs "NS", SArray [text "1"; text "2"])]);
    (bs "l", SObject [(bs "L", SArray [SObject [(bs "NULL", SBool true)]; SObject [(bs "SS", SArray [text "x"])]; SObject [(bs "SS", SArray [text "y"])]])])])] in
  denotes kit_read (JObject ms) x /\ canonical (fun t : bytes => t) kit_read (JObject ms) /\
  denotes kit_read (item_json true ds) y /\ Forall (fun kd => readable_numbers kit_read (snd kd)) ds.
Proof. exact bench_values. Qed.
(** A number that is written in another way becomes another text, if only its value is kept. *)
Theorem C72_number_text_refuted : exists (show_num : bool -> bytes) (read_num : bytes -> option bool) ms x y,
  denotes read_num (JObject ms) x /\ to_dynamodb show_num x false = Ok y /\ ~ denotes read_num (record false (JObject ms)) y.
Proof. exact bench_number_text. Qed.
(** What is not an item is accepted, and not as the library does it. *)
Theorem C72_only_items_refuted : exists x y, from_kit x = Ok y /\ x = SObject [(bs "a", SObject [(bs "S", number "5")])] /\ y = SObject [(bs "a", number "5")].
Proof. do 2 eexists. split; [|split; reflexivity]. vm_compute. reflexivity. Qed.
Print Assumptions C72_same_records_partial.
Print Assumptions C72_same_items_partial.
Print Assumptions C72_number_text_refuted.
Print Assumptions C72_only_items_refuted.

(** C73: a file with the extension jsonl is converted line by line. The program ends without an error and with this output if and only
    if every line becomes its part of the output. *)
Theorem C73_line_by_line : forall (num : Type) (show_num : num -> bytes) (read_num : bytes -> option num) from_str to_string to_string_pretty a l out,
  as_jsonl a = true -> bsame_file a = false ->
  (bench_main show_num read_num from_str to_string to_string_pretty a (alone (mkInput l None)) = (Some out, Ok tt) <->
   line_by_line (line_output show_num read_num from_str to_string to_string_pretty a) l out).
Proof. exact @named_lines. Qed.
(** What comes behind does not matter for whole lines, nor what was before, but for the number of the line in an error. *)
Theorem C73_independent : forall (num : Type) (show_num : num -> bytes) (read_num : bytes -> option num) from_str to_string to_string_pretty a l1 l2 b d1 v1 d2 v2,
  as_jsonl a = true -> bsame_file a = false -> whole_lines l1 ->
  bench_main show_num read_num from_str to_string to_string_pretty a (alone (mkInput l1 None)) = (Some d1, v1) ->
  bench_main show_num read_num from_str to_string to_string_pretty a (alone (mkInput l2 b)) = (Some d2, v2) ->
  bench_main show_num read_num from_str to_string to_string_pretty a (alone (mkInput (l1 ++ l2) b)) =
    match v1 with Ok _ => (Some (d1 ++ d2), further (line_feeds l1) v2) | Err e => (Some d1, Err e) end.
Proof. exact @named_join. Qed.
Example C73_example :
  let l1 := bs "{""a"":1}" ++ LF ++ LF in let l2 := bs "{""b"":2}" ++ LF ++ bs "{""c" in
  whole_lines l1 /\
  kit_main (named ToDdb) (alone (mkInput l1 None)) = (Some (bs "{""Item"":{""a"":{""N"":""1""}}}" ++ LF), Ok tt) /\
  kit_main (named ToDdb) (alone (mkInput l2 None)) = (Some (bs "{""Item"":{""b"":{""N"":""2""}}}" ++ LF), Err (InvalidLine 3)) /\
  kit_main (named ToDdb) (alone (mkInput (l1 ++ l2) None)) = (Some (bs "{""Item"":{""a"":{""N"":""1""}}}" ++ LF ++ bs "{""Item"":{""b"":{""N"":""2""}}}" ++ LF), Err (InvalidLine 5)).
Proof.
  cbn zeta. split; [right; exists (bs "{""a"":1}" ++ LF); reflexivity|]. split; [|split]; vm_compute; reflexivity.
Qed.
(** What [trim] cuts off is white space, and all of it. *)
Theorem C73_trim : forall l, trimmed l (trim l).
Proof. exact trim_is. Qed.
Example C73_trim_example : trim ([32; 194; 160; 226; 128; 168] ++ bs "{ }" ++ [13; 10])%N = bs "{ }".
Proof. reflexivity. Qed.
Print Assumptions C73_trim.
Print Assumptions C73_line_by_line.
Print Assumptions C73_independent.

(** C74: without this extension, lines are recognized by the first line: if it is a JSON document, all are converted as with
    the extension. (The numbers in errors differ, C75.) *)
Theorem C74_recognized_partial : forall (num : Type) (show_num : num -> bytes) (read_num : bytes -> option num) from_str to_string to_string_pretty a a' line rest b x d v,
  as_jsonl a = false -> bsame_file a = false -> as_jsonl a' = true -> bsame_file a' = false ->
  bmode a' = bmode a -> bpretty a' = bpretty a -> bwithout_item a' = bwithout_item a ->
  one_line line rest -> utf8_invalid 0 line = None -> (b = None \/ last line 0%N = 10%N) -> trim line <> [] -> from_str (trim line) = Some x ->
  bench_main show_num read_num from_str to_string to_string_pretty a (alone (mkInput (line ++ rest) b)) = (Some d, v) ->
  bench_main show_num read_num from_str to_string to_string_pretty a' (alone (mkInput (line ++ rest) b)) = (Some d, further 1 v).
Proof. exact @detected. Qed.
(** If the first line is not a document, the whole input is converted as one. *)
Theorem C74_document : forall (num : Type) (show_num : num -> bytes) (read_num : bytes -> option num) from_str to_string to_string_pretty a line rest,
  as_jsonl a = false -> bsame_file a = false -> one_line line rest -> utf8_invalid 0 line = None -> utf8_invalid 0 rest = None ->
  (trim line = [] \/ from_str (trim line) = None) ->
  bench_main show_num read_num from_str to_string to_string_pretty a (alone (mkInput (line ++ rest) None)) =
    match from_str (line ++ rest) with
    | None => (Some [], Err InvalidJson)
    | Some x =>
        match match bmode a with FromDdb => from_dynamodb read_num x | ToDdb => to_dynamodb show_num x (negb (bwithout_item a)) end with
        | Ok y => (Some ((if bpretty a then to_string_pretty y else to_string y) ++ [10%N]), Ok tt)
        | Err e => (Some [], Err e)
        end
    end.
Proof. exact @document. Qed.
Example C74_example :
  kit_main (unnamed FromDdb) (alone (mkInput (bs "{""a"":{""S"":""x""}}" ++ LF ++ bs "{""b"":{""NULL"":true}}") None)) = (Some (bs "{""a"":""x""}" ++ LF ++ bs "{""b"":null}" ++ LF), Ok tt) /\
  kit_main (unnamed FromDdb) (alone (mkInput (bs "{""a"":" ++ LF ++ bs " {""S"":""x""}}" ++ LF) None)) = (Some (bs "{""a"":""x""}" ++ LF), Ok tt).
Proof. split; vm_compute; reflexivity. Qed.
(** It is false if the first line is blank: the lines are taken for one document, which is refused. *)
Theorem C74_blank_refuted : exists l out, kit_main (named FromDdb) (alone (mkInput l None)) = (Some out, Ok tt) /\ 0 < len out /\
  kit_main (unnamed FromDdb) (alone (mkInput l None)) = (Some [], Err InvalidJson).
Proof.
  exists (LF ++ bs "{""a"":{""S"":""x""}}" ++ LF ++ bs "{""b"":{""NULL"":true}}" ++ LF). eexists. split; [vm_compute; reflexivity|]. split; [vm_compute; repeat constructor|vm_compute; reflexivity].
Qed.
Print Assumptions C74_recognized_partial.
Print Assumptions C74_document.
Print Assumptions C74_blank_refuted.

(** C75: the number in an error is that of a line which is not a JSON document, for inputs without the extension jsonl. *)
Theorem C75_line_number_partial : forall (num : Type) (show_num : num -> bytes) (read_num : bytes -> option num) from_str to_string to_string_pretty a i d k,
  bsame_file a = false -> bench_main show_num read_num from_str to_string to_string_pretty a (alone i) = (d, Err (InvalidLine k)) ->
  exists before line rest, coming i = before ++ line ++ rest /\ whole_lines before /\ one_line line rest /\ trim line <> [] /\ from_str (trim line) = None /\
    k = (if as_jsonl a then 2 else 1) + line_feeds before.
Proof. exact @wrong_line. Qed.
Example C75_example : kit_main (unnamed ToDdb) (alone (mkInput (bs "{""a"":1}" ++ LF ++ LF ++ bs "{""b"":" ++ LF) None)) = (Some (bs "{""Item"":{""a"":{""N"":""1""}}}" ++ LF), Err (InvalidLine 3)).
Proof. vm_compute. reflexivity. Qed.
(** For files with the extension it is false: the first line is called the second one. *)
Theorem C75_named_refuted : exists l, line_feeds l = 0 /\ kit_main (named ToDdb) (alone (mkInput l None)) = (Some [], Err (InvalidLine 2)).
Proof. exists (bs "{""a"":"). split; vm_compute; reflexivity. Qed.
Print Assumptions C75_line_number_partial.
Print Assumptions C75_named_refuted.

(** C76: an output that can take [n] bytes gets the first [n] bytes of what an output without limit gets, also if the conversion ends
    with an error. If there are more, there is an error; otherwise the answer is the same. *)
Theorem C76_full_output : forall (num : Type) (show_num : num -> bytes) (read_num : bytes -> option num) from_str to_string to_string_pretty a o o' d v n k,
  bbudget o (boutput a) = Some None -> bench_main show_num read_num from_str to_string to_string_pretty a o = (Some d, v) ->
  bbudget o' (boutput a) = Some (Some (n, k)) -> bfile o' = bfile o -> bstdin o' = bstdin o ->
  exists v', bench_main show_num read_num from_str to_string to_string_pretty a o' = (Some (firstn n d), v') /\
    if n <? len d then v' = Err (Unwritable k) \/ v' = v /\ v <> Ok tt else v' = v.
Proof. exact @main_room. Qed.
Example C76_example :
  let i := mkInput (bs "{""a"":{""S"":""x""}}" ++ LF) None in let o' := mkBworld (fun _ => Some i) i (fun _ => Some (Some (5, 7%N))) in
  kit_main (unnamed FromDdb) (alone i) = (Some (bs "{""a"":""x""}" ++ LF), Ok tt) /\ kit_main (unnamed FromDdb) o' = (Some (bs "{""a"":"), Err (Unwritable 7%N)).
Proof. split; vm_compute; reflexivity. Qed.
Print Assumptions C76_full_output.

(** C77: the output file can be the input file, if that has at most 8192 bytes and not the extension jsonl: the output is the same as
    that in another file. *)
Theorem C77_in_place_partial : forall (num : Type) (show_num : num -> bytes) (read_num : bytes -> option num) from_str to_string to_string_pretty a q o i f,
  binput a = Some f -> boutput a = Some f -> named_jsonl a = false -> bfile o f = Some i -> len (coming i) <= N.to_nat 8192 ->
  q <> Some f -> bbudget o q = bbudget o (Some f) ->
  bench_main show_num read_num from_str to_string to_string_pretty a o =
  bench_main show_num read_num from_str to_string to_string_pretty (mkBargs (bmode a) (binput a) (named_jsonl a) q (bpretty a) (bwithout_item a)) o.
Proof. exact @in_place. Qed.
Example C77_example : kit_main (mkBargs ToDdb (Some "in"%string) false (Some "in"%string) false true) (alone (mkInput (bs "{""a"":1}" ++ LF ++ bs "{}") None)) =
  (Some (bs "{""a"":{""N"":""1""}}" ++ LF ++ bs "{}" ++ LF), Ok tt).
Proof. vm_compute. reflexivity. Qed.
(** With the extension the file is emptied, and there is no error. *)
Theorem C77_named_refuted : exists a l, binput a = boutput a /\ kit_main a (alone (mkInput l None)) = (Some [], Ok tt) /\
  line_by_line (line_output (fun t : bytes => t) kit_read kit_from_str kit_to_string kit_to_string a) l (bs "{""Item"":{}}" ++ LF).
Proof. exact bench_emptied. Qed.
(** Of a longer file only the beginning is converted, and there can be no error: here 2731 lines of 3000. *)
Theorem C77_long_refuted : exists a l out, binput a = boutput a /\ as_jsonl a = false /\ line_feeds l = 3000 /\ line_feeds out = 2731 /\
  kit_main a (alone (mkInput l None)) = (Some out, Ok tt).
Proof. exact bench_cut. Qed.
Print Assumptions C77_in_place_partial.
Print Assumptions C77_named_refuted.
Print Assumptions C77_long_refuted.
