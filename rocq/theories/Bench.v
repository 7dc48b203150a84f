(** Model of benchmarks/dynamodb/ddb_convert_rust/src/main.rs, the same converter without the streaming parser. No proofs here.
    The crate serde_json is not modelled: its numbers, [from_str], [to_string] and [to_string_pretty] are parameters, and any
    functions will do. [to_string] of a [Value] does not fail. The parsing of the arguments (8-39) is left out. *)
From Verif Require Import Base Buffer Jiter RJiter Cli.

(** [serde_json::Value]. A [Map] (with the feature preserve_order) is the list of its members; no two have the same key. *)
Inductive value {num : Type} :=
| SNull
| SBool (b : bool)
| SNumber (n : num)
| SString (s : bytes)
| SArray (l : list value)
| SObject (m : list (bytes * value)).
Arguments value : clear implicits.
(** [Map::insert]: an old member of the same key is replaced where it stands. *)
Fixpoint insert {X : Type} (k : bytes) (x : X) (m : list (bytes * X)) : list (bytes * X) :=
  match m with
  | [] => [(k, x)]
  | (k', x') :: m => if beq k k' then (k', x) :: m else (k', x') :: insert k x m
  end.
(** The errors: [bail!] and [context]; those of the files. *)
Inductive trouble :=
| Said (m : string)
| UnknownType (k : bytes)
| InvalidJson
| InvalidLine (n : nat)
| Unreadable (k : io_kind)
| NotText
| Unwritable (k : io_kind)
| InputMissing
| OutputMissing.

Section Serde.
Context {num : Type} (show_num : num -> bytes) (read_num : bytes -> option num).
Notation value := (value num).
(** The loops [for (k, v) in obj { map.insert(k, f(v)?) }] and [for item in arr { items.push(f(item)?) }]. *)
Definition each_member (f : value -> result value trouble) : list (bytes * value) -> list (bytes * value) -> result (list (bytes * value)) trouble :=
  fix go m out :=
    match m with
    | [] => Ok out
    | (k, x) :: m => match f x with Err e => Err e | Ok y => go m (insert k y out) end
    end.
Definition each_item (f : value -> result value trouble) : list value -> list value -> result (list value) trouble :=
  fix go l out :=
    match l with
    | [] => Ok out
    | x :: l => match f x with Err e => Err e | Ok y => go l (out ++ [y]) end
    end.
(** 286-328 [marshall_value]. *)
Fixpoint marshall_value (x : value) : result value trouble :=
  match x with
  | SNull => Ok (SObject (insert (bs "NULL") (SBool true) []))
  | SBool b => Ok (SObject (insert (bs "BOOL") (SBool b) []))
  | SNumber n => Ok (SObject (insert (bs "N") (SString (show_num n)) []))
  | SString s => Ok (SObject (insert (bs "S") (SString s) []))
  | SArray l =>
      match each_item marshall_value l [] with
      | Err e => Err e
      | Ok items => Ok (SObject (insert (bs "L") (SArray items) []))
      end
  | SObject m =>
      match each_member marshall_value m [] with
      | Err e => Err e
      | Ok map => Ok (SObject (insert (bs "M") (SObject map) []))
      end
  end.
(** 204-223 [to_dynamodb]. *)
Definition to_dynamodb (x : value) (wrap_item : bool) : result value trouble :=
  match x with
  | SObject m =>
      match each_member marshall_value m [] with
      | Err e => Err e
      | Ok o => Ok (if wrap_item then SObject (insert (bs "Item") (SObject o) []) else SObject o)
      end
  | _ => Err (Said "Expected JSON object")
  end.

(** 240-243, 274-276: [s.parse::<serde_json::Number>()]. *)
Definition parse_number (not_a_string : string) (x : value) : result value trouble :=
  match x with
  | SString s => match read_num s with Some n => Ok (SNumber n) | None => Err (Said "Invalid number format") end
  | _ => Err (Said not_a_string)
  end.
(** 225-284 [unmarshall_value]. *)
Fixpoint unmarshall_value (x : value) : result value trouble :=
  match x with
  | SObject [(k, t)] =>
      if beq k (bs "S") then Ok t
      else if beq k (bs "N") then parse_number "N type must be string" t
      else if beq k (bs "BOOL") then Ok t
      else if beq k (bs "NULL") then Ok SNull
      else if beq k (bs "M") then
        match t with
        | SObject m => match each_member unmarshall_value m [] with Err e => Err e | Ok out => Ok (SObject out) end
        | _ => Err (Said "M type must be object")
        end
      else if beq k (bs "L") then
        match t with
        | SArray l => match each_item unmarshall_value l [] with Err e => Err e | Ok out => Ok (SArray out) end
        | _ => Err (Said "L type must be array")
        end
      else if beq k (bs "SS") then Ok t
      else if beq k (bs "NS") then
        match t with
        | SArray l => match each_item (parse_number "NS items must be strings") l [] with Err e => Err e | Ok out => Ok (SArray out) end
        | _ => Err (Said "NS type must be array")
        end
      else if beq k (bs "BS") then Ok t
      else if beq k (bs "B") then Ok t
      else Err (UnknownType k)
  | SObject _ => Err (Said "DynamoDB type object must have exactly one key")
  | _ => Err (Said "Expected DynamoDB type object")
  end.
(** 179-202 [from_dynamodb]. *)
Definition from_dynamodb (x : value) : result value trouble :=
  match x with
  | SObject m =>
      let unwrapped :=
        match m with
        | [(k, t)] => if beq k (bs "Item") then match t with SObject o => Ok o | _ => Err (Said "Expected Item to be an object") end else Ok m
        | _ => Ok m
        end in
      match unwrapped with
      | Err e => Err e
      | Ok m => match each_member unmarshall_value m [] with Err e => Err e | Ok out => Ok (SObject out) end
      end
  | _ => Err (Said "Expected JSON object")
  end.

(** ** The program *)
Context (from_str : bytes -> option value) (to_string to_string_pretty : value -> bytes).
(** The input: the bytes that can be read, and the error that comes behind them, if any. *)
Record input := mkInput { coming : bytes; broken : option io_kind }.
(** [BufRead::read_line]: the bytes up to and with the next line feed, and the others. *)
Fixpoint take_line (l : bytes) : bytes * bytes :=
  match l with
  | [] => ([], [])
  | x :: l => if N.eqb x 10 then ([x], l) else let '(a, b) := take_line l in (x :: a, b)
  end.
Definition ended (line : bytes) : bool := N.eqb (last line 0%N) 10.
Definition as_text (l : bytes) : result bytes trouble := match utf8_invalid 0 l with None => Ok l | Some _ => Err NotText end.
Definition read_line (i : input) : result (bytes * input) trouble :=
  let '(line, others) := take_line (coming i) in
  match (if ended line then None else broken i) with
  | Some k => Err (Unreadable k)
  | None => match as_text line with Err e => Err e | Ok _ => Ok (line, mkInput others (broken i)) end
  end.
(** [BufRead::read_to_string]. *)
Definition read_to_string (i : input) : result bytes trouble :=
  match broken i with Some k => Err (Unreadable k) | None => as_text (coming i) end.
(** [BufRead::lines]: what the iterator yields, up to its first error and no further. The end of a line (line feed, or carriage
    return and line feed) is cut off in [std], which [trim] makes irrelevant: it is left in place here. *)
Fixpoint pieces (l : bytes) : list bytes :=
  match l with
  | [] => []
  | x :: l => if N.eqb x 10 then [x] :: pieces l else match pieces l with [] => [[x]] | p :: ps => (x :: p) :: ps end
  end.
Definition lines_of (i : input) : list (result bytes trouble) :=
  match broken i with
  | None => map as_text (pieces (coming i))
  | Some k => map as_text (filter ended (pieces (coming i))) ++ [Err (Unreadable k)]
  end.
(** [str::trim]: the characters with the property White_Space, in UTF-8. *)
Definition white_space : list bytes :=
  [[9]; [10]; [11]; [12]; [13]; [32]; [194; 133]; [194; 160]; [225; 154; 128];
   [226; 128; 128]; [226; 128; 129]; [226; 128; 130]; [226; 128; 131]; [226; 128; 132]; [226; 128; 133]; [226; 128; 134]; [226; 128; 135];
   [226; 128; 136]; [226; 128; 137]; [226; 128; 138]; [226; 128; 168]; [226; 128; 169]; [226; 128; 175]; [226; 129; 159]; [227; 128; 128]]%N.
Fixpoint starts_with (p l : bytes) : bool :=
  match p, l with
  | [], _ => true
  | x :: p, y :: l => N.eqb x y && starts_with p l
  | _, _ => false
  end.
Fixpoint trim_start (chars : list bytes) (skip : nat) (l : bytes) : bytes :=
  match l with
  | [] => []
  | _ :: l' =>
      match skip with
      | S k => trim_start chars k l'
      | 0 => match find (fun p => starts_with p l) chars with Some p => trim_start chars (len p - 1) l' | None => l end
      end
  end.
Definition trim (l : bytes) : bytes := rev (trim_start (map (@rev byte) white_space) 0 (rev (trim_start white_space 0 l))).

(** 8-39 [Cli], [Mode]. [named_jsonl]: the extension of the input path is "jsonl". *)
Record bargs := mkBargs {
  bmode : direction;
  binput : option string;
  named_jsonl : bool;
  boutput : option string;
  bpretty : bool;
  bwithout_item : bool }.
(** 113-116, 137-140, 165-168: the conversion of a value. *)
Definition convert_value (a : bargs) (x : value) : result value trouble :=
  match bmode a with
  | FromDdb => from_dynamodb x
  | ToDdb => to_dynamodb x (negb (bwithout_item a))
  end.
(** 118-122, 142-146, 170-174: [writeln!]. *)
Definition print (a : bargs) (x : value) : bytes := if bpretty a then to_string_pretty x else to_string x.
Definition writeln (w : writer) (t : bytes) : writer * result unit trouble :=
  match write_all w t with
  | (w, Err k) => (w, Err (Unwritable k))
  | (w, Ok _) => match write_all w [10%N] with (w, Err k) => (w, Err (Unwritable k)) | (w, Ok _) => (w, Ok tt) end
  end.
(** The common part of 110-122, 134-146 and 163-174. *)
Definition handle (a : bargs) (invalid : trouble) (t : bytes) (w : writer) : writer * result unit trouble :=
  match from_str t with
  | None => (w, Err invalid)
  | Some x => match convert_value a x with Err e => (w, Err e) | Ok y => writeln w (print a y) end
  end.
(** 126-147: the loop over the lines; [n] is the number of the line. *)
Fixpoint line_loop (a : bargs) (n : nat) (l : list (result bytes trouble)) (w : writer) : writer * result unit trouble :=
  match l with
  | [] => (w, Ok tt)
  | Err e :: _ => (w, Err e)
  | Ok line :: l =>
      match trim line with
      | [] => line_loop a (S n) l w
      | t => match handle a (InvalidLine n) t w with (w, Err e) => (w, Err e) | (w, Ok _) => line_loop a (S n) l w end
      end
  end.
(** 99-150 [process_jsonl]. *)
Definition process_jsonl (a : bargs) (first_line : bytes) (i : input) (w : writer) : writer * result unit trouble :=
  let '(w, v) := match trim first_line with [] => (w, Ok tt) | t => handle a (InvalidLine 1) t w end in
  match v with
  | Err e => (w, Err e)
  | Ok _ => line_loop a 2 (lines_of i) w
  end.
(** 152-177 [process_json]. *)
Definition process_json (a : bargs) (first_line : bytes) (i : input) (w : writer) : writer * result unit trouble :=
  match read_to_string i with
  | Err e => (w, Err e)
  | Ok others => handle a InvalidJson (first_line ++ others) w
  end.
(** 85-97 [detect_jsonl_from_content], 53-64: is it JSONL, the first line if it has been read, the rest of the input. *)
Definition detect (a : bargs) (i : input) : result (bool * bytes * input) trouble :=
  if match binput a with Some _ => named_jsonl a | None => false end then Ok (true, [], i)
  else
    match read_line i with
    | Err e => Err e
    | Ok (line, i) =>
        match trim line with
        | [] => Ok (false, line, i)
        | t => Ok (match from_str t with Some _ => true | None => false end, line, i)
        end
    end.
(** 75-82 behind the opening of the output: what has arrived there at the end, and how the program ends. The [BufWriter] is flushed
    at the end of a run without errors; behind an error it is flushed when it is dropped, and another error is ignored. *)
Definition bench_run (a : bargs) (jsonl : bool) (first_line : bytes) (i : input) (room : option (nat * io_kind)) : bytes * result unit trouble :=
  let w := mkBuffered [] [] default_capacity room in
  let '(w, v) := if jsonl then process_jsonl a first_line i w else process_json a first_line i w in
  let '(w, f) := flush_held w in
  (delivered w,
   match v, f with
   | Err e, _ => Err e
   | Ok _, Err k => Err (Unwritable k)
   | Ok _, Ok _ => Ok tt
   end).

(** The surroundings, as in Cli.v: files, standard input, for every output its budget unless it cannot be created. *)
Record bworld := mkBworld {
  bfile : string -> option input;
  bstdin : input;
  bbudget : option string -> option (option (nat * io_kind)) }.
(** If the output is the input file, its bytes are gone when it is created, but for those that the [BufReader] has taken into
    its 8192 bytes (it fills them whenever they are used up) while the first line was read. *)
Definition in_memory (line : bytes) (i : input) : input :=
  let taken := (len line + default_capacity - 1) / default_capacity * default_capacity in
  mkInput (firstn (taken - len line) (coming i)) (broken i).
Definition bsame_file (a : bargs) : bool :=
  match binput a, boutput a with Some i, Some o => String.eqb i o | _, _ => false end.
(** 41-83 [main]: the new content of the output, if it was created, and how the program ends. *)
Definition bench_main (a : bargs) (o : bworld) : option bytes * result unit trouble :=
  match match binput a with Some p => bfile o p | None => Some (bstdin o) end with
  | None => (None, Err InputMissing)
  | Some i =>
      match detect a i with
      | Err e => (None, Err e)
      | Ok (jsonl, line, i) =>
          match bbudget o (boutput a) with
          | None => (None, Err OutputMissing)
          | Some room =>
              let '(d, v) := bench_run a jsonl line (if bsame_file a then in_memory line i else i) room in
              (Some d, v)
          end
      end
  end.
End Serde.
