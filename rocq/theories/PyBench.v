(** Model of benchmarks/dynamodb/ddb_convert_python_noboto/ddb_convert.py, the converter in Python. No proofs here.
    Line numbers are those of this file. A [str] is the list of bytes of its UTF-8 form (three bytes for a lone surrogate); a [dict] is
    the list of its members in their order, as in Bench.v. The module json and the type [float] are not modelled: [loads], [dumps],
    [float()] and [str()] of a float are parameters, and any functions will do. The parsing of the arguments (233-267) is left out.
    Simplifications: values are not nested so deeply that Python's limit of the recursion is reached outside [loads]; the output
    takes everything; input and output are different files. *)
From Coq Require Import ZArith.
From Verif Require Import Base Buffer Jiter RJiter Cli Bench Messages.

(** What the program says behind "Error: ": its own [ValueError]s; the error of [loads] that is not a [JSONDecodeError]; those of files. *)
Inductive complaint :=
| Says (m : string)
| BadNumber (t : bytes)
| BadType (k : bytes)
| BadJson
| BadLine (n : nat)
| LoadsFailed
| ReadFailed (k : io_kind)
| NoInput
| NoOutput.

(** ** Numbers *)
(** Decimal digits with single underscores between them; [fed]: the last character was a digit. More than 4300 digits are refused
    (sys.int_info.default_max_str_digits). *)
Definition max_digits : nat := N.to_nat 4300.
Fixpoint int_digits (l : bytes) (z : Z) (count : nat) (fed : bool) : option Z :=
  match l with
  | [] => if fed && (count <=? max_digits) then Some z else None
  | x :: l =>
      if is_digit x then int_digits l (10 * z + (Z.of_N x - 48)) (S count) true
      else if N.eqb x 95 && fed then int_digits l z count false
      else None
  end.
Definition ascii_space (x : byte) : bool := ((9 <=? x) && (x <=? 13) || (x =? 32))%N.
Fixpoint skip_space (l : bytes) : bytes := match l with [] => [] | x :: l' => if ascii_space x then skip_space l' else l end.
(** [int(t)] for a text in ASCII. (Python takes the digits and spaces of other scripts too; here they are refused.) *)
Definition int_of (t : bytes) : option Z :=
  match rev (skip_space (rev (skip_space t))) with
  | [] => None
  | x :: l =>
      if N.eqb x 45%N then option_map Z.opp (int_digits l 0 0 false)
      else if N.eqb x 43 then int_digits l 0 0 false
      else int_digits (x :: l) 0 0 false
  end.
(** [str(z)]. (For integers of more than 4300 digits Python raises an error, but such integers cannot be read.) *)
Definition str_int (z : Z) : bytes :=
  match z with
  | Z0 => show_N 0
  | Zpos p => show_N (Npos p)
  | Zneg p => 45%N :: show_N (Npos p)
  end.

Section Python.
Context {float : Type} (float_of : bytes -> option float) (str_float : float -> bytes).
Inductive pynum := PyInt (z : Z) | PyFloat (f : float).
Notation value := (value pynum).
(** 123, [str(value)] of a number. *)
Definition py_show (n : pynum) : bytes := match n with PyInt z => str_int z | PyFloat f => str_float f end.
(** 48-51, 79-82: ['.' in t or 'e' in t.lower()]. *)
Definition looks_float (t : bytes) : bool := existsb (fun x => N.eqb x 46 || N.eqb x 101 || N.eqb x 69) t.
Definition py_read (t : bytes) : option pynum :=
  if looks_float t then option_map PyFloat (float_of t) else option_map PyInt (int_of t).

(** 62-64, 110-111, 132-133, 146-147: [for k, v in m.items(): out[k] = f(v)]; 68, 75-84, 128 for lists. *)
Definition py_members (f : value -> result value complaint) : list (bytes * value) -> list (bytes * value) -> result (list (bytes * value)) complaint :=
  fix go m out :=
    match m with
    | [] => Ok out
    | (k, x) :: m => match f x with Err e => Err e | Ok y => go m (insert k y out) end
    end.
Definition py_items (f : value -> result value complaint) : list value -> list value -> result (list value) complaint :=
  fix go l out :=
    match l with
    | [] => Ok out
    | x :: l => match f x with Err e => Err e | Ok y => go l (out ++ [y]) end
    end.
(** 44-53, 76-84. *)
Definition py_number (not_str : string) (x : value) : result value complaint :=
  match x with
  | SString t => match py_read t with Some n => Ok (SNumber n) | None => Err (BadNumber t) end
  | _ => Err (Says not_str)
  end.
(** 31-91 [unmarshall_value]. *)
Fixpoint py_unmarshall (x : value) : result value complaint :=
  match x with
  | SObject m =>
      match m with
      | [(k, t)] =>
          if beq k (bs "S") then Ok t
          else if beq k (bs "N") then py_number "N type must be string" t
          else if beq k (bs "BOOL") then Ok t
          else if beq k (bs "NULL") then Ok SNull
          else if beq k (bs "M") then
            match t with
            | SObject m => match py_members py_unmarshall m [] with Err e => Err e | Ok out => Ok (SObject out) end
            | _ => Err (Says "M type must be object")
            end
          else if beq k (bs "L") then
            match t with
            | SArray l => match py_items py_unmarshall l [] with Err e => Err e | Ok out => Ok (SArray out) end
            | _ => Err (Says "L type must be array")
            end
          else if beq k (bs "SS") then Ok t
          else if beq k (bs "NS") then
            match t with
            | SArray l => match py_items (py_number "NS items must be strings") l [] with Err e => Err e | Ok out => Ok (SArray out) end
            | _ => Err (Says "NS type must be array")
            end
          else if beq k (bs "BS") then Ok t
          else if beq k (bs "B") then Ok t
          else Err (BadType k)
      | _ => Err (Says "DynamoDB type object must have exactly one key")
      end
  | _ => Err (Says "Expected DynamoDB type object")
  end.
(** 94-113 [from_dynamodb]. *)
Definition py_from (x : value) : result value complaint :=
  match x with
  | SObject m =>
      let inside :=
        match m with
        | [(k, t)] => if beq k (bs "Item") then match t with SObject o => Ok o | _ => Err (Says "Expected Item to be an object") end else Ok m
        | _ => Ok m
        end in
      match inside with
      | Err e => Err e
      | Ok m => match py_members py_unmarshall m [] with Err e => Err e | Ok out => Ok (SObject out) end
      end
  | _ => Err (Says "Expected JSON object")
  end.
(** 116-136 [marshall_value]; its last branch is for values that [loads] does not make. *)
Fixpoint py_marshall (x : value) : result value complaint :=
  match x with
  | SNull => Ok (SObject [(bs "NULL", SBool true)])
  | SBool b => Ok (SObject [(bs "BOOL", SBool b)])
  | SNumber n => Ok (SObject [(bs "N", SString (py_show n))])
  | SString s => Ok (SObject [(bs "S", SString s)])
  | SArray l => match py_items py_marshall l [] with Err e => Err e | Ok items => Ok (SObject [(bs "L", SArray items)]) end
  | SObject m => match py_members py_marshall m [] with Err e => Err e | Ok map => Ok (SObject [(bs "M", SObject map)]) end
  end.
(** 139-152 [to_dynamodb]. *)
Definition py_to (x : value) (wrap_item : bool) : result value complaint :=
  match x with
  | SObject m =>
      match py_members py_marshall m [] with
      | Err e => Err e
      | Ok o => Ok (if wrap_item then SObject [(bs "Item", SObject o)] else SObject o)
      end
  | _ => Err (Says "Expected JSON object")
  end.

(** ** The program *)
(** [json.loads]: [None] stands for the exception [JSONDecodeError], [Some None] for another one (a [RecursionError]; the [ValueError]
    for an integer of more than 4300 digits). [dumps_pretty]: with [indent=2]. *)
Context (loads : bytes -> option (option value)) (dumps dumps_pretty : value -> bytes).
(** Files are read in text mode: carriage returns, with or without a line feed, become line feeds. The input as in Bench.v: the text that
    can be read, and the error behind it, if any (also one of the decoder). *)
Fixpoint translate (l : bytes) : bytes :=
  match l with
  | [] => []
  | x :: l => if N.eqb x 13 then 10%N :: match l with y :: l' => if N.eqb y 10 then translate l' else translate l | [] => [] end else x :: translate l
  end.
(** [readline()]. *)
Definition py_readline (i : input) : result (bytes * input) complaint :=
  let '(line, others) := take_line (coming i) in
  match (if ended line then None else broken i) with
  | Some k => Err (ReadFailed k)
  | None => Ok (line, mkInput others (broken i))
  end.
(** [read()]. *)
Definition py_readall (i : input) : result bytes complaint :=
  match broken i with Some k => Err (ReadFailed k) | None => Ok (coming i) end.
(** [for line in input_file]. *)
Definition py_lines (i : input) : list (result bytes complaint) :=
  match broken i with
  | None => map Ok (pieces (coming i))
  | Some k => map Ok (filter ended (pieces (coming i))) ++ [Err (ReadFailed k)]
  end.
(** [strip()]: the characters with [isspace()]. *)
Definition py_space : list bytes := [[28]; [29]; [30]; [31]]%N ++ white_space.
Definition strip (l : bytes) : bytes := rev (trim_start (map (@rev byte) py_space) 0 (rev (trim_start py_space 0 l))).

(** 172-180, 194-202, 221-229: a converted value is written. The output so far is [out]. *)
Definition py_convert (a : bargs) (x : value) : result value complaint :=
  match bmode a with
  | FromDdb => py_from x
  | ToDdb => py_to x (negb (bwithout_item a))
  end.
Definition py_write (a : bargs) (y : value) (out : bytes) : bytes := out ++ (if bpretty a then dumps_pretty y else dumps y) ++ [10%N].
Definition py_handle (a : bargs) (invalid : complaint) (t : bytes) (out : bytes) : bytes * result unit complaint :=
  match loads t with
  | None => (out, Err invalid)
  | Some None => (out, Err LoadsFailed)
  | Some (Some x) => match py_convert a x with Err e => (out, Err e) | Ok y => (py_write a y out, Ok tt) end
  end.
(** 183-202. *)
Fixpoint py_loop (a : bargs) (n : nat) (l : list (result bytes complaint)) (out : bytes) : bytes * result unit complaint :=
  match l with
  | [] => (out, Ok tt)
  | Err e :: _ => (out, Err e)
  | Ok line :: l =>
      match strip line with
      | [] => py_loop a (S n) l out
      | t => match py_handle a (BadLine n) t out with (out, Err e) => (out, Err e) | (out, Ok _) => py_loop a (S n) l out end
      end
  end.
(** 155-202 [process_jsonl]. *)
Definition py_jsonl (a : bargs) (first_line : bytes) (i : input) : bytes * result unit complaint :=
  let '(out, v) := match strip first_line with [] => ([], Ok tt) | t => py_handle a (BadLine 1) t [] end in
  match v with
  | Err e => (out, Err e)
  | Ok _ => py_loop a 2 (py_lines i) out
  end.
(** 205-229 [process_json]. *)
Definition py_json (a : bargs) (first_line : bytes) (i : input) : bytes * result unit complaint :=
  match py_readall i with
  | Err e => ([], Err e)
  | Ok others => py_handle a BadJson (first_line ++ others) []
  end.
(** 17-28 [detect_jsonl_from_content], 278-287. *)
Definition py_detect (a : bargs) (i : input) : result (bool * bytes * input) complaint :=
  if match binput a with Some _ => named_jsonl a | None => false end then Ok (true, [], i)
  else
    match py_readline i with
    | Err e => Err e
    | Ok (line, i) =>
        match strip line with
        | [] => Ok (false, line, i)
        | t => match loads t with Some (Some _) => Ok (true, line, i) | None => Ok (false, line, i) | Some None => Err LoadsFailed end
        end
    end.
(** 232-311 [main]: the new content of the output, if it was opened, and how the program ends. *)
Definition py_main (a : bargs) (o : bworld) : option bytes * result unit complaint :=
  match match binput a with Some p => bfile o p | None => Some (bstdin o) end with
  | None => (None, Err NoInput)
  | Some i =>
      match py_detect a (mkInput (translate (coming i)) (broken i)) with
      | Err e => (None, Err e)
      | Ok (jsonl, line, i) =>
          match bbudget o (boutput a) with
          | None => (None, Err NoOutput)
          | Some _ => let '(d, v) := if jsonl then py_jsonl a line i else py_json a line i in (Some d, v)
          end
      end
  end.
End Python.
Arguments pynum : clear implicits.
