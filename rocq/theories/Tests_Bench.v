(** What the benchmark programs say of a document that they cannot convert: a check of the models, not of the programs. The words
    are those of benchmarks/dynamodb/ddb_convert_rust/src/main.rs and ddb_convert_python_noboto/ddb_convert.py. *)
From Verif Require Import Base Buffer Jiter RJiter Cli Bench BenchSpec BenchKit PyBench PyKit PyCases.

Definition bench_said (d : direction) (t : string) : string :=
  match snd (kit_main (input_named "" d) (alone (mkInput (bs t) None))) with
  | Ok _ => "success"
  | Err (Said m) => m
  | Err (UnknownType k) => "unknown type " ++ string_of_list_byte (map (fun x => match Byte.of_N x with Some b => b | None => Byte.x00 end) k)
  | Err _ => "other"
  end.
Definition python_said (d : direction) (t : string) : string :=
  match snd (py_kit_main (input_named "" d) (alone (mkInput (bs t) None))) with
  | Ok _ => "success"
  | Err (Says m) => m
  | Err (BadType k) => "unknown type " ++ string_of_list_byte (map (fun x => match Byte.of_N x with Some b => b | None => Byte.x00 end) k)
  | Err (BadNumber _) => "Invalid number format"
  | Err _ => "other"
  end.
Definition complaints : list (string * string) :=
  [("[]", "Expected JSON object"); ("{""Item"":[]}", "Expected Item to be an object"); ("{""a"":1}", "Expected DynamoDB type object");
   ("{""a"":[]}", "Expected DynamoDB type object"); ("{""a"":{}}", "DynamoDB type object must have exactly one key");
   ("{""a"":{""S"":""x"",""N"":""1""}}", "DynamoDB type object must have exactly one key"); ("{""a"":{""N"":1}}", "N type must be string");
   ("{""a"":{""N"":""x""}}", "Invalid number format"); ("{""a"":{""M"":[]}}", "M type must be object"); ("{""a"":{""L"":{}}}", "L type must be array");
   ("{""a"":{""NS"":1}}", "NS type must be array"); ("{""a"":{""NS"":[1]}}", "NS items must be strings"); ("{""a"":{""NS"":[""y""]}}", "Invalid number format");
   ("{""a"":{""X"":1}}", "unknown type X"); ("{""a"":{""M"":{""b"":{""L"":[{""XY"":1}]}}}}", "unknown type XY");
   ("{""a"":{""S"":1}}", "success"); ("{""a"":{""BOOL"":1}}", "success"); ("{""a"":{""NULL"":false}}", "success"); ("{""a"":{""SS"":1}}", "success");
   ("{""a"":{""BS"":1}}", "success"); ("{""a"":{""B"":1}}", "success"); ("{}", "success")]%string.
Example from_ddb_complaints :
  forallb (fun '(t, m) => String.eqb (bench_said FromDdb t) m && String.eqb (python_said FromDdb t) m) complaints = true.
Proof. vm_compute. reflexivity. Qed.
Example to_ddb_complaints :
  forallb (fun '(t, m) => String.eqb (bench_said ToDdb t) m && String.eqb (python_said ToDdb t) m)
    [("[]", "Expected JSON object"); ("1", "Expected JSON object"); ("null", "Expected JSON object"); ("{}", "success"); ("{""a"":[1,{""b"":null}]}", "success")]%string = true.
Proof. vm_compute. reflexivity. Qed.
