(** What the converters say when they fail: a check of the model, not of the program. The words are those of the source,
    examples/dynamodb/src/ddb_to_normal.rs and normal_to_ddb.rs; the two full tables below name, for a destination that takes
    [k] bytes, for every [k] from 0, what was being written when it was full, and for how many [k] in a row. *)
From Verif Require Import Base U8Pool Buffer Jiter RJiter Scan Conv NormalToDdb DdbToNormal Tests_Converters Cli Messages.

Fixpoint runs (l : list string) : list (string * nat) :=
  match l with
  | [] => []
  | s :: l' =>
      match runs l' with
      | (t, n) :: r => if String.eqb s t then (t, S n) :: r else (s, 1) :: (t, n) :: r
      | [] => [(s, 1)]
      end
  end.
Definition said (x : outcome (writer * result unit (conversion_error * nat))) : string :=
  match x with Done (_, Ok _) => "success" | Done (_, Err (e, _)) => debug_text e | Panic => "panic" | Diverge => "diverge" end.
Definition to_full (pretty wrapper : bool) (input : bytes) (k : nat) : string :=
  said (convert_normal_to_ddb 1000 (mkReader input []) (mkWriter [] (Some (k, 5%N))) rjiter_buffer context_buffer pretty wrapper).
Definition from_full (pretty : bool) (mode : wrapper_mode) (input : bytes) (k : nat) : string :=
  said (convert_ddb_to_normal 1000 (mkReader input []) (mkWriter [] (Some (k, 5%N))) rjiter_buffer context_buffer pretty mode).
Definition to_bad (input : string) : string :=
  said (convert_normal_to_ddb 1000 (mkReader (bs input) []) (mkWriter [] None) rjiter_buffer context_buffer false true).
Definition from_bad (input : string) : string :=
  said (convert_ddb_to_normal 1000 (mkReader (bs input) []) (mkWriter [] None) rjiter_buffer context_buffer false AsWrapper).
Definition agree (f : string -> string) (x : string * string) : bool := String.eqb (f (fst x)) (snd x).

(** ** A full destination *)
Example to_ddb_full :
  runs (map (to_full false true (bs "{""a"":[""x"",1,true],""b"":{""c"":null,""d"":{}},""e"":[]}")) (seq 0 160)) = [
    ("IOError writing root object opening brace", 1); ("IOError writing Item wrapper", 8);
    ("IOError writing field name opening quote", 1); ("IOError writing field name", 1);
    ("IOError writing field name closing quote and colon", 3); ("IOError writing L type opening", 5);
    ("IOError writing array element opening brace", 1); ("IOError writing S type opening", 5);
    ("ScanError ActionError Failed to write string value", 1); ("IOError writing S type closing quote", 1);
    ("IOError writing closing brace", 1); ("IOError writing comma", 1); ("IOError writing array element opening brace", 1);
    ("IOError writing N type opening", 5); ("IOError writing number value", 1); ("IOError writing N type closing quote", 1);
    ("IOError writing closing brace", 1); ("IOError writing comma", 1); ("IOError writing array element opening brace", 1);
    ("IOError writing BOOL true", 11); ("IOError writing closing brace", 1); ("IOError writing L closing bracket", 1);
    ("IOError writing element wrapper closing brace", 1); ("IOError writing comma", 1); ("IOError writing field name opening quote", 1);
    ("IOError writing field name", 1); ("IOError writing field name closing quote and colon", 3); ("IOError writing M type opening", 5);
    ("IOError writing field name opening quote", 1); ("IOError writing field name", 1);
    ("IOError writing field name closing quote and colon", 3); ("IOError writing NULL type", 11); ("IOError writing closing brace", 1);
    ("IOError writing comma", 1); ("IOError writing field name opening quote", 1); ("IOError writing field name", 1);
    ("IOError writing field name closing quote and colon", 3); ("IOError writing M type opening", 5);
    ("IOError writing M closing brace", 1); ("IOError writing element wrapper closing brace", 1);
    ("IOError writing M closing brace", 1); ("IOError writing element wrapper closing brace", 1); ("IOError writing comma", 1);
    ("IOError writing field name opening quote", 1); ("IOError writing field name", 1);
    ("IOError writing field name closing quote and colon", 3); ("IOError writing L type opening", 5);
    ("IOError writing L closing bracket", 1); ("IOError writing element wrapper closing brace", 1);
    ("IOError writing root object closing brace", 1); ("IOError writing Item wrapper closing brace", 1);
    ("IOError writing final newline", 1); ("success", 47)]%string.
Proof. vm_compute. reflexivity. Qed.
Example to_ddb_full_pretty :
  runs (map (to_full true true (bs "{""a"":[""x"",1]}")) (seq 0 100)) = [
    ("IOError writing root object opening brace", 1); ("IOError writing newline", 1); ("IOError writing indentation", 2);
    ("IOError writing Item wrapper", 8); ("IOError writing newline", 1); ("IOError writing indentation", 4);
    ("IOError writing field name opening quote", 1); ("IOError writing field name", 1);
    ("IOError writing field name closing quote and colon", 3); ("IOError writing newline", 1); ("IOError writing indentation", 6);
    ("IOError writing L type opening", 5); ("IOError writing newline", 1); ("IOError writing array element opening brace", 1);
    ("IOError writing newline", 1); ("IOError writing indentation", 8); ("IOError writing S type opening", 5);
    ("ScanError ActionError Failed to write string value", 1); ("IOError writing S type closing quote", 1);
    ("IOError writing newline", 1); ("IOError writing indentation", 6); ("IOError writing closing brace", 1);
    ("IOError writing comma", 1); ("IOError writing newline", 1); ("IOError writing array element opening brace", 1);
    ("IOError writing newline", 1); ("IOError writing indentation", 8); ("IOError writing N type opening", 5);
    ("IOError writing number value", 1); ("IOError writing N type closing quote", 1); ("IOError writing newline", 1);
    ("IOError writing indentation", 6); ("IOError writing closing brace", 1); ("IOError writing newline", 1);
    ("IOError writing indentation", 6); ("IOError writing L closing bracket", 1); ("IOError writing newline", 1);
    ("IOError writing indentation", 4)]%string.
Proof. vm_compute. reflexivity. Qed.
Example from_ddb_full :
  runs (map (from_full false AsWrapper (bs "{""Item"":{""a"":{""L"":[{""S"":""x""},{""N"":""1""},{""BOOL"":true},{""L"":[]}]},""b"":{""M"":{""c"":{""NULL"":true},""d"":{""M"":{}}}},""e"":{""SS"":[""x"",""y""]},""f"":{""NS"":[""1"",""2""]},""g"":{""B"":""QQ==""},""h"":{""BS"":[""QQ==""]}}}")) (seq 0 100)) = [
    ("IOError writing root object opening brace", 1); ("IOError writing field name opening quote", 1);
    ("IOError writing field name", 1); ("IOError writing field name closing quote and colon", 2);
    ("IOError writing L opening bracket", 1); ("IOError writing opening quote", 1); ("RJiterError S/B (string) type", 1);
    ("IOError writing closing quote", 1); ("IOError writing comma", 1); ("RJiterError N (number) type", 1);
    ("IOError writing comma", 1); ("IOError BOOL type", 4); ("IOError writing comma", 1); ("IOError writing L opening bracket", 1);
    ("IOError writing L closing bracket", 2); ("IOError writing comma", 1); ("IOError writing field name opening quote", 1);
    ("IOError writing field name", 1); ("IOError writing field name closing quote and colon", 2);
    ("IOError writing M opening brace", 1); ("IOError writing field name opening quote", 1); ("IOError writing field name", 1);
    ("IOError writing field name closing quote and colon", 2); ("IOError NULL type", 4); ("IOError writing comma", 1);
    ("IOError writing field name opening quote", 1); ("IOError writing field name", 1);
    ("IOError writing field name closing quote and colon", 2); ("IOError writing M opening brace", 1);
    ("IOError writing M closing brace", 2); ("IOError writing comma", 1); ("IOError writing field name opening quote", 1);
    ("IOError writing field name", 1); ("IOError writing field name closing quote and colon", 2);
    ("IOError writing SS/BS opening bracket", 1); ("IOError writing opening quote", 1);
    ("RJiterError writing SS/BS (string set) element", 1); ("IOError writing closing quote", 1); ("IOError writing comma", 1);
    ("IOError writing opening quote", 1); ("RJiterError writing SS/BS (string set) element", 1); ("IOError writing closing quote", 1);
    ("IOError writing SS/NS/BS closing bracket", 1); ("IOError writing comma", 1); ("IOError writing field name opening quote", 1);
    ("IOError writing field name", 1); ("IOError writing field name closing quote and colon", 2);
    ("IOError writing NS opening bracket", 1); ("RJiterError writing NS (number set) element", 1); ("IOError writing comma", 1);
    ("RJiterError writing NS (number set) element", 1); ("IOError writing SS/NS/BS closing bracket", 1); ("IOError writing comma", 1);
    ("IOError writing field name opening quote", 1); ("IOError writing field name", 1);
    ("IOError writing field name closing quote and colon", 2); ("IOError writing opening quote", 1);
    ("RJiterError S/B (string) type", 4); ("IOError writing closing quote", 1); ("IOError writing comma", 1);
    ("IOError writing field name opening quote", 1); ("IOError writing field name", 1);
    ("IOError writing field name closing quote and colon", 2); ("IOError writing SS/BS opening bracket", 1);
    ("IOError writing opening quote", 1); ("RJiterError writing SS/BS (string set) element", 4); ("IOError writing closing quote", 1);
    ("IOError writing SS/NS/BS closing bracket", 1); ("IOError writing root object closing brace", 1);
    ("IOError writing final newline", 1); ("success", 8)]%string.
Proof. vm_compute. reflexivity. Qed.
Example from_ddb_full_pretty :
  runs (map (from_full true AsWrapper (bs "{""Item"":{""a"":{""L"":[{""S"":""x""},{""N"":""1""}]},""b"":{""SS"":[""x"",""y""]}}}")) (seq 0 60)) = [
    ("IOError writing root object opening brace", 1); ("IOError writing newline", 1); ("IOError writing indentation", 2);
    ("IOError writing field name opening quote", 1); ("IOError writing field name", 1);
    ("IOError writing field name closing quote and colon", 2); ("IOError writing L opening bracket", 1);
    ("IOError writing opening quote", 1); ("RJiterError S/B (string) type", 1); ("IOError writing closing quote", 1);
    ("IOError writing comma", 1); ("IOError writing newline", 1); ("RJiterError N (number) type", 1);
    ("IOError writing L closing bracket", 1); ("IOError writing comma", 1); ("IOError writing newline", 1);
    ("IOError writing indentation", 2); ("IOError writing field name opening quote", 1); ("IOError writing field name", 1);
    ("IOError writing field name closing quote and colon", 2); ("IOError writing SS/BS opening bracket", 1);
    ("IOError writing opening quote", 1); ("RJiterError writing SS/BS (string set) element", 1); ("IOError writing closing quote", 1);
    ("IOError writing comma", 1); ("IOError writing newline", 1); ("IOError writing opening quote", 1);
    ("RJiterError writing SS/BS (string set) element", 1); ("IOError writing closing quote", 1);
    ("IOError writing SS/NS/BS closing bracket", 1); ("IOError writing newline", 1); ("IOError writing root object closing brace", 1);
    ("IOError writing final newline", 1); ("success", 23)]%string.
Proof. vm_compute. reflexivity. Qed.

(** ** Input that cannot be converted *)
Example from_ddb_refused :
  forallb (agree from_bad) [
    ("{""a"":{""NULL"":false}}", "ScanError ActionError Expected true for NULL type");
    ("{""a"":{""NULL"":1}}", "ScanError ActionError Expected true for NULL type"); ("{""a"":{""NULL"":", "RJiterError NULL type");
    ("{""a"":{""NULL"":tru }}", "RJiterError NULL type");
    ("{""a"":{""BOOL"":""x""}}", "ScanError ActionError Expected boolean value for BOOL type");
    ("{""a"":{""BOOL"":", "RJiterError BOOL type"); ("{""a"":{""BOOL"":tru ", "RJiterError BOOL type");
    ("{""a"":{""S"":1}}", "ScanError ActionError Expected string value"); ("{""a"":{""S"":", "RJiterError S/B (string) type");
    ("{""a"":{""S"":""x", "RJiterError S/B (string) type"); ("{""a"":{""N"":1}}", "ScanError ActionError Expected string value");
    ("{""a"":{""N"":", "RJiterError N (number) type"); ("{""a"":{""N"":""1", "RJiterError N (number) type");
    ("{""a"":{""X"":1}}", "ParseError Invalid DynamoDB JSON format: unknown type descriptor");
    ("{""a"":{""M"":[]}}", "ParseError Invalid DynamoDB JSON format: unexpected array value");
    ("{""a"":{""M"":1}}", "ParseError Invalid DynamoDB JSON format: Expected array for set type, atom values only allowed as set elements");
    ("{""a"":{""L"":{}}}", "ParseError Invalid DynamoDB JSON format: L type expects an array value, not an object");
    ("{""a"":{""L"":1}}", "ParseError Invalid DynamoDB JSON format: Expected array for set type, atom values only allowed as set elements");
    ("{""a"":{""S"":{}}}", "ScanError ActionError Expected string value");
    ("{""a"":{""S"":[]}}", "ScanError ActionError Expected string value");
    ("{""a"":{""SS"":""x""}}", "ParseError Invalid DynamoDB JSON format: Expected array for set type, atom values only allowed as set elements");
    ("{""a"":{""SS"":{}}}", "ParseError Invalid DynamoDB JSON format: unexpected object value");
    ("{""a"":{""SS"":[1]}}", "ScanError ActionError Expected string value"); ("{""a"":{""SS"":[", "ScanError");
    ("{""a"":{""SS"":[""x", "RJiterError writing SS/BS (string set) element");
    ("{""a"":{""NS"":[1]}}", "ScanError ActionError Expected string value");
    ("{""a"":{""NS"":[true]}}", "ScanError ActionError Expected string value"); ("{""a"":{""SS"":[[]]}}", "success");
    ("{""a"":{""SS"":[{}]}}", "ParseError Invalid DynamoDB JSON format: unexpected object value");
    ("{""a"":1}", "ParseError Invalid DynamoDB JSON format: Expected array for set type, atom values only allowed as set elements");
    ("{""a"":[]}", "ParseError Invalid DynamoDB JSON format: unexpected array value");
    ("{""a"":[1]}", "ParseError Invalid DynamoDB JSON format: unexpected array value");
    ("{""a"":{""L"":[1]}}", "ParseError Invalid DynamoDB JSON format: Expected array for set type, atom values only allowed as set elements");
    ("{""a"":{""L"":[[]]}}", "ParseError Invalid DynamoDB JSON format: unexpected array value"); ("{""a"":{}}", "success");
    ("{""a"":{""L"":[{}]}}", "success");
    ("{""a"":{""M"":{""b"":1}}}", "ParseError Invalid DynamoDB JSON format: Expected array for set type, atom values only allowed as set elements");
    ("[]", "ParseError Invalid DynamoDB JSON format: unexpected array value");
    ("1", "ParseError Invalid DynamoDB JSON format: Expected array for set type, atom values only allowed as set elements");
    ("{""a"":{""S"":""x"",""S"":""y""}}", "ParseError Invalid DynamoDB JSON format: Expected array for set type, atom values only allowed as set elements");
    ("{", "ScanError"); ("{""a", "ScanError"); ("{""a"":", "ScanError");
    ("}", "ParseError Invalid DynamoDB JSON format: Expected array for set type, atom values only allowed as set elements");
    ("{""Item"":1}", "ParseError Invalid DynamoDB JSON format: Expected array for set type, atom values only allowed as set elements");
    ("{""Item"":[]}", "ParseError Invalid DynamoDB JSON format: unexpected array value");
    ("{""Item"":{""a"":{""S"":""x""}},""b"":1}", "ParseError Invalid DynamoDB JSON format: Expected array for set type, atom values only allowed as set elements")]%string = true.
Proof. vm_compute. reflexivity. Qed.
Example to_ddb_refused :
  forallb (agree to_bad) [
    ("{""a"":tru }", "ScanError"); ("{""a"":nul }", "ScanError"); ("{""a"":1.}", "ScanError ActionError Failed to parse number");
    ("{""a"":1e}", "ScanError ActionError Failed to parse number"); ("{""a"":-}", "ScanError ActionError Failed to parse number");
    ("{""a"":""x", "ScanError ActionError Failed to write string value"); ("{""a"":", "ScanError"); ("[]", "success");
    ("1", "ScanError ActionError Failed to parse number"); ("{""a"":[", "ScanError"); ("{""a"":[1 2]}", "ScanError");
    ("{""a"":[tru ]}", "ScanError"); ("{""a"":[nul ]}", "ScanError"); ("{""a"":[-]}", "ScanError ActionError Failed to parse number");
    ("{""a"":x}", "ScanError ActionError Failed to parse number"); ("{", "ScanError"); ("{""a", "ScanError");
    ("}", "ScanError ActionError Failed to parse number"); ("{""a"":NaN}", "ScanError ActionError Failed to parse number");
    ("{""a"":Infinity}", "ScanError ActionError Failed to parse number")]%string = true.
Proof. vm_compute. reflexivity. Qed.

(** ** The texts of the errors; the words of other crates stand in pointed brackets *)
Definition words : vocabulary :=
  mkVocabulary (fun _ => bs "<json>") (fun _ => bs "<kind>") (fun _ => bs "<peek>") (fun _ => bs "<Json>") (fun _ => bs "<Kind>") (fun t => t).
(** u8pool/src/error.rs:38-67. *)
Example pool_texts :
  map pool_message [BufferOverflow 10 3; IndexOutOfBounds 5 2; InvalidInitialization RZeroMax; InvalidInitialization REmptyBuffer;
    InvalidInitialization RTooSmall; InvalidInitialization RNoPositions; SliceLimitExceeded 16; ValueTooLarge 70000 65535]
  = map bs ["Buffer overflow: requested 10 bytes, but only 3 bytes available"; "Index out of bounds: index 5 is beyond vector length 2";
      "Invalid U8Pool initialization: max_slices cannot be zero"; "Invalid U8Pool initialization: buffer cannot be empty";
      "Invalid U8Pool initialization: buffer too small for the requested max_slices";
      "Invalid U8Pool initialization: failed to get validated positions for top item";
      "Slice limit exceeded: maximum 16 slices allowed"; "Value too large: 70000 exceeds maximum of 65535"]%string.
Proof. vm_compute. reflexivity. Qed.
(** rjiter/src/error.rs:34-62. *)
Example parser_texts :
  map (error_message words) [mkErr (JsonError EofWhileParsingValue) 3; mkErr (IoError 5%N) 12; mkErr BufferFull 0]
  = map bs ["JSON parsing error: <json> at index 3"; "I/O operation failed: <kind> at index 12"; "buffer is full at index 0"]%string.
Proof. vm_compute. reflexivity. Qed.
Definition all_types : list json_type := [TNull; TBool; TInt; TFloat; TString; TArray; TObject].
Example type_texts :
  map (fun t => type_message words (WrongType t TNull)) all_types
  = map bs ["expected null but found null"; "expected bool but found null"; "expected int but found null"; "expected float but found null";
      "expected string but found null"; "expected array but found null"; "expected object but found null"]%string
  /\ map (fun t => type_debug_message words (WrongType TNull t)) all_types
  = map bs ["WrongType { expected: Null, actual: Null }"; "WrongType { expected: Null, actual: Bool }"; "WrongType { expected: Null, actual: Int }";
      "WrongType { expected: Null, actual: Float }"; "WrongType { expected: Null, actual: String }"; "WrongType { expected: Null, actual: Array }";
      "WrongType { expected: Null, actual: Object }"]%string.
Proof. split; vm_compute; reflexivity. Qed.
(** scan_json/src/error.rs:43-69. *)
Example scan_texts :
  map (scan_message words) [RJiterError (mkErr BufferFull 7); UnhandledPeek 120%N 4; UnbalancedJson 9; InternalError 6 "no top"; MaxNestingExceeded 21 20;
    ActionError "Expected string value" 18; IOError 5%N]
  = map bs ["buffer is full at index 7"; "UnhandledPeek: <peek> at position 4"; "Unbalanced JSON at position 9"; "Internal error at position 6: no top";
      "Max nesting exceeded at position 21 with level 20"; "Action error: Expected string value at position 18"; "IO error: <kind>"]%string.
Proof. vm_compute. reflexivity. Qed.
(** examples/dynamodb/src/lib.rs:48-77. *)
Example conversion_texts :
  map (conversion_message words) [CRJiter (JsonError EofWhileParsingValue) "NULL type"; CRJiter (IoError 5%N) "BOOL type"; CRJiter BufferFull "BOOL type";
    CIo 5%N "writing comma"; CParse "unknown type descriptor" (Some (bs "XY")); CParse "unexpected array value" None; CScan (UnbalancedJson 9)]
  = map bs ["RJiter error: JsonError(<Json>) (while NULL type)"; "RJiter error: IoError { kind: <Kind> } (while BOOL type)";
      "RJiter error: BufferFull (while BOOL type)"; "IO error: <Kind> (while writing comma)";
      "Parse error: unknown type descriptor (unknown type descriptor 'XY')"; "Parse error: unexpected array value"; "Unbalanced JSON at position 9"]%string.
Proof. vm_compute. reflexivity. Qed.
(** examples/dynamodb/src/main.rs:133-151. *)
Example program_texts :
  let a := mkArgs ToDdb (Some "in.json"%string) (Some "out.json"%string) false false false in
  map (fun x => stderr words a x (bs "<os>")) [Success; NoInput; NoOutput; Failure (CIo 5%N "writing comma") 27]
  = map bs [""; "Error opening input file 'in.json': <os>"; "Error creating output file 'out.json': <os>";
      "Error at position 27: IO error: <Kind> (while writing comma)"]%string.
Proof. vm_compute. reflexivity. Qed.
