(** Model of the texts of the errors: u8pool/src/error.rs, rjiter/src/error.rs, scan_json/src/error.rs,
    examples/dynamodb/src/lib.rs and main.rs. No proofs here. *)
From Verif Require Import Base U8Pool Buffer Jiter RJiter Scan Conv Cli.

(** [Display] of [usize]. *)
Fixpoint digits (u : Decimal.uint) : bytes :=
  match u with
  | Decimal.Nil => []
  | Decimal.D0 u => 48%N :: digits u
  | Decimal.D1 u => 49%N :: digits u
  | Decimal.D2 u => 50%N :: digits u
  | Decimal.D3 u => 51%N :: digits u
  | Decimal.D4 u => 52%N :: digits u
  | Decimal.D5 u => 53%N :: digits u
  | Decimal.D6 u => 54%N :: digits u
  | Decimal.D7 u => 55%N :: digits u
  | Decimal.D8 u => 56%N :: digits u
  | Decimal.D9 u => 57%N :: digits u
  end.
Definition show_N (n : N) : bytes := digits (N.to_uint n).
Definition show (n : nat) : bytes := show_N (N.of_nat n).

(** u8pool/src/core.rs:29, 35, 44, 529: the reasons. *)
Definition reason_text (r : init_reason) : string :=
  match r with
  | RZeroMax => "max_slices cannot be zero"
  | REmptyBuffer => "buffer cannot be empty"
  | RTooSmall => "buffer too small for the requested max_slices"
  | RNoPositions => "failed to get validated positions for top item"
  end.
(** u8pool/src/error.rs:38-67 [Display for U8PoolError]. *)
Definition pool_message (e : perror) : bytes :=
  match e with
  | BufferOverflow requested available =>
      bs "Buffer overflow: requested " ++ show requested ++ bs " bytes, but only " ++ show available ++ bs " bytes available"
  | IndexOutOfBounds index length =>
      bs "Index out of bounds: index " ++ show index ++ bs " is beyond vector length " ++ show length
  | InvalidInitialization reason => bs "Invalid U8Pool initialization: " ++ bs (reason_text reason)
  | SliceLimitExceeded max_slices => bs "Slice limit exceeded: maximum " ++ show_N max_slices ++ bs " slices allowed"
  | ValueTooLarge value max => bs "Value too large: " ++ show_N value ++ bs " exceeds maximum of " ++ show_N max
  end.

(** Texts of other crates: [Display] of jiter's [JsonErrorType] and of embedded_io's [ErrorKind], [Debug] of jiter's [Peek],
    of [JsonErrorType] and of [ErrorKind], and [String::from_utf8_lossy]. *)
Record vocabulary := mkVocabulary {
  json_text : json_error -> bytes;
  kind_text : io_kind -> bytes;
  peek_debug : byte -> bytes;
  json_debug : json_error -> bytes;
  kind_debug : io_kind -> bytes;
  lossy : bytes -> bytes }.
(** [Display] and [Debug] of jiter's [JsonType]. *)
Definition type_text (t : json_type) : bytes :=
  bs match t with
     | TNull => "null" | TBool => "bool" | TInt => "int" | TFloat => "float" | TString => "string" | TArray => "array" | TObject => "object"
     end.
Definition type_debug (t : json_type) : bytes :=
  bs match t with
     | TNull => "Null" | TBool => "Bool" | TInt => "Int" | TFloat => "Float" | TString => "String" | TArray => "Array" | TObject => "Object"
     end.

Section Texts.
Context (v : vocabulary).

(** rjiter/src/error.rs:34-46 [Display for ErrorType]. *)
Definition type_message (e : error_type) : bytes :=
  match e with
  | JsonError e => bs "JSON parsing error: " ++ json_text v e
  | WrongType expected actual => bs "expected " ++ type_text expected ++ bs " but found " ++ type_text actual
  | IoError kind => bs "I/O operation failed: " ++ kind_text v kind
  | BufferFull => bs "buffer is full"
  end.
(** rjiter/src/error.rs:57-62 [Display for Error]. *)
Definition error_message (e : rerror) : bytes := type_message (err_type e) ++ bs " at index " ++ show (err_index e).
(** rjiter/src/error.rs:84-88 [get_position], 95-112 [write_description], [description]; jiter's [Display for LinePosition]. *)
Definition description (e : rerror) (r : rj) : outcome bytes :=
  do (line, column) <- error_position r (err_index e);
  Done (type_message (err_type e) ++ bs " at line " ++ show line ++ bs " column " ++ show column).

(** scan_json/src/error.rs:43-69 [Display for Error]. *)
Definition scan_message (e : scan_error) : bytes :=
  match e with
  | RJiterError e => error_message e
  | UnhandledPeek peek position => bs "UnhandledPeek: " ++ peek_debug v peek ++ bs " at position " ++ show position
  | UnbalancedJson position => bs "Unbalanced JSON at position " ++ show position
  | InternalError position message => bs "Internal error at position " ++ show position ++ bs ": " ++ bs message
  | MaxNestingExceeded position level => bs "Max nesting exceeded at position " ++ show position ++ bs " with level " ++ show_N level
  | ActionError message position => bs "Action error: " ++ bs message ++ bs " at position " ++ show position
  | IOError kind => bs "IO error: " ++ kind_text v kind
  end.

(** rjiter/src/error.rs:14 [Debug for ErrorType], derived. *)
Definition type_debug_message (e : error_type) : bytes :=
  match e with
  | JsonError e => bs "JsonError(" ++ json_debug v e ++ bs ")"
  | WrongType expected actual => bs "WrongType { expected: " ++ type_debug expected ++ bs ", actual: " ++ type_debug actual ++ bs " }"
  | IoError kind => bs "IoError { kind: " ++ kind_debug v kind ++ bs " }"
  | BufferFull => bs "BufferFull"
  end.
(** examples/dynamodb/src/lib.rs:48-77 [Display for ConversionError]. [unknown_type] is already cut to its length. *)
Definition conversion_message (e : conversion_error) : bytes :=
  match e with
  | CRJiter kind context => bs "RJiter error: " ++ type_debug_message kind ++ bs " (while " ++ bs context ++ bs ")"
  | CIo kind context => bs "IO error: " ++ kind_debug v kind ++ bs " (while " ++ bs context ++ bs ")"
  | CParse context (Some t) => bs "Parse error: " ++ bs context ++ bs " (unknown type descriptor '" ++ lossy v t ++ bs "')"
  | CParse context None => bs "Parse error: " ++ bs context
  | CScan e => scan_message e
  end.
(** examples/dynamodb/src/main.rs:133-136, 139-151: what the program writes to the standard error stream, without the line feed;
    [reason] is the text of the operating system's error. *)
Definition stderr (a : args) (x : ending) (reason : bytes) : bytes :=
  match x with
  | Success => []
  | NoInput => bs "Error opening input file '" ++ bs (match input_path a with Some p => p | None => "" end) ++ bs "': " ++ reason
  | NoOutput => bs "Error creating output file '" ++ bs (match output_path a with Some p => p | None => "" end) ++ bs "': " ++ reason
  | Failure e position => bs "Error at position " ++ show position ++ bs ": " ++ conversion_message e
  end.
End Texts.
