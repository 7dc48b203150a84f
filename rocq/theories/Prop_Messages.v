(** Properties C81 to C83 of the texts of errors. Only statements, examples and assumptions. *)
From Verif Require Import Base U8Pool Buffer Jiter RJiter Scan Conv NormalToDdb DdbToNormal Cli Messages MessageSpec.
From Verif Require Import MessageProofs ConvErrors.

(** The texts of jiter, and stand-ins for the others. A byte that is not UTF-8 becomes U+FFFD. *)
Definition ex_json (e : json_error) : string :=
  match e with
  | EofWhileParsingList => "EOF while parsing a list"
  | EofWhileParsingObject => "EOF while parsing an object"
  | EofWhileParsingString => "EOF while parsing a string"
  | EofWhileParsingValue => "EOF while parsing a value"
  | ExpectedColon => "expected `:`"
  | ExpectedListCommaOrEnd => "expected `,` or `]`"
  | ExpectedObjectCommaOrEnd => "expected `,` or `}`"
  | ExpectedSomeIdent => "expected ident"
  | ExpectedSomeValue => "expected value"
  | InvalidEscape => "invalid escape"
  | InvalidNumber => "invalid number"
  | InvalidUnicodeCodePoint => "invalid unicode code point"
  | ControlCharacterWhileParsingString => "control character (\u0000-\u001F) found while parsing a string"
  | KeyMustBeAString => "key must be a string"
  | LoneLeadingSurrogateInHexEscape => "lone leading surrogate in hex escape"
  | TrailingComma => "trailing comma"
  | TrailingCharacters => "trailing characters"
  | UnexpectedEndOfHexEscape => "unexpected end of hex escape"
  | FloatExpectingInt => "float value was found where an int was expected"
  | RecursionLimitExceeded => "recursion limit exceeded"
  end.
Definition ex_debug (e : json_error) : string :=
  match e with
  | EofWhileParsingList => "EofWhileParsingList"
  | EofWhileParsingObject => "EofWhileParsingObject"
  | EofWhileParsingString => "EofWhileParsingString"
  | EofWhileParsingValue => "EofWhileParsingValue"
  | ExpectedColon => "ExpectedColon"
  | ExpectedListCommaOrEnd => "ExpectedListCommaOrEnd"
  | ExpectedObjectCommaOrEnd => "ExpectedObjectCommaOrEnd"
  | ExpectedSomeIdent => "ExpectedSomeIdent"
  | ExpectedSomeValue => "ExpectedSomeValue"
  | InvalidEscape => "InvalidEscape"
  | InvalidNumber => "InvalidNumber"
  | InvalidUnicodeCodePoint => "InvalidUnicodeCodePoint"
  | ControlCharacterWhileParsingString => "ControlCharacterWhileParsingString"
  | KeyMustBeAString => "KeyMustBeAString"
  | LoneLeadingSurrogateInHexEscape => "LoneLeadingSurrogateInHexEscape"
  | TrailingComma => "TrailingComma"
  | TrailingCharacters => "TrailingCharacters"
  | UnexpectedEndOfHexEscape => "UnexpectedEndOfHexEscape"
  | FloatExpectingInt => "FloatExpectingInt"
  | RecursionLimitExceeded => "RecursionLimitExceeded"
  end.
Fixpoint ex_lossy (skip : nat) (l : bytes) : bytes :=
  match l with
  | [] => []
  | x :: l' =>
      match skip with
      | S k => x :: ex_lossy k l'
      | 0 => match utf8_char l with
             | Some n => x :: ex_lossy (n - 1) l'
             | None => [239; 191; 189]%N ++ ex_lossy 0 l'
             end
      end
  end.
Definition ex_vocabulary : vocabulary :=
  mkVocabulary (fun e => bs (ex_json e)) (fun k => bs "error " ++ show_N k) (fun x => bs "Peek(" ++ show_N x ++ bs ")")
    (fun e => bs (ex_debug e)) (fun k => bs "Kind" ++ show_N k) (ex_lossy 0).
Example ex_telling : telling ex_vocabulary.
Proof.
  split; cbn [json_text kind_text peek_debug json_debug kind_debug ex_vocabulary].
  - intros a b E. apply bs_inj in E. destruct a, b; try reflexivity; discriminate E.
  - intros a b E. apply app_inv_head in E. exact (show_N_inj _ _ E).
  - intros a b E. apply app_inv_head, app_inv_tail in E. exact (show_N_inj _ _ E).
  - intros a b E. apply bs_inj in E. destruct a, b; try reflexivity; discriminate E.
  - intros a b E. apply app_inv_head in E. exact (show_N_inj _ _ E).
  - intros a. destruct a; vm_compute; intuition discriminate.
  - intros a H. apply in_app_or in H as [H|H]; [revert H; vm_compute; intuition discriminate|].
    pose proof (show_N_all a) as Ha. rewrite Forall_forall in Ha. apply Ha in H. destruct H as [H _]. apply H. reflexivity.
Qed.

(** C81, the texts of u8pool: different errors have different texts. *)
Theorem C81_pool : forall a b, pool_message a = pool_message b -> a = b.
Proof. exact pool_message_inj. Qed.
Print Assumptions C81_pool.
Example C81_pool_example :
  pool_message (BufferOverflow 12 3) = bs "Buffer overflow: requested 12 bytes, but only 3 bytes available" /\
  pool_message (SliceLimitExceeded 100000) = bs "Slice limit exceeded: maximum 100000 slices allowed" /\
  pool_message (IndexOutOfBounds 1 23) <> pool_message (IndexOutOfBounds 12 3).
Proof. split; [reflexivity|]. split; [reflexivity|]. intros E. apply pool_message_inj in E. discriminate E. Qed.

(** C81, the texts of rjiter. *)
Theorem C81_parser : forall v a b, telling v -> error_message v a = error_message v b -> a = b.
Proof. intros v a b T. exact (error_message_inj v T a b). Qed.
Print Assumptions C81_parser.
Example C81_parser_example : telling ex_vocabulary /\
  error_message ex_vocabulary (mkErr (WrongType TString TNull) 30) = bs "expected string but found null at index 30" /\
  error_message ex_vocabulary (mkErr (JsonError TrailingComma) 7) = bs "JSON parsing error: trailing comma at index 7" /\
  error_message ex_vocabulary (mkErr (IoError 11%N) 1) = bs "I/O operation failed: error 11 at index 1".
Proof. split; [exact ex_telling|]. now split. Qed.
(** The description with line and column: it tells the kind of the error and the position. *)
Theorem C81_description : forall v a r b q d, telling v -> description v a r = Done d -> description v b q = Done d ->
  err_type a = err_type b /\ error_position r (err_index a) = error_position q (err_index b).
Proof. intros v a r b q d T. exact (description_inj v T a r b q d). Qed.
Print Assumptions C81_description.
(** The input of rjiter/tests/error_test.rs. *)
Definition ex_spaces : bytes :=
  [10; 32; 10; 32; 32; 10; 32; 32; 32; 10; 32; 32; 32; 32; 10; 32; 32; 32; 32; 32; 32; 10; 32; 32; 32]%N.
Example C81_description_example : exists s e, next_str (rj_new (mkReader (ex_spaces ++ bs "null null") []) (repeat 0%N 10)) = Done (s, Err e) /\
  error_message ex_vocabulary e = bs "expected string but found null at index 25" /\
  description ex_vocabulary e s = Done (bs "expected string but found null at line 7 column 4").
Proof. do 2 eexists. split; [vm_compute; reflexivity|]. split; vm_compute; reflexivity. Qed.

(** C81, the texts of scan_json. *)
Theorem C81_scan : forall v a b, telling v -> scan_message v a = scan_message v b -> a = b.
Proof. intros v a b T. exact (scan_message_inj v T a b). Qed.
Print Assumptions C81_scan.
Example C81_scan_example :
  scan_message ex_vocabulary (MaxNestingExceeded 15 3) = bs "Max nesting exceeded at position 15 with level 3" /\
  scan_message ex_vocabulary (ActionError "Test error in begin-action" 7) = bs "Action error: Test error in begin-action at position 7" /\
  scan_message ex_vocabulary (ActionError "a at position 7" 8) <> scan_message ex_vocabulary (ActionError "a" 7).
Proof. split; [reflexivity|]. split; [reflexivity|]. discriminate. Qed.

(** C81, the program: from what it writes to the standard error stream follows how it has ended, unless an unknown type
    descriptor is not UTF-8. *)
Definition ex_world (input : bytes) : world := mkWorld (fun _ => None) input [Chunk 9; Chunk 2] (fun _ => Some None).
Definition ex_args (d : direction) (i : option string) : args := mkArgs d i None false false true.
Theorem C81_program_partial : forall v a fuel o c x r a' fuel' o' c' x' r', telling v ->
  main a fuel o = Done (c, x) -> main a' fuel' o' = Done (c', x') -> readable v x -> readable v x' ->
  stderr v a x r = stderr v a' x' r' -> x = x'.
Proof. intros v a fuel o c x r a' fuel' o' c' x' r' T. exact (main_told v T a fuel o c x r a' fuel' o' c' x' r'). Qed.
Print Assumptions C81_program_partial.
Example C81_program_example :
  (exists c x, main (ex_args FromDdb None) 100 (ex_world (bs "{""Item"":{""a"":{""X"":1}}}")) = Done (c, x) /\ readable ex_vocabulary x /\
     stderr ex_vocabulary (ex_args FromDdb None) x [] =
       bs "Error at position 18: Parse error: Invalid DynamoDB JSON format: unknown type descriptor (unknown type descriptor 'X')") /\
  (exists c x, main (ex_args ToDdb None) 100 (ex_world (bs "{""a"":[1,]}")) = Done (c, x) /\ readable ex_vocabulary x /\
     stderr ex_vocabulary (ex_args ToDdb None) x [] = bs "Error at position 9: JSON parsing error: trailing comma at index 9") /\
  (exists c x, main (ex_args ToDdb (Some "in"%string)) 100 (ex_world []) = Done (c, x) /\ readable ex_vocabulary x /\
     stderr ex_vocabulary (ex_args ToDdb (Some "in"%string)) x (bs "No such file") = bs "Error opening input file 'in': No such file").
Proof. split; [|split]; do 2 eexists; (split; [vm_compute; reflexivity|]); split; vm_compute; reflexivity. Qed.
(** It is false otherwise: two inputs with different descriptors, the same text. *)
Theorem C81_program_refuted : exists i j c c' t t' p,
  main (ex_args FromDdb None) 100 (ex_world i) = Done (c, Failure (CParse "Invalid DynamoDB JSON format: unknown type descriptor" (Some t)) p) /\
  main (ex_args FromDdb None) 100 (ex_world j) = Done (c', Failure (CParse "Invalid DynamoDB JSON format: unknown type descriptor" (Some t')) p) /\
  t <> t' /\ forall e e', e = CParse "Invalid DynamoDB JSON format: unknown type descriptor" (Some t) ->
    e' = CParse "Invalid DynamoDB JSON format: unknown type descriptor" (Some t') ->
    stderr ex_vocabulary (ex_args FromDdb None) (Failure e p) [] = stderr ex_vocabulary (ex_args FromDdb None) (Failure e' p) [].
Proof.
  exists (bs "{""Item"":{""a"":{""" ++ [254%N] ++ bs """:1}}}"), (bs "{""Item"":{""a"":{""" ++ [255%N] ++ bs """:1}}}"). do 5 eexists.
  split; [vm_compute; reflexivity|]. split; [vm_compute; reflexivity|]. split; [discriminate|]. intros e e' -> ->. vm_compute. reflexivity.
Qed.
Print Assumptions C81_program_refuted.

(** C82: where the message of an error contains a position of its own, it is the one that is reported in front of it. *)
Theorem C82_program : forall v a fuel o c e p, main a fuel o = Done (c, Failure (CScan e) p) -> mentions (conversion_message v (CScan e)) p.
Proof. exact main_mentioned. Qed.
Print Assumptions C82_program.
(** The same of the functions of the library. *)
Theorem C82_to_ddb : forall v fuel rd w rb xb pretty wrapper w' e p,
  convert_normal_to_ddb fuel rd w rb xb pretty wrapper = Done (w', Err (CScan e, p)) -> mentions (scan_message v e) p.
Proof. intros *. intros E. exact (place_mentioned v e p (n2d_place _ _ _ _ _ _ _ _ _ _ E)). Qed.
Print Assumptions C82_to_ddb.
Theorem C82_from_ddb : forall v fuel rd w rb xb pretty mode w' e p,
  convert_ddb_to_normal fuel rd w rb xb pretty mode = Done (w', Err (CScan e, p)) -> mentions (scan_message v e) p.
Proof. intros *. intros E. exact (place_mentioned v e p (d2n_place _ _ _ _ _ _ _ _ _ _ E)). Qed.
Print Assumptions C82_from_ddb.
Example C82_example : exists c e, main (ex_args FromDdb None) 100 (ex_world (bs "{""Item"":{""a"":{""S"":1}}}")) = Done (c, Failure (CScan e) 18) /\
  conversion_message ex_vocabulary (CScan e) = bs "Action error: Expected string value at position 18".
Proof. do 2 eexists. split; vm_compute; reflexivity. Qed.

(** C83: at most 32 bytes of the input are in an error. *)
Theorem C83_program : forall a fuel o c x t p, main a fuel o = Done (c, Failure (CParse x (Some t)) p) -> len t <= 32.
Proof. exact main_short. Qed.
Print Assumptions C83_program.
Theorem C83_to_ddb : forall fuel rd w rb xb pretty wrapper w' x t p,
  convert_normal_to_ddb fuel rd w rb xb pretty wrapper = Done (w', Err (CParse x (Some t), p)) -> len t <= 32.
Proof. exact n2d_short. Qed.
Print Assumptions C83_to_ddb.
Theorem C83_from_ddb : forall fuel rd w rb xb pretty mode w' x t p,
  convert_ddb_to_normal fuel rd w rb xb pretty mode = Done (w', Err (CParse x (Some t), p)) -> len t <= 32.
Proof. exact d2n_short. Qed.
Print Assumptions C83_from_ddb.
Example C83_example : exists c x t p, main (ex_args FromDdb None) 100
    (ex_world (bs "{""Item"":{""a"":{""abcdefghijklmnopqrstuvwxyzabcdefghijklmnopqrstuvwxyz"":1}}}")) = Done (c, Failure (CParse x (Some t)) p) /\
  t = bs "abcdefghijklmnopqrstuvwxyzabcdef".
Proof. do 4 eexists. split; vm_compute; reflexivity. Qed.
