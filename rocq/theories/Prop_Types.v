(** Property C99: errors that tell the type of a value. Only statements, examples and assumptions. *)
From Verif Require Import Base Buffer Jiter JiterValue RJiter RJiterSpec Scan ScanSpec ValueSpec SoundSpec TypeSpec.
From Verif Require Import ScanExamples Prop_RJiter Prop_Value TypeProofs.

(** C99: a value of another type than the one asked for is reported as such, with its type and its position, and the
    parser stays in front of it; for every chunking. *)
Theorem C99_other_type : forall A t (op : rj -> outcome (rj * result A rerror)) s w x l t', asks t op ->
  valid s -> 2 <= rcap s -> rest s = w ++ x :: l -> blanks w -> heads x t' -> t' <> t ->
  refused s (x :: l) (eq (WrongType t t')) (op s).
Proof. exact @other_type. Qed.
Print Assumptions C99_other_type.
Definition ex_types (text : bytes) : rj := ex_behind (bs "  " ++ text) [Chunk 4; Chunk 0; Chunk 0; Chunk 2] 10.
Example C99_example :
  (valid (ex_types (bs """abc"", 1]")) /\ rest (ex_types (bs """abc"", 1]")) = bs "  " ++ QUOTE :: bs "abc"", 1]" /\ blanks (bs "  ")) /\
  ans (next_int (ex_types (bs """abc"", 1]"))) = Some (Err (mkErr (WrongType TInt TString) 6)) /\
  ans (next_object (ex_types (bs "[1]"))) = Some (Err (mkErr (WrongType TObject TArray) 6)) /\
  ans (next_array (ex_types (bs "{}"))) = Some (Err (mkErr (WrongType TArray TObject) 6)) /\
  ans (next_str (ex_types (bs "null"))) = Some (Err (mkErr (WrongType TString TNull) 6)) /\
  ans (next_null (ex_types (bs "false"))) = Some (Err (mkErr (WrongType TNull TBool) 6)) /\
  ans (next_number_bytes (ex_types (bs "true"))) = Some (Err (mkErr (WrongType TFloat TBool) 6)) /\
  rest (st (next_int (ex_types (bs """abc"", 1]")))) = bs """abc"", 1]".
Proof.
  split; [split; [now_valid|split; [vm_compute; reflexivity|repeat constructor]]|]. now_true.
Qed.

(** C99: a byte that begins no value, in front of which there is no value to name, and the end of the input. *)
Theorem C99_no_value : forall A t (op : rj -> outcome (rj * result A rerror)) s w x l, asks t op ->
  valid s -> 2 <= rcap s -> rest s = w ++ x :: l -> blanks w -> ~ blank x -> no_head x -> x <> 73%N -> x <> 78%N ->
  refused s (x :: l) (eq (JsonError ExpectedSomeValue)) (op s).
Proof. exact @no_value. Qed.
Print Assumptions C99_no_value.
Theorem C99_end : forall A t (op : rj -> outcome (rj * result A rerror)) s, asks t op ->
  valid s -> 2 <= rcap s -> blanks (rest s) -> refused s [] (eq (JsonError EofWhileParsingValue)) (op s).
Proof. exact @nothing_left. Qed.
Print Assumptions C99_end.
Example C99_no_value_example :
  no_head 93%N /\ ans (next_bool (ex_types (bs "]"))) = Some (Err (mkErr (JsonError ExpectedSomeValue) 6)) /\
  ans (next_float (ex_types (bs "]"))) = Some (Err (mkErr (JsonError ExpectedSomeValue) 6)) /\
  ans (next_array (ex_types (bs " "))) = Some (Err (mkErr (JsonError EofWhileParsingValue) 7)) /\
  ans (next_int (ex_types (bs "N"))) = Some (Err (mkErr (JsonError FloatExpectingInt) 6)).
Proof.
  split; [split; [intros t H; inversion H|split; [discriminate|unfold digit; lia]]|]. now_true.
Qed.

(** C99, numbers: when something else is asked for, the error names one of the two types of numbers, the right one if the
    number can be seen completely. *)
Theorem C99_number_partial : forall A t (op : rj -> outcome (rj * result A rerror)) s w n r, asks t op -> ~ numeric_type t ->
  valid s -> 2 <= rcap s -> rest s = w ++ n ++ r -> blanks w -> number_text n -> delimited r -> len n <= rcap s ->
  refused s (n ++ r) (fun e => e = WrongType t TInt \/ (e = WrongType t TFloat /\ fractional n)) (op s) /\
  (len w + len n < len (jview s) \/ len (jview s) = len (rest s) ->
   refused s (n ++ r) (fun e => e = WrongType t TFloat /\ fractional n \/ e = WrongType t TInt /\ ~ fractional n) (op s)).
Proof. exact @number_found. Qed.
Print Assumptions C99_number_partial.
Definition ex_types_seen (text : bytes) : rj := ex_behind (bs "  " ++ text) [] 16.
Example C99_number_example : let s := ex_types_seen (bs "-12.5 ]") in
  valid s /\ rest s = bs "  " ++ bs "-12.5" ++ bs " ]" /\ number_text (bs "-12.5") /\ delimited (bs " ]") /\ len (jview s) = len (rest s) /\
  ans (next_str s) = Some (Err (mkErr (WrongType TString TFloat) 6)) /\
  ans (next_str (ex_types_seen (bs "-125 ]"))) = Some (Err (mkErr (WrongType TString TInt) 6)).
Proof.
  cbn zeta. split; [now_valid|]. split; [vm_compute; reflexivity|].
  split; [exists [45%N], (bs "12"), (bs ".5"), []; split; [reflexivity|]; split; [right; reflexivity|];
    split; [right; exists 49%N, [50%N]; split; [reflexivity|]; split; [lia|]; repeat (apply Forall_nil || (apply Forall_cons; [unfold digit; lia|]))|];
    split; [right; exists (bs "5"); split; [reflexivity|]; split; [discriminate|]; vm_compute bs; repeat (apply Forall_nil || (apply Forall_cons; [unfold digit; lia|]))|left; reflexivity]|].
  split; [reflexivity|]. now_true.
Qed.
(** The right one it is not always: which type is named for the same input depends on the chunks. *)
Theorem C99_number_refuted : exists input s1 s2,
  s1 = st (peek (ex_new input [Chunk 9] 8)) /\ s2 = st (peek (ex_new input [Chunk 1; Chunk 0] 8)) /\ rest s1 = rest s2 /\
  ans (next_str s1) = Some (Err (mkErr (WrongType TString TFloat) 0)) /\ ans (next_str s2) = Some (Err (mkErr (WrongType TString TInt) 0)).
Proof. exists (bs "12.5 "). do 2 eexists. do 3 (split; [vm_compute; reflexivity|]). now_true. Qed.
Print Assumptions C99_number_refuted.
