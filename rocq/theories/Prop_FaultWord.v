(** Property C107: a misspelt literal is reported as such, and where. Only statements, examples and assumptions. *)
From Verif Require Import Base Buffer Jiter RJiter RJiterSpec Scan ScanSpec SoundSpec UnicodeSpec FaultSpec FaultWordSpec.
From Verif Require Import ScanExamples Prop_RJiter Prop_Value FaultProofs FaultWord Prop_Faults.

(** C107: if what stands behind the first letter of null, true or false is not the rest of the literal, the call fails, the position is
    that of the first wrong letter or the end of the input, for every chunking; the parser stays in front of the literal. *)
Theorem C107_literal : forall A known x (op : rj -> outcome (rj * result A rerror)) s w t l e k,
  word_method known x op -> (known = true -> w = []) -> literal x t -> valid s -> 5 <= rcap s -> rest s = w ++ x :: l -> blanks w -> word_wrong t l e k ->
  refused_at s (x :: l) (JsonError e) (1 + k) (op s).
Proof. exact @word_named. Qed.
Print Assumptions C107_literal.
(** There is nothing else but the literal. *)
Theorem C107_cases : forall t l, (exists r, l = t ++ r) \/ exists e k, word_wrong t l e k.
Proof. exact word_cases. Qed.
Print Assumptions C107_cases.
Definition ex_word (text : bytes) (sched : list event) : rj := ex_behind (bs "  " ++ text) sched 16.
Example C107_example :
  (valid (ex_word (bs "falxe") ex_one) /\ rest (ex_word (bs "falxe") ex_one) = bs "  " ++ 102%N :: bs "alxe" /\ literal 102%N (bs "alse") /\
   word_wrong (bs "alse") (bs "alxe") ExpectedSomeIdent 2 /\ total (ex_word (bs "falxe") ex_one) - len (bs "falxe") = 6) /\
  ans (next_bool (ex_word (bs "falxe") ex_one)) = Some (Err (mkErr (JsonError ExpectedSomeIdent) (6 + 3))) /\
  ans (next_null (ex_word (bs "nul ") ex_one)) = Some (Err (mkErr (JsonError ExpectedSomeIdent) (6 + 3))) /\
  ans (next_null (ex_word (bs "nu") ex_one)) = Some (Err (mkErr (JsonError EofWhileParsingValue) (6 + 2))) /\
  ans (known_bool 116%N (ex_behind (bs "t") [] 16)) = Some (Err (mkErr (JsonError EofWhileParsingValue) (4 + 1))) /\
  ans (known_null (ex_behind (bs "nil") ex_one 16)) = Some (Err (mkErr (JsonError ExpectedSomeIdent) (4 + 1))) /\
  rest (st (next_bool (ex_word (bs "falxe") ex_one))) = bs "falxe".
Proof.
  split; [|now_true]. split; [now_valid|]. split; [vm_compute; reflexivity|]. split; [right; right; reflexivity|]. split; [|vm_compute; reflexivity].
  apply (ww_letter (bs "alse") (bs "al") 115%N (bs "e") 120%N (bs "e")); [reflexivity|discriminate].
Qed.
Example C107_cases_example : (exists r, bs "ull," = bs "ull" ++ r) /\ exists e k, word_wrong (bs "ull") (bs "ul") e k.
Proof. split; [exists (bs ","); reflexivity|]. do 2 eexists. apply (ww_end (bs "ull") (bs "ul") 108%N []). reflexivity. Qed.
