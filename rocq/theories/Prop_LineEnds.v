(** Property C111: the ends of lines in the converter in Python. Only statements, examples and assumptions. *)
From Verif Require Import Base Cli Bench BenchSpec BenchKit PyBench PyKit LineEndSpec.
From Verif Require Import PyCases LineEnds.

(** C111: the program in Python does the same with two inputs that differ only in whether lines end with a line feed, with a carriage return or
    with both. *)
Theorem C111_line_ends : forall (float : Type) (float_of : bytes -> option float) (str_float : float -> bytes) loads dumps dumps_pretty a o o' i i' t,
  match binput a with Some p => bfile o p | None => Some (bstdin o) end = Some i ->
  match binput a with Some p => bfile o' p | None => Some (bstdin o') end = Some i' ->
  broken i = broken i' -> with_feeds (coming i) t -> with_feeds (coming i') t -> bbudget o (boutput a) = bbudget o' (boutput a) ->
  py_main float_of str_float loads dumps dumps_pretty a o = py_main float_of str_float loads dumps dumps_pretty a o'.
Proof. exact feeds_same. Qed.
Print Assumptions C111_line_ends.
(** Every text can be written with line feeds only, in one way. *)
Theorem C111_exists : forall l, exists l', with_feeds l l' /\ Forall (fun x => x <> 13)%N l'.
Proof. exact feeds_exist. Qed.
Print Assumptions C111_exists.
Theorem C111_unique : forall l a b, with_feeds l a -> with_feeds l b -> a = b.
Proof. exact feeds_unique. Qed.
Print Assumptions C111_unique.
Definition ex_lines (e1 e2 : bytes) : bytes := bs "{""a"":1}" ++ e1 ++ 9%N :: bs "{""b"":2}" ++ e2.
Ltac now_feeds := repeat first [apply wf_end | apply wf_both | apply wf_other; [discriminate|] | apply wf_return; [intros ? ? E; injection E as <- _; discriminate|] | apply wf_return; [discriminate|]].
Example C111_example :
  (with_feeds (ex_lines [13%N] [13; 10]%N) (ex_lines [10%N] [10%N]) /\ with_feeds (ex_lines [10%N] [10%N]) (ex_lines [10%N] [10%N])) /\
  py_kit_main (input_named "" ToDdb) (alone (mkInput (ex_lines [13%N] [13; 10]%N) None)) =
    py_kit_main (input_named "" ToDdb) (alone (mkInput (ex_lines [10%N] [10%N]) None)) /\
  fst (py_kit_main (input_named "" ToDdb) (alone (mkInput (ex_lines [13%N] [13; 10]%N) None))) =
    Some (bs "{""Item"": {""a"": {""N"": ""1""}}}" ++ 10%N :: bs "{""Item"": {""b"": {""N"": ""2""}}}" ++ [10%N]).
Proof.
  split; [split; cbn [ex_lines app bs]; vm_compute; now_feeds|]. split; vm_compute; reflexivity.
Qed.
