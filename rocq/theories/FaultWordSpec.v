(** Specification side of misspelt literals. Independent of the parser. *)
From Verif Require Import Base Buffer Jiter RJiter RJiterSpec SoundSpec.

(** The literals. *)
Definition literal (x : byte) (t : bytes) : Prop := (x, t) = (110%N, [117; 108; 108]%N) \/ (x, t) = (116%N, [114; 117; 101]%N) \/ (x, t) = (102%N, [97; 108; 115; 101]%N).
(** The methods that read the literal that begins with [x]; whether the first byte is known. *)
Inductive word_method : forall {A}, bool -> byte -> (rj -> outcome (rj * result A rerror)) -> Prop :=
| wm_null : word_method false 110%N next_null
| wm_known_null : word_method true 110%N known_null
| wm_true : word_method false 116%N next_bool
| wm_false : word_method false 102%N next_bool
| wm_known_true : word_method true 116%N (known_bool 116%N)
| wm_known_false : word_method true 102%N (known_bool 102%N).
(** What stands behind the first letter is not the rest [t] of the literal; the name of the error; how many letters are right. *)
Inductive word_wrong (t : bytes) : bytes -> json_error -> nat -> Prop :=
| ww_letter a c b y r : t = a ++ c :: b -> y <> c -> word_wrong t (a ++ y :: r) ExpectedSomeIdent (len a)
| ww_end a c b : t = a ++ c :: b -> word_wrong t a EofWhileParsingValue (len a).
