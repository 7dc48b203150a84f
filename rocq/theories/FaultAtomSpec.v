(** Specification side of [copy_atom] in front of something that is wrong. Independent of the parser. *)
From Verif Require Import Base Buffer Jiter RJiter RJiterSpec SoundSpec FaultNumberSpec.

(** Something that begins no string and no literal, and is no number; how many bytes show this. *)
Inductive no_number : bytes -> nat -> Prop :=
| nn_wrong a e o r : number_wrong a e o -> no_number (a ++ r) (len a)
| nn_end a b : awaits a b -> no_number a (len a)
| nn_other (x : byte) r : ~ blank x -> ~ digit x -> x <> 45%N -> x <> 34%N -> x <> 110%N -> x <> 116%N -> x <> 102%N -> no_number (x :: r) 1.
