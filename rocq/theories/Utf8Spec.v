(** Specification side of UTF-8 in what programs read and write. *)
From Verif Require Import Base UnicodeSpec.

(** The bytes spell some sequence of characters. *)
Definition characters (l : bytes) : Prop := exists cs, spells cs l.
