(** Specification side of keys of objects that are not JSON: what can be wrong behind the token in front of a key, and where.
    Independent of the parser. *)
From Verif Require Import Base Buffer Jiter RJiter RJiterSpec ScanSpec SoundSpec UnicodeSpec FaultSpec.

(** The methods that read a key; whether the first byte is known; the token in front of the key. *)
Inductive key_method : bool -> byte -> (rj -> outcome (rj * result (option bytes) rerror)) -> Prop :=
| km_object : key_method false 123%N next_object
| km_object_bytes : key_method false 123%N next_object_bytes
| km_known_object : key_method true 123%N known_object
| km_key : key_method false 44%N next_key
| km_key_bytes : key_method false 44%N next_key_bytes.

(** What stands behind the token and the white space behind it; the name of the error; the distance of the byte to blame; how many
    bytes must be seen to know; the number of bytes in front of the byte to blame if they have been read as a key. *)
Inductive key_wrong (token : byte) : bytes -> json_error -> nat -> nat -> nat -> Prop :=
| kw_text t f e o r : faultless t -> fault f e o -> key_wrong token (34%N :: t ++ f ++ r) e (1 + len t + o) (1 + (len t + len f)) 0
| kw_unended t a : faultless t -> broken_off a -> key_wrong token (34%N :: t ++ a) EofWhileParsingString (1 + len t + len a) (1 + (len t + len a)) 0
| kw_no_string x r : ~ blank x -> x <> 34%N -> x <> 125%N -> key_wrong token (x :: r) KeyMustBeAString 0 1 0
| kw_comma r : token = 44%N -> key_wrong token (125%N :: r) TrailingComma 0 1 0
| kw_end_brace : token = 123%N -> key_wrong token [] EofWhileParsingObject 0 0 0
| kw_end_comma : token = 44%N -> key_wrong token [] EofWhileParsingValue 0 0 0
| kw_no_colon t cs w x r : reads t cs -> spaces w -> ~ space x -> x <> 58%N ->
    key_wrong token (34%N :: t ++ 34%N :: w ++ x :: r) ExpectedColon (2 + len t + len w) (3 + len t + len w) (2 + len t + len w)
| kw_end_key t cs w : reads t cs -> spaces w ->
    key_wrong token (34%N :: t ++ 34%N :: w) EofWhileParsingObject (2 + len t + len w) (2 + len t + len w) (2 + len t + len w).

(** The call has failed with the error [e] at the index [i], or the reader has failed. *)
Definition blamed {A} (quiet : bool) (e : error_type) (i : nat) (x : outcome (rj * result A rerror)) : Prop :=
  exists s' r, x = Done (s', Err r) /\ ((is_io r = true /\ quiet = false) \/ (err_type r = e /\ err_index r = i)).

(** What can stand behind the token and the white space behind it: a key and a colon; a key that does not spell characters; the end
    of the object, if it is empty; something that is wrong. *)
Inductive key_case (token : byte) : bytes -> Prop :=
| kc_key t cs w r : reads t cs -> spaces w -> key_case token (34%N :: t ++ 34%N :: w ++ 58%N :: r)
| kc_no_characters t r : faultless t -> (forall cs, ~ reads t cs) -> key_case token (34%N :: t ++ 34%N :: r)
| kc_closed r : token = 123%N -> key_case token (125%N :: r)
| kc_wrong m e o reach a : key_wrong token m e o reach a -> key_case token m.

(** The methods that look for an element of an array; whether the first byte is known; the token in front of the element. *)
Inductive element_method : bool -> byte -> (rj -> outcome (rj * result (option byte) rerror)) -> Prop :=
| em_array : element_method false 91%N next_array
| em_known_array : element_method true 91%N known_array
| em_step : element_method false 44%N array_step.
(** What is wrong behind the token and the white space behind it; it is at the beginning. *)
Inductive element_wrong (token : byte) : bytes -> json_error -> Prop :=
| ew_end_bracket : token = 91%N -> element_wrong token [] EofWhileParsingList
| ew_end_comma : token = 44%N -> element_wrong token [] EofWhileParsingValue
| ew_comma r : token = 44%N -> element_wrong token (93%N :: r) TrailingComma.
