(** Specification side of the properties about reported errors. *)
From Verif Require Import Base Buffer Jiter JiterValue RJiter RJiterSpec.

(** All methods of RJiter that parse. *)
Inductive parsing : forall {A}, (rj -> outcome (rj * result A rerror)) -> Prop :=
| a_peek : parsing peek
| a_known_array : parsing known_array
| a_known_bool p : parsing (known_bool p)
| a_known_bytes : parsing known_bytes
| a_known_float p : parsing (known_float p)
| a_known_int p : parsing (known_int p)
| a_known_null : parsing known_null
| a_known_number p : parsing (known_number p)
| a_known_object : parsing known_object
| a_known_skip p : parsing (known_skip p)
| a_known_str : parsing known_str
| a_known_value p : parsing (known_value p)
| a_known_value_owned p : parsing (known_value_owned p)
| a_next_array : parsing next_array
| a_array_step : parsing array_step
| a_next_bool : parsing next_bool
| a_next_bytes : parsing next_bytes
| a_next_float : parsing next_float
| a_next_int : parsing next_int
| a_next_key : parsing next_key
| a_next_key_bytes : parsing next_key_bytes
| a_next_null : parsing next_null
| a_next_number : parsing next_number
| a_next_number_bytes : parsing next_number_bytes
| a_next_object : parsing next_object
| a_next_object_bytes : parsing next_object_bytes
| a_next_skip : parsing next_skip
| a_next_str : parsing next_str
| a_next_value : parsing next_value
| a_next_value_owned : parsing next_value_owned
| a_finish : parsing finish.
(** A call of any method of RJiter has failed. *)
Inductive failed (s s' : rj) (e : rerror) : Prop :=
| by_parsing A (op : rj -> outcome (rj * result A rerror)) : parsing op -> op s = Done (s', Err e) -> failed s s' e
| by_lookahead_while pred : lookahead_while pred s = Done (s', Err e) -> failed s s' e
| by_lookahead_n n : lookahead_n n s = Done (s', Err e) -> failed s s' e
| by_skip n : skip_n_bytes n s = Done (s', Err e) -> failed s s' e
| by_token t : known_skip_token t s = Done (s', Err e) -> failed s s' e
| by_long_bytes w w' : write_long_bytes s w = Done (s', w', Err e) -> failed s s' e
| by_long_str w w' : write_long_str s w = Done (s', w', Err e) -> failed s s' e.
(** The document is to blame, not the reader, the writer or the size of the buffer. *)
Definition about_document (e : rerror) : Prop := match err_type e with JsonError _ | WrongType _ _ => True | _ => False end.
