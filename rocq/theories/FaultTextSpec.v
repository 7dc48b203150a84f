(** Specification side of strings whose bytes spell no characters. Independent of the parser. *)
From Verif Require Import Base Buffer Jiter RJiter RJiterSpec UnicodeSpec FaultSpec.

(** The bytes that the text between the quotes stands for. Whether they spell characters is not looked at. *)
Inductive says : bytes -> bytes -> Prop :=
| sy_nil : says [] []
| sy_byte x t d : (32 <= x)%N -> x <> 34%N -> x <> 92%N -> says t d -> says (x :: t) (x :: d)
| sy_escape y c t d : In (y, c) escapes -> says t d -> says (92%N :: y :: t) (c :: d)
| sy_hex h c e t d : hex4 h c -> character c -> encodes c e -> says t d -> says (92%N :: 117%N :: h ++ t) (e ++ d)
| sy_pair h g hi lo e t d : (hi < 1024)%N -> (lo < 1024)%N -> hex4 h (55296 + hi)%N -> hex4 g (56320 + lo)%N ->
    encodes (65536 + 1024 * hi + lo)%N e -> says t d -> says (92%N :: 117%N :: h ++ 92%N :: 117%N :: g ++ t) (e ++ d).

(** The bytes spell characters up to [v], and what follows begins with no character. *)
Inductive misspelt : bytes -> nat -> Prop :=
| ms_at cs v x b : spells cs v -> (forall c e r, character c -> encodes c e -> x :: b <> e ++ r) -> misspelt (v ++ x :: b) (len v).

(** The methods that return the characters of a string; whether the first byte is known to be a quote. *)
Inductive str_method : bool -> (rj -> outcome (rj * result bytes rerror)) -> Prop :=
| st_next : str_method false next_str
| st_known : str_method true known_str.
