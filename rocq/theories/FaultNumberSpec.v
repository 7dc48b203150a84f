(** Specification side of numbers that are not JSON. Independent of the parser. *)
From Verif Require Import Base Buffer Jiter RJiter RJiterSpec SoundSpec.

Definition digit (x : byte) : Prop := (48 <= x <= 57)%N.
Inductive sign : bytes -> Prop := sg_none : sign [] | sg_minus : sign [45%N].
Inductive whole : bytes -> Prop :=
| wh_zero : whole [48%N]
| wh_digits (x : byte) ds : (49 <= x <= 57)%N -> Forall digit ds -> whole (x :: ds).
Inductive fraction : bytes -> Prop :=
| fr_none : fraction []
| fr_digits d ds : digit d -> Forall digit ds -> fraction (46%N :: d :: ds).
(** Beginnings of numbers behind which a digit must follow, or, if [true], a sign and a digit. *)
Inductive awaits : bytes -> bool -> Prop :=
| aw_sign : awaits [45%N] false
| aw_point g n : sign g -> whole n -> awaits (g ++ n ++ [46%N]) false
| aw_exponent g n f (x : byte) : sign g -> whole n -> fraction f -> x = 101%N \/ x = 69%N -> awaits (g ++ n ++ f ++ [x]) true
| aw_exponent_sign g n f (x h : byte) : sign g -> whole n -> fraction f -> x = 101%N \/ x = 69%N -> h = 43%N \/ h = 45%N -> awaits (g ++ n ++ f ++ [x; h]) false.
(** What shows that something is wrong; the name of the error; the distance of the byte to blame. *)
Inductive number_wrong : bytes -> json_error -> nat -> Prop :=
| nw_digit a b (y : byte) : awaits a b -> ~ digit y -> (b = true -> y <> 43%N /\ y <> 45%N) -> number_wrong (a ++ [y]) InvalidNumber (len a)
| nw_zero g d : sign g -> digit d -> number_wrong (g ++ [48%N; d]) InvalidNumber (1 + len g).
Inductive exponent : bytes -> Prop :=
| xp_none : exponent []
| xp_digits (x : byte) h d ds : x = 101%N \/ x = 69%N -> h = [] \/ h = [43%N] \/ h = [45%N] -> digit d -> Forall digit ds -> exponent (x :: h ++ d :: ds).
(** A number with fraction [f] and exponent [x] is not continued by [r]. *)
Definition ends (f x r : bytes) : Prop :=
  match r with [] => True | y :: _ => ~ digit y /\ (x = [] -> y <> 101%N /\ y <> 69%N /\ (f = [] -> y <> 46%N)) end.
