(** Specification side of strings: the characters (Unicode scalar values) that bytes spell, and the characters that the
    text between the quotes of a JSON string stands for. Independent of the parser. *)
From Verif Require Import Base.

(** A character: a code point that is no surrogate. *)
Definition character (c : N) : Prop := (c < 55296 \/ 57344 <= c < 1114112)%N.

(** UTF-8: the shortest of the four forms, six bits in every byte behind the first. *)
Inductive encodes : N -> bytes -> Prop :=
| en_one c : (c < 128)%N -> encodes c [c]
| en_two a b : (a < 32)%N -> (b < 64)%N -> (128 <= 64 * a + b)%N -> encodes (64 * a + b)%N [192 + a; 128 + b]%N
| en_three a b c : (a < 16)%N -> (b < 64)%N -> (c < 64)%N -> (2048 <= 4096 * a + 64 * b + c)%N ->
    encodes (4096 * a + 64 * b + c)%N [224 + a; 128 + b; 128 + c]%N
| en_four a b c d : (a < 8)%N -> (b < 64)%N -> (c < 64)%N -> (d < 64)%N -> (65536 <= 262144 * a + 4096 * b + 64 * c + d)%N ->
    encodes (262144 * a + 4096 * b + 64 * c + d)%N [240 + a; 128 + b; 128 + c; 128 + d]%N.
(** The bytes that spell a sequence of characters. *)
Inductive spells : list N -> bytes -> Prop :=
| sp_nil : spells [] []
| sp_cons c e cs l : character c -> encodes c e -> spells cs l -> spells (c :: cs) (e ++ l).

(** Hexadecimal digits, and four of them. *)
Inductive hex_digit : byte -> N -> Prop :=
| hd_digit n : (n < 10)%N -> hex_digit (48 + n)%N n
| hd_upper n : (n < 6)%N -> hex_digit (65 + n)%N (10 + n)%N
| hd_lower n : (n < 6)%N -> hex_digit (97 + n)%N (10 + n)%N.
Inductive hex4 : bytes -> N -> Prop :=
| hex4_digits x y z w a b c d : hex_digit x a -> hex_digit y b -> hex_digit z c -> hex_digit w d ->
    hex4 [x; y; z; w] (4096 * a + 256 * b + 16 * c + d)%N.
(** The escapes of RFC 8259: the letter behind the backslash, the character. *)
Definition escapes : list (byte * N) := [(34, 34); (92, 92); (47, 47); (98, 8); (102, 12); (110, 10); (114, 13); (116, 9)]%N.

(** What stands between the quotes, and the characters it stands for. *)
Inductive reads : bytes -> list N -> Prop :=
| rd_nil : reads [] []
| rd_character c e t cs : character c -> (32 <= c)%N -> c <> 34%N -> c <> 92%N -> encodes c e -> reads t cs -> reads (e ++ t) (c :: cs)
| rd_escape y c t cs : In (y, c) escapes -> reads t cs -> reads (92%N :: y :: t) (c :: cs)
| rd_hex h c t cs : hex4 h c -> character c -> reads t cs -> reads (92%N :: 117%N :: h ++ t) (c :: cs)
| rd_pair h g hi lo t cs : (hi < 1024)%N -> (lo < 1024)%N -> hex4 h (55296 + hi)%N -> hex4 g (56320 + lo)%N -> reads t cs ->
    reads (92%N :: 117%N :: h ++ 92%N :: 117%N :: g ++ t) ((65536 + 1024 * hi + lo)%N :: cs).
