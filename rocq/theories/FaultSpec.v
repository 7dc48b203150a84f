(** Specification side of strings that are not JSON: what can be wrong between the quotes, and where. Independent of the parser. *)
From Verif Require Import Base Buffer Jiter RJiter RJiterSpec UnicodeSpec.

(** Text between the quotes in which nothing is wrong as yet. Whether the bytes spell characters is not looked at. *)
Inductive faultless : bytes -> Prop :=
| fl_nil : faultless []
| fl_byte x t : (32 <= x)%N -> x <> 34%N -> x <> 92%N -> faultless t -> faultless (x :: t)
| fl_escape y c t : In (y, c) escapes -> faultless t -> faultless (92%N :: y :: t)
| fl_hex h c t : hex4 h c -> character c -> faultless t -> faultless (92%N :: 117%N :: h ++ t)
| fl_pair h g hi lo t : (hi < 1024)%N -> (lo < 1024)%N -> hex4 h (55296 + hi)%N -> hex4 g (56320 + lo)%N -> faultless t ->
    faultless (92%N :: 117%N :: h ++ 92%N :: 117%N :: g ++ t).

(** Four bytes that should be hexadecimal digits; the first that is not is behind [a]. *)
Inductive no_hex4 : bytes -> nat -> Prop :=
| nh_at a x b : Forall (fun y => exists n, hex_digit y n) a -> (forall n, ~ hex_digit x n) -> len (a ++ x :: b) = 4 -> no_hex4 (a ++ x :: b) (len a).

(** What is wrong: the bytes that show it, the name of the error, and how far the byte to blame is from the first of them. *)
Inductive fault : bytes -> json_error -> nat -> Prop :=
| fa_control x : (x < 32)%N -> fault [x] ControlCharacterWhileParsingString 0
| fa_letter y : (forall c, ~ In (y, c) escapes) -> y <> 117%N -> fault [92%N; y] InvalidEscape 1
| fa_digit h k : no_hex4 h k -> fault (92%N :: 117%N :: h) InvalidEscape (2 + k)
| fa_low h lo : (lo < 1024)%N -> hex4 h (56320 + lo)%N -> fault (92%N :: 117%N :: h) LoneLeadingSurrogateInHexEscape 5
| fa_alone h hi x : (hi < 1024)%N -> hex4 h (55296 + hi)%N -> x <> 92%N -> fault (92%N :: 117%N :: h ++ [x]) UnexpectedEndOfHexEscape 6
| fa_other h hi y : (hi < 1024)%N -> hex4 h (55296 + hi)%N -> y <> 117%N -> fault (92%N :: 117%N :: h ++ [92%N; y]) UnexpectedEndOfHexEscape 7
| fa_second_digit h hi g k : (hi < 1024)%N -> hex4 h (55296 + hi)%N -> no_hex4 g k ->
    fault (92%N :: 117%N :: h ++ 92%N :: 117%N :: g) InvalidEscape (8 + k)
| fa_second h hi g n : (hi < 1024)%N -> hex4 h (55296 + hi)%N -> hex4 g n -> ~ (56320 <= n < 57344)%N ->
    fault (92%N :: 117%N :: h ++ 92%N :: 117%N :: g) LoneLeadingSurrogateInHexEscape 11.

(** The input breaks off where a character could begin, or within an escape. What little there is of an escape is not looked at. *)
Inductive broken_off : bytes -> Prop :=
| bo_between : broken_off []
| bo_backslash : broken_off [92%N]
| bo_digits h : len h < 4 -> broken_off (92%N :: 117%N :: h)
| bo_half h hi : (hi < 1024)%N -> hex4 h (55296 + hi)%N -> broken_off (92%N :: 117%N :: h)
| bo_half_backslash h hi : (hi < 1024)%N -> hex4 h (55296 + hi)%N -> broken_off (92%N :: 117%N :: h ++ [92%N])
| bo_half_digits h hi g : (hi < 1024)%N -> hex4 h (55296 + hi)%N -> len g < 4 -> broken_off (92%N :: 117%N :: h ++ 92%N :: 117%N :: g).

(** What can follow an opening quote: a string that ends, a fault, or the end of the input. *)
Inductive string_case : bytes -> Prop :=
| sc_closed t r : faultless t -> string_case (t ++ 34%N :: r)
| sc_fault t f e o r : faultless t -> fault f e o -> string_case (t ++ f ++ r)
| sc_broken t a : faultless t -> broken_off a -> string_case (t ++ a).

(** The methods that read a string; whether the first byte is known to be a quote. *)
Inductive string_method : bool -> (rj -> outcome (rj * result bytes rerror)) -> Prop :=
| sm_str : string_method false next_str
| sm_bytes : string_method false next_bytes
| sm_known_str : string_method true known_str
| sm_known_bytes : string_method true known_bytes.

(** The call has failed in front of [l] with an error whose position is [o] bytes behind the beginning of [l], or the reader has failed. *)
Definition refused_at {A} (s : rj) (l : bytes) (e : error_type) (o : nat) (x : outcome (rj * result A rerror)) : Prop :=
  exists s' r, x = Done (s', Err r) /\
    ((is_io r = true /\ rquiet s = false) \/
     (err_type r = e /\ err_index r = total s - len l + o /\
      valid s' /\ rest s' = l /\ rcap s' = rcap s /\ total s' = total s /\ (rquiet s = true -> rquiet s' = true))).
(** A long string has been copied up to some place, and the call has failed with the error [e]; or the reader or the writer has failed. *)
Definition stopped_at {A} (s : rj) (w : writer) (o : bytes) (e : rerror) (x : outcome (rj * writer * result A rerror)) : Prop :=
  exists s' w' r p q, x = Done (s', w', Err r) /\ o = p ++ q /\ written w' = written w ++ p /\ (wfail w = None -> wfail w' = None) /\
    ((is_io r = true /\ (rquiet s = false \/ wfail w <> None)) \/ r = e).
