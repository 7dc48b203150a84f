(** Specification side of the streaming parser: what is left to parse, and well-formed states. *)
From Verif Require Import Base Buffer BufferSpec Jiter JiterValue RJiter.

(** The input that is still in front of the parser. *)
Definition rest (s : rj) : bytes := skipn (jidx s) (stream (bf s)).
(** The view is up to date and the parser stands inside it. *)
Definition valid (s : rj) : Prop := wf (bf s) /\ jlen s = n_bytes (bf s) /\ jidx s <= n_bytes (bf s).
(** Length of the whole input: constant over all operations. *)
Definition total (s : rj) : nat := n_shifted_out (bf s) + len (stream (bf s)).
Definition rcap (s : rj) : nat := cap (bf s).
Definition rquiet (s : rj) : bool := quiet (bf s).

(** Removing whitespace as [skip_spaces_feeding] does: in front, and behind the transparent token. *)
Definition skip_aw (l : bytes) : bytes := skipn (run_length is_ascii_whitespace l) l.
Definition strip (token : option byte) (l : bytes) : bytes :=
  match token with
  | None => skip_aw l
  | Some t => match skip_aw l with
              | x :: l' => if N.eqb x t then x :: skip_aw l' else x :: l'
              | [] => []
              end
  end.

(** An error that comes from the reader. *)
Definition is_io (e : rerror) : bool := match err_type e with IoError _ => true | _ => false end.

(** The same with the white space of JSON (no form feed). *)
Definition skip_jw (l : bytes) : bytes := skipn (run_length json_ws l) l.
Definition jstrip (token : option byte) (l : bytes) : bytes :=
  match token with
  | None => skip_jw l
  | Some t => match skip_jw l with
              | x :: l' => if N.eqb x t then x :: skip_jw l' else x :: l'
              | [] => []
              end
  end.
(** No form feed stands where white space is skipped. *)
Definition no_form_feed (token : option byte) (l : bytes) : Prop := strip token l = jstrip token l.

(** [f] accepts a token in front of [l], with value [v], and [l'] is left. *)
Definition parsed {A} (f : jop A) (l : bytes) (v : A) (l' : bytes) : Prop :=
  exists a, f l = (Ok v, a) /\ l' = skipn a l.

(** The parsing methods of RJiter: kind, whether the caller has to know that the token is there (and so
    stands on it), transparent token, plain parser, streaming method. *)
Inductive kind := Plain | Separator | ObjectOpen | Number | Whole.
Inductive method : forall {A}, kind -> bool -> option byte -> jop A -> (rj -> outcome (rj * result A rerror)) -> Prop :=
| m_peek : method Plain false None j_peek peek
| m_known_array : method Plain true (Some LBRACK) j_known_array known_array
| m_known_bool p : method Plain true None (j_known_bool p) (known_bool p)
| m_known_bytes : method Plain true None j_known_bytes known_bytes
| m_known_null : method Plain true None j_known_null known_null
| m_known_object : method ObjectOpen true (Some LBRACE) (j_known_object j_known_str) known_object
| m_known_str : method Plain true None j_known_str known_str
| m_next_array : method Plain false (Some LBRACK) j_next_array next_array
| m_array_step : method Separator false (Some COMMA) j_array_step array_step
| m_next_bool : method Plain false None j_next_bool next_bool
| m_next_bytes : method Plain false None j_next_bytes next_bytes
| m_next_float : method Number false None j_next_float next_float
| m_next_int : method Number false None j_next_int next_int
| m_next_key : method Separator false (Some COMMA) (j_next_key j_known_str) next_key
| m_next_key_bytes : method Separator false (Some COMMA) (j_next_key j_known_bytes) next_key_bytes
| m_next_null : method Plain false None j_next_null next_null
| m_next_number : method Number false None j_next_number next_number
| m_next_number_bytes : method Number false None j_next_number_bytes next_number_bytes
| m_next_object : method ObjectOpen false (Some LBRACE) (j_next_object j_known_str) next_object
| m_next_object_bytes : method ObjectOpen false (Some LBRACE) (j_next_object j_known_bytes) next_object_bytes
| m_next_skip : method Whole false None j_next_skip next_skip
| m_next_str : method Plain false None j_next_str next_str
| m_next_value : method Whole false None j_next_value next_value
| m_next_value_owned : method Whole false None j_next_value next_value_owned.

(** A method for a known token is called on the token, not on white space before it. *)
Definition on_token (known : bool) (l : bytes) : Prop :=
  known = true -> match l with x :: _ => is_ascii_whitespace x = false | [] => True end.

(** The characters numbers are made of. *)
Definition number_char (x : byte) : bool :=
  (is_digit x || N.eqb x 43 || N.eqb x 45 || N.eqb x 46 || N.eqb x 69 || N.eqb x 101)%bool.

(** The text between the quotes of a JSON string, and what it stands for. [pairs]: surrogate pairs
    (two [\u] escapes for one character) are allowed. *)
Inductive json_text (pairs : bool) : bytes -> bytes -> Prop :=
| jt_nil : json_text pairs [] []
| jt_char x t d : x <> QUOTE -> x <> BACKSLASH -> (32 <= x)%N -> json_text pairs t d -> json_text pairs (x :: t) (x :: d)
| jt_escape y c t d : simple_escape y = Some c -> json_text pairs t d -> json_text pairs (BACKSLASH :: y :: t) (c :: d)
| jt_hex a b c e n t d : u4 a b c e = inl n -> is_low n = false -> is_high n = false -> json_text pairs t d ->
    json_text pairs (BACKSLASH :: 117%N :: a :: b :: c :: e :: t) (utf8_encode n ++ d)
| jt_pair a b c e n a' b' c' e' m t d : pairs = true ->
    u4 a b c e = inl n -> is_high n = true -> u4 a' b' c' e' = inl m -> is_low m = true -> json_text pairs t d ->
    json_text pairs (BACKSLASH :: 117%N :: a :: b :: c :: e :: BACKSLASH :: 117%N :: a' :: b' :: c' :: e' :: t)
      (utf8_encode ((n - 55296) * 1024 + (m - 56320) + 65536)%N ++ d).

(** Bytes that do not continue a UTF-8 character. *)
Definition leading (x : byte) : Prop := is_utf8_leading_byte x = true.
(** Valid UTF-8 ([str::from_utf8] accepts). *)
Definition is_utf8 (l : bytes) : Prop := utf8_invalid 0 l = None.
(** The string texts that handle_long copies whatever the chunks: no escapes; or an ASCII text, without
    surrogate pairs, in a buffer whose cells do not hold continuation bytes. *)
Definition long_text (cells T : bytes) : Prop :=
  (Forall (fun x => x <> BACKSLASH) T /\ is_utf8 T) \/
  (Forall leading cells /\ Forall (fun x => (x < 128)%N) T /\ exists d, json_text false T d).

(** The string texts that handle_long copies if the reader fills what it is asked to fill: UTF-8, also with escapes other
    than surrogate pairs, but not with an escape at the very start. *)
Definition steady_text (T : bytes) : Prop := is_utf8 T /\ hd_error T <> Some BACKSLASH /\ exists d, json_text false T d.
Definition fills (b : buffer) : Prop := sched (rd b) = [].

(** One successful call of any method of RJiter (the value returned does not matter). *)
Inductive rstep (s s' : rj) : Prop :=
| st_method A k known token f op (v : A) : method k known token f op -> op s = Done (s', Ok v) -> rstep s s'
| st_lookahead_while pred d : lookahead_while pred s = Done (s', Ok d) -> rstep s s'
| st_lookahead_n n d : lookahead_n n s = Done (s', Ok d) -> rstep s s'
| st_skip n k : skip_n_bytes n s = Done (s', Ok k) -> rstep s s'
| st_token t u : known_skip_token t s = Done (s', Ok u) -> rstep s s'
| st_finish u : finish s = Done (s', Ok u) -> rstep s s'
| st_long_bytes w w' u : write_long_bytes s w = Done (s', w', Ok u) -> rstep s s'
| st_long_str w w' u : write_long_str s w = Done (s', w', Ok u) -> rstep s s'.
(** Histories of successful calls. *)
Inductive rsteps (s : rj) : rj -> Prop :=
| rs_nil : rsteps s s
| rs_step s1 s2 : rsteps s s1 -> rstep s1 s2 -> rsteps s s2.

(** The methods for a literal or a string in front of the parser. *)
Inductive scalar : forall {A}, jop A -> (rj -> outcome (rj * result A rerror)) -> Prop :=
| sc_bool p : p = 116%N \/ p = 102%N -> scalar (j_known_bool p) (known_bool p)
| sc_null : scalar j_known_null known_null
| sc_bytes : scalar j_known_bytes known_bytes
| sc_str : scalar j_known_str known_str.
(** Line and column of position [index] of [input]: lines count from 1; the column is the number of bytes behind
    the last newline, the byte at [index] included. *)
Definition line_of (input : bytes) (index : nat) : nat := S (count_newlines (firstn (S index) input)).
Definition column_of (input : bytes) (index : nat) : nat := tail_length (firstn (S index) input).
