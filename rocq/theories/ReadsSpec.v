(** How often a method asks the reader for more. *)
From Verif Require Import Base Buffer Jiter JiterValue RJiter RJiterSpec.

(** The reader has not been asked. *)
Definition not_asked (s s' : rj) : Prop := rd (bf s') = rd (bf s).
(** How many of the reader's answers are still to come, and how many bytes. A reader that has an answer for every request ([Chunk] or
    [Fail]) uses up one of them for each. *)
Definition answers (s : rj) : nat := List.length (sched (rd (bf s))).
Definition coming (s : rj) : nat := List.length (src (rd (bf s))).
(** The reader has been asked at most once for every byte it has delivered, and [n] times more. *)
Definition asked_beyond (n : nat) (s s' : rj) : Prop := answers s + coming s' <= answers s' + coming s + n.
(** Everything that the reader can give is in the buffer, or the buffer is full. *)
Definition has_read_on (s : rj) : Prop := src (rd (bf s)) = [] \/ n_bytes (bf s) = List.length (buf (bf s)).
(** The methods that look for a comma or the closing bracket. *)
Inductive step_method : forall {A}, byte -> byte -> json_error -> (rj -> outcome (rj * result A rerror)) -> Prop :=
| step_array : step_method COMMA RBRACK ExpectedListCommaOrEnd array_step
| step_key : step_method COMMA RBRACE ExpectedObjectCommaOrEnd next_key
| step_key_bytes : step_method COMMA RBRACE ExpectedObjectCommaOrEnd next_key_bytes.
(** The calls of the parser, other than the methods listed in RJiterSpec.v, and how often each can ask in vain. *)
Inductive other_call (s s' : rj) : nat -> Prop :=
| call_finish r : finish s = Done (s', r) -> other_call s s' 1
| call_long_bytes w w' r : write_long_bytes s w = Done (s', w', r) -> other_call s s' 1
| call_long_str w w' r : write_long_str s w = Done (s', w', r) -> other_call s s' 1
| call_lookahead_n n r : lookahead_n n s = Done (s', r) -> other_call s s' 1
| call_lookahead_while p r : lookahead_while p s = Done (s', r) -> other_call s s' 1
| call_skip n r : skip_n_bytes n s = Done (s', r) -> other_call s s' 1
| call_token t r : known_skip_token t s = Done (s', r) -> other_call s s' 2.
(** What these calls need is in the buffer. *)
Inductive provided (s : rj) : (rj -> Prop) -> Prop :=
| enough_long_bytes w v a : j_known_bytes (jview s) = (Ok v, a) -> provided s (fun s' => exists w' r, write_long_bytes s w = Done (s', w', r))
| enough_long_str w v a : j_known_str (jview s) = (Ok v, a) -> provided s (fun s' => exists w' r, write_long_str s w = Done (s', w', r))
| enough_count n : n <= List.length (jview s) -> provided s (fun s' => exists d, lookahead_n n s = Done (s', Ok d))
| enough_while p x : In x (jview s) -> p x = false -> provided s (fun s' => exists d, lookahead_while p s = Done (s', Ok d))
| enough_skip n : n <= List.length (jview s) -> provided s (fun s' => skip_n_bytes n s = Done (s', Ok n))
| enough_token t : List.length t <= List.length (jview s) -> provided s (fun s' => exists r, known_skip_token t s = Done (s', r)).
(** The input ends in the middle of something; or a comma is missing, which is treated alike. *)
Definition seems_unfinished (e : error_type) : Prop :=
  In e (map JsonError [EofWhileParsingList; EofWhileParsingObject; EofWhileParsingString; EofWhileParsingValue;
                       ExpectedListCommaOrEnd; ExpectedObjectCommaOrEnd]).
