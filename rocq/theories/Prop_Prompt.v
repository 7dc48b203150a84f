(** Property C101: a long string is handed on as it arrives. Only statements, examples and assumptions. *)
From Verif Require Import Base U8Pool Buffer BufferSpec Jiter RJiter RJiterSpec Scan ScanSpec IdTransform IdSpec UnicodeSpec Utf8Spec Readme.
From Verif Require Import Prompt Utf8Proofs ScanExamples Prop_Converters.

(** C101: whenever write_long_bytes or write_long_str waits for the reader, what has arrived of the string has been handed on to the
    writer, but for the few bytes that may belong to a character or to an escape sequence that is not complete (at most 11: a pair of
    escapes without its last digit). A reader that makes the call wait is modelled by one that fails: [src (rd (bf s'))] is what it
    has not delivered, [kept] what has arrived and has not been handed on.
    Partial: proved of strings of which no backslash has arrived; at most four bytes are kept. *)
Theorem C101_bytes_partial : forall s w s' w' e l, valid s -> jview s <> [] -> rest s = QUOTE :: l -> wfail w = None ->
  write_long_bytes s w = Done (s', w', Err e) -> is_io e = true ->
  exists text kept, l = text ++ kept ++ src (rd (bf s')) /\ written w' = written w ++ text /\
    (characters l -> Forall (fun x => x <> BACKSLASH) (text ++ kept) -> len kept <= 4).
Proof. exact bytes_prompt. Qed.
Print Assumptions C101_bytes_partial.
Theorem C101_str_partial : forall s w s' w' e l, valid s -> jview s <> [] -> rest s = QUOTE :: l -> wfail w = None ->
  write_long_str s w = Done (s', w', Err e) -> is_io e = true ->
  exists text kept d, l = text ++ kept ++ src (rd (bf s')) /\ written w' = written w ++ d /\
    (Forall (fun x => x <> BACKSLASH) text -> d = text) /\
    (characters l -> Forall (fun x => x <> BACKSLASH) (text ++ kept) -> len kept <= 4).
Proof. exact str_prompt. Qed.
Print Assumptions C101_str_partial.
(** A string that has arrived whole is handed on at once: the reader is not asked for more. *)
Theorem C101_bytes_at_once : forall s w T d m, jview s = QUOTE :: T ++ QUOTE :: m -> json_text true T d -> wfail w = None ->
  exists s' w', write_long_bytes s w = Done (s', w', Ok tt) /\ bf s' = bf s /\ written w' = written w ++ T.
Proof. exact bytes_at_once. Qed.
Print Assumptions C101_bytes_at_once.
Theorem C101_str_at_once : forall s w T d m, jview s = QUOTE :: T ++ QUOTE :: m -> json_text true T d -> is_utf8 d -> wfail w = None ->
  exists s' w', write_long_str s w = Done (s', w', Ok tt) /\ bf s' = bf s /\ written w' = written w ++ d.
Proof. exact str_at_once. Qed.
Print Assumptions C101_str_at_once.
(** The parser before a string, with the first [n] bytes of it in the buffer; the others never come. *)
Definition waiting (input : bytes) (n : nat) : rj :=
  match peek (rj_new (mkReader input [Chunk (n - 1); Fail 5%N]) (cells 64)) with Done (s, _) => s | _ => rj_new (mkReader [] []) [] end.
Definition ex_answer : bytes := bs """Привет, как дела? 😀"" ".
Definition seen (x : outcome (rj * writer * result unit rerror)) : option (bytes * bool * bytes) :=
  match x with Done (s, w, Err e) => Some (written w, is_io e, src (rd (bf s))) | _ => None end.
Example C101_example :
  valid (waiting ex_answer 20) /\ len (jview (waiting ex_answer 20)) = 20 /\ rest (waiting ex_answer 20) = ex_answer /\ characters (tl ex_answer) /\
  seen (write_long_bytes (waiting ex_answer 20) (mkWriter [] None)) = Some (bs "Привет, ка", true, skipn 20 ex_answer) /\
  len (bs "Привет, ка") = 18 /\
  seen (write_long_str (waiting ex_answer 36) (mkWriter [] None)) = Some (bs "Привет, как дела? ", true, bs """ ") /\
  len (bs "Привет, как дела? ") = 31 /\
  seen (write_long_str (waiting ex_answer 37) (mkWriter [] None)) = None /\
  jview (waiting ex_answer 37) = QUOTE :: removelast (removelast (tl ex_answer)) ++ [QUOTE].
Proof.
  split; [vm_compute; repeat split; lia|]. split; [vm_compute; reflexivity|]. split; [vm_compute; reflexivity|].
  split; [apply characters_eq; vm_compute; reflexivity|]. repeat (split; [vm_compute; reflexivity|]). vm_compute. reflexivity.
Qed.
(** With escapes it is false: what follows a piece is kept until the reader has delivered more, even if it is complete; one piece, an
    escape sequence or the text before one, is handed on each time the reader delivers. *)
Theorem C101_escapes_refuted : exists input n text kept,
  characters input /\ input = QUOTE :: text ++ kept ++ skipn n input /\ len text = 2 /\ len kept = 42 /\
  seen (write_long_bytes (waiting input n) (mkWriter [] None)) = Some (text, true, skipn n input) /\
  seen (write_long_str (waiting input n) (mkWriter [] None)) = Some (text, true, skipn n input).
Proof.
  exists (bs """Hi\nI hope that you are fine. How is the weather? ..."), 45, (bs "Hi"), (bs "\nI hope that you are fine. How is the wea").
  split; [apply characters_eq; vm_compute; reflexivity|]. repeat (split; [vm_compute; reflexivity|]). vm_compute. reflexivity.
Qed.
Print Assumptions C101_escapes_refuted.
(** So does the program of the README: five lines have arrived, and one is printed. *)
Definition ex_said : bytes := bs "{""content"":""One\nTwo\nThree\nFour\nFive".
Definition printed (input : bytes) (sched : list event) : option (bytes * result unit scan_error) :=
  match pool_new true (repeat 0%N 512) 20 with
  | Done (Ok p) => match scan llm_callbacks (mkOptions llm_tokens false) 300 (mkS (rj_new (mkReader input sched) (cells 64)) (mkWriter [] None) p) with
                   | Done (s, v) => Some (written (user s), v)
                   | _ => None
                   end
  | _ => None
  end.
Theorem C101_program_refuted : exists e, printed ex_said [Chunk 100; Fail 5%N] = Some (bs "One", Err e).
Proof. eexists. vm_compute. reflexivity. Qed.
Print Assumptions C101_program_refuted.
