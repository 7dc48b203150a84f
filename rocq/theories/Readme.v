(** The example programs of the README files. *)
From Verif Require Import Base U8Pool Buffer Jiter RJiter Scan.

(** ** scan_json/README.md:92-165: text from the output of a language model *)
(** The result of a call that the program unwraps. *)
Definition unwrapped {X E Y} (r : result X E) (v : Y) : outcome Y := match r with Ok _ => Done v | Err _ => Panic end.
(** scan_json/README.md:101-104 [on_begin_message]. The baton is the vector the output is collected in; a writer that
    never fails stands for it. *)
Definition on_begin_message : action writer := fun r w =>
  let '(w', v) := write_all w (bs "(new message)" ++ [10%N]) in unwrapped v (r, w', OpNone).
(** scan_json/README.md:106-117 [on_content]. *)
Definition on_content : action writer := fun r w =>
  do (r, peeked) <- peek r;
  match peeked with
  | Err _ => Done (r, w, OpError "RJiter error")
  | Ok _ =>
      do (r, w, v) <- write_long_bytes r w;
      Done (r, w, match v with Ok _ => ValueIsConsumed | Err _ => OpError "RJiter error" end)
  end.
(** scan_json/README.md:119-122 [on_end_message]. *)
Definition on_end_message : end_action writer := fun w =>
  let '(w', v) := write_all w [10%N] in unwrapped v (w', Ok tt).
(** scan_json/README.md:130-145: the closures [find_action], [find_end_action]. *)
Definition llm_callbacks : callbacks writer := mkCallbacks
  (fun name c w => (w,
     if iter_match [bs "content"] name (names c) then Some on_content
     else if iter_match [bs "message"] name (names c) then Some on_begin_message
     else None))
  (fun name c w => (w, if iter_match [bs "message"] name (names c) then Some on_end_message else None)).
(** scan_json/README.md:159-160: the tokens of the options. *)
Definition llm_tokens : list bytes := [bs "data:"; bs "DONE"].
(** scan_json/README.md:124-165 [scan_llm_output]: a slice as reader, 32 bytes for the parser, 512 bytes and 20 slots for the
    names. The result is the content of the vector. *)
Definition scan_llm_output (fuel : nat) (json : bytes) : outcome bytes :=
  do p <- pool_new true (repeat 0%N 512) 20;
  match p with
  | Err _ => Panic
  | Ok p =>
      do (s, v) <- scan llm_callbacks (mkOptions llm_tokens false) fuel
        (mkS (rj_new (mkReader json []) (repeat 0%N 32)) (mkWriter [] None) p);
      unwrapped v (written (user s))
  end.

(** ** rjiter/README.md:129-163: a value behind tokens *)
(** rjiter/README.md:138-149 [peek_skipping_tokens] (also in rjiter/tests/rjiter_test.rs:449-462). The outer loop has fuel; a
    token that is empty would make it endless. *)
Fixpoint peek_skipping_tokens (fuel : nat) (tokens : list bytes) (s : rj) : outcome (rj * result byte rerror) :=
  match fuel with
  | 0 => Diverge
  | S fuel =>
      do (s, r) <- peek s;
      (fix attempt (l : list bytes) (s : rj) : outcome (rj * result byte rerror) :=
         match l with
         | [] => Done (s, r)
         | token :: l =>
             do (s, found) <- known_skip_token token s;
             match found with
             | Ok _ => peek_skipping_tokens fuel tokens s
             | Err _ => attempt l s
             end
         end) tokens s
  end.
