(** What it means that a piece of code uses a parser through its methods only. *)
From Verif Require Import Base Buffer Jiter JiterValue RJiter RJiterSpec Scan.

(** The methods of the parser, with what they return. A method that writes returns the writer too. *)
Inductive api : forall {A}, (rj -> outcome (rj * A)) -> Prop :=
| api_method {A} k known token (f : jop A) op : method k known token f op -> api op
| api_known_float p : api (known_float p)
| api_known_int p : api (known_int p)
| api_known_number p : api (known_number p)
| api_known_skip p : api (known_skip p)
| api_known_value p : api (known_value p)
| api_known_value_owned p : api (known_value_owned p)
| api_finish : api finish
| api_long_bytes w : api (fun r => do (r', w', v) <- write_long_bytes r w; Done (r', (w', v)))
| api_long_str w : api (fun r => do (r', w', v) <- write_long_str r w; Done (r', (w', v)))
| api_lookahead_while pred : api (lookahead_while pred)
| api_lookahead_n n : api (lookahead_n n)
| api_skip_n n : api (skip_n_bytes n)
| api_skip_token t : api (known_skip_token t)
| api_index : api (fun r => Done (r, current_index r))
| api_position i : api (fun r => do p <- error_position r i; Done (r, p)).

(** A program that calls the methods one after the other, where each call may depend on what the calls before have returned. *)
Inductive uses {A} : (rj -> outcome (rj * A)) -> Prop :=
| uses_ret v : uses (fun r => Done (r, v))
| uses_panic : uses (fun _ => Panic)
| uses_diverge : uses (fun _ => Diverge)
| uses_call {X} (op : rj -> outcome (rj * X)) (next : X -> rj -> outcome (rj * A)) :
    api op -> (forall x, uses (next x)) -> uses (fun r => do (r', x) <- op r; next x r')
| uses_same f g : (forall r, f r = g r) -> uses f -> uses g.

(** What a program returns, without the parser. *)
Definition answer {A} (x : outcome (rj * A)) : outcome A := do (_, v) <- x; Done v.

(** An action of the scanner as such a program. *)
Definition program_of {B} (a : action B) (u : B) : rj -> outcome (rj * (B * stream_op)) := fun r => do (r', u', op) <- a r u; Done (r', (u', op)).
(** What the scanner leaves with the caller: the user state and the result. *)
Definition sanswer {B} (x : sres B unit) : outcome (B * result unit scan_error) := do (s, v) <- x; Done (user s, v).
