(** Functions that can stand for those of serde_json in the examples of the benchmark program. A number is its text. No proofs
    here; nothing is claimed about serde_json. *)
From Verif Require Import Base Buffer Jiter JiterValue RJiter Bench.

(** A number: its text, if that is one. *)
Definition kit_read (t : bytes) : option bytes :=
  match t with
  | [] => None
  | p :: _ => match range_as p t with Ok n => if n =? len t then Some t else None | Err _ => None end
  end.
Definition kit_number (p : byte) : jop jvalue := fun l =>
  match range_as p l with
  | Ok n => if is_num p then jok (VFloat (firstn n l)) n else jfail ExpectedSomeValue
  | Err _ => jfail ExpectedSomeValue
  end.
Fixpoint kit_value (v : jvalue) : value bytes :=
  match v with
  | VNull => SNull
  | VBool b => SBool b
  | VInt _ => SNull
  | VFloat t => SNumber t
  | VStr d => SString d
  | VArray l => SArray (map kit_value l)
  | VObject m => SObject (fold_left (fun out kv => insert (fst kv) (snd kv) out) (map (fun '(k, v) => (k, kit_value v)) m) [])
  end.
Definition kit_from_str (t : bytes) : option (value bytes) :=
  match jthen j_peek (take j_known_str kit_number) t with
  | (Ok v, n) => match trim (skipn n t) with [] => Some (kit_value v) | _ => None end
  | (Err _, _) => None
  end.
Definition kit_string (d : bytes) : bytes :=
  [QUOTE] ++ flat_map (fun x => if N.eqb x QUOTE || N.eqb x BACKSLASH then [BACKSLASH; x] else if N.eqb x 10 then bs "\n" else [x]) d ++ [QUOTE].
Fixpoint joined (l : list bytes) : bytes :=
  match l with [] => [] | [x] => x | x :: l => x ++ bs "," ++ joined l end.
Fixpoint kit_to_string (x : value bytes) : bytes :=
  match x with
  | SNull => bs "null"
  | SBool b => if b then bs "true" else bs "false"
  | SNumber t => t
  | SString d => kit_string d
  | SArray l => bs "[" ++ joined (map kit_to_string l) ++ bs "]"
  | SObject m => bs "{" ++ joined (map (fun '(k, x) => kit_string k ++ bs ":" ++ kit_to_string x) m) ++ bs "}"
  end.
Definition kit_main : bargs -> bworld -> option bytes * result unit trouble := bench_main (fun t => t) kit_read kit_from_str kit_to_string kit_to_string.
