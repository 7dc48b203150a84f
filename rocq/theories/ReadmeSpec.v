(** Specification of the example programs of the README files. *)
From Verif Require Import Base Buffer ScanSpec.

(** What a model says: the strings under the key "content", between a title and a line end for every "message". *)
Fixpoint said (v : json) : bytes :=
  match v with
  | JArray vs => List.concat (map said vs)
  | JObject ms =>
      List.concat (map (fun '(k, v) =>
        if beq k (bs "content") then match v with JString t => t | _ => [] end
        else if beq k (bs "message") then bs "(new message)" ++ [10%N] ++ said v ++ [10%N]
        else said v) ms)
  | _ => []
  end.
(** All contents are strings. *)
Fixpoint chatty (v : json) : Prop :=
  match v with
  | JArray vs => fold_right (fun v P => chatty v /\ P) True vs
  | JObject ms =>
      fold_right (fun '(k, v) P => (if beq k (bs "content") then exists t, v = JString t else chatty v) /\ P) True ms
  | _ => True
  end.
(** 20 names of together at most 432 bytes, with 1 byte for each name's kind. *)
Definition llm_room : dims := mkDims 20 432.

(** [token_run tokens l found]: [l] consists of white space and tokens, up to its end or up to a byte at which no token
    starts; the first token of the list that fits is taken. *)
Inductive token_run (tokens : list bytes) : bytes -> option (byte * bytes) -> Prop :=
| run_end w : spaces w -> token_run tokens w None
| run_here w x l : spaces w -> is_ascii_whitespace x = false -> first_token tokens (x :: l) = None -> token_run tokens (w ++ x :: l) (Some (x, l))
| run_token w x t r found :
    spaces w -> is_ascii_whitespace x = false -> first_token tokens ((x :: t) ++ r) = Some (x :: t) -> token_run tokens r found ->
    token_run tokens (w ++ (x :: t) ++ r) found.
