(** Specification side of the properties about the end of a call. *)
From Verif Require Import Base U8Pool Buffer Jiter RJiter RJiterSpec Scan.

(** Error reports that the scanner keeps for impossible situations: all internal errors except the one for a key that does not
    fit in the working buffer. *)
Definition impossible (e : scan_error) : Prop :=
  exists i m, e = InternalError i m /\ m <> "Failed to push key to context pool"%string.

(** Callbacks that do their part: called with a parser in order, a begin action returns, does not give back input, leaves the
    parser in order (unless it reports an error), and has consumed something if it says that it has consumed the value; an end
    action returns. [c] is the size of the buffer; with [q] the reader does not fail. *)
Record dutiful {B} (c : nat) (q : bool) (cb : callbacks B) : Prop := {
  du_begin : forall name path r u, (name = PNone -> path <> []) ->
    valid r -> rcap r = c -> (q = true -> rquiet r = true) ->
    let '(u1, a) := find_action cb name (mkCtx path (List.length path)) u in
    match a with
    | None => True
    | Some act => exists r' u' op, act r u1 = Done (r', u', op) /\
        match op with
        | OpError _ => True
        | _ => valid r' /\ rcap r' = c /\ (q = true -> rquiet r' = true) /\ len (rest r') <= len (rest r) /\
               (op = ValueIsConsumed -> name <> PNone -> len (rest r') < len (rest r))
        end
    end;
  du_end : forall name path u,
    let '(u1, a) := find_end_action cb name (mkCtx path (List.length path)) u in
    match a with
    | None => True
    | Some act => exists u' v, act u1 = Done (u', v)
    end }.
