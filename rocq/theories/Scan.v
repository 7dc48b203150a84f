(** Model of scan_json/src/matcher.rs, stack.rs, error.rs and scan.rs. No proofs here. *)
From Verif Require Import Base U8Pool Buffer Jiter RJiter.

(** scan.rs:61-74 [StructurePosition]. *)
Inductive position := Top | ObjectBegin | ObjectMiddle | ObjectBetweenKV | ArrayBegin | ArrayMiddle.
(** A field-less enum of six variants: one byte, discriminants in order. *)
Definition pos_ty : ty := mkTy 1 1.
Definition pos_code (p : position) : byte :=
  match p with
  | Top => 0 | ObjectBegin => 1 | ObjectMiddle => 2 | ObjectBetweenKV => 3 | ArrayBegin => 4 | ArrayMiddle => 5
  end%N.
Definition pos_of (a : bytes) : option position :=
  match a with
  | [0] => Some Top | [1] => Some ObjectBegin | [2] => Some ObjectMiddle
  | [3] => Some ObjectBetweenKV | [4] => Some ArrayBegin | [5] => Some ArrayMiddle
  | _ => None
  end%N.
Definition pos_eqb (p q : position) : bool := N.eqb (pos_code p) (pos_code q).

(** matcher.rs:8-17 [StructuralPseudoname]. *)
Inductive pseudoname := PArray | PObject | PAtom | PNone.

(** matcher.rs:21-32 [StreamOp]. *)
Inductive stream_op := OpNone | ValueIsConsumed | OpError (message : string).

(** error.rs:5-40 [Error]. *)
Inductive scan_error :=
| RJiterError (e : rerror)
| UnhandledPeek (peek : byte) (index : nat)
| UnbalancedJson (index : nat)
| InternalError (index : nat) (message : string)
| MaxNestingExceeded (index : nat) (level : N)
| ActionError (message : string) (index : nat)
| IOError (k : io_kind).

(** stack.rs:8-49 [ContextIter]: the names it yields (innermost first, up to the first [None]) and its [len]. *)
Record context := mkCtx { names : list bytes; ctx_len : nat }.
Fixpoint names_from (p : pool) (i : nat) : outcome (list bytes) :=
  match i with
  | 0 => Done []
  | S j =>
      do r <- get_assoc p pos_ty j;
      match r with
      | None => Done []
      | Some (_, key) => do l <- names_from p j; Done (key :: l)
      end
  end.
Definition context_of (p : pool) : outcome context :=
  do l <- names_from p (pool_len p); Done (mkCtx l (pool_len p)).

(** matcher.rs:94-142 [iter_match]. *)
Fixpoint match_path (expected path : list bytes) : bool :=
  match expected, path with
  | [], _ => true
  | x :: e', y :: p' => if beq x y then match_path e' p' else false
  | _ :: _, [] => false
  end.
Definition iter_match (expected : list bytes) (s : pseudoname) (path : list bytes) : bool :=
  let structural name :=
    match expected with
    | x :: e' => if beq x name then match_path e' path else false
    | [] => true
    end in
  match s with
  | PArray => structural (bs "#array")
  | PObject => structural (bs "#object")
  | PAtom => structural (bs "#atom")
  | PNone => match_path expected path
  end.

(** matcher.rs:39-49. The baton is a user state [B] that is threaded through: a [Copy] baton is a state that is never
    changed, a [RefCell] baton one that is. A callback found by the matchers is an arbitrary function. *)
Definition action (B : Type) := rj -> B -> outcome (rj * B * stream_op).
Definition end_action (B : Type) := B -> outcome (B * result unit string).
Record callbacks (B : Type) := mkCallbacks {
  find_action : pseudoname -> context -> B -> B * option (action B);
  find_end_action : pseudoname -> context -> B -> B * option (end_action B) }.
Arguments mkCallbacks {B} _ _.
Arguments find_action {B} _ _ _ _.
Arguments find_end_action {B} _ _ _ _.

(** scan.rs:30-37 [Options]. *)
Record options := mkOptions { sse_tokens : list bytes; stop_early : bool }.

(** What [scan] works on: parser, baton, working buffer. *)
Record sstate (B : Type) := mkS { parser : rj; user : B; stack : pool }.
Arguments mkS {B} _ _ _.
Arguments parser {B} _.
Arguments user {B} _.
Arguments stack {B} _.
Definition sres (B X : Type) := outcome (sstate B * result X scan_error).
(** The [?] operator. *)
Definition sbind {B X Y} (x : sres B X) (f : sstate B -> X -> sres B Y) : sres B Y :=
  match x with
  | Done (s, Ok v) => f s v
  | Done (s, Err e) => Done (s, Err e)
  | Panic => Panic
  | Diverge => Diverge
  end.

(** Looking up a begin action and running it, as in scan.rs:103-125, 206-220, 254-281, 576-588:
    [true] if the value is consumed. *)
Definition run_begin {B} (cb : callbacks B) (name : pseudoname) (s : sstate B) : sres B bool :=
  do c <- context_of (stack s);
  let '(u, a) := find_action cb name c (user s) in
  match a with
  | None => Done (mkS (parser s) u (stack s), Ok false)
  | Some act =>
      do (r, u', op) <- act (parser s) u;
      Done (mkS r u' (stack s),
            match op with
            | OpNone => Ok false
            | ValueIsConsumed => Ok true
            | OpError message => Err (ActionError message (current_index r))
            end)
  end.

(** Running an end action that was looked up, as in scan.rs:136-143, 160-171, 322-333. *)
Definition run_end_action {B} (a : option (end_action B)) (s : sstate B) : sres B unit :=
  match a with
  | None => Done (s, Ok tt)
  | Some act =>
      do (u, r) <- act (user s);
      Done (mkS (parser s) u (stack s),
            match r with
            | Ok tt => Ok tt
            | Err message => Err (ActionError message (current_index (parser s)))
            end)
  end.
Definition look_up_end {B} (cb : callbacks B) (name : pseudoname) (s : sstate B)
  : outcome (sstate B * option (end_action B)) :=
  do c <- context_of (stack s);
  let '(u, a) := find_end_action cb name c (user s) in
  Done (mkS (parser s) u (stack s), a).
Definition run_end {B} (cb : callbacks B) (name : pseudoname) (s : sstate B) : sres B unit :=
  do (s1, a) <- look_up_end cb name s; run_end_action a s1.

(** [*context.top_assoc_obj().ok_or_else(InternalError)?]. A byte that is no discriminant would be undefined
    behaviour: [Panic]. *)
Definition top_position {B} (message : string) (s : sstate B) : sres B position :=
  do r <- top_assoc_obj (stack s) pos_ty;
  match r with
  | None => Done (s, Err (InternalError (current_index (parser s)) message))
  | Some a => match pos_of a with
              | Some p => Done (s, Ok p)
              | None => Panic
              end
  end.

(** A parser method called with [?]: its error becomes [RJiterError] (error.rs:70-74). *)
Definition parse {B X} (op : rj -> outcome (rj * result X rerror)) (s : sstate B) : sres B X :=
  do (r, v) <- op (parser s);
  Done (mkS r (user s) (stack s), match v with Ok x => Ok x | Err e => Err (RJiterError e) end).

(** scan.rs:91-223 [handle_object]. *)
Definition handle_object {B} (cb : callbacks B) (pos : position) (s : sstate B) : sres B position :=
  let begin_ := pos_eqb pos ObjectBegin in
  let rest_ (s : sstate B) : sres B position :=
    sbind (if begin_ then Done (s, Ok tt)
           else
             do (s1, a) <- look_up_end cb PNone s;
             do (p, _) <- pop_assoc (stack s1) pos_ty;
             run_end_action a (mkS (parser s1) (user s1) p))
      (fun s _ =>
    sbind (parse (if begin_ then next_object_bytes else next_key_bytes) s)
      (fun s keyr =>
    match keyr with
    | None =>
        sbind (run_end cb PObject s) (fun s _ => top_position "Context stack is empty when ending object" s)
    | Some key =>
        do (p, pushed) <- push_assoc (stack s) pos_ty [pos_code ObjectMiddle] key;
        let s := mkS (parser s) (user s) p in
        match pushed with
        | Err (SliceLimitExceeded max) => Done (s, Err (MaxNestingExceeded (current_index (parser s)) max))
        | Err _ => Done (s, Err (InternalError (current_index (parser s)) "Failed to push key to context pool"))
        | Ok _ =>
            sbind (run_begin cb PNone s)
              (fun s consumed => Done (s, Ok (if consumed then ObjectMiddle else ObjectBetweenKV)))
        end
    end)) in
  if begin_ then
    sbind (run_begin cb PObject s)
      (fun s consumed =>
         if consumed then top_position "Context stack is empty when handling ValueIsConsumed" s else rest_ s)
  else rest_ s.

(** scan.rs:242-346 [handle_array]. *)
Definition handle_array {B} (cb : callbacks B) (pos : position) (s : sstate B) : sres B (option byte * position) :=
  let begin_ := pos_eqb pos ArrayBegin in
  let ending (s : sstate B) : sres B (option byte * position) :=
    sbind (top_position "Context stack is empty when ending array" s) (fun s p => Done (s, Ok (None, p))) in
  let step_ (s : sstate B) : sres B (option byte * position) :=
    sbind (parse (if begin_ then known_array else array_step) s)
      (fun s peeked =>
    match peeked with
    | Some x => Done (s, Ok (Some x, ArrayMiddle))
    | None =>
        do (p, popped) <- pop_assoc (stack s) pos_ty;
        let s := mkS (parser s) (user s) p in
        match popped with
        | None => Done (s, Err (InternalError (current_index (parser s)) "Context stack is empty when ending array"))
        | Some _ => sbind (run_end cb PArray s) (fun s _ => ending s)
        end
    end) in
  if begin_ then
    sbind (run_begin cb PArray s)
      (fun s consumed =>
         if consumed then
           sbind (top_position "Context stack is empty when handling ValueIsConsumed in array" s)
             (fun s p => Done (s, Ok (None, p)))
         else
           do (p, pushed) <- push_assoc (stack s) pos_ty [pos_code ArrayMiddle] (bs "#array");
           let s := mkS (parser s) (user s) p in
           match pushed with
           | Err _ => Done (s, Err (MaxNestingExceeded (current_index (parser s)) (N.of_nat (pool_len p))))
           | Ok _ => step_ s
           end)
  else step_ s.

(** The variants of jiter's [Peek] as bytes. *)
Definition PeekNull : byte := 110%N.
Definition PeekTrue : byte := 116%N.
Definition PeekFalse : byte := 102%N.

(** scan.rs:351-375 [skip_basic_values]; the writer is [Sink] (scan.rs:12-26). *)
Definition skip_basic_values {B} (peeked : byte) (s : sstate B) : sres B unit :=
  let ignore {X} (op : rj -> outcome (rj * result X rerror)) : sres B unit :=
    sbind (parse op s) (fun s _ => Done (s, Ok tt)) in
  if N.eqb peeked QUOTE then
    ignore (fun r => do (r', _, v) <- write_long_bytes r (mkWriter [] None); Done (r', v))
  else if N.eqb peeked PeekNull then ignore known_null
  else if N.eqb peeked PeekTrue then ignore (known_bool peeked)
  else if N.eqb peeked PeekFalse then ignore (known_bool peeked)
  else
    do (r, v) <- next_number_bytes (parser s);
    let s := mkS r (user s) (stack s) in
    Done (s, match v with Ok _ => Ok tt | Err _ => Err (UnhandledPeek peeked (current_index r)) end).

(** What an iteration of the main loop ends with. *)
Inductive verdict := Continue (p : position) | Return (r : result unit scan_error).
Definition sverdict (B : Type) := outcome (sstate B * verdict).
Definition vbind {B X} (x : sres B X) (f : sstate B -> X -> sverdict B) : sverdict B :=
  match x with
  | Done (s, Ok v) => f s v
  | Done (s, Err e) => Done (s, Return (Err e))
  | Panic => Panic
  | Diverge => Diverge
  end.

(** scan.rs:604-608: the first token that can be skipped. *)
Fixpoint skip_tokens {B} (tokens : list bytes) (s : sstate B) : outcome (sstate B * bool) :=
  match tokens with
  | [] => Done (s, false)
  | t :: ts =>
      do (r, v) <- known_skip_token t (parser s);
      let s := mkS r (user s) (stack s) in
      match v with
      | Ok _ => Done (s, true)
      | Err _ => skip_tokens ts s
      end
  end.

(** scan.rs:550-614: the second half of an iteration, with the value peeked. *)
Definition scan_value {B} (cb : callbacks B) (o : options) (pos : position) (peeked : byte) (s : sstate B) : sverdict B :=
  let pos := match pos with ObjectBetweenKV => ObjectMiddle | p => p end in
  if N.eqb peeked LBRACK then Done (s, Continue ArrayBegin)
  else if N.eqb peeked LBRACE then Done (s, Continue ObjectBegin)
  else
    vbind (run_begin cb PAtom s)
      (fun s consumed =>
    if consumed then Done (s, Continue pos)
    else
      do (s, r) <- skip_basic_values peeked s;
      match r with
      | Ok _ => Done (s, Continue pos)
      | Err _ =>
          do (s, skipped) <-
            (if pos_eqb pos Top || ((pos_eqb pos ArrayBegin || pos_eqb pos ArrayMiddle) && (pool_len (stack s) =? 2))
             then skip_tokens (sse_tokens o) s else Done (s, false));
          if skipped : bool then Done (s, Continue pos)
          else Done (s, Return (Err (UnhandledPeek peeked (current_index (parser s)))))
      end).

(** scan.rs:471-614: one iteration of the main loop behind the [stop_early] test. *)
Definition scan_iter {B} (cb : callbacks B) (o : options) (pos : position) (s : sstate B) : sverdict B :=
  match pos with
  | ObjectBegin | ObjectMiddle => vbind (handle_object cb pos s) (fun s p => Done (s, Continue p))
  | ArrayBegin | ArrayMiddle =>
      vbind (handle_array cb pos s)
        (fun s r =>
           match r with
           | (Some x, ArrayMiddle) => scan_value cb o ArrayMiddle x s
           | (None, p) => Done (s, Continue p)
           | _ => Done (s, Return (Err (InternalError (current_index (parser s)) "Unexpected position from handle_array")))
           end)
  | Top | ObjectBetweenKV =>
      do (r, v) <- peek (parser s);
      let s := mkS r (user s) (stack s) in
      match v with
      | Ok x => scan_value cb o pos x s
      | Err e =>
          match err_type e with
          | JsonError EofWhileParsingValue =>
              if pos_eqb pos Top then vbind (parse finish s) (fun s _ => Done (s, Return (Ok tt)))
              else Done (s, Return (Err (UnbalancedJson (current_index r))))
          | _ => Done (s, Return (Err (RJiterError e)))
          end
      end
  end.

(** scan.rs:463-615: the main loop. *)
Fixpoint scan_loop {B} (cb : callbacks B) (o : options) (fuel : nat) (progressed : bool) (pos : position) (s : sstate B)
  : sres B unit :=
  match fuel with
  | 0 => Diverge
  | S fuel' =>
      if progressed && stop_early o && pos_eqb pos Top then Done (s, Ok tt)
      else
        match scan_iter cb o pos s with
        | Done (s', Continue p) => scan_loop cb o fuel' true p s'
        | Done (s', Return r) => Done (s', r)
        | Panic => Panic
        | Diverge => Diverge
        end
  end.

(** scan.rs:445-618 [scan]. The loop depends on the callbacks, so the fuel is a parameter. *)
Definition scan {B} (cb : callbacks B) (o : options) (fuel : nat) (s : sstate B) : sres B unit :=
  do (p, pushed) <- push_assoc (stack s) pos_ty [pos_code Top] (bs "#top");
  let s := mkS (parser s) (user s) p in
  match pushed with
  | Err _ => Done (s, Err (MaxNestingExceeded (current_index (parser s)) 0))
  | Ok _ => scan_loop cb o fuel false Top s
  end.
