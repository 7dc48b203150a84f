(** Model of scan_json/src/idtransform.rs. No proofs here. *)
From Verif Require Import Base U8Pool Buffer Jiter RJiter Scan.

(** idtransform.rs:64-111 [copy_atom]. *)
Definition copy_atom (peeked : byte) (r : rj) (w : writer) : outcome (rj * writer * result unit scan_error) :=
  let put r w d (k : writer -> outcome (rj * writer * result unit scan_error)) :=
    match write_all w d with
    | (w', Ok _) => k w'
    | (w', Err e) => Done (r, w', Err (IOError e))
    end in
  let literal {X} (op : rj -> outcome (rj * result X rerror)) (d : bytes) :=
    do (r', v) <- op r;
    match v with
    | Ok _ => put r' w d (fun w' => Done (r', w', Ok tt))
    | Err e => Done (r', w, Err (RJiterError e))
    end in
  if N.eqb peeked QUOTE then
    put r w [QUOTE] (fun w =>
      do (r', w', v) <- write_long_bytes r w;
      match v with
      | Ok _ => put r' w' [QUOTE] (fun w => Done (r', w, Ok tt))
      | Err e => Done (r', w', Err (RJiterError e))
      end)
  else if N.eqb peeked PeekNull then literal known_null (bs "null")
  else if N.eqb peeked PeekTrue then literal (known_bool peeked) (bs "true")
  else if N.eqb peeked PeekFalse then literal (known_bool peeked) (bs "false")
  else
    do (r', v) <- next_number_bytes r;
    match v with
    | Ok number => put r' w number (fun w' => Done (r', w', Ok tt))
    | Err _ => Done (r', w, Err (UnhandledPeek peeked (current_index r')))
    end.

(** idtransform.rs:115-122 [IdtSequencePos]. The key is copied here; in the program it is a slice of the working
    buffer that is used before the working buffer changes. *)
Inductive seqpos := AtBeginning | InMiddle | AtBeginningKey (key : bytes) | InMiddleKey (key : bytes) | AfterKey.

(** idtransform.rs:125-133 [IdTransform]. *)
Record idt := mkIdt {
  out : writer;
  seq : seqpos;
  is_top_level : bool;
  io_error : option io_kind;
  rjiter_error : option rerror;
  stored_scan_error : option scan_error }.
(** idtransform.rs:137-146 [new]. *)
Definition idt_new (w : writer) : idt := mkIdt w AtBeginning true None None None.
Definition set_out (t : idt) (w : writer) : idt :=
  mkIdt w (seq t) (is_top_level t) (io_error t) (rjiter_error t) (stored_scan_error t).
Definition set_seq (t : idt) (q : seqpos) : idt :=
  mkIdt (out t) q (is_top_level t) (io_error t) (rjiter_error t) (stored_scan_error t).
Definition set_level (t : idt) (b : bool) : idt :=
  mkIdt (out t) (seq t) b (io_error t) (rjiter_error t) (stored_scan_error t).
Definition set_io (t : idt) (k : io_kind) : idt :=
  mkIdt (out t) (seq t) (is_top_level t) (Some k) (rjiter_error t) (stored_scan_error t).
Definition set_rj (t : idt) (e : rerror) : idt :=
  mkIdt (out t) (seq t) (is_top_level t) (io_error t) (Some e) (stored_scan_error t).
Definition set_scan (t : idt) (e : scan_error) : idt :=
  mkIdt (out t) (seq t) (is_top_level t) (io_error t) (rjiter_error t) (Some e).

(** idtransform.rs:43-50 [write_and_store_error!], one write after the other. *)
Fixpoint put_all (t : idt) (parts : list (bytes * string)) : idt * result unit string :=
  match parts with
  | [] => (t, Ok tt)
  | (d, message) :: parts' =>
      match write_all (out t) d with
      | (w, Ok _) => put_all (set_out t w) parts'
      | (w, Err k) => (set_io (set_out t w) k, Err message)
      end
  end.

(** idtransform.rs:156-184 [write_seqpos]. *)
Definition write_seqpos (t : idt) : idt * result unit string :=
  let then_middle x :=
    match x with (t, Ok tt) => (set_seq t InMiddle, Ok tt) | (t, Err m) => (t, Err m) end in
  match seq t with
  | AtBeginning => (set_seq t InMiddle, Ok tt)
  | InMiddle =>
      then_middle (put_all t [(if is_top_level t then [32%N] else [COMMA], "IO error writing sequence position"%string)])
  | AtBeginningKey key =>
      then_middle (put_all t [([QUOTE], "IO error writing key quote"%string); (key, "IO error writing key"%string);
                              ([QUOTE; COLON], "IO error writing key suffix"%string)])
  | InMiddleKey key =>
      then_middle (put_all t [([COMMA; QUOTE], "IO error writing key prefix"%string); (key, "IO error writing key"%string);
                              ([QUOTE; COLON], "IO error writing key suffix"%string)])
  | AfterKey => (t, Ok tt)
  end.

(** idtransform.rs:251-263 [on_key]. *)
Definition on_key : action idt := fun r t =>
  match write_seqpos t with
  | (t, Err m) => Done (r, t, OpError m)
  | (t, Ok _) => Done (r, set_seq t AfterKey, OpNone)
  end.

(** idtransform.rs:265-308 [on_atom]. *)
Definition on_atom : action idt := fun r t =>
  match write_seqpos t with
  | (t, Err m) => Done (r, t, OpError m)
  | (t, Ok _) =>
      do (r, v) <- peek r;
      let note_io e t := match err_type e with IoError k => set_io t k | _ => t end in
      match v with
      | Err e => Done (r, set_rj (note_io e t) e, OpError "RJiter error (stored in idt)")
      | Ok peeked =>
          do (r, w, c) <- copy_atom peeked r (out t);
          let t := set_out t w in
          match c with
          | Ok _ => Done (r, t, ValueIsConsumed)
          | Err e =>
              Done (r, match e with
                       | IOError k => set_io t k
                       | RJiterError e => set_rj (note_io e t) e
                       | other => set_scan t other
                       end, OpError "Error copying atom (stored in idt)")
          end
      end
  end.

(** idtransform.rs:311-323 [on_struct]. *)
Definition on_struct (d : bytes) : action idt := fun r t =>
  match write_seqpos t with
  | (t, Err m) => Done (r, t, OpError m)
  | (t, Ok _) =>
      match put_all t [(d, "IO error writing struct"%string)] with
      | (t, Err m) => Done (r, t, OpError m)
      | (t, Ok _) => Done (r, set_seq t AtBeginning, OpNone)
      end
  end.
(** idtransform.rs:325-333 [on_struct_end]. *)
Definition on_struct_end (d : bytes) : end_action idt := fun t =>
  Done (put_all (set_seq t InMiddle) [(d, "IO error writing struct end"%string)]).

(** idtransform.rs:189-235 [find_action]; [on_array], [on_object] are 335-340 and 346-351. *)
Definition idt_find_action (name : pseudoname) (c : context) (t : idt) : idt * option (action idt) :=
  let level := set_level t (ctx_len c <? 2) in
  match name with
  | PAtom => (level, Some on_atom)
  | PObject => (level, Some (on_struct [LBRACE]))
  | PArray => (level, Some (on_struct [LBRACK]))
  | PNone =>
      match names c with
      | key :: _ =>
          if negb (beq key (bs "#top")) && negb (beq key (bs "#array"))
          then (set_seq t (match seq t with AtBeginning => AtBeginningKey key | _ => InMiddleKey key end), Some on_key)
          else (t, None)
      | [] => (t, None)
      end
  end.
(** idtransform.rs:237-247 [find_end_action]. *)
Definition idt_find_end_action (name : pseudoname) (c : context) (t : idt) : idt * option (end_action idt) :=
  (t, match name with
      | PObject => Some (on_struct_end [RBRACE])
      | PArray => Some (on_struct_end [RBRACK])
      | PAtom | PNone => None
      end).
Definition idt_callbacks : callbacks idt := mkCallbacks idt_find_action idt_find_end_action.

(** idtransform.rs:375-419 [idtransform]: parser, writer and working buffer after the call, and the result. *)
Definition idtransform (fuel : nat) (r : rj) (w : writer) (p : pool)
  : outcome (rj * writer * pool * result unit scan_error) :=
  do (s, v) <- scan idt_callbacks (mkOptions [] true) fuel (mkS r (idt_new w) p);
  let t := user s in
  Done (parser s, out t, stack s,
        match v with
        | Ok _ => Ok tt
        | Err e =>
            match io_error t, rjiter_error t, stored_scan_error t with
            | Some k, _, _ => Err (IOError k)
            | None, Some e', _ => Err (RJiterError e')
            | None, None, Some e' => Err e'
            | None, None, None => Err e
            end
        end).
