(** Model of what the two converters of examples/dynamodb/src share: the error type of lib.rs, the state and the methods of
    the converter objects that are the same in normal_to_ddb.rs and ddb_to_normal.rs, and the end of the two
    entry points. No proofs here. *)
From Verif Require Import Base U8Pool Buffer Jiter RJiter Scan.

(** lib.rs:21-47 [ConversionError]. The unknown type descriptor is kept as the bytes in use, not as a padded array. *)
Inductive conversion_error :=
| CRJiter (kind : error_type) (context : string)
| CIo (kind : io_kind) (context : string)
| CParse (context : string) (unknown_type : option bytes)
| CScan (e : scan_error).

(** normal_to_ddb.rs:11-20 [NormalToDdbConverter] and ddb_to_normal.rs:73-85 [DdbConverter], the common fields
    ([level] is [depth] there and [output_depth] here). [with_item_wrapper] and [item_wrapper_mode] never change and are
    parameters below. [unbuffered] only adds calls of [flush], which are left out here; FlushConv.v has them, and C95 compares.
    [current_field] is a slice of the working buffer, used before that changes; it is copied here. *)
Record conv := mkConv {
  cout : writer;
  pending : bool;
  pretty : bool;
  field : option bytes;
  level : nat;
  last_error : option conversion_error }.
(** normal_to_ddb.rs:23-34, ddb_to_normal.rs:88-101 [new]. *)
Definition conv_new (w : writer) (pretty : bool) : conv := mkConv w false pretty None 0 None.
Definition set_cout (c : conv) (w : writer) : conv := mkConv w (pending c) (pretty c) (field c) (level c) (last_error c).
Definition set_pending (c : conv) (b : bool) : conv := mkConv (cout c) b (pretty c) (field c) (level c) (last_error c).
Definition set_field (c : conv) (k : bytes) : conv := mkConv (cout c) (pending c) (pretty c) (Some k) (level c) (last_error c).
Definition set_level (c : conv) (n : nat) : conv := mkConv (cout c) (pending c) (pretty c) (field c) n (last_error c).
Definition set_error (c : conv) (e : conversion_error) : conv := mkConv (cout c) (pending c) (pretty c) (field c) (level c) (Some e).

(** A piece of a handler: the new state, and [Err] where the handler returns early. *)
Definition step (B : Type) := B -> outcome (B * result unit string).
(** The [?] operator and [if let Err(e) = ... { return StreamOp::Error(e); }]. *)
Definition and_then {B} (a b : step B) : step B := fun c =>
  do (c', v) <- a c;
  match v with Ok _ => b c' | Err m => Done (c', Err m) end.
Infix ";;" := and_then (at level 61, right associativity).
Definition skip {B} : step B := fun c => Done (c, Ok tt).
Definition change_to {B} (f : B -> B) : step B := fun c => Done (f c, Ok tt).

(** normal_to_ddb.rs:36-51, ddb_to_normal.rs:129-144 [write], [try_write_any]. *)
Definition put (d : bytes) (context : string) : step conv := fun c =>
  match write_all (cout c) d with
  | (w, Ok _) => Done (set_cout c w, Ok tt)
  | (w, Err k) => Done (set_error (set_cout c w) (CIo k context), Err "Write failed"%string)
  end.
(** normal_to_ddb.rs:62-68, ddb_to_normal.rs:155-161 [newline], [newline_if_pretty]. *)
Definition newline : step conv := fun c => if pretty c then put [10%N] "writing newline" c else skip c.
(** normal_to_ddb.rs:53-60, ddb_to_normal.rs:146-153 [write_comma], [write_comma_if_pending]. *)
Definition write_comma : step conv := fun c =>
  if pending c then (put [COMMA] "writing comma" ;; newline ;; change_to (fun c => set_pending c false)) c else skip c.
(** normal_to_ddb.rs:70-77, ddb_to_normal.rs:163-170 [indent], [indent_if_pretty]. *)
Fixpoint indents (n : nat) : step conv :=
  match n with
  | 0 => skip
  | S n => put [32; 32]%N "writing indentation" ;; indents n
  end.
Definition indent : step conv := fun c => if pretty c then indents (level c) c else skip c.
(** [depth += 1]. Overflow of a [usize] is left out. *)
Definition deeper : step conv := change_to (fun c => set_level c (S (level c))).
(** [depth -= 1], in a build with overflow checks. *)
Definition shallower : step conv := fun c => match level c with 0 => Panic | S n => Done (set_level c n, Ok tt) end.
Definition comma_is (b : bool) : step conv := change_to (fun c => set_pending c b).

(** A handler that runs a step and then answers [op]. *)
Definition act_of {B} (f : step B) (op : stream_op) : action B := fun r c =>
  do (c', v) <- f c;
  Done (r, c', match v with Ok _ => op | Err m => OpError m end).

(** normal_to_ddb.rs:766-791, ddb_to_normal.rs:978-1003: the error of the scan becomes the error of the conversion. *)
Definition error_position_of (e : scan_error) (r : rj) : nat :=
  match e with
  | ActionError _ i | MaxNestingExceeded i _ | InternalError i _ | UnhandledPeek _ i | UnbalancedJson i => i
  | RJiterError e => err_index e
  | IOError _ => current_index r
  end.
(** normal_to_ddb.rs:739-795, ddb_to_normal.rs:948-1007: the part common to the entry points; [slots] is the number of names
    of the context pool. What is returned is the state of the converter (with the writer) and the result. *)
Definition convert {B} (cb : callbacks B) (base : B -> conv) (slots : N) (fuel : nat) (rd : reader) (rjiter_buffer context_buffer : bytes)
  (u : B) : outcome (B * result unit (conversion_error * nat)) :=
  do p <- pool_new true context_buffer slots;
  match p with
  | Err _ => Done (u, Err (CScan (InternalError 0 "Failed to create context pool"), 0))
  | Ok p =>
      do (s, v) <- scan cb (mkOptions [] false) fuel (mkS (rj_new rd rjiter_buffer) u p);
      Done (user s,
            match v with
            | Ok _ => Ok tt
            | Err e =>
                Err (match last_error (base (user s)) with Some err => err | None => CScan e end,
                     error_position_of e (parser s))
            end)
  end.
