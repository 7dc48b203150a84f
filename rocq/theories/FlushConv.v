(** Model of what the two converters of examples/dynamodb/src share, with the flag [unbuffered]: if it is set, a converter calls
    [flush] behind every write. Only what differs from Conv.v is here. No proofs here. *)
From Verif Require Import Base U8Pool Buffer Jiter RJiter Scan Conv.

(** [embedded_io::Write::flush] of the writer of the caller: what a buffer holds back goes to the destination. Without a buffer there
    is nothing to do, as for a [std::fs::File]. *)
Definition flush (w : writer) : writer * result unit io_kind := if wcap w =? 0 then (w, Ok tt) else flush_held w.

Section Flag.
(** normal_to_ddb.rs:15, ddb_to_normal.rs:77 [unbuffered]; it never changes. *)
Context (unbuffered : bool).
(** normal_to_ddb.rs:36-42, ddb_to_normal.rs:129-135 [write]. *)
Definition write_through (w : writer) (d : bytes) : writer * result unit io_kind :=
  match write_all w d with
  | (w, Ok _) => if unbuffered then flush w else (w, Ok tt)
  | (w, Err k) => (w, Err k)
  end.
(** normal_to_ddb.rs:44-51, ddb_to_normal.rs:137-144 [try_write_any]. *)
Definition fl_put (d : bytes) (context : string) : step conv := fun c =>
  match write_through (cout c) d with
  | (w, Ok _) => Done (set_cout c w, Ok tt)
  | (w, Err k) => Done (set_error (set_cout c w) (CIo k context), Err "Write failed"%string)
  end.
(** normal_to_ddb.rs:213-221, ddb_to_normal.rs:258-266: behind the call of [write_long_bytes]. *)
Definition flush_long : step conv := fun c =>
  if unbuffered then
    match flush (cout c) with
    | (w, Ok _) => Done (set_cout c w, Ok tt)
    | (w, Err k) => Done (set_error (set_cout c w) (CIo k "flushing after write_long_bytes"), Err "Failed to flush writer"%string)
    end
  else skip c.
(** normal_to_ddb.rs:62-68, ddb_to_normal.rs:155-161 [newline], [newline_if_pretty]. *)
Definition fl_newline : step conv := fun c => if pretty c then fl_put [10%N] "writing newline" c else skip c.
(** normal_to_ddb.rs:53-60, ddb_to_normal.rs:146-153 [write_comma], [write_comma_if_pending]. *)
Definition fl_write_comma : step conv := fun c =>
  if pending c then (fl_put [COMMA] "writing comma" ;; fl_newline ;; change_to (fun c => set_pending c false)) c else skip c.
(** normal_to_ddb.rs:70-77, ddb_to_normal.rs:163-170 [indent], [indent_if_pretty]. *)
Fixpoint fl_indents (n : nat) : step conv :=
  match n with
  | 0 => skip
  | S n => fl_put [32; 32]%N "writing indentation" ;; fl_indents n
  end.
Definition fl_indent : step conv := fun c => if pretty c then fl_indents (level c) c else skip c.
End Flag.
