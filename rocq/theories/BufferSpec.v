(** Specification of the stream buffer: what a client of rjiter/src/buffer.rs sees. *)
From Verif Require Import Base Buffer.

(** The logical stream: kept bytes followed by what the reader still has. *)
Definition stream (b : buffer) : bytes := firstn (n_bytes b) (buf b) ++ src (rd b).
(** The documented contract of [Buffer] (buffer.rs:13). *)
Definition wf (b : buffer) : Prop := n_bytes b <= len (buf b).
Definition cap (b : buffer) : nat := len (buf b).

(** Line (number of newlines) and column (bytes after the last newline) of the end of [d]. *)
Definition count_newlines (d : bytes) : nat := List.length (filter (N.eqb newline) d).
Fixpoint tail_length (d : bytes) : nat :=
  (* bytes behind the last newline; all of them if there is none *)
  match d with
  | [] => 0
  | x :: d' => if existsb (N.eqb newline) d' then tail_length d'
               else if N.eqb newline x then len d' else S (len d')
  end.

(** [cut b at_ drop b']: [b'] is [b] after removing [drop], which sits at position [at_]; the counters moved
    accordingly, nothing else of the stream changed. *)
Definition cut (b : buffer) (at_ : nat) (drop : bytes) (b' : buffer) : Prop :=
  wf b' /\ cap b' = cap b /\
  n_shifted_out b' = n_shifted_out b + len drop /\
  (pos_line b', pos_col b') = advance_pos (pos_line b) (pos_col b) drop /\
  exists a c, stream b = a ++ drop ++ c /\ stream b' = a ++ c /\ (drop = [] \/ len a = at_).

(** A schedule without read errors. *)
Definition quiet (b : buffer) : bool :=
  forallb (fun e => match e with Fail _ => false | Chunk _ => true end) (sched (rd b)).

(** Cells and reader hold only bytes with a property. *)
Definition holds_only (P : byte -> Prop) (b : buffer) : Prop := Forall P (buf b) /\ Forall P (src (rd b)).
(** Everything is in the buffer, or the reader delivers it at once and the buffer can hold it. *)
Definition at_once (b : buffer) : Prop := src (rd b) = [] \/ (sched (rd b) = [] /\ n_bytes b = 0 /\ len (src (rd b)) <= cap b).

(** Operations and histories. *)
Inductive bop :=
| BRead
| BShift (to_pos from_pos : nat)
| BSkipSpaces (pos : nat)
| BCollectWhile (pred : byte -> bool) (pos : nat) (allow : bool)
| BCollectCount (count pos : nat) (allow : bool)
| BSkipN (count pos : nat).

(** Effect of an operation on the buffer; the answer is dropped (errors do not end a history). *)
Definition bstep (b : buffer) (o : bop) : outcome buffer :=
  match o with
  | BRead => Done (fst (read_more b))
  | BShift t f => Done (shift_buffer b t f)
  | BSkipSpaces p => do (b', _) <- skip_spaces b p; Done b'
  | BCollectWhile f p a => do (b', _) <- collect_while b f p a; Done b'
  | BCollectCount n p a => do (b', _) <- collect_count b n p a; Done b'
  | BSkipN n p => do (b', _) <- skip_n b n p; Done b'
  end.
Fixpoint brun (b : buffer) (ops : list bop) : outcome buffer :=
  match ops with
  | [] => Done b
  | o :: os => do b1 <- bstep b o; brun b1 os
  end.

(** Operations that drop bytes only at the front. *)
Definition front_op (o : bop) : bool :=
  match o with BShift t _ => t =? 0 | BSkipSpaces p => p =? 0 | _ => true end.

(** [deleted l d m]: [m] is [l] with some segments removed, [d] lists the removed bytes. *)
Inductive deleted : bytes -> bytes -> bytes -> Prop :=
| del_refl l : deleted l [] l
| del_step l d m a x c : deleted l d m -> m = a ++ x ++ c -> deleted l (d ++ x) (a ++ c).

(** [run] is the longest prefix of [l] whose bytes all satisfy [pred]. *)
Definition longest_run (pred : byte -> bool) (l run : bytes) : Prop :=
  exists rest, l = run ++ rest /\ Forall (fun x => pred x = true) run /\
    match rest with [] => True | x :: _ => pred x = false end.

(** The bytes a position pair returned by a collect operation denotes; they must lie in the filled part. *)
Definition collected (b : buffer) (p : nat * nat) (d : bytes) : Prop :=
  slice (firstn (n_bytes b) (buf b)) (fst p) (snd p) = Some d.

(** Counters that match the bytes dropped at the front of [input]. *)
Definition dropped_front (input : bytes) (b : buffer) (d : bytes) : Prop :=
  input = d ++ stream b /\ n_shifted_out b = len d /\
  pos_line b = count_newlines d /\ pos_col b = tail_length d.
