(** Specification side of the command line program. *)
From Verif Require Import Base U8Pool Buffer RJiter Scan Conv DdbToNormal Cli.

(** The ending that belongs to an answer of the library. *)
Definition answered (v : result unit (conversion_error * nat)) (x : ending) : Prop :=
  match v with Ok _ => x = Success | Err (e, position) => x = Failure e position end.
(** The output takes as much of the text as it can: [d]. *)
Definition arrives (room : option (nat * io_kind)) (text d : bytes) : Prop :=
  match room with None => d = text | Some (n, _) => d = firstn n text end.
Definition too_small (room : option (nat * io_kind)) (text : bytes) : Prop := exists n k, room = Some (n, k) /\ n < len text.
(** At most this much is under way between the program and the output. *)
Definition under_way (a : args) : nat := if unbuffered a then 0 else N.to_nat 8192.
(** The bytes at the input, if it can be opened. *)
Definition input_of (a : args) (o : world) : option bytes :=
  match input_path a with Some p => file o p | None => Some (stdin o) end.
(** The world of a later run: the files are those that the first run has left. *)
Definition later (c : changes) (o : world) : world := mkWorld (new_file c) (stdin o) (chunks o) (budget o).
Definition untouched (o : world) : changes := mkChanges (file o) [].
(** The run has left [d] at the output and nothing else has changed. *)
Definition leaves (a : args) (o : world) (d : bytes) (c : changes) : Prop :=
  match output_path a with
  | Some p => new_file c p = Some d /\ (forall q, q <> p -> new_file c q = file o q) /\ stdout c = []
  | None => stdout c = d /\ forall q, new_file c q = file o q
  end.
Definition nothing_changed (o : world) (c : changes) : Prop := stdout c = [] /\ forall q, new_file c q = file o q.
