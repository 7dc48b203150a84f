(** Properties C10-C14 of the stream buffer. Only statements, examples and assumptions. *)
From Verif Require Import Base Buffer BufferSpec BufferProofs.

(** A buffer of 6 cells over a stream that arrives in pieces, with one read error in between. *)
Definition ex_reader : reader :=
  mkReader (bs "ab   " ++ [10%N] ++ bs "  cdefgh") [Chunk 2; Fail 7%N; Chunk 0; Chunk 1].
Definition ex_new : buffer := buffer_new ex_reader (repeat 0%N 6).
Definition ex_history : list bop :=
  [BRead; BRead; BRead; BShift 0 2; BSkipSpaces 0; BCollectWhile (fun x => negb (N.eqb x 103)) 0 true; BSkipN 3 1].
Definition ex_later : buffer := match brun ex_new ex_history with Done b => b | _ => ex_new end.
Example ex_later_state :
  brun ex_new ex_history = Done ex_later /\ stream ex_later = bs "cdefgh" /\ n_shifted_out ex_later = 8 /\
  pos_line ex_later = 1 /\ pos_col ex_later = 2 /\ n_bytes ex_later = 6.
Proof. vm_compute. auto 10. Qed.
Example ex_later_wf : wf ex_later.
Proof. unfold wf. vm_compute. auto 10. Qed.
Example ex_front : forallb front_op ex_history = true.
Proof. reflexivity. Qed.

(** C10: after any history, with any arguments, kept bytes ++ undelivered bytes is the input with exactly the
    dropped segments removed. *)
Theorem C10_no_byte_lost : forall input schedule cells ops b',
  brun (buffer_new (mkReader input schedule) cells) ops = Done b' ->
  n_bytes b' <= len (buf b') /\ len (buf b') = len cells /\
  exists d, deleted input d (stream b') /\ n_shifted_out b' = len d.
Proof. exact no_byte_lost. Qed.
Print Assumptions C10_no_byte_lost.

(** C10: what one shift removes. *)
Theorem C10_shift_drops_exactly : forall b to from,
  wf b ->
  let e := Nat.min from (n_bytes b) in
  stream (shift_buffer b to from) =
    firstn to (stream b) ++ skipn (Nat.max to e) (stream b) /\
  n_shifted_out (shift_buffer b to from) = n_shifted_out b + (e - to) /\
  n_bytes (shift_buffer b to from) = n_bytes b - (e - to).
Proof. exact shift_drops_exactly. Qed.
Print Assumptions C10_shift_drops_exactly.
Example C10_example : stream (shift_buffer ex_later 1 4) = bs "cgh".
Proof. vm_compute. reflexivity. Qed.

(** C10: what [skip_n] removes (the buffer part of C16). *)
Theorem C10_skip_n_exact : forall b count start,
  0 < cap b -> wf b -> start <= n_bytes b ->
  exists b' r, skip_n b count start = Done (b', r) /\ wf b' /\
    match r with
    | Ok (p, t) => t = Nat.min count (len (skipn start (stream b))) /\ p <= n_bytes b' /\
                   skipn p (stream b') = skipn count (skipn start (stream b)) /\
                   n_shifted_out b' + p = n_shifted_out b + start + t
    | Err er => quiet b = false /\ exists k, err_type er = IoError k
    end.
Proof. exact skip_n_exact. Qed.
Print Assumptions C10_skip_n_exact.

(** C11: counters after any history of operations that drop at the front only. *)
Theorem C11_front_counters : forall input schedule cells ops b',
  forallb front_op ops = true ->
  brun (buffer_new (mkReader input schedule) cells) ops = Done b' ->
  exists d, dropped_front input b' d.
Proof. exact front_counters. Qed.
Print Assumptions C11_front_counters.
Example C11_example : dropped_front (src ex_reader) ex_later (bs "ab   " ++ [10%N] ++ bs "  ").
Proof. vm_compute. auto. Qed.

(** C12: the longest run, always (termination included); BufferFull only if the run fills the buffer. *)
Theorem C12_collect_while_longest : forall b pred start allow,
  wf b -> start <= n_bytes b ->
  exists b' r, collect_while b pred start allow = Done (b', r) /\ wf b' /\
    (allow = false -> stream b' = stream b) /\
    match r with
    | Ok (s, e) =>
        (s = start /\ stream b' = stream b \/ s = 0 /\ firstn start (stream b) ++ stream b' = stream b) /\
        exists run, longest_run pred (skipn start (stream b)) run /\ collected b' (s, e) run
    | Err er =>
        match err_type er with
        | BufferFull => exists run, longest_run pred (skipn start (stream b)) run /\
                        cap b <= len run + (if allow then 0 else start)
        | IoError _ => quiet b = false
        | _ => False
        end
    end.
Proof. exact collect_while_longest. Qed.
Print Assumptions C12_collect_while_longest.
Example C12_example : exists b',
  collect_while (fst (read_more ex_new)) (fun x => negb (N.eqb x 99)) 1 true = Done (b', Err (mkErr (IoError 7%N) 3)) /\
  exists b'', collect_while b' (fun x => negb (N.eqb x 10)) 1 true = Done (b'', Ok (1, 5)).
Proof. eexists. split; [vm_compute; reflexivity|]. eexists. vm_compute. reflexivity. Qed.

(** C13: exactly the next [count] bytes, or all that are left. *)
Theorem C13_collect_count_exact : forall b count start allow,
  wf b -> start <= n_bytes b ->
  exists b' r, collect_count b count start allow = Done (b', r) /\ wf b' /\
    (allow = false -> stream b' = stream b) /\
    match r with
    | Ok (s, e) =>
        (s = start /\ stream b' = stream b \/ s = 0 /\ firstn start (stream b) ++ stream b' = stream b) /\
        collected b' (s, e) (firstn count (skipn start (stream b)))
    | Err er =>
        match err_type er with
        | BufferFull => stream b' = stream b /\ cap b < count + (if allow then 0 else start)
        | IoError _ => quiet b = false
        | _ => False
        end
    end.
Proof. exact collect_count_exact. Qed.
Print Assumptions C13_collect_count_exact.
Example C13_example : exists b',
  collect_count ex_later 5 3 true = Done (b', Ok (0, 3)) /\ collected b' (0, 3) (bs "fgh").
Proof. eexists. split; vm_compute; reflexivity. Qed.

(** C14: exactly the maximal whitespace run at [pos] goes away, in finitely many steps, for [pos] inside
    the buffer. *)
Theorem C14_skip_spaces_partial : forall b pos,
  wf b -> pos <= n_bytes b -> pos < cap b ->
  exists b' r, skip_spaces b pos = Done (b', r) /\ wf b' /\
    match r with
    | Ok tt => exists run, longest_run is_ascii_whitespace (skipn pos (stream b)) run /\
                 stream b = firstn pos (stream b) ++ run ++ skipn pos (stream b') /\
                 firstn pos (stream b') = firstn pos (stream b) /\
                 n_shifted_out b' = n_shifted_out b + len run
    | Err er => quiet b = false /\ exists k, err_type er = IoError k
    end.
Proof. exact skip_spaces_exact. Qed.
Print Assumptions C14_skip_spaces_partial.
Definition ex_ws : buffer := fst (read_more (buffer_new (mkReader (bs "a      b") [Chunk 2]) (repeat 0%N 3))).
Example C14_example : exists b', skip_spaces ex_ws 1 = Done (b', Ok tt) /\ stream b' = bs "ab".
Proof. eexists. split; vm_compute; reflexivity. Qed.

(** C14 is false without [pos < cap b]: with a full buffer and a position at its end the loop never returns,
    whatever number of iterations is granted. Witness: one-byte buffer, [skip_spaces(1)]. *)
Theorem C14_skip_spaces_refuted : exists b pos,
  wf b /\ pos <= n_bytes b /\ forall fuel, skip_spaces_loop fuel b pos = Diverge.
Proof. exact skip_spaces_endless. Qed.
Print Assumptions C14_skip_spaces_refuted.
