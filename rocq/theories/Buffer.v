(** Model of rjiter/src/buffer.rs and of the [embedded_io::Read] contract. No proofs here. *)
From Verif Require Import Base.

(** Error kinds of the readers and writers ([embedded_io::ErrorKind]) are numbers. *)
Definition io_kind := N.

(** The reader: bytes still to come and the behaviour of the next calls.
    [Chunk k]: the call delivers at most [k+1] bytes (fewer if the destination or the
    remaining input is shorter). [Fail e]: the call reports error [e], no byte is lost. After the
    schedule the reader is greedy. So [Ok(0)] happens only at the end of the input or with an empty
    destination, as the trait demands. *)
Inductive event := Chunk (k : nat) | Fail (e : io_kind).
Record reader := mkReader { src : bytes; sched : list event }.

(** [Read::read] into a destination of [n] bytes. *)
Definition reader_read (r : reader) (n : nat) : result bytes io_kind * reader :=
  match sched r with
  | Fail e :: s => (Err e, mkReader (src r) s)
  | Chunk k :: s =>
      let m := Nat.min n (S k) in
      (Ok (firstn m (src r)), mkReader (skipn m (src r)) s)
  | [] => (Ok (firstn n (src r)), mkReader (skipn n (src r)) [])
  end.

(** JSON error kinds that [rjiter] can produce (jiter's [JsonErrorType], the used ones). *)
Inductive json_error :=
| EofWhileParsingList | EofWhileParsingObject | EofWhileParsingString | EofWhileParsingValue
| ExpectedColon | ExpectedListCommaOrEnd | ExpectedObjectCommaOrEnd
| ExpectedSomeIdent | ExpectedSomeValue
| InvalidEscape | InvalidNumber | InvalidUnicodeCodePoint
| ControlCharacterWhileParsingString | KeyMustBeAString
| LoneLeadingSurrogateInHexEscape | TrailingComma | TrailingCharacters | UnexpectedEndOfHexEscape
| FloatExpectingInt | RecursionLimitExceeded.

(** jiter's [JsonType]. *)
Inductive json_type := TNull | TBool | TInt | TFloat | TString | TArray | TObject.

(** rjiter/src/error.rs:15-32 [ErrorType], 50-55 [Error]. *)
Inductive error_type :=
| JsonError (e : json_error)
| WrongType (expected actual : json_type)
| IoError (kind : io_kind)
| BufferFull.
Record rerror := mkErr { err_type : error_type; err_index : nat }.

(** buffer.rs:9-19. [pos_shifted] is split in line and column. *)
Record buffer := mkBuf {
  buf : bytes;
  n_bytes : nat;
  n_shifted_out : nat;
  pos_line : nat;
  pos_col : nat;
  rd : reader }.

(** Sequencing of fallible stateful calls ([?]). *)
Notation "'try' ( s , x ) <- e ; k" :=
  (match e with
   | Done (s, Ok x) => k
   | Done (s, Err er) => Done (s, Err er)
   | Panic => Panic
   | Diverge => Diverge
   end) (at level 200, s name, x pattern, e at level 100, k at level 200).

(** buffer.rs:24-32 [Buffer::new]. *)
Definition buffer_new (r : reader) (b : bytes) : buffer := mkBuf b 0 0 0 0 r.

(** buffer.rs:41-54 [read_more]. [&mut self.buf[self.n_bytes..]] does not panic as [n_bytes <= buf.len()]
    (proved invariant). *)
Definition read_more (b : buffer) : buffer * result nat rerror :=
  match reader_read (rd b) (len (buf b) - n_bytes b) with
  | (Err e, r) =>
      (mkBuf (buf b) (n_bytes b) (n_shifted_out b) (pos_line b) (pos_col b) r,
       Err (mkErr (IoError e) (n_bytes b)))
  | (Ok d, r) =>
      (mkBuf (write_at (buf b) (n_bytes b) d) (n_bytes b + len d) (n_shifted_out b)
             (pos_line b) (pos_col b) r,
       Ok (len d))
  end.

(** buffer.rs:67-74: the line/column loop of [shift_buffer]. *)
Definition newline : byte := 10%N.
Fixpoint advance_pos (l c : nat) (d : bytes) : nat * nat :=
  match d with
  | [] => (l, c)
  | x :: d' => if N.eqb x newline then advance_pos (l + 1) 0 d' else advance_pos l (c + 1) d'
  end.

(** buffer.rs:62-85 [shift_buffer]. *)
Definition shift_buffer (b : buffer) (to_pos from_pos : nat) : buffer :=
  let safe_from_pos := Nat.min from_pos (n_bytes b) in
  let '(l, c) :=
    if to_pos <? safe_from_pos
    then advance_pos (pos_line b) (pos_col b)
           (firstn (safe_from_pos - to_pos) (skipn to_pos (buf b)))
    else (pos_line b, pos_col b) in
  if (to_pos <? from_pos) && (to_pos <? n_bytes b) then
    let buf' :=
      if from_pos <? n_bytes b
      then write_at (buf b) to_pos (firstn (n_bytes b - from_pos) (skipn from_pos (buf b)))
      else buf b in
    let k := safe_from_pos - to_pos in
    mkBuf buf' (n_bytes b - k) (n_shifted_out b + k) l c (rd b)
  else mkBuf (buf b) (n_bytes b) (n_shifted_out b) l c (rd b).

(** Length of the longest prefix of accepted bytes. *)
Fixpoint run_length (pred : byte -> bool) (l : bytes) : nat :=
  match l with
  | x :: l' => if pred x then S (run_length pred l') else 0
  | [] => 0
  end.

(** buffer.rs:133-184 [collect_while], the loop from line 146. The inner [while] of line 149 is
    [run_length] on the filled part. *)
Fixpoint collect_while_loop (fuel : nat) (b : buffer) (pred : byte -> bool) (start_pos : nat)
  (allow_shift : bool) (i current_start : nat) (shifted : bool)
  : outcome (buffer * result (nat * nat) rerror) :=
  match fuel with
  | 0 => Diverge
  | S fuel' =>
      let i := i + run_length pred (skipn i (firstn (n_bytes b) (buf b))) in
      if i <? n_bytes b then Done (b, Ok (current_start, i))
      else
        let continue b i current_start shifted :=
          match read_more b with
          | (b', Err e) => Done (b', Err e)
          | (b', Ok 0) => Done (b', Ok (current_start, n_bytes b'))
          | (b', Ok _) => collect_while_loop fuel' b' pred start_pos allow_shift i current_start shifted
          end in
        if len (buf b) <=? n_bytes b then
          if negb allow_shift || shifted || (start_pos =? 0)
          then Done (b, Err (mkErr BufferFull (n_shifted_out b)))
          else continue (shift_buffer b 0 start_pos) (i - start_pos) 0 true
        else continue b i current_start shifted
  end.

(** Every iteration but the last consumes at least one byte of the reader. *)
Definition fuel_for (b : buffer) : nat := S (len (src (rd b))).

Definition collect_while (b : buffer) (pred : byte -> bool) (start_pos : nat) (allow_shift : bool) :=
  collect_while_loop (fuel_for b) b pred start_pos allow_shift start_pos start_pos false.

(** buffer.rs:99: [u8::is_ascii_whitespace] (space, \t, \n, \x0C, \r). *)
Definition is_ascii_whitespace (x : byte) : bool :=
  (N.eqb x 32 || N.eqb x 9 || N.eqb x 10 || N.eqb x 12 || N.eqb x 13)%bool.

(** buffer.rs:97-115 [skip_spaces]. *)
Fixpoint skip_spaces_loop (fuel : nat) (b : buffer) (pos : nat) : outcome (buffer * result unit rerror) :=
  match fuel with
  | 0 => Diverge
  | S fuel' =>
      match collect_while b is_ascii_whitespace pos false with
      | Done (b', Ok (_, e)) =>
          Done (if pos <? e then shift_buffer b' pos e else b', Ok tt)
      | Done (b', Err e) =>
          match err_type e with
          | BufferFull => skip_spaces_loop fuel' (shift_buffer b' pos (n_bytes b')) pos
          | _ => Done (b', Err e)
          end
      | Panic => Panic
      | Diverge => Diverge
      end
  end.

(** Every iteration but the last removes at least one byte, unless the loop is endless. *)
Definition skip_fuel (b : buffer) : nat := S (S (n_bytes b + len (src (rd b)))).
Definition skip_spaces (b : buffer) (pos : nat) := skip_spaces_loop (skip_fuel b) b pos.

(** buffer.rs:202-256 [collect_count], the loop from line 212. *)
Fixpoint collect_count_loop (fuel : nat) (b : buffer) (count : nat) (allow_shift : bool)
  (target current_start : nat) (shifted : bool) : outcome (buffer * result (nat * nat) rerror) :=
  match fuel with
  | 0 => Diverge
  | S fuel' =>
      if target <=? n_bytes b then Done (b, Ok (current_start, target))
      else
        let continue b target current_start shifted :=
          match read_more b with
          | (b', Err e) => Done (b', Err e)
          | (b', Ok 0) => Done (b', Ok (current_start, n_bytes b'))
          | (b', Ok _) => collect_count_loop fuel' b' count allow_shift target current_start shifted
          end in
        if len (buf b) <=? n_bytes b then
          if negb allow_shift || shifted || (current_start =? 0)
          then Done (b, Err (mkErr BufferFull (n_shifted_out b)))
          else if len (buf b) <? count
          then Done (b, Err (mkErr BufferFull (n_shifted_out b)))
          else continue (shift_buffer b 0 current_start) (target - current_start) 0 true
        else continue b target current_start shifted
  end.
Definition collect_count (b : buffer) (count start_pos : nat) (allow_shift : bool) :=
  collect_count_loop (fuel_for b) b count allow_shift (start_pos + count) start_pos false.

(** buffer.rs:273-310 [skip_n]. *)
Fixpoint skip_n_loop (fuel : nat) (b : buffer) (remaining current_pos total_skipped : nat)
  : outcome (buffer * result (nat * nat) rerror) :=
  match fuel with
  | 0 => Diverge
  | S fuel' =>
      if remaining =? 0 then Done (b, Ok (current_pos, total_skipped))
      else
        let available := n_bytes b - current_pos in
        if remaining <=? available
        then Done (b, Ok (current_pos + remaining, total_skipped + remaining))
        else
          let total_skipped := total_skipped + available in
          let remaining := remaining - available in
          let current_pos := current_pos + available in
          let '(b, current_pos) :=
            if n_bytes b =? len (buf b) then (shift_buffer b 0 current_pos, 0) else (b, current_pos) in
          match read_more b with
          | (b', Err e) => Done (b', Err e)
          | (b', Ok 0) => Done (b', Ok (current_pos, total_skipped))
          | (b', Ok _) => skip_n_loop fuel' b' remaining current_pos total_skipped
          end
  end.
Definition skip_n (b : buffer) (count start_pos : nat) := skip_n_loop (fuel_for b) b count start_pos 0.

(** buffer.rs:325-343 [ChangeFlag]. *)
Definition is_changed (b0 b : buffer) : bool :=
  negb (n_shifted_out b0 =? n_shifted_out b) || negb (n_bytes b0 =? n_bytes b).
