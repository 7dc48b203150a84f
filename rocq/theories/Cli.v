(** Model of examples/dynamodb/src/main.rs, the command [ddb_convert]. No proofs here.
    Left out: the parsing of the arguments by clap (16-47); the text on the standard error stream; the line buffer that [std] keeps
    in front of the standard output. A panic ends the model; the files are not described then. *)
From Verif Require Import Base U8Pool Buffer Jiter RJiter Scan Conv NormalToDdb DdbToNormal.

(** 8-14 [ConversionMode], 16-47 [Args]. No path means the standard input or output. *)
Inductive direction := FromDdb | ToDdb.
Record args := mkArgs {
  to_convert : direction;
  input_path : option string;
  output_path : option string;
  pretty_print : bool;
  without_item : bool;
  unbuffered : bool }.

(** 56-57, 77-78: the buffers, [vec![0u8; 64 * 1024]] and [vec![0u8; 2048]]. *)
Definition zeros (n : N) : bytes := repeat 0%N (N.to_nat n).
Definition rjiter_buffer : bytes := zeros 65536.
Definition context_buffer : bytes := zeros 2048.
(** The capacity of [BufWriter::new]. *)
Definition default_capacity : nat := N.to_nat 8192.

(** 119-132: the call of the library, with 50-67 [convert_from_ddb] and 70-88 [convert_to_ddb]. *)
Definition conversion (a : args) (fuel : nat) (rd : reader) (w : writer) : outcome (writer * result unit (conversion_error * nat)) :=
  match to_convert a with
  | FromDdb => convert_ddb_to_normal fuel rd w rjiter_buffer context_buffer (pretty_print a) AsWrapper
  | ToDdb => convert_normal_to_ddb fuel rd w rjiter_buffer context_buffer (pretty_print a) (negb (without_item a))
  end.

(** How the program ends: status 0, or status 1 with a message. *)
Inductive ending :=
| Success
| NoInput
| NoOutput
| Failure (e : conversion_error) (position : nat).
Definition status (x : ending) : nat := match x with Success => 0 | _ => 1 end.

(** 106-137 behind the opening of the channels: what has arrived at the output, and how the program ends. The reader is what
    the library sees, behind a [BufReader] if there is one, which only cuts the input into other chunks. [room] is the budget
    of the output. An error ends the program by [std::process::exit], which drops nothing, so that what a [BufWriter] holds back is
    lost. Otherwise the [BufWriter] is dropped at the end of [main]: it is flushed and an error is ignored. *)
Definition run (a : args) (fuel : nat) (rd : reader) (room : option (nat * io_kind)) : outcome (bytes * ending) :=
  let w := mkBuffered [] [] (if unbuffered a then 0 else default_capacity) room in
  do (w', v) <- conversion a fuel rd w;
  Done (match v with
        | Err (e, position) => (delivered w', Failure e position)
        | Ok _ => (delivered (fst (flush_held w')), Success)
        end).

(** The surroundings: the files that can be read, the standard input, the sizes of the pieces that reading yields, and for every
    output its budget, unless it cannot be created. *)
Record world := mkWorld {
  file : string -> option bytes;
  stdin : bytes;
  chunks : list event;
  budget : option string -> option (option (nat * io_kind)) }.
(** What is different afterwards: files, standard output. *)
Record changes := mkChanges { new_file : string -> option bytes; stdout : bytes }.
Definition write_file (p : option string) (d : bytes) (c : changes) : changes :=
  match p with
  | Some name => mkChanges (fun x => if String.eqb x name then Some d else new_file c x) (stdout c)
  | None => mkChanges (new_file c) (stdout c ++ d)
  end.
Definition same_file (a : args) : bool :=
  match input_path a, output_path a with
  | Some i, Some o => String.eqb i o
  | _, _ => false
  end.
(** 90-152 [main], [open_input_file], [create_output_file]. The input is opened first; the output is emptied when it is created,
    which also empties the input if they are the same file. (The end of the input has been seen then before anything is written.) *)
Definition main (a : args) (fuel : nat) (o : world) : outcome (changes * ending) :=
  let before := mkChanges (file o) [] in
  match match input_path a with Some p => file o p | None => Some (stdin o) end with
  | None => Done (before, NoInput)
  | Some input =>
      match budget o (output_path a) with
      | None => Done (before, NoOutput)
      | Some room =>
          do (d, x) <- run a fuel (mkReader (if same_file a then [] else input) (chunks o)) room;
          Done (write_file (output_path a) d before, x)
      end
  end.
