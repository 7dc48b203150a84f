(** Specification side of the benchmark program: what a JSON text means as a value in memory. *)
From Verif Require Import Base Buffer Jiter RJiter RJiterSpec ScanSpec ValueSpec DdbSpec Cli Bench.

Section Values.
Context {num : Type} (show_num : num -> bytes) (read_num : bytes -> option num).
(** No object has two members of the same key. (A [Map] cannot.) *)
Fixpoint proper (x : value num) : Prop :=
  match x with
  | SArray l => fold_right (fun x P => proper x /\ P) True l
  | SObject m => NoDup (map fst m) /\ fold_right (fun '(_, x) P => proper x /\ P) True m
  | _ => True
  end.
(** All numbers are read again from what they are shown as. *)
Fixpoint legible (x : value num) : Prop :=
  match x with
  | SNumber n => read_num (show_num n) = Some n
  | SArray l => fold_right (fun x P => legible x /\ P) True l
  | SObject m => fold_right (fun '(_, x) P => legible x /\ P) True m
  | _ => True
  end.
(** An object with [Item] as its only member. *)
Definition only_item (x : value num) : Prop := exists y, x = SObject [(bs "Item", y)].

(** The value of a text, for objects without two members of the same key. *)
Fixpoint denotes (v : json) (x : value num) : Prop :=
  match v, x with
  | JNull, SNull => True
  | JTrue, SBool b => b = true
  | JFalse, SBool b => b = false
  | JNumber t, SNumber n => read_num t = Some n
  | JString t, SString d => string_is t d
  | JArray l, SArray xs =>
      (fix all l xs := match l, xs with
       | [], [] => True
       | v :: l, x :: xs => denotes v x /\ all l xs
       | _, _ => False
       end) l xs
  | JObject m, SObject ys => NoDup (map fst ys) /\
      (fix all m ys := match m, ys with
       | [], [] => True
       | (k, v) :: m, (d, x) :: ys => string_is k d /\ denotes v x /\ all m ys
       | _, _ => False
       end) m ys
  | _, _ => False
  end.
(** All numbers are written the way they are shown. *)
Fixpoint canonical (v : json) : Prop :=
  match v with
  | JNumber t => number_text t /\ forall n, read_num t = Some n -> show_num n = t
  | JArray l => fold_right (fun v P => canonical v /\ P) True l
  | JObject m => fold_right (fun '(_, v) P => canonical v /\ P) True m
  | _ => True
  end.
(** All numbers of a DynamoDB value can be read. *)
Definition readable_number (t : bytes) : Prop := number_text t /\ exists n, read_num t = Some n.
Fixpoint readable_numbers (d : ddb) : Prop :=
  match d with
  | DN t => readable_number t
  | DNS l => Forall readable_number l
  | DL l => fold_right (fun d P => readable_numbers d /\ P) True l
  | DM ms => fold_right (fun '(_, d) P => readable_numbers d /\ P) True ms
  | _ => True
  end.
End Values.

(** The number of line feeds; an error behind that many further lines. *)
Definition line_feeds (l : bytes) : nat := List.length (filter (fun x => N.eqb x 10) l).
Definition further (n : nat) (v : result unit trouble) : result unit trouble :=
  match v with Err (InvalidLine k) => Err (InvalidLine (n + k)) | v => v end.
(** Whole lines. *)
Definition whole_lines (l : bytes) : Prop := l = [] \/ exists l', l = l' ++ [10%N].
(** The first line of [line ++ rest], with its line feed if it has one. *)
Definition one_line (line rest : bytes) : Prop :=
  line <> [] /\ ~ In 10%N (removelast line) /\ (last line 0%N = 10%N \/ rest = []).
(** The lines of the first text become the second text, one by one, each by [f]. *)
Inductive line_by_line (f : bytes -> bytes -> Prop) : bytes -> bytes -> Prop :=
| NoLines : line_by_line f [] []
| OneLine line rest out text : one_line line rest -> f line out -> line_by_line f rest text -> line_by_line f (line ++ rest) (out ++ text).
(** Errors of a value, not of a line. *)
Definition about_value (e : trouble) : Prop := match e with Said _ | UnknownType _ => True | _ => False end.

(** The program with the input [i], whether it is a file or not; any file can be created and takes everything. *)
Definition alone (i : input) : bworld := mkBworld (fun _ => Some i) i (fun _ => Some None).
(** The input is a file with the extension jsonl. *)
Definition as_jsonl (a : bargs) : bool := match binput a with Some _ => named_jsonl a | None => false end.
(** What becomes of a line: nothing if it is blank, otherwise the text of its converted value and a line feed. *)
Definition line_output {num : Type} (show_num : num -> bytes) (read_num : bytes -> option num) (from_str : bytes -> option (value num))
  (to_string to_string_pretty : value num -> bytes) (a : bargs) (line out : bytes) : Prop :=
  utf8_invalid 0 line = None /\
  (trim line = [] /\ out = [] \/
   trim line <> [] /\ exists x y, from_str (trim line) = Some x /\
     (match bmode a with FromDdb => from_dynamodb read_num x | ToDdb => to_dynamodb show_num x (negb (bwithout_item a)) end) = Ok y /\
     out = (if bpretty a then to_string_pretty y else to_string y) ++ [10%N]).

(** ** White space: the characters with the Unicode property White_Space, in UTF-8 *)
Definition white_space_point (c : N) : Prop :=
  (9 <= c <= 13 \/ c = 32 \/ c = 133 \/ c = 160 \/ c = 5760 \/ 8192 <= c <= 8202 \/ c = 8232 \/ c = 8233 \/ c = 8239 \/ c = 8287 \/ c = 12288)%N.
Definition white (p : bytes) : Prop := exists c, white_space_point c /\ p = utf8_encode c.
(** [t] is [l] without the white space at its ends. *)
Definition trimmed (l t : bytes) : Prop :=
  exists front back, l = List.concat front ++ t ++ List.concat back /\ Forall white front /\ Forall white back /\
    forall p r, white p -> t <> p ++ r /\ t <> r ++ p.
