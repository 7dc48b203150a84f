(** Functions that can stand for those of Python's module json in the examples. A float is its text. No proofs here; nothing is
    claimed about Python. *)
From Coq Require Import ZArith.
From Verif Require Import Base Buffer Jiter JiterValue RJiter Bench BenchKit PyBench.

Definition py_kit_read : bytes -> option (pynum bytes) := py_read kit_read.
Definition py_kit_show : pynum bytes -> bytes := py_show (fun t => t).
(** A value of BenchKit.v, with the numbers of Python. *)
Fixpoint py_kit_value (x : value bytes) : value (pynum bytes) :=
  match x with
  | SNull => SNull
  | SBool b => SBool b
  | SNumber t => match py_kit_read t with Some n => SNumber n | None => SNull end
  | SString s => SString s
  | SArray l => SArray (map py_kit_value l)
  | SObject m => SObject (map (fun '(k, x) => (k, py_kit_value x)) m)
  end.
Definition py_kit_loads (t : bytes) : option (option (value (pynum bytes))) := option_map (fun x => Some (py_kit_value x)) (kit_from_str t).
Fixpoint spaced (l : list bytes) : bytes :=
  match l with [] => [] | [x] => x | x :: l => x ++ bs ", " ++ spaced l end.
Fixpoint py_kit_dumps (x : value (pynum bytes)) : bytes :=
  match x with
  | SNull => bs "null"
  | SBool b => if b then bs "true" else bs "false"
  | SNumber n => py_kit_show n
  | SString d => kit_string d
  | SArray l => bs "[" ++ spaced (map py_kit_dumps l) ++ bs "]"
  | SObject m => bs "{" ++ spaced (map (fun '(k, x) => kit_string k ++ bs ": " ++ py_kit_dumps x) m) ++ bs "}"
  end.
Definition py_kit_main := py_main kit_read (fun t => t) py_kit_loads py_kit_dumps py_kit_dumps.
(** The same for the program in Rust: a number is what Python shows it as. *)
Fixpoint as_shown (x : value (pynum bytes)) : value bytes :=
  match x with
  | SNull => SNull
  | SBool b => SBool b
  | SNumber n => SNumber (py_kit_show n)
  | SString s => SString s
  | SArray l => SArray (map as_shown l)
  | SObject m => SObject (map (fun '(k, x) => (k, as_shown x)) m)
  end.
Definition kit_alike (n : pynum bytes) (t : bytes) : Prop := py_kit_show n = t.
Definition shown_read (t : bytes) : option bytes := option_map py_kit_show (py_kit_read t).
Definition shown_from_str (t : bytes) : option (value bytes) := match py_kit_loads t with Some (Some x) => Some (as_shown x) | _ => None end.
Definition shown_main := bench_main (fun t => t) shown_read shown_from_str kit_to_string kit_to_string.
