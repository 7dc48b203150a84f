(** Specification side of the converter in Python: when two runs, one of it and one of the benchmark program in Rust, do the same. *)
From Coq Require Import ZArith.
From Verif Require Import Base Buffer Jiter RJiter RJiterSpec ScanSpec ValueSpec DdbSpec Cli Bench BenchSpec PyBench.

Section Agreement.
Context {P R : Type} (alike : P -> R -> Prop).
(** Values that differ only in what their numbers are. *)
Fixpoint same (x : value P) (y : value R) : Prop :=
  match x, y with
  | SNull, SNull => True
  | SBool a, SBool b => a = b
  | SNumber p, SNumber r => alike p r
  | SString s, SString t => s = t
  | SArray l, SArray m =>
      (fix all l m := match l, m with
       | [], [] => True
       | x :: l, y :: m => same x y /\ all l m
       | _, _ => False
       end) l m
  | SObject l, SObject m =>
      (fix all l m := match l, m with
       | [], [] => True
       | (j, x) :: l, (k, y) :: m => j = k /\ same x y /\ all l m
       | _, _ => False
       end) l m
  | _, _ => False
  end.
(** Numbers that are alike are shown as the same text. *)
Definition shown_alike (show : P -> bytes) (show' : R -> bytes) : Prop := forall p r, alike p r -> show p = show' r.
(** Both programs read a number from the text, and numbers that are alike, or none of them does. *)
Definition read_alike (read : bytes -> option P) (read' : bytes -> option R) (t : bytes) : Prop :=
  match read t, read' t with Some p, Some r => alike p r | None, None => True | _, _ => False end.
(** The strings in a value that stand where DynamoDB has numbers: members [N], and the elements of members [NS]. *)
Definition string_in (x : value P) : list bytes := match x with SString t => [t] | _ => [] end.
Fixpoint number_texts (x : value P) : list bytes :=
  match x with
  | SArray l => flat_map number_texts l
  | SObject m => flat_map (fun '(k, y) =>
      (if beq k (bs "N") then string_in y else []) ++ (if beq k (bs "NS") then match y with SArray l => flat_map string_in l | _ => [] end else []) ++ number_texts y) m
  | _ => []
  end.
(** A text is the same document for both parsers, or for none; its numbers are read in the same way. *)
Definition parsed_alike (read : bytes -> option P) (read' : bytes -> option R) (x : option (option (value P))) (y : option (value R)) : Prop :=
  match x, y with
  | Some (Some x), Some y => same x y /\ Forall (read_alike read read') (number_texts x)
  | None, None => True
  | _, _ => False
  end.
(** The outputs show the same values, line for line. *)
Definition side_by_side (print : value P -> bytes) (print' : value R -> bytes) (d d' : bytes) : Prop :=
  exists xs : list (value P * value R), Forall (fun xy => same (fst xy) (snd xy)) xs /\
    d = List.concat (map (fun xy => print (fst xy) ++ [10%N]) xs) /\ d' = List.concat (map (fun xy => print' (snd xy) ++ [10%N]) xs).
End Agreement.

(** The complaints of the two programs. *)
Inductive like : complaint -> trouble -> Prop :=
| LikeSaid m : like (Says m) (Said m)
| LikeNumber t : like (BadNumber t) (Said "Invalid number format")
| LikeType k : like (BadType k) (UnknownType k)
| LikeJson : like BadJson InvalidJson
| LikeLine n : like (BadLine n) (InvalidLine n)
| LikeRead k : like (ReadFailed k) (Unreadable k)
| LikeInput : like NoInput InputMissing
| LikeOutput : like NoOutput OutputMissing.
Definition ends_alike {X Y : Type} (same : X -> Y -> Prop) (v : result X complaint) (v' : result Y trouble) : Prop :=
  match v, v' with
  | Ok x, Ok y => same x y
  | Err c, Err e => like c e
  | _, _ => False
  end.
(** The texts that are parsed: the whole input, and its lines without the white space at their ends. *)
Definition document_of (l t : bytes) : Prop :=
  t = l \/ exists before line rest, l = before ++ line ++ rest /\ whole_lines before /\ one_line line rest /\ trimmed line t.
(** No carriage return, and none of the four separators that are white space only for Python. *)
Definition ordinary (l : bytes) : Prop := Forall (fun x => x <> 13 /\ ~ 28 <= x <= 31)%N l.

(** ** Numbers *)
(** All numbers of a value are integers of at most 4300 digits, and no zero has a sign. *)
Definition whole_number (t : bytes) : Prop := (exists z, integer_is t z) /\ t <> bs "-0" /\ len t <= N.to_nat 4300.
Fixpoint whole_numbers (v : json) : Prop :=
  match v with
  | JNumber t => whole_number t
  | JArray l => fold_right (fun v P => whole_numbers v /\ P) True l
  | JObject m => fold_right (fun '(_, v) P => whole_numbers v /\ P) True m
  | _ => True
  end.
(** The same for numbers in memory: at most 4300 digits, and floats that are read again from what they are shown as. *)
Definition small_int (z : Z) : Prop := (Z.abs z < 10 ^ 4300)%Z.
Fixpoint sound_numbers {float : Type} (float_of : bytes -> option float) (str_float : float -> bytes) (x : value (pynum float)) : Prop :=
  match x with
  | SNumber (PyInt z) => small_int z
  | SNumber (PyFloat f) => fractional (str_float f) /\ float_of (str_float f) = Some f
  | SArray l => fold_right (fun x P => sound_numbers float_of str_float x /\ P) True l
  | SObject m => fold_right (fun '(_, x) P => sound_numbers float_of str_float x /\ P) True m
  | _ => True
  end.
(** The texts that Python takes for an integer: white space around, a sign, and groups of digits with underscores between them. *)
Fixpoint underscored (gs : list bytes) : bytes :=
  match gs with [] => [] | [g] => g | g :: gs => g ++ 95%N :: underscored gs end.
Definition blank (x : byte) : Prop := (9 <= x <= 13 \/ x = 32)%N.
Definition python_integer (t : bytes) (z : Z) : Prop :=
  exists before s gs behind, t = before ++ s ++ underscored gs ++ behind /\ Forall blank before /\ Forall blank behind /\
    gs <> [] /\ Forall digits1 gs /\ len (List.concat gs) <= N.to_nat 4300 /\
    ((s = [] \/ s = [43%N]) /\ z = decimal (List.concat gs) \/ s = [45%N] /\ z = (- decimal (List.concat gs))%Z).
