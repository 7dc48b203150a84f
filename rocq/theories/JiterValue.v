(** Model of the numbers and of the whole values of jiter 0.8.2, as used by rjiter/src/rjiter.rs:95-118, 136-166,
    200-215, 247-252, 293-298 and 311-320. Like Jiter.v a transcription of the external crate and part of the trusted
    base. No proofs here.

    Simplifications: an integer is its mathematical value, whether the crate holds it as [Int] or [BigInt]; a float is
    the text it is computed from; the limit of 4300 digits is not modelled. *)
From Coq Require Import ZArith.
From Verif Require Import Base Buffer Jiter.

(** Do [f], then [g]. *)
Definition jthen {A B} (f : jop A) (g : A -> jop B) : jop B := fun l =>
  match f l with
  | (Ok v, a) => jat a (g v) l
  | (Err e, a) => (Err e, a)
  end.
Definition jret {A} (v : A) : jop A := fun _ => jok v 0.

(** ** Numbers. The decoders get the first byte [p] from the caller of [known_*]. *)
(** [IntParse::parse] behind the sign: whether the text up to there is an integer, or the beginning of a float. *)
Definition int_end (l : bytes) (n : nat) : result (bool * nat) (json_error * nat) :=
  Ok (match skipn n l with
      | y :: _ => negb (N.eqb y 46 || is_exp y)%bool
      | [] => true
      end, n).
Definition int_unsigned (l : bytes) : result (bool * nat) (json_error * nat) :=
  match l with
  | [] => Err (EofWhileParsingValue, 0)
  | x :: l' =>
      if N.eqb x 48 then
        match l' with
        | y :: _ => if is_digit y then Err (InvalidNumber, 1) else int_end l 1
        | [] => Ok (true, 1)
        end
      else if is_digit x then int_end l (digits l)
      else if N.eqb x 73 then Ok (false, 0)
      else Err (InvalidNumber, 0)
  end.
Definition int_parse (p : byte) (l : bytes) : result (bool * nat) (json_error * nat) :=
  if N.eqb p 45 then
    match int_unsigned (skipn 1 l) with
    | Ok (b, n) => Ok (b, S n)
    | Err (e, o) => Err (e, S o)
    end
  else if N.eqb p 78 then Ok (false, 0)
  else int_unsigned (p :: skipn 1 l).

(** The value of decimal digits. *)
Definition digits_value (l : bytes) : Z := fold_left (fun z x => 10 * z + (Z.of_N x - 48))%Z l 0%Z.
Definition int_value (l : bytes) : Z :=
  match l with
  | x :: l' => if N.eqb x 45 then (- digits_value l')%Z else digits_value l
  | [] => 0%Z
  end.

(** [NumberRange::decode] with the first byte [p]; [NumberFloat::decode] goes as far. *)
Definition range_as (p : byte) (l : bytes) : result nat (json_error * nat) :=
  if N.eqb p 45 then add_off 1 (num_unsigned (skipn 1 l))
  else if N.eqb p 78 then Err (ExpectedSomeValue, 0)
  else match l with
       | x :: _ => if N.eqb x 73 then Err (ExpectedSomeValue, 0) else num_unsigned l
       | [] => Err (EofWhileParsingValue, 0)
       end.
Definition num_fail {A} (e : json_error) (o : nat) : jres A * nat := (Err (JsonError e, o), 0).

(** [NumberInt::decode], [NumberFloat::decode], [NumberAny::decode]. *)
Inductive number_any := AnyInt (z : Z) | AnyFloat (text : bytes).
Definition decode_int (p : byte) : jop Z := fun l =>
  match int_parse p l with
  | Ok (true, n) => jok (int_value (firstn n (p :: skipn 1 l))) n
  | Ok (false, n) => num_fail FloatExpectingInt n
  | Err (e, o) => num_fail e o
  end.
Definition decode_float (p : byte) : jop bytes := fun l =>
  match range_as p l with
  | Ok n => jok (firstn n l) n
  | Err (e, o) => num_fail e o
  end.
Definition decode_any (p : byte) : jop number_any := fun l =>
  match int_parse p l with
  | Ok (true, n) => jok (AnyInt (int_value (firstn n (p :: skipn 1 l)))) n
  | Ok (false, _) =>
      match range_as p l with
      | Ok n => jok (AnyFloat (firstn n l)) n
      | Err (e, o) => num_fail e o
      end
  | Err (e, o) => num_fail e o
  end.

(** [Jiter::known_int], [known_float], [known_number]: an error is reported as such if [p] can begin a number, otherwise
    as a wrong type ([maybe_number_error]). *)
Definition known_num {A} (expected : json_type) (decode : byte -> jop A) (p : byte) : jop A := fun l =>
  match decode p l with
  | (Ok v, a) => (Ok v, a)
  | (Err e, a) => if is_num p then (Err e, a) else (wrong_type expected p l, a)
  end.
Definition j_known_int (p : byte) : jop Z := known_num TInt decode_int p.
Definition j_known_float (p : byte) : jop bytes := known_num TFloat decode_float p.
Definition j_known_number (p : byte) : jop number_any := known_num TInt decode_any p.
(** [Jiter::next_int], [next_float], [next_number]: peek, then the above. *)
Definition j_next_int : jop Z := jthen j_peek j_known_int.
Definition j_next_float : jop bytes := jthen j_peek j_known_float.
Definition j_next_number : jop number_any := jthen j_peek j_known_number.

(** ** Values: [JsonValue]. An object keeps all members, in order ([LazyIndexMap]). *)
Inductive jvalue :=
| VNull
| VBool (b : bool)
| VInt (z : Z)
| VFloat (text : bytes)
| VStr (d : bytes)
| VArray (l : list jvalue)
| VObject (m : list (bytes * jvalue)).
(** An array or object that is not complete: its elements so far; the key of the next member. *)
Inductive frame := FArray (l : list jvalue) | FObject (m : list (bytes * jvalue)) (k : bytes).

(** jiter's [DEFAULT_RECURSION_LIMIT]. *)
Definition recursion_limit : nat := 200.

Section Take.
(** The string decoder, and what is done with a number. *)
Context (D : jop bytes) (num : byte -> jop jvalue).

(** The beginning of a value: all of it, or an array or object with its first element ahead. *)
Definition take_begin (p : byte) : jop (jvalue + frame * byte) :=
  if N.eqb p 116 then jthen j_true (fun b => jret (inl (VBool b)))
  else if N.eqb p 102 then jthen j_false (fun b => jret (inl (VBool b)))
  else if N.eqb p 110 then jthen j_known_null (fun _ => jret (inl VNull))
  else if N.eqb p QUOTE then jthen D (fun d => jret (inl (VStr d)))
  else if N.eqb p LBRACK then
    jthen j_known_array (fun o =>
      match o with
      | None => jret (inl (VArray []))
      | Some q => jret (inr (FArray [], q))
      end)
  else if N.eqb p LBRACE then
    jthen (j_known_object D) (fun o =>
      match o with
      | None => jret (inl (VObject []))
      | Some k => jthen j_peek (fun q => jret (inr (FObject [] k, q)))
      end)
  else jthen (num p) (fun v => jret (inl v)).

(** Behind a value: the next element of the innermost array or object that goes on, or the value of the outermost. *)
Fixpoint take_step (v : jvalue) (stack : list frame) : jop (jvalue + byte * list frame) :=
  match stack with
  | [] => jret (inl v)
  | FArray l :: stack' =>
      jthen j_array_step (fun o =>
        match o with
        | None => take_step (VArray (l ++ [v])) stack'
        | Some q => jret (inr (q, FArray (l ++ [v]) :: stack'))
        end)
  | FObject m k :: stack' =>
      jthen (j_next_key D) (fun o =>
        match o with
        | None => take_step (VObject (m ++ [(k, v)])) stack'
        | Some k' => jthen j_peek (fun q => jret (inr (q, FObject (m ++ [(k, v)]) k' :: stack')))
        end)
  end.

(** [take_value], [take_value_recursive]. The stack includes the innermost array or object, which the crate keeps apart.
    Every round reads a byte; without fuel the answer is an error that does not occur otherwise (JiterValueProofs.v shows
    that it never runs out). *)
Fixpoint take_loop (fuel : nat) (p : byte) (stack : list frame) : jop jvalue :=
  match fuel with
  | 0 => fun _ => jfail TrailingCharacters
  | S fuel' =>
      jthen (take_begin p) (fun x =>
        match x with
        | inl v =>
            jthen (take_step v stack) (fun y =>
              match y with
              | inl v' => jret v'
              | inr (q, stack') => take_loop fuel' q stack'
              end)
        | inr (f, q) =>
            if recursion_limit <=? List.length stack then fun _ => jfail RecursionLimitExceeded
            else take_loop fuel' q (f :: stack)
        end)
  end.
Definition take (p : byte) : jop jvalue := fun l => take_loop (S (len l)) p [] l.
End Take.

(** The numbers of [take_value] ([NumberAny]) and of [take_value_skip] ([NumberRange]). *)
Definition value_number (p : byte) : jop jvalue := fun l =>
  match decode_any p l with
  | (Ok (AnyInt z), a) => (Ok (VInt z), a)
  | (Ok (AnyFloat t), a) => (Ok (VFloat t), a)
  | (Err e, a) => if is_num p then (Err e, a) else jfail ExpectedSomeValue
  end.
Definition skip_number (p : byte) : jop jvalue := fun l =>
  match range_as p l with
  | Ok n => jok VNull n
  | Err (e, o) => if is_num p then num_fail e o else jfail ExpectedSomeValue
  end.

(** [Jiter::known_value], [known_value_owned] (the same but for lifetimes). *)
Definition j_known_value (p : byte) : jop jvalue := take j_known_str value_number p.
Definition j_next_value : jop jvalue := jthen j_peek j_known_value.
(** [Jiter::known_skip]. [take_value_skip] goes through the value as [take_value] does, with [StringDecoderRange] and
    [NumberRange], and builds nothing. Modelled as the same function whose result is dropped. *)
Definition j_known_skip (p : byte) : jop unit := jthen (take j_known_bytes skip_number p) (fun _ => jret tt).
Definition j_next_skip : jop unit := jthen j_peek j_known_skip.
