(** Model of the part of the external crate jiter 0.8.2 that rjiter uses (rjiter/Cargo.toml; the calls are in
    rjiter/src/rjiter.rs:63-320). jiter is not in /repo: this file is a transcription of its documented
    behaviour and belongs to the trusted base. No proofs here.

    An operation works on the bytes from the parser index to the end of the parser's slice. It returns a
    value or an error with the error position, and how far the index moved; both positions are
    relative to the index before the call. An index beyond the end is possible, as in the crate
    ([index += 1] is done unchecked). *)
From Verif Require Import Base Buffer.

Definition jerr : Type := error_type * nat.
Definition jres (A : Type) : Type := result A jerr.
Definition jop (A : Type) : Type := bytes -> jres A * nat.

Definition jfail {A} (e : json_error) : jres A * nat := (Err (JsonError e, 0), 0).
Definition jok {A} (v : A) (n : nat) : jres A * nat := (Ok v, n).

(** Continue [n] bytes further. *)
Definition jat {A} (n : nat) (f : jop A) : jop A := fun l =>
  match f (skipn n l) with
  | (Ok v, a) => (Ok v, n + a)
  | (Err (e, o), a) => (Err (e, n + o), n + a)
  end.

(** [eat_whitespace]: space, \r, \t, \n; the index stays advanced whatever follows. *)
Definition json_ws (x : byte) : bool := (N.eqb x 32 || N.eqb x 9 || N.eqb x 10 || N.eqb x 13)%bool.
Definition after_ws {A} (f : jop A) : jop A := fun l => jat (run_length json_ws l) f l.

(** The bytes with a meaning. *)
Definition QUOTE : byte := 34%N.
Definition BACKSLASH : byte := 92%N.
Definition COMMA : byte := 44%N.
Definition COLON : byte := 58%N.
Definition LBRACK : byte := 91%N.
Definition RBRACK : byte := 93%N.
Definition LBRACE : byte := 123%N.
Definition RBRACE : byte := 125%N.

(** [Jiter::peek]: the next byte that is not whitespace; any byte is accepted. *)
Definition j_peek : jop byte :=
  after_ws (fun l => match l with [] => jfail EofWhileParsingValue | x :: _ => jok x 0 end).

(** [Parser::array_first] ([Jiter::known_array]). *)
Definition j_known_array : jop (option byte) :=
  jat 1 (after_ws (fun l =>
    match l with
    | [] => jfail EofWhileParsingList
    | x :: _ => if N.eqb x RBRACK then jok None 1 else jok (Some x) 0
    end)).

(** [Parser::array_step] and its helper [array_peek]. *)
Definition array_peek : jop (option byte) :=
  after_ws (fun l =>
    match l with
    | [] => jfail EofWhileParsingValue
    | x :: _ => if N.eqb x RBRACK then jfail TrailingComma else jok (Some x) 0
    end).
Definition j_array_step : jop (option byte) :=
  after_ws (fun l =>
    match l with
    | [] => jfail EofWhileParsingList
    | x :: _ => if N.eqb x COMMA then jat 1 array_peek l
                else if N.eqb x RBRACK then jok None 1
                else jfail ExpectedListCommaOrEnd
    end).

(** *** Strings *)
Definition hex_val (x : byte) : option N :=
  (if (48 <=? x) && (x <=? 57) then Some (x - 48)
   else if (97 <=? x) && (x <=? 102) then Some (x - 87)
   else if (65 <=? x) && (x <=? 70) then Some (x - 55)
   else None)%N.

(** [parse_u4] on the four bytes behind the [u]; the error carries the number of the bad digit. *)
Definition u4 (a b c d : byte) : N + nat :=
  match hex_val a, hex_val b, hex_val c, hex_val d with
  | Some a, Some b, Some c, Some d => inl (((a * 16 + b) * 16 + c) * 16 + d)%N
  | None, _, _, _ => inr 0
  | _, None, _, _ => inr 1
  | _, _, None, _ => inr 2
  | _, _, _, None => inr 3
  end.

(** [char::encode_utf8]. *)
Definition utf8_encode (n : N) : bytes :=
  (if n <? 128 then [n]
   else if n <? 2048 then [192 + n / 64; 128 + n mod 64]
   else if n <? 65536 then [224 + n / 4096; 128 + (n / 64) mod 64; 128 + n mod 64]
   else [240 + n / 262144; 128 + (n / 4096) mod 64; 128 + (n / 64) mod 64; 128 + n mod 64])%N.

(** One step of the string scanner, at a byte behind the opening quote. *)
Inductive sstep :=
| SEnd                          (* the closing quote *)
| SPiece (n : nat) (d : bytes)  (* [n] >= 1 bytes of text that stand for [d] *)
| SFail (e : json_error) (o : nat).

Definition is_high (n : N) : bool := ((55296 <=? n) && (n <=? 56319))%N.
Definition is_low (n : N) : bool := ((56320 <=? n) && (n <=? 57343))%N.

(** [parse_escape] with the second half of a surrogate pair; [l] starts behind the first four digits
    (offset 6 from the backslash), [total] is the number of bytes from the backslash to the end. *)
Definition low_surrogate (n : N) (l : bytes) (total : nat) : sstep :=
  match l with
  | [] => SFail EofWhileParsingString total
  | [x] => if N.eqb x BACKSLASH then SFail EofWhileParsingString total
           else SFail UnexpectedEndOfHexEscape 6
  | x :: y :: l' =>
      if (N.eqb x BACKSLASH && N.eqb y 117)%bool then
        match l' with
        | a :: b :: c :: d :: _ =>
            match u4 a b c d with
            | inl m => if is_low m
                       then SPiece 12 (utf8_encode ((n - 55296) * 1024 + (m - 56320) + 65536)%N)
                       else SFail LoneLeadingSurrogateInHexEscape 11
            | inr i => SFail InvalidEscape (8 + i)
            end
        | _ => SFail EofWhileParsingString total
        end
      else if N.eqb x BACKSLASH then SFail UnexpectedEndOfHexEscape 7
      else SFail UnexpectedEndOfHexEscape 6
  end.

(** The escapes of one character. *)
Definition simple_escape (x : byte) : option byte :=
  (if (x =? 34) || (x =? 92) || (x =? 47) then Some x
   else if x =? 98 then Some 8
   else if x =? 102 then Some 12
   else if x =? 110 then Some 10
   else if x =? 114 then Some 13
   else if x =? 116 then Some 9
   else None)%N.

Definition string_step (l : bytes) : sstep :=
  match l with
  | [] => SFail EofWhileParsingString 0
  | x :: l1 =>
      if N.eqb x QUOTE then SEnd
      else if N.eqb x BACKSLASH then
        match l1 with
        | [] => SFail EofWhileParsingString 1
        | y :: l2 =>
            match simple_escape y with
            | Some d => SPiece 2 [d]
            | None =>
                if N.eqb y 117 then
                  match l2 with
                  | a :: b :: c :: d :: l3 =>
                      match u4 a b c d with
                      | inr i => SFail InvalidEscape (2 + i)
                      | inl n => if is_low n then SFail LoneLeadingSurrogateInHexEscape 5
                                 else if is_high n then low_surrogate n l3 (List.length l)
                                 else SPiece 6 (utf8_encode n)
                      end
                  | _ => SFail EofWhileParsingString (List.length l)
                  end
                else SFail InvalidEscape 1
            end
        end
      else if N.ltb x 32 then SFail ControlCharacterWhileParsingString 0
      else SPiece 1 [x]
  end.

(** The scanner: [skip] bytes belong to the last piece. Result: bytes up to the closing quote, decoded text. *)
Fixpoint scan_string (skip : nat) (l : bytes) : result (nat * bytes) (json_error * nat) :=
  let bump r := match r with
                | Ok (n, d) => Ok (S n, d)
                | Err (e, o) => Err (e, S o)
                end in
  match skip, l with
  | S k, _ :: l' => bump (scan_string k l')
  | S k, [] => Err (EofWhileParsingString, 0)
  | 0, _ =>
      match string_step l with
      | SEnd => Ok (0, [])
      | SFail e o => Err (e, o)
      | SPiece n d =>
          match l with
          | [] => Err (EofWhileParsingString, 0)
          | _ :: l' => match bump (scan_string (n - 1) l') with
                       | Ok (m, t) => Ok (m, d ++ t)
                       | Err e => Err e
                       end
          end
      end
  end.

(** UTF-8 validation ([str::from_utf8]): [None] if valid, else the number of valid bytes. *)
Definition cont (x : byte) : bool := ((128 <=? x) && (x <? 192))%N.
Definition utf8_char (l : bytes) : option nat :=
  match l with
  | [] => None
  | x :: l' =>
      (if x <? 128 then Some 1%nat
       else match l' with
       | [] => None
       | y :: l2 =>
           if (194 <=? x) && (x <? 224) then if cont y then Some 2%nat else None
           else match l2 with
           | [] => None
           | z :: l3 =>
               if (224 <=? x) && (x <? 240) then
                 if cont z && (if x =? 224 then (160 <=? y) && (y <? 192)
                               else if x =? 237 then (128 <=? y) && (y <? 160) else cont y)
                 then Some 3%nat else None
               else match l3 with
               | [] => None
               | w :: _ =>
                   if (240 <=? x) && (x <? 245) then
                     if cont z && cont w && (if x =? 240 then (144 <=? y) && (y <? 192)
                                             else if x =? 244 then (128 <=? y) && (y <? 144) else cont y)
                     then Some 4%nat else None
                   else None
               end
           end
       end)%N
  end.
Fixpoint utf8_invalid (skip : nat) (l : bytes) : option nat :=
  match skip, l with
  | _, [] => None
  | S k, _ :: l' => option_map S (utf8_invalid k l')
  | 0, _ :: l' =>
      match utf8_char l with
      | None => Some 0
      | Some n => option_map S (utf8_invalid (n - 1) l')
      end
  end.

(** [Jiter::known_bytes] ([StringDecoderRange]): the raw bytes between the quotes. The opening quote is not
    looked at. A failure leaves the index. *)
Definition j_known_bytes : jop bytes := fun l =>
  match scan_string 0 (skipn 1 l) with
  | Ok (n, _) => jok (firstn n (skipn 1 l)) (S (S n))
  | Err (e, o) => (Err (JsonError e, S o), 0)
  end.
(** [Jiter::known_str] ([StringDecoder]): escapes resolved, UTF-8 checked. *)
Definition j_known_str : jop bytes := fun l =>
  match scan_string 0 (skipn 1 l) with
  | Ok (n, d) =>
      match utf8_invalid 0 d with
      | None => jok d (S (S n))
      | Some v => (Err (JsonError InvalidUnicodeCodePoint, S (S v)), 0)
      end
  | Err (e, o) => (Err (JsonError e, S o), 0)
  end.

(** *** Objects, parametric in the string decoder used for the keys *)
Definition object_key (D : jop bytes) : jop (option bytes) := fun l =>
  match D l with
  | (Err e, _) => (Err e, 0)
  | (Ok k, a) =>
      jat a (after_ws (fun l => match l with
             | [] => jfail EofWhileParsingObject
             | x :: _ => if N.eqb x COLON then jok (Some k) 1 else jfail ExpectedColon
             end)) l
  end.
(** [Parser::object_first] ([Jiter::known_object], [known_object_bytes]). *)
Definition j_known_object (D : jop bytes) : jop (option bytes) :=
  jat 1 (after_ws (fun l =>
    match l with
    | [] => jfail EofWhileParsingObject
    | x :: _ => if N.eqb x QUOTE then object_key D l
                else if N.eqb x RBRACE then jok None 1
                else jfail KeyMustBeAString
    end)).
(** [Parser::object_step] ([Jiter::next_key], [next_key_bytes]). *)
Definition j_next_key (D : jop bytes) : jop (option bytes) :=
  after_ws (fun l =>
    match l with
    | [] => jfail EofWhileParsingObject
    | x :: _ =>
        if N.eqb x COMMA then
          jat 1 (after_ws (fun l =>
            match l with
            | [] => jfail EofWhileParsingValue
            | x :: _ => if N.eqb x QUOTE then object_key D l
                        else if N.eqb x RBRACE then jfail TrailingComma
                        else jfail KeyMustBeAString
            end)) l
        else if N.eqb x RBRACE then jok None 1
        else jfail ExpectedObjectCommaOrEnd
    end).

(** *** Identifiers: [Parser::consume_ident] *)
Fixpoint ident_rest (w l : bytes) (o : nat) : option (json_error * nat) :=
  match w, l with
  | [], _ => None
  | _ :: _, [] => Some (EofWhileParsingValue, o)
  | x :: w', y :: l' => if N.eqb x y then ident_rest w' l' (S o) else Some (ExpectedSomeIdent, o)
  end.
(** [w]: the bytes behind the first one, which is not looked at. *)
Definition j_ident {A} (w : bytes) (v : A) : jop A := fun l =>
  match ident_rest w (skipn 1 l) 1 with
  | None => jok v (S (List.length w))
  | Some (e, o) => (Err (JsonError e, o), 0)
  end.
Definition j_true : jop bool := j_ident (bs "rue") true.
Definition j_false : jop bool := j_ident (bs "alse") false.
Definition j_known_null : jop unit := j_ident (bs "ull") tt.

(** *** Numbers: [NumberRange::decode]. Only the extent of a number is modelled; the limit of 4300 digits is not.
    A failure leaves the index. *)
Definition is_digit (x : byte) : bool := ((48 <=? x) && (x <=? 57))%N.
Definition digits (l : bytes) : nat := run_length is_digit l.

(** [consume_exponential], behind the [e]. *)
Definition num_exponent (l : bytes) : result nat (json_error * nat) :=
  let s := match l with x :: _ => if (N.eqb x 43 || N.eqb x 45)%bool then 1 else 0 | [] => 0 end in
  match skipn s l with
  | [] => Err (EofWhileParsingValue, s)
  | x :: _ => if is_digit x then Ok (s + digits (skipn s l)) else Err (InvalidNumber, s)
  end.
Definition add_off (n : nat) (r : result nat (json_error * nat)) : result nat (json_error * nat) :=
  match r with Ok m => Ok (n + m) | Err (e, o) => Err (e, n + o) end.
Definition is_exp (x : byte) : bool := (N.eqb x 101 || N.eqb x 69)%bool.
(** [consume_decimal], behind the point. *)
Definition num_decimal (l : bytes) : result nat (json_error * nat) :=
  match l with
  | [] => Err (EofWhileParsingValue, 0)
  | x :: _ =>
      if is_digit x then
        let n := digits l in
        match skipn n l with
        | y :: l' => if is_exp y then add_off (S n) (num_exponent l') else Ok n
        | [] => Ok n
        end
      else Err (InvalidNumber, 0)
  end.
(** Behind the integer digits. *)
Definition num_tail (l : bytes) : result nat (json_error * nat) :=
  match l with
  | [] => Ok 0
  | x :: l' => if N.eqb x 46 then add_off 1 (num_decimal l')
               else if is_exp x then add_off 1 (num_exponent l')
               else Ok 0
  end.
(** Behind the sign. *)
Definition num_unsigned (l : bytes) : result nat (json_error * nat) :=
  match l with
  | [] => Err (EofWhileParsingValue, 0)
  | x :: l' =>
      if N.eqb x 48 then
        match l' with
        | y :: _ => if is_digit y then Err (InvalidNumber, 1) else add_off 1 (num_tail l')
        | [] => Ok 1
        end
      else if is_digit x then let n := digits l in add_off n (num_tail (skipn n l))
      else Err (InvalidNumber, 0)
  end.
(** [I] and [N] would begin [Infinity] and [NaN]; these are not allowed. *)
Definition is_inf_nan (x : byte) : bool := (N.eqb x 73 || N.eqb x 78)%bool.
Definition num_range (l : bytes) : result nat (json_error * nat) :=
  match l with
  | x :: l' => if N.eqb x 45 then add_off 1 (num_unsigned l')
               else if is_inf_nan x then Err (ExpectedSomeValue, 0)
               else num_unsigned l
  | [] => Err (EofWhileParsingValue, 0)
  end.
Definition is_num (x : byte) : bool := (is_digit x || N.eqb x 45 || N.eqb x 73 || N.eqb x 78)%bool.
Definition is_float_text (l : bytes) : bool := existsb (fun x => (N.eqb x 46 || is_exp x)%bool) l.

(** [Jiter::wrong_type]; [wrong_num] parses the number to name its type. *)
Definition wrong_type {A} (expected : json_type) (x : byte) (l : bytes) : jres A :=
  if N.eqb x QUOTE then Err (WrongType expected TString, 0)
  else if N.eqb x 110 then Err (WrongType expected TNull, 0)
  else if (N.eqb x 116 || N.eqb x 102)%bool then Err (WrongType expected TBool, 0)
  else if N.eqb x LBRACK then Err (WrongType expected TArray, 0)
  else if N.eqb x LBRACE then Err (WrongType expected TObject, 0)
  else if is_num x then
    match num_range l with
    | Ok n => Err (WrongType expected (if is_float_text (firstn n l) then TFloat else TInt), 0)
    | Err (e, o) => Err (JsonError e, o)
    end
  else Err (JsonError ExpectedSomeValue, 0).

(** The [next_*] family: peek, compare the type, continue with the [known_*] function. *)
Definition next_as {A} (expected : json_type) (ok : byte -> bool) (f : byte -> jop A) : jop A :=
  after_ws (fun l =>
    match l with
    | [] => jfail EofWhileParsingValue
    | x :: _ => if ok x then f x l else (wrong_type expected x l, 0)
    end).
Definition j_known_bool (peek : byte) : jop bool := fun l =>
  if N.eqb peek 116 then j_true l
  else if N.eqb peek 102 then j_false l
  else (wrong_type TBool peek l, 0).
Definition j_next_bool : jop bool :=
  next_as TBool (fun x => N.eqb x 116 || N.eqb x 102)%bool j_known_bool.
Definition j_next_null : jop unit := next_as TNull (N.eqb 110) (fun _ => j_known_null).
Definition j_next_array : jop (option byte) := next_as TArray (N.eqb LBRACK) (fun _ => j_known_array).
Definition j_next_object (D : jop bytes) : jop (option bytes) :=
  next_as TObject (N.eqb LBRACE) (fun _ => j_known_object D).
Definition j_next_bytes : jop bytes := next_as TString (N.eqb QUOTE) (fun _ => j_known_bytes).
Definition j_next_str : jop bytes := next_as TString (N.eqb QUOTE) (fun _ => j_known_str).
(** [next_number_bytes]. *)
Definition j_number : jop bytes := fun l =>
  match num_range l with
  | Ok n => jok (firstn n l) n
  | Err (e, o) => (Err (JsonError e, o), 0)
  end.
Definition j_next_number_bytes : jop bytes := next_as TFloat is_num (fun _ => j_number).

(** [Jiter::finish]. *)
Definition j_finish : jop unit :=
  after_ws (fun l => match l with [] => jok tt 0 | _ :: _ => jfail TrailingCharacters end).

(** [LinePosition::find]: line and column of position [find]. *)
Fixpoint line_find (l : bytes) (index last_line_start line find : nat) : nat * nat :=
  match l with
  | [] => (line, index - last_line_start)
  | x :: l' =>
      let '(line, last_line_start) :=
        if N.eqb x newline then (S line, S index) else (line, last_line_start) in
      if index =? find then (line, S index - last_line_start)
      else line_find l' (S index) last_line_start line find
  end.
(** [Jiter::error_position]. *)
Definition j_error_position (data : bytes) (index : nat) : nat * nat := line_find data 0 0 1 index.
