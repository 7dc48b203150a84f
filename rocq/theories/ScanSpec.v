(** Specification side of scan_json: JSON values, their texts, and the tree walk that reports them. *)
From Verif Require Import Base U8Pool Buffer BufferSpec Jiter RJiter RJiterSpec Scan.

(** ** JSON values. Numbers and strings are kept as written (strings without the quotes). *)
Inductive json :=
| JNull | JTrue | JFalse
| JNumber (t : bytes)
| JString (t : bytes)
| JArray (l : list json)
| JObject (m : list (bytes * json)).

Definition atom (v : json) : Prop := match v with JArray _ | JObject _ => False | _ => True end.

(** The text without insignificant white space. *)
Fixpoint join (l : list bytes) : bytes :=
  match l with
  | [] => []
  | [x] => x
  | x :: l' => x ++ COMMA :: join l'
  end.
Fixpoint compact (v : json) : bytes :=
  match v with
  | JNull => bs "null"
  | JTrue => bs "true"
  | JFalse => bs "false"
  | JNumber t => t
  | JString t => QUOTE :: t ++ [QUOTE]
  | JArray l => LBRACK :: join (map compact l) ++ [RBRACK]
  | JObject m => LBRACE :: join (map (fun '(k, v) => QUOTE :: k ++ QUOTE :: COLON :: compact v) m) ++ [RBRACE]
  end.

(** ** The grammar *)
Definition space (x : byte) : Prop := (x = 32 \/ x = 9 \/ x = 10 \/ x = 13)%N.
Definition spaces (w : bytes) : Prop := Forall space w.
Definition digit (x : byte) : Prop := (48 <= x <= 57)%N.
Definition digits1 (d : bytes) : Prop := d <> [] /\ Forall digit d.
Definition sign (s : bytes) : Prop := s = [] \/ s = [45%N].
Definition integer (i : bytes) : Prop := i = [48%N] \/ exists x d, i = x :: d /\ (49 <= x <= 57)%N /\ Forall digit d.
Definition fraction (f : bytes) : Prop := f = [] \/ exists d, f = 46%N :: d /\ digits1 d.
Definition exponent (e : bytes) : Prop :=
  e = [] \/ exists m s d, e = m :: s ++ d /\ (m = 101 \/ m = 69)%N /\ (s = [] \/ s = [43%N] \/ s = [45%N]) /\ digits1 d.
Definition number_text (t : bytes) : Prop :=
  exists s i f e, t = s ++ i ++ f ++ e /\ sign s /\ integer i /\ fraction f /\ exponent e.
(** A number ends where no character of numbers follows. *)
Definition delimited (r : bytes) : Prop := match r with x :: _ => number_char x = false | [] => True end.
Definition string_text (t : bytes) : Prop := exists d, json_text true t d.

(** Restrictions on the layout, so that one grammar serves all theorems. [key_ok k w]: key and the white space before
    its colon; [string_ok]; [number_ok t r]: number and what follows; [open_ok b l]: the text behind the opening brace of
    an object, [b] if the object is an element of an array; [behind_token l]: the text behind a token between values. *)
Record profile := mkProfile {
  key_ok : bytes -> bytes -> Prop;
  string_ok : bytes -> Prop;
  number_ok : bytes -> bytes -> Prop;
  open_ok : bool -> bytes -> Prop;
  behind_token : bytes -> Prop }.
(** Plain JSON. *)
Definition any_layout : profile := mkProfile (fun _ _ => True) (fun _ => True) (fun _ _ => True) (fun _ _ => True) (fun _ => True).

(** [value_at P b v l r]: [l] starts with a text of [v], behind it is [r]. *)
Inductive value_at (P : profile) : bool -> json -> bytes -> bytes -> Prop :=
| at_null b r : value_at P b JNull (bs "null" ++ r) r
| at_true b r : value_at P b JTrue (bs "true" ++ r) r
| at_false b r : value_at P b JFalse (bs "false" ++ r) r
| at_number b t r : number_text t -> delimited r -> number_ok P t r -> value_at P b (JNumber t) (t ++ r) r
| at_string b t r : string_text t -> string_ok P t -> value_at P b (JString t) (QUOTE :: t ++ QUOTE :: r) r
| at_array_empty b w r : spaces w -> value_at P b (JArray []) (LBRACK :: w ++ RBRACK :: r) r
| at_array b w v vs l l1 r :
    spaces w -> value_at P true v l l1 -> items_at P vs l1 r -> value_at P b (JArray (v :: vs)) (LBRACK :: w ++ l) r
| at_object_empty b w r :
    spaces w -> open_ok P b (w ++ RBRACE :: r) -> value_at P b (JObject []) (LBRACE :: w ++ RBRACE :: r) r
| at_object b w k w1 w2 v ms l l1 r :
    spaces w -> string_text k -> spaces w1 -> key_ok P k w1 -> spaces w2 ->
    open_ok P b (w ++ QUOTE :: k ++ QUOTE :: w1 ++ COLON :: w2 ++ l) ->
    value_at P false v l l1 -> members_at P ms l1 r ->
    value_at P b (JObject ((k, v) :: ms)) (LBRACE :: w ++ QUOTE :: k ++ QUOTE :: w1 ++ COLON :: w2 ++ l) r
(** Behind an element of an array. *)
with items_at (P : profile) : list json -> bytes -> bytes -> Prop :=
| items_end w r : spaces w -> items_at P [] (w ++ RBRACK :: r) r
| items_more w w2 v vs l l1 r :
    spaces w -> spaces w2 -> value_at P true v l l1 -> items_at P vs l1 r ->
    items_at P (v :: vs) (w ++ COMMA :: w2 ++ l) r
(** Behind a member of an object. *)
with members_at (P : profile) : list (bytes * json) -> bytes -> bytes -> Prop :=
| members_end w r : spaces w -> members_at P [] (w ++ RBRACE :: r) r
| members_more w w0 k w1 w2 v ms l l1 r :
    spaces w -> spaces w0 -> string_text k -> spaces w1 -> key_ok P k w1 -> spaces w2 ->
    value_at P false v l l1 -> members_at P ms l1 r ->
    members_at P ((k, v) :: ms) (w ++ COMMA :: w0 ++ QUOTE :: k ++ QUOTE :: w1 ++ COLON :: w2 ++ l) r.

(** White space and a value. *)
Definition document (P : profile) (v : json) (l r : bytes) : Prop :=
  exists w l', l = w ++ l' /\ spaces w /\ value_at P false v l' r.
(** Any number of values, then the end of the input. *)
Inductive documents (P : profile) : list json -> bytes -> Prop :=
| docs_end l : spaces l -> documents P [] l
| docs_more v vs l r : document P v l r -> documents P vs r -> documents P (v :: vs) l.

(** ** The tree walk *)
(** What the callbacks do to the user state. [on_begin name path v u u' op]: the begin callbacks for the event [name] at
    [path] (innermost name first), in front of the value [v], change [u] to [u'] and answer [op] ([OpNone] if there is no
    callback; no answer: a panic). [on_end]: likewise for the end. *)
Record behaviour (B : Type) := mkBehaviour {
  on_begin : pseudoname -> list bytes -> json -> B -> B -> option stream_op -> Prop;
  on_end : pseudoname -> list bytes -> B -> B -> option (result unit string) -> Prop }.
Arguments mkBehaviour {B} _ _.
Arguments on_begin {B} _ _ _ _ _ _ _.
Arguments on_end {B} _ _ _ _ _ _.

(** The capacity of the working buffer: number of names, bytes for names (each takes one more byte). *)
Record dims := mkDims { slices : N; space_for : nat }.
Definition weight (path : list bytes) : nat := list_sum (map (fun k => S (len k)) path).
(** A new working buffer. *)
Definition fresh (d : dims) (p : pool) : Prop :=
  exists checks buffer, pool_new checks buffer (slices d) = Done (Ok p) /\ (slices d * 4 + 1 < usize_modulus)%N /\
    space_for d = len buffer - N.to_nat (slices d * 4).
(** No room for a name: because of the number of names (with that limit), or for another reason. *)
Inductive denial := TooDeep (level : N) | NoSpace.
Definition admit_name (d : dims) (path : list bytes) (k : bytes) : option denial :=
  if (slices d <=? N.of_nat (List.length path))%N then Some (TooDeep (slices d))
  else if space_for d <? weight path + S (len k) then Some NoSpace
  else if (65535 <? N.of_nat (weight path))%N then Some NoSpace
  else if (65535 <? N.of_nat (S (len k)))%N then Some NoSpace
  else None.

Inductive stop :=
| ByAction (m : string)     (* a callback asked for it *)
| Crashed                   (* a callback panicked *)
| Denied (x : denial)       (* no room for a name *)
| Broken.                   (* the parser failed *)
Inductive status := Through | Stopped (why : stop).
Definition halt (op : option stream_op) : option stop :=
  match op with
  | None => Some Crashed
  | Some (OpError m) => Some (ByAction m)
  | Some _ => None
  end.
Definition ended (e : option (result unit string)) : status :=
  match e with
  | None => Stopped Crashed
  | Some (Err m) => Stopped (ByAction m)
  | Some (Ok _) => Through
  end.

Section Walk.
Context {B : Type} (beh : behaviour B) (d : dims).
(** Whether the parser may fail. *)
Context (loose : bool).

(** The events of a value at [path], in document order: state before, state after, and how it ended. *)
Inductive walk_value : list bytes -> json -> B -> B -> status -> Prop :=
| w_value_broken path v u : loose = true -> walk_value path v u u (Stopped Broken)
| w_atom path v u u' op :
    atom v -> on_begin beh PAtom path v u u' op ->
    walk_value path v u u' (match halt op with Some why => Stopped why | None => Through end)
| w_atom_broken path v u u' :
    loose = true -> atom v -> on_begin beh PAtom path v u u' (Some OpNone) -> walk_value path v u u' (Stopped Broken)
| w_array_halt path vs u u' op why :
    on_begin beh PArray path (JArray vs) u u' op -> halt op = Some why -> walk_value path (JArray vs) u u' (Stopped why)
| w_array_consumed path vs u u' :
    on_begin beh PArray path (JArray vs) u u' (Some ValueIsConsumed) -> walk_value path (JArray vs) u u' Through
| w_array_denied path vs u u' x :
    on_begin beh PArray path (JArray vs) u u' (Some OpNone) -> admit_name d path (bs "#array") = Some x ->
    walk_value path (JArray vs) u u' (Stopped (Denied x))
| w_array_stopped path vs u u1 u2 why :
    on_begin beh PArray path (JArray vs) u u1 (Some OpNone) -> admit_name d path (bs "#array") = None ->
    walk_items (bs "#array" :: path) vs u1 u2 (Stopped why) -> walk_value path (JArray vs) u u2 (Stopped why)
| w_array path vs u u1 u2 u3 e :
    on_begin beh PArray path (JArray vs) u u1 (Some OpNone) -> admit_name d path (bs "#array") = None ->
    walk_items (bs "#array" :: path) vs u1 u2 Through -> on_end beh PArray path u2 u3 e ->
    walk_value path (JArray vs) u u3 (ended e)
| w_object_halt path ms u u' op why :
    on_begin beh PObject path (JObject ms) u u' op -> halt op = Some why -> walk_value path (JObject ms) u u' (Stopped why)
| w_object_consumed path ms u u' :
    on_begin beh PObject path (JObject ms) u u' (Some ValueIsConsumed) -> walk_value path (JObject ms) u u' Through
| w_object_stopped path ms u u1 u2 why :
    on_begin beh PObject path (JObject ms) u u1 (Some OpNone) ->
    walk_members path ms u1 u2 (Stopped why) -> walk_value path (JObject ms) u u2 (Stopped why)
| w_object path ms u u1 u2 u3 e :
    on_begin beh PObject path (JObject ms) u u1 (Some OpNone) ->
    walk_members path ms u1 u2 Through -> on_end beh PObject path u2 u3 e ->
    walk_value path (JObject ms) u u3 (ended e)
with walk_items : list bytes -> list json -> B -> B -> status -> Prop :=
| w_items_broken path vs u : loose = true -> walk_items path vs u u (Stopped Broken)
| w_items_end path u : walk_items path [] u u Through
| w_items_stopped path v vs u u' why :
    walk_value path v u u' (Stopped why) -> walk_items path (v :: vs) u u' (Stopped why)
| w_items path v vs u u1 u2 st :
    walk_value path v u u1 Through -> walk_items path vs u1 u2 st -> walk_items path (v :: vs) u u2 st
with walk_members : list bytes -> list (bytes * json) -> B -> B -> status -> Prop :=
| w_members_broken path ms u : loose = true -> walk_members path ms u u (Stopped Broken)
| w_members_end path u : walk_members path [] u u Through
| w_members_denied path k v ms u x :
    admit_name d path k = Some x -> walk_members path ((k, v) :: ms) u u (Stopped (Denied x))
| w_members_stopped path k v ms u u' why :
    admit_name d path k = None -> walk_member (k :: path) v u u' (Stopped why) ->
    walk_members path ((k, v) :: ms) u u' (Stopped why)
| w_members path k v ms u u1 u2 st :
    admit_name d path k = None -> walk_member (k :: path) v u u1 Through -> walk_members path ms u1 u2 st ->
    walk_members path ((k, v) :: ms) u u2 st
(** A member: the path ends with its key. *)
with walk_member : list bytes -> json -> B -> B -> status -> Prop :=
| w_member_halt path v u u' op why :
    on_begin beh PNone path v u u' op -> halt op = Some why -> walk_member path v u u' (Stopped why)
| w_member_consumed path v u u1 u2 e :
    on_begin beh PNone path v u u1 (Some ValueIsConsumed) -> on_end beh PNone path u1 u2 e ->
    walk_member path v u u2 (ended e)
| w_member_stopped path v u u1 u2 why :
    on_begin beh PNone path v u u1 (Some OpNone) -> walk_value path v u1 u2 (Stopped why) ->
    walk_member path v u u2 (Stopped why)
| w_member path v u u1 u2 u3 e :
    on_begin beh PNone path v u u1 (Some OpNone) -> walk_value path v u1 u2 Through -> on_end beh PNone path u2 u3 e ->
    walk_member path v u u3 (ended e).
End Walk.

(** A scan starts by noting the name [#top]; [W]: the walk below it. *)
Definition walk_top {B} (d : dims) (W : list bytes -> B -> B -> status -> Prop) (path : list bytes) (u u' : B) (st : status) : Prop :=
  match admit_name d path (bs "#top") with
  | Some x => u' = u /\ st = Stopped (Denied match x with TooDeep _ => TooDeep 0 | NoSpace => NoSpace end)
  | None => W (bs "#top" :: path) u u' st
  end.

(** The error a walk that stopped at position [i] is reported with. *)
Definition reports (why : stop) (i : nat) (e : scan_error) : Prop :=
  match why with
  | ByAction m => e = ActionError m i
  | Denied (TooDeep n) => e = MaxNestingExceeded i n
  | Denied NoSpace => (exists n, e = MaxNestingExceeded i n) \/ (exists m, e = InternalError i m)
  | Broken => True
  | Crashed => False
  end.

(** ** Callbacks that keep to a behaviour *)
(** The event in front of a value. *)
Definition announces (name : pseudoname) (v : json) : Prop :=
  match name with
  | PArray => exists vs, v = JArray vs
  | PObject => exists ms, v = JObject ms
  | PAtom => atom v
  | PNone => False
  end.
(** [G]: the states the parser is in between two calls. A begin callback leaves the parser in front of the value or, if it
    says that the value is consumed, behind it. *)
Record respects {B} (G : rj -> Prop) (P : profile) (cb : callbacks B) (beh : behaviour B) : Prop := mkRespects {
  r_value name b v l r path s u :
    announces name v -> G s -> rest s = l -> value_at P b v l r -> (b = true -> 0 < jidx s) ->
    let '(u1, a) := find_action cb name (mkCtx path (List.length path)) u in
    match a with
    | None => on_begin beh name path v u u1 (Some OpNone)
    | Some act =>
        (act s u1 = Panic /\ exists u', on_begin beh name path v u u' None) \/
        exists s' u' op, act s u1 = Done (s', u', op) /\ on_begin beh name path v u u' (Some op) /\
          match op with
          | OpNone => G s' /\ rest s' = l /\ (b = true -> 0 < jidx s')
          | ValueIsConsumed => G s' /\ rest s' = r
          | OpError _ => True
          end
    end;
  r_key v w l r path s u :
    G s -> rest s = w ++ l -> spaces w -> value_at P false v l r ->
    let '(u1, a) := find_action cb PNone (mkCtx path (List.length path)) u in
    match a with
    | None => on_begin beh PNone path v u u1 (Some OpNone)
    | Some act =>
        (act s u1 = Panic /\ exists u', on_begin beh PNone path v u u' None) \/
        exists s' u' op, act s u1 = Done (s', u', op) /\ on_begin beh PNone path v u u' (Some op) /\
          match op with
          | OpNone => G s' /\ exists w', rest s' = w' ++ l /\ spaces w'
          | ValueIsConsumed => G s' /\ rest s' = r
          | OpError _ => True
          end
    end;
  r_end name path u :
    name <> PAtom ->
    let '(u1, a) := find_end_action cb name (mkCtx path (List.length path)) u in
    match a with
    | None => on_end beh name path u u1 (Some (Ok tt))
    | Some act =>
        (act u1 = Panic /\ exists u', on_end beh name path u u' None) \/
        exists u' e, act u1 = Done (u', e) /\ on_end beh name path u u' (Some e)
    end }.

(** ** Settings: how the input arrives, and which layouts are then read *)
Definition states (c : nat) (J : buffer -> Prop) (s : rj) : Prop := valid s /\ rcap s = c /\ J (bf s).
(** String texts that are copied in pieces: without escapes and in UTF-8; if neither buffer nor input hold bytes that
    continue a UTF-8 character ([clean]), also ASCII texts with escapes other than surrogate pairs. *)
Definition plain_text (t : bytes) : Prop := Forall (fun x => x <> BACKSLASH) t /\ is_utf8 t.
Definition copied_text (clean : bool) (t : bytes) : Prop :=
  plain_text t \/ (clean = true /\ Forall (fun x => (x < 128)%N) t /\ exists d, json_text false t d).
(** With a reader that fills what it is asked to fill, also UTF-8 texts with escapes other than surrogate pairs, if they do not
    start with an escape. *)
Definition filled_text (clean : bool) (t : bytes) : Prop := copied_text clean t \/ steady_text t.
Definition tidy (clean : bool) (b : buffer) : Prop := clean = true -> holds_only leading b.
(** Arbitrary chunks, a reader that does not fail, a buffer of [c] bytes. Keys, with the white space behind them, and
    numbers fit in the buffer; no number ends the input; white space or the closing brace follows the opening brace of an
    object that is not an element of an array. *)
Definition chunked (c : nat) (clean : bool) : rj -> Prop := states c (fun b => tidy clean b /\ quiet b = true).
Definition chunk_layout (c : nat) (clean : bool) : profile :=
  mkProfile (fun k w => len k + len w + 4 < c) (copied_text clean) (fun t r => len t < c /\ r <> [])
    (fun b l => b = true \/ match l with x :: _ => space x \/ x = RBRACE | [] => False end) (fun _ => True).
(** The whole input is in the buffer, or the first read brings it there. No number ends the input. *)
Definition buffered (c : nat) : rj -> Prop := states c (fun b => src (rd b) = [] /\ quiet b = true).
Definition loadable (c : nat) : rj -> Prop := states c (fun b => at_once b /\ quiet b = true).
Definition buffer_layout : profile := mkProfile (fun _ _ => True) (fun _ => True) (fun _ r => r <> []) (fun _ _ => True) (fun _ => True).
(** Any reader, any schedule; the parser may fail. Numbers fit in the buffer. *)
Definition loose (c : nat) (clean : bool) : rj -> Prop := states c (tidy clean).
Definition loose_layout (c : nat) (clean : bool) : profile :=
  mkProfile (fun _ _ => True) (copied_text clean) (fun t _ => len t < c) (fun _ _ => True) (fun _ => True).

(** A reader that fills what it is asked to fill, as a slice does, and a buffer of [c] bytes: keys, with the white space
    behind them, and numbers fit in the buffer; if a key follows its opening brace directly, it also fits with the white
    space in front of an opening brace (at most [pad] bytes); no number ends the input; no opening brace follows a token
    directly. *)
Definition indented (pad : nat) (l : bytes) : Prop := forall a w b, l = a ++ w ++ LBRACE :: b -> spaces w -> len w <= pad.
Definition opening (l : bytes) : Prop := match l with x :: _ => x = LBRACE | [] => False end.
(** What is in the buffer when the parser stands in front of an opening brace. *)
Definition provided (c pad : nat) (s : rj) : Prop :=
  0 < jidx s \/ c <= n_bytes (bf s) + pad \/ src (rd (bf s)) = [] \/ n_bytes (bf s) = 0.
Definition filling (c : nat) (clean : bool) (pad : nat) (s : rj) : Prop :=
  states c (fun b => tidy clean b /\ sched (rd b) = []) s /\ indented pad (rest s) /\ (opening (rest s) -> provided c pad s).
Definition filling_layout (c : nat) (clean : bool) (pad : nat) : profile :=
  mkProfile (fun k w => len k + len w + 4 < c) (filled_text clean) (fun t r => len t < c /\ r <> [])
    (fun b l => b = true \/ match l with x :: _ => space x \/ x = RBRACE | [] => False end \/
       exists k w r, l = QUOTE :: k ++ QUOTE :: w ++ COLON :: r /\ string_text k /\ spaces w /\ len k + len w + 4 + pad < c)
    (fun l => ~ opening l).

Inductive setting :=
| InChunks (c : nat) (clean : bool) | InBuffer (c : nat) | Anyhow (c : nat) (clean : bool) | Filling (c : nat) (clean : bool) (pad : nat).
Definition sane (m : setting) : Prop := match m with InChunks c _ | Anyhow c _ | Filling c _ _ => 8 <= c | InBuffer c => 2 <= c end.
(** Where the scanner may be started; where the parser is between two calls; the layouts; whether it may fail. *)
Definition start (m : setting) : rj -> Prop :=
  match m with InChunks c b => chunked c b | InBuffer c => loadable c | Anyhow c b => loose c b | Filling c b n => filling c b n end.
Definition between (m : setting) : rj -> Prop :=
  match m with InChunks c b => chunked c b | InBuffer c => buffered c | Anyhow c b => loose c b | Filling c b n => filling c b n end.
Definition layout (m : setting) : profile :=
  match m with
  | InChunks c b => chunk_layout c b | InBuffer _ => buffer_layout | Anyhow c b => loose_layout c b | Filling c b n => filling_layout c b n
  end.
Definition may_fail (m : setting) : bool := match m with Anyhow _ _ => true | _ => false end.

(** ** Runs *)
Definition eventually {X} (F : nat -> X) (v : X) : Prop := exists n, forall fuel, n <= fuel -> F fuel = v.
(** How a run that follows a walk ends: the user state is [u], and [Q] holds after a success. *)
Definition outcome_is {B} (F : nat -> sres B unit) (u : B) (st : status) (Q : sstate B -> Prop) : Prop :=
  match st with
  | Through => exists s, eventually F (Done (s, Ok tt)) /\ user s = u /\ Q s
  | Stopped Crashed => eventually F Panic
  | Stopped why => exists s e, eventually F (Done (s, Err e)) /\ user s = u /\ reports why (current_index (parser s)) e
  end.

(** The name of a structural event in a path expression; none for a key. *)
Definition event_name (s : pseudoname) : option bytes :=
  match s with
  | PArray => Some (bs "#array") | PObject => Some (bs "#object") | PAtom => Some (bs "#atom") | PNone => None
  end.
Definition prefix (l path : list bytes) : Prop := exists tail, path = l ++ tail.
(** What [iter_match] is for. *)
Definition matches (expected : list bytes) (s : pseudoname) (path : list bytes) : Prop :=
  match event_name s with
  | Some x => expected = [] \/ exists e, expected = x :: e /\ prefix e path
  | None => prefix expected path
  end.

(** ** Writers *)
(** [w'] is [w] after taking the bytes [p]; the bytes [a] have gone to the destination. *)
Definition spent (w : writer) (p : bytes) (w' : writer) : Prop :=
  written w' = written w ++ p /\ wcap w' = wcap w /\ (len (held w) <= wcap w -> len (held w') <= wcap w) /\
  exists a, delivered w' = delivered w ++ a /\ (wcap w = 0 -> a = p /\ held w' = held w) /\
    match wfail w with
    | None => wfail w' = None
    | Some (n, k) => len a <= n /\ wfail w' = Some (n - len a, k)
    end.
(** It has just refused a byte, with error [k]. *)
Definition exhausted (w : writer) (k : io_kind) : Prop := wfail w = Some (0, k).
(** It has taken the bytes [a] and has then refused a byte; a buffer may have held back some bytes after that. *)
Definition worn (w : writer) (a : bytes) (w' : writer) (k : io_kind) : Prop :=
  exists w1 j, spent w a w1 /\ exhausted w1 k /\ spent w1 j w'.

(** ** Readers *)
(** The errors the reader is going to report. *)
Definition faults (s : rj) : list io_kind :=
  flat_map (fun x => match x with Fail k => [k] | Chunk _ => [] end) (sched (rd (bf s))).
(** The error [k] of the reader as the parser reports it. *)
Definition read_error (k : io_kind) (e : rerror) : Prop := err_type e = IoError k.
(** Callbacks that answer with an error when the reader reported one to them. *)
Definition passes_on {B} (cb : callbacks B) : Prop := forall name c u u1 act s s' u' op,
  find_action cb name c u = (u1, Some act) -> act s u1 = Done (s', u', op) ->
  faults s' = faults s \/ exists k message, faults s = k :: faults s' /\ op = OpError message.

(** ** Streams with tokens between the values *)
(** A byte no JSON value begins with ([I] and [N] are left out because the number parser looks at them). *)
Definition foreign (x : byte) : Prop :=
  is_ascii_whitespace x = false /\
  Forall (fun y => x <> y) (bs """[{ntf-0123456789IN").
(** The first token of the list that [l] starts with. *)
Definition starts_with (t l : bytes) : bool := beq (firstn (len t) l) t.
Fixpoint first_token (tokens : list bytes) (l : bytes) : option bytes :=
  match tokens with
  | [] => None
  | t :: ts => if starts_with t l then Some t else first_token ts l
  end.
(** [sequence tokens P marks vs bad l]: [l] holds the values [vs], tokens, and white space, up to its end or up to a byte
    that is out of place; if [marks], also tokens in brackets, as the [[DONE]] at the end of a stream of events. *)
Inductive sequence (tokens : list bytes) (P : profile) (marks : bool) : list json -> option byte -> bytes -> Prop :=
| seq_end l : spaces l -> sequence tokens P marks [] None l
| seq_bad w x l : spaces w -> foreign x -> first_token tokens (x :: l) = None -> sequence tokens P marks [] (Some x) (w ++ x :: l)
| seq_value v vs bad l r : document P v l r -> sequence tokens P marks vs bad r -> sequence tokens P marks (v :: vs) bad l
| seq_token w x t vs bad r :
    spaces w -> foreign x -> first_token tokens ((x :: t) ++ r) = Some (x :: t) -> behind_token P r ->
    sequence tokens P marks vs bad r -> sequence tokens P marks vs bad (w ++ (x :: t) ++ r)
| seq_mark w w1 x t w2 vs bad r :
    marks = true -> spaces w -> spaces w1 -> foreign x -> x <> RBRACK -> spaces w2 ->
    first_token tokens ((x :: t) ++ w2 ++ RBRACK :: r) = Some (x :: t) ->
    sequence tokens P marks vs bad r -> sequence tokens P marks vs bad (w ++ LBRACK :: w1 ++ (x :: t) ++ w2 ++ RBRACK :: r).
(** There is no action for an array at the top level or for an atom in it, and there is room for the array's name. *)
Definition marks_pass {B} (cb : callbacks B) (d : dims) : Prop :=
  admit_name d [bs "#top"] (bs "#array") = None /\
  forall u, find_action cb PArray (mkCtx [bs "#top"] 1) u = (u, None) /\
    find_end_action cb PArray (mkCtx [bs "#top"] 1) u = (u, None) /\
    find_action cb PAtom (mkCtx [bs "#array"; bs "#top"] 2) u = (u, None).
Definition size_of (m : setting) : nat := match m with InChunks c _ | InBuffer c | Anyhow c _ | Filling c _ _ => c end.

(** How the scan of a sequence ends. *)
Definition sequence_outcome {B} (F : nat -> sres B unit) (bad : option byte) (u : B) (st : status) (Q : sstate B -> Prop) : Prop :=
  match st, bad with
  | Through, Some x => exists s i, eventually F (Done (s, Err (UnhandledPeek x i))) /\ user s = u
  | _, _ => outcome_is F u st Q
  end.

(** ** An observer: callbacks everywhere, that note what they are called for and leave the parser alone *)
Inductive note := Begin (name : pseudoname) (path : list bytes) | End (name : pseudoname) (path : list bytes).
Definition observer : callbacks (list note) := mkCallbacks
  (fun name c u => (u, Some (fun r u => Done (r, u ++ [Begin name (names c)], OpNone))))
  (fun name c u => (u, Some (fun u => Done (u ++ [End name (names c)], Ok tt)))).

(** The notes in document order, up to the first name there is no room for. *)
Definition trace : Type := list note * option denial.
Definition chain (a b : trace) : trace := match a with (l, None) => (l ++ fst b, snd b) | _ => a end.
Definition once (x : note) : trace := ([x], None).
Definition room (d : dims) (path : list bytes) (k : bytes) (t : trace) : trace :=
  match admit_name d path k with Some x => ([], Some x) | None => t end.
Fixpoint trace_value (d : dims) (path : list bytes) (v : json) {struct v} : trace :=
  match v with
  | JArray vs =>
      chain (once (Begin PArray path))
        (room d path (bs "#array")
           (chain (fold_right (fun v => chain (trace_value d (bs "#array" :: path) v)) ([], None) vs) (once (End PArray path))))
  | JObject ms =>
      chain (once (Begin PObject path))
        (chain
           (fold_right
              (fun '(k, v) =>
                 chain (room d path k
                   (chain (once (Begin PNone (k :: path))) (chain (trace_value d (k :: path) v) (once (End PNone (k :: path))))))) ([], None) ms)
           (once (End PObject path)))
  | _ => once (Begin PAtom path)
  end.
Definition trace_values (d : dims) (path : list bytes) (vs : list json) : trace :=
  fold_right (fun v => chain (trace_value d path v)) ([], None) vs.
Definition end_of (t : trace) : status := match snd t with None => Through | Some x => Stopped (Denied x) end.

(** How many names a value needs at the same time, and how many bytes they take. *)
Fixpoint depth (v : json) : nat :=
  match v with
  | JArray vs => S (list_max (map depth vs))
  | JObject ms => list_max (map (fun '(k, v) => S (depth v)) ms)
  | _ => 0
  end.
Fixpoint mass (v : json) : nat :=
  match v with
  | JArray vs => S (len (bs "#array")) + list_max (map mass vs)
  | JObject ms => list_max (map (fun '(k, v) => S (len k) + mass v) ms)
  | _ => 0
  end.
