(** Specification side of soundness: the texts that a successful scan can have read. *)
From Verif Require Import Base U8Pool Buffer BufferSpec Jiter RJiter RJiterSpec Scan ScanSpec.

(** White space, and the form feed. *)
Definition blank (x : byte) : Prop := space x \/ x = 12%N.
Definition blanks (w : bytes) : Prop := Forall blank w.
(** [whole]: the input is in the buffer from the first read on. If it is not, a string with a backslash may be copied in
    pieces that do not fit together. *)
Definition lax_text (whole : bool) (t : bytes) : Prop := string_text t \/ (whole = false /\ In BACKSLASH t).
(** What may stand in front of an object without being noticed: an opening brace, or an opening brace and a key. *)
Definition junk (j : bytes) : Prop :=
  j = [LBRACE] \/ exists k w, j = LBRACE :: QUOTE :: k ++ QUOTE :: w /\ string_text k /\ spaces w.

(** [lax_value whole b v l r]: [l] starts with a text for [v], behind it is [r]. The differences to [value_at]: form
    feeds; nothing is said about what follows a number; broken strings; junk before objects (if [b]): before an object
    that is not an element of an array, and if [whole], before the very first object only. *)
Inductive lax_value (whole : bool) : bool -> json -> bytes -> bytes -> Prop :=
| lax_null b r : lax_value whole b JNull (bs "null" ++ r) r
| lax_true b r : lax_value whole b JTrue (bs "true" ++ r) r
| lax_false b r : lax_value whole b JFalse (bs "false" ++ r) r
| lax_number b t r : number_text t -> lax_value whole b (JNumber t) (t ++ r) r
| lax_string b t r : lax_text whole t -> lax_value whole b (JString t) (QUOTE :: t ++ QUOTE :: r) r
| lax_array_empty b w r : blanks w -> lax_value whole b (JArray []) (LBRACK :: w ++ RBRACK :: r) r
| lax_array b w v vs l l1 r :
    blanks w -> lax_value whole false v l l1 -> lax_items whole vs l1 r ->
    lax_value whole b (JArray (v :: vs)) (LBRACK :: w ++ l) r
| lax_object_empty b j w r :
    j = [] \/ (b = true /\ junk j) -> blanks w -> lax_value whole b (JObject []) (j ++ LBRACE :: w ++ RBRACE :: r) r
| lax_object b j w k w1 w2 v ms l l1 r :
    j = [] \/ (b = true /\ junk j) -> blanks w -> string_text k -> spaces w1 -> blanks w2 ->
    lax_value whole (negb whole) v l l1 -> lax_members whole ms l1 r ->
    lax_value whole b (JObject ((k, v) :: ms)) (j ++ LBRACE :: w ++ QUOTE :: k ++ QUOTE :: w1 ++ COLON :: w2 ++ l) r
with lax_items (whole : bool) : list json -> bytes -> bytes -> Prop :=
| lax_items_end w r : blanks w -> lax_items whole [] (w ++ RBRACK :: r) r
| lax_items_more w w2 v vs l l1 r :
    blanks w -> blanks w2 -> lax_value whole false v l l1 -> lax_items whole vs l1 r ->
    lax_items whole (v :: vs) (w ++ COMMA :: w2 ++ l) r
with lax_members (whole : bool) : list (bytes * json) -> bytes -> bytes -> Prop :=
| lax_members_end w r : blanks w -> lax_members whole [] (w ++ RBRACE :: r) r
| lax_members_more w w0 k w1 w2 v ms l l1 r :
    blanks w -> blanks w0 -> string_text k -> spaces w1 -> blanks w2 ->
    lax_value whole (negb whole) v l l1 -> lax_members whole ms l1 r ->
    lax_members whole ((k, v) :: ms) (w ++ COMMA :: w0 ++ QUOTE :: k ++ QUOTE :: w1 ++ COLON :: w2 ++ l) r.

Definition lax_document (whole b : bool) (v : json) (l r : bytes) : Prop :=
  exists w l', l = w ++ l' /\ blanks w /\ lax_value whole b v l' r.
(** Any number of values up to [r]; [b]: there may be junk before the first of them. *)
Inductive lax_documents (whole : bool) : bool -> list json -> bytes -> bytes -> Prop :=
| lax_docs_end b r : lax_documents whole b [] r r
| lax_docs_more b v vs l l1 r :
    lax_document whole b v l l1 -> lax_documents whole (negb whole) vs l1 r -> lax_documents whole b (v :: vs) l r.

(** ** Where the parser is: at the start, and later *)
Definition before (whole : bool) (c : nat) : rj -> Prop := states c (fun b => whole = true -> at_once b).
Definition after (whole : bool) (c : nat) : rj -> Prop := states c (fun b => whole = true -> src (rd b) = []).

(** ** Callbacks that read what they say they read: the converse of [respects] *)
Record heeds {B} (whole : bool) (c : nat) (cb : callbacks B) (beh : behaviour B) : Prop := mkHeeds {
  h_begin name b path s u :
    name <> PNone -> after whole c s -> (b = false -> 0 < jidx s) ->
    let '(u1, a) := find_action cb name (mkCtx path (List.length path)) u in
    match a with
    | None => forall v, announces name v -> on_begin beh name path v u u1 (Some OpNone)
    | Some act => forall s' u' op, act s u1 = Done (s', u', op) ->
        match op with
        | OpNone => (forall v, announces name v -> on_begin beh name path v u u' (Some OpNone)) /\
            after whole c s' /\ rest s' = rest s /\ (0 < jidx s -> 0 < jidx s')
        | ValueIsConsumed => exists v, announces name v /\ on_begin beh name path v u u' (Some ValueIsConsumed) /\
            after whole c s' /\ 0 < jidx s' /\ lax_document whole b v (rest s) (rest s')
        | OpError _ => True
        end
    end;
  h_key path s u :
    after whole c s -> 0 < jidx s ->
    let '(u1, a) := find_action cb PNone (mkCtx path (List.length path)) u in
    match a with
    | None => forall v, on_begin beh PNone path v u u1 (Some OpNone)
    | Some act => forall s' u' op, act s u1 = Done (s', u', op) ->
        match op with
        | OpNone => (forall v, on_begin beh PNone path v u u' (Some OpNone)) /\
            after whole c s' /\ (whole = true -> 0 < jidx s') /\ exists w, blanks w /\ rest s = w ++ rest s'
        | ValueIsConsumed => exists v, on_begin beh PNone path v u u' (Some ValueIsConsumed) /\
            after whole c s' /\ 0 < jidx s' /\ lax_document whole (negb whole) v (rest s) (rest s')
        | OpError _ => True
        end
    end;
  h_end name path u :
    name <> PAtom ->
    let '(u1, a) := find_end_action cb name (mkCtx path (List.length path)) u in
    match a with
    | None => on_end beh name path u u1 (Some (Ok tt))
    | Some act => forall u' e, act u1 = Done (u', Ok e) -> on_end beh name path u u' (Some (Ok tt))
    end }.

(** A literal cut short: the first letter of true, false or null, and then something else than the rest of the word. *)
Definition cut_literal (l : bytes) : Prop :=
  exists word, In word [bs "true"; bs "false"; bs "null"] /\ (exists r, l = firstn 1 word ++ r) /\ forall r, l <> word ++ r.
(** Input [l] begins with documents with the values [vs], in a layout [P], and [r] is left. *)
Inductive documents_until (P : profile) : list json -> bytes -> bytes -> Prop :=
| until_end l : documents_until P [] l l
| until_more v vs l l1 r : document P v l l1 -> documents_until P vs l1 r -> documents_until P (v :: vs) l r.
