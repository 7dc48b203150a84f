(** Specification side of C110: texts that are in order up to a place within arrays and objects. *)
From Verif Require Import Base Buffer Jiter RJiter RJiterSpec ScanSpec IdSpec.

(** Where something is wrong: where a value is expected; behind an element of an array; behind a member of an object. *)
Inductive place := AtValue | BehindElement | BehindMember.
(** [value_into P z f b l o n m]: a value begins with [l], and [l] is in order up to [f], which stands at a place [z], possibly within arrays
    and objects. [o]: what is in front of [f], without white space. [n] names, with [m] bytes in all, have to be remembered
    at the same time on the way. [b]: [l] is an element of an array. *)
Inductive value_into (P : profile) (z : place) (f : bytes) : bool -> bytes -> bytes -> nat -> nat -> Prop :=
| vi_here b : z = AtValue -> value_into P z f b f [] 0 0
| vi_array_first b w l o n m : spaces w -> value_into P z f true l o n m -> value_into P z f b (LBRACK :: w ++ l) (LBRACK :: o) (S n) (7 + m)
| vi_array b w v l l1 o n m : spaces w -> value_at P true v l l1 -> ordinary v -> items_into P z f l1 o n m ->
    value_into P z f b (LBRACK :: w ++ l) (LBRACK :: compact v ++ o) (S (Nat.max (depth v) n)) (7 + Nat.max (mass v) m)
| vi_object_first b w k w1 w2 l o n m :
    spaces w -> string_text k -> ordinary_key k -> spaces w1 -> key_ok P k w1 -> spaces w2 ->
    open_ok P b (w ++ QUOTE :: k ++ QUOTE :: w1 ++ COLON :: w2 ++ l) -> value_into P z f false l o n m ->
    value_into P z f b (LBRACE :: w ++ QUOTE :: k ++ QUOTE :: w1 ++ COLON :: w2 ++ l) (LBRACE :: QUOTE :: k ++ QUOTE :: COLON :: o) (S n) (S (len k) + m)
| vi_object b w k w1 w2 v l l1 o n m :
    spaces w -> string_text k -> ordinary_key k -> spaces w1 -> key_ok P k w1 -> spaces w2 ->
    open_ok P b (w ++ QUOTE :: k ++ QUOTE :: w1 ++ COLON :: w2 ++ l) -> value_at P false v l l1 -> ordinary v -> members_into P z f l1 o n m ->
    value_into P z f b (LBRACE :: w ++ QUOTE :: k ++ QUOTE :: w1 ++ COLON :: w2 ++ l) (LBRACE :: QUOTE :: k ++ QUOTE :: COLON :: compact v ++ o)
      (Nat.max (S (depth v)) n) (Nat.max (S (len k) + mass v) m)
with items_into (P : profile) (z : place) (f : bytes) : bytes -> bytes -> nat -> nat -> Prop :=
| ii_end w : z = BehindElement -> spaces w -> items_into P z f (w ++ f) [] 0 0
| ii_here w w2 l o n m : spaces w -> spaces w2 -> value_into P z f true l o n m -> items_into P z f (w ++ COMMA :: w2 ++ l) (COMMA :: o) n m
| ii_next w w2 v l l1 o n m : spaces w -> spaces w2 -> value_at P true v l l1 -> ordinary v -> items_into P z f l1 o n m ->
    items_into P z f (w ++ COMMA :: w2 ++ l) (COMMA :: compact v ++ o) (Nat.max (depth v) n) (Nat.max (mass v) m)
with members_into (P : profile) (z : place) (f : bytes) : bytes -> bytes -> nat -> nat -> Prop :=
| mi_end w : z = BehindMember -> spaces w -> members_into P z f (w ++ f) [] 0 0
| mi_here w w0 k w1 w2 l o n m :
    spaces w -> spaces w0 -> string_text k -> ordinary_key k -> spaces w1 -> key_ok P k w1 -> spaces w2 -> value_into P z f false l o n m ->
    members_into P z f (w ++ COMMA :: w0 ++ QUOTE :: k ++ QUOTE :: w1 ++ COLON :: w2 ++ l) (COMMA :: QUOTE :: k ++ QUOTE :: COLON :: o) (S n) (S (len k) + m)
| mi_next w w0 k w1 w2 v l l1 o n m :
    spaces w -> spaces w0 -> string_text k -> ordinary_key k -> spaces w1 -> key_ok P k w1 -> spaces w2 ->
    value_at P false v l l1 -> ordinary v -> members_into P z f l1 o n m ->
    members_into P z f (w ++ COMMA :: w0 ++ QUOTE :: k ++ QUOTE :: w1 ++ COLON :: w2 ++ l) (COMMA :: QUOTE :: k ++ QUOTE :: COLON :: compact v ++ o)
      (Nat.max (S (depth v)) n) (Nat.max (S (len k) + mass v) m).
(** What may stand behind an element or a member except a comma, and the error if it is something else. *)
Inductive ends_place : place -> byte -> json_error -> Prop :=
| ep_element : ends_place BehindElement RBRACK ExpectedListCommaOrEnd
| ep_member : ends_place BehindMember RBRACE ExpectedObjectCommaOrEnd.
(** The texts in front of a fault in a string for which it is known what is written: without escapes; with escapes, except at the beginning,
    if the reader fills what it is asked to fill. *)
Definition front_text (m : setting) (T : bytes) : Prop :=
  (Forall (fun x => x <> BACKSLASH) T /\ is_utf8 T) \/ ((exists c b n, m = Filling c b n) /\ steady_text T).
