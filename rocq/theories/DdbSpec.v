(** Specification side of the converters: DynamoDB JSON.
    https://docs.aws.amazon.com/amazondynamodb/latest/developerguide/Programming.LowLevelAPI.html#Programming.LowLevelAPI.DataTypeDescriptors *)
From Verif Require Import Base ScanSpec IdSpec.

(** ** From JSON *)
(** A value with its type descriptor. *)
Fixpoint typed (v : json) : json :=
  match v with
  | JNull => JObject [(bs "NULL", JTrue)]
  | JTrue => JObject [(bs "BOOL", JTrue)]
  | JFalse => JObject [(bs "BOOL", JFalse)]
  | JNumber t => JObject [(bs "N", JString t)]
  | JString t => JObject [(bs "S", JString t)]
  | JArray vs => JObject [(bs "L", JArray (map typed vs))]
  | JObject ms => JObject [(bs "M", JObject (map (fun '(k, v) => (k, typed v)) ms))]
  end.
(** A record: the members of an object have descriptors, the object itself has none; it can be wrapped in [Item]. *)
Definition record (wrapper : bool) (v : json) : json :=
  match v with
  | JObject ms =>
      let o := JObject (map (fun '(k, v) => (k, typed v)) ms) in
      if wrapper then JObject [(bs "Item", o)] else o
  | v => typed v
  end.

(** Numbers of at most [n] bytes. *)
Fixpoint numbers_within (n : nat) (v : json) : Prop :=
  match v with
  | JNumber t => len t <= n
  | JArray vs => fold_right (fun v P => numbers_within n v /\ P) True vs
  | JObject ms => fold_right (fun '(k, v) P => numbers_within n v /\ P) True ms
  | _ => True
  end.
(** Behind such a record a comma is still due. *)
Definition owes_comma (v : json) : bool :=
  match v with
  | JArray _ | JObject (_ :: _) => true
  | _ => false
  end.
(** No atom directly behind an array or a non-empty object ([due]: such a value is in front of the list). *)
Fixpoint atoms_apart (due : bool) (vs : list json) : Prop :=
  match vs with
  | [] => True
  | v :: vs => (due = true -> ~ atom v) /\ atoms_apart (owes_comma v) vs
  end.
(** One record per line. *)
Definition lines (l : list json) : bytes := List.concat (map (fun v => compact v ++ [10%N]) l).
(** A value whose strings, keys and numbers are well-formed, and (as strings) admitted by [P]. *)
Fixpoint suits (P : profile) (v : json) : Prop :=
  match v with
  | JNumber t => number_text t /\ string_ok P t
  | JString t => string_text t /\ string_ok P t
  | JArray vs => fold_right (fun v Q => suits P v /\ Q) True vs
  | JObject ms => fold_right (fun '(k, v) Q => (string_text k /\ key_ok P k []) /\ suits P v /\ Q) True ms
  | _ => True
  end.

(** ** DynamoDB values *)
Inductive ddb :=
| DS (t : bytes) | DB (t : bytes) | DN (t : bytes) | DBool (b : bool) | DNull
| DSS (l : list bytes) | DBS (l : list bytes) | DNS (l : list bytes)
| DL (l : list ddb) | DM (ms : list (bytes * ddb)).
(** As DynamoDB JSON. *)
Definition bool_json (b : bool) : json := if b then JTrue else JFalse.
Fixpoint ddb_json (d : ddb) : json :=
  match d with
  | DS t => JObject [(bs "S", JString t)]
  | DB t => JObject [(bs "B", JString t)]
  | DN t => JObject [(bs "N", JString t)]
  | DBool b => JObject [(bs "BOOL", bool_json b)]
  | DNull => JObject [(bs "NULL", JTrue)]
  | DSS l => JObject [(bs "SS", JArray (map JString l))]
  | DBS l => JObject [(bs "BS", JArray (map JString l))]
  | DNS l => JObject [(bs "NS", JArray (map JString l))]
  | DL l => JObject [(bs "L", JArray (map ddb_json l))]
  | DM ms => JObject [(bs "M", JObject (map (fun '(k, d) => (k, ddb_json d)) ms))]
  end.
(** As plain JSON: sets become arrays, binary values stay strings. *)
Fixpoint plain (d : ddb) : json :=
  match d with
  | DS t | DB t => JString t
  | DN t => JNumber t
  | DBool b => bool_json b
  | DNull => JNull
  | DSS l | DBS l => JArray (map JString l)
  | DNS l => JArray (map JNumber l)
  | DL l => JArray (map plain l)
  | DM ms => JObject (map (fun '(k, d) => (k, plain d)) ms)
  end.
(** An item is a list of named values. *)
Definition item_json (wrapped : bool) (ms : list (bytes * ddb)) : json :=
  let o := JObject (map (fun '(k, d) => (k, ddb_json d)) ms) in
  if wrapped then JObject [(bs "Item", o)] else o.
Definition plain_item (ms : list (bytes * ddb)) : json := JObject (map (fun '(k, d) => (k, plain d)) ms).

Definition is_set (d : ddb) : Prop := match d with DSS _ | DBS _ | DNS _ => True | _ => False end.
(** No name is "#array"; among the elements of a list only the first can be a set. *)
Fixpoint convertible (d : ddb) : Prop :=
  match d with
  | DL l => fold_right (fun d P => convertible d /\ P) True l /\ fold_right (fun d P => ~ is_set d /\ P) True (tl l)
  | DM ms => fold_right (fun '(k, d) P => (k <> bs "#array" /\ convertible d) /\ P) True ms
  | _ => True
  end.
Definition convertible_item (ms : list (bytes * ddb)) : Prop := Forall (fun '(k, d) => k <> bs "#array" /\ convertible d) ms.
(** Not every JSON value has a DynamoDB form; this is the one that the other converter chooses. *)
Fixpoint to_ddb (v : json) : ddb :=
  match v with
  | JNull => DNull
  | JTrue => DBool true
  | JFalse => DBool false
  | JNumber t => DN t
  | JString t => DS t
  | JArray vs => DL (map to_ddb vs)
  | JObject ms => DM (map (fun '(k, v) => (k, to_ddb v)) ms)
  end.
(** Strings and names are texts of JSON strings, numbers are JSON numbers. *)
Fixpoint well_formed (d : ddb) : Prop :=
  match d with
  | DS t | DB t => string_text t
  | DN t => number_text t
  | DBool _ | DNull => True
  | DSS l | DBS l => Forall string_text l
  | DNS l => Forall number_text l
  | DL l => fold_right (fun d P => well_formed d /\ P) True l
  | DM ms => fold_right (fun '(k, d) P => (string_text k /\ well_formed d) /\ P) True ms
  end.
Definition well_formed_item (ms : list (bytes * ddb)) : Prop := Forall (fun '(k, d) => string_text k /\ well_formed d) ms.

(** Numbers cut to their first [n] bytes. *)
Fixpoint clip (n : nat) (v : json) : json :=
  match v with
  | JNumber t => JNumber (firstn n t)
  | JArray vs => JArray (map (clip n) vs)
  | JObject ms => JObject (map (fun '(k, v) => (k, clip n v)) ms)
  | v => v
  end.
Definition is_object (v : json) : Prop := match v with JObject _ => True | _ => False end.
