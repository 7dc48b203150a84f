(** Specification side of errors about types: the types of values as their first byte tells them, and the methods that ask
    for a type. *)
From Verif Require Import Base Buffer Jiter JiterValue RJiter RJiterSpec Scan ScanSpec ValueSpec SoundSpec.

(** The first byte of a value, and its type (numbers apart). *)
Inductive heads : byte -> json_type -> Prop :=
| hs_null : heads 110%N TNull
| hs_true : heads 116%N TBool
| hs_false : heads 102%N TBool
| hs_string : heads 34%N TString
| hs_array : heads 91%N TArray
| hs_object : heads 123%N TObject.
(** The bytes that begin no value. *)
Definition no_head (x : byte) : Prop := (forall t, ~ heads x t) /\ x <> 45%N /\ ~ digit x.

(** The methods that ask for a value of a type, and the type that their error names. *)
Inductive asks : forall {A}, json_type -> (rj -> outcome (rj * result A rerror)) -> Prop :=
| ask_null : asks TNull next_null
| ask_bool : asks TBool next_bool
| ask_str : asks TString next_str
| ask_bytes : asks TString next_bytes
| ask_array : asks TArray next_array
| ask_object : asks TObject next_object
| ask_object_bytes : asks TObject next_object_bytes
| ask_int : asks TInt next_int
| ask_float : asks TFloat next_float
| ask_number : asks TInt next_number
| ask_number_bytes : asks TFloat next_number_bytes.
Definition numeric_type (t : json_type) : Prop := t = TInt \/ t = TFloat.

(** The call has failed in front of [l] with an error of the given kind, whose position is that of [l]; or the reader has
    failed. *)
Definition refused {A} (s : rj) (l : bytes) (Q : error_type -> Prop) (x : outcome (rj * result A rerror)) : Prop :=
  exists s' e, x = Done (s', Err e) /\
    ((is_io e = true /\ rquiet s = false) \/
     (Q (err_type e) /\ err_index e = total s - len l /\
      valid s' /\ rest s' = l /\ rcap s' = rcap s /\ total s' = total s /\ (rquiet s = true -> rquiet s' = true))).
