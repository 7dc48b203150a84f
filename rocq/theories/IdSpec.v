(** Specification side of idtransform. *)
From Verif Require Import Base ScanSpec.

(** No key is spelled like an internal marker. *)
Definition ordinary_key (k : bytes) : Prop := k <> bs "#top" /\ k <> bs "#array".
Fixpoint ordinary (v : json) : Prop :=
  match v with
  | JArray vs => fold_right (fun v P => ordinary v /\ P) True vs
  | JObject ms => fold_right (fun '(k, v) P => (ordinary_key k /\ ordinary v) /\ P) True ms
  | _ => True
  end.

(** The names of a value fit in a new working buffer. *)
Definition has_room (d : dims) (v : json) : Prop :=
  (N.of_nat (1 + depth v) <= slices d)%N /\ 5 + mass v <= space_for d /\ (N.of_nat (5 + mass v) <= 65535)%N.
