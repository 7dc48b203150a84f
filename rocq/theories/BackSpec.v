(** Specification side of the way from DynamoDB JSON to plain JSON and back. *)
From Verif Require Import Base ScanSpec IdSpec DdbSpec ConvSpec.

(** A value whose strings, keys and numbers are well-formed, and admitted by [P] where more input follows. *)
Fixpoint seated (P : profile) (v : json) : Prop :=
  match v with
  | JNumber t => number_text t /\ forall r, r <> [] -> number_ok P t r
  | JString t => string_text t /\ string_ok P t
  | JArray vs => fold_right (fun v Q => seated P v /\ Q) True vs
  | JObject ms => fold_right (fun '(k, v) Q => (string_text k /\ key_ok P k []) /\ seated P v /\ Q) True ms
  | _ => True
  end.
(** Neither sets nor binary values: plain JSON has no form of its own for them. *)
Fixpoint expressible (d : ddb) : Prop :=
  match d with
  | DB _ | DSS _ | DBS _ | DNS _ => False
  | DL l => fold_right (fun d P => expressible d /\ P) True l
  | DM ms => fold_right (fun '(_, d) P => expressible d /\ P) True ms
  | _ => True
  end.
