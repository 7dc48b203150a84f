(** For C94: callbacks that can be compared before and after. *)
From Verif Require Import Base RJiter Scan.

(** No callback uses the parser, and whatever one does to the user's state goes up in the order [Le]. *)
Definition adds {B} (Le : B -> B -> Prop) (cb : callbacks B) : Prop :=
  (forall n c u u' a, find_action cb n c u = (u', a) -> Le u u' /\
     (a = None \/ exists f, a = Some (fun r u => do (u', op) <- f u; Done (r, u', op)) /\ forall u u' op, f u = Done (u', op) -> Le u u')) /\
  (forall n c u u' a, find_end_action cb n c u = (u', a) -> Le u u' /\
     (a = None \/ exists f, a = Some f /\ forall u u' r, f u = Done (u', r) -> Le u u')).
