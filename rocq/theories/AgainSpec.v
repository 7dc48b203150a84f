(** idtransform, called again and again. *)
From Verif Require Import Base U8Pool Buffer RJiter Scan ScanSpec IdTransform.

(** One successful call after the other, each with a working buffer of its own, on the same parser and writer. *)
Inductive calls : list pool -> rj -> writer -> rj -> writer -> Prop :=
| no_call r w : calls [] r w r w
| next_call p ps r w r1 w1 p1 r2 w2 : eventually (fun fuel => idtransform fuel r w p) (Done (r1, w1, p1, Ok tt)) ->
    calls ps r1 w1 r2 w2 -> calls (p :: ps) r w r2 w2.
(** The values [vs] and what is behind the last one. *)
Inductive values_then (P : profile) : list json -> bytes -> bytes -> Prop :=
| then_end l : values_then P [] l l
| then_value v vs l l1 r : document P v l l1 -> values_then P vs l1 r -> values_then P (v :: vs) l r.
