(** Specification side of C84: memory that changes while a slice of it is remembered. *)
From Verif Require Import Base U8Pool Buffer Jiter RJiter Scan Conv DdbToNormal IdTransform.

(** The same callbacks, but whenever they are called after the scanner has done something, that is before every lookup and before
    every end action, [g] has changed what the user state remembers. A begin action follows its lookup at once. The calls are
    counted, so that [g] can do something else each time. *)
Definition disturbed {B} (g : nat -> B -> B) (cb : callbacks B) : callbacks (B * nat) :=
  mkCallbacks
    (fun name x '(u, n) =>
       let '(u', a) := find_action cb name x (g n u) in
       ((u', S n), option_map (fun act r '(u, n) => do (r', u', op) <- act r u; Done (r', (u', n), op)) a))
    (fun name x '(u, n) =>
       let '(u', a) := find_end_action cb name x (g n u) in
       ((u', S n), option_map (fun act '(u, n) => do (u', v) <- act (g n u); Done ((u', S n), v)) a)).

(** The name that a converter remembers becomes [k]. *)
Definition spoil (k : option bytes) (c : conv) : conv := mkConv (cout c) (pending c) (pretty c) k (level c) (last_error c).
Definition spoil_d2n (k : option bytes) (c : d2n) : d2n := mkD2n (spoil k (base c)) (at_phase c) (current_type c).
(** The key that idtransform remembers becomes [k]. *)
Definition spoil_idt (k : bytes) (t : idt) : idt :=
  set_seq t (match seq t with AtBeginningKey _ => AtBeginningKey k | InMiddleKey _ => InMiddleKey k | q => q end).
