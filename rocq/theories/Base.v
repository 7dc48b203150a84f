(** Bytes, byte strings and the few list operations the models share.
    No proofs here. *)
From Coq Require Export List Arith NArith Bool Lia Ascii String.
From Coq Require Export ZifyBool ZifyNat ZifyN.
Export ListNotations.
Open Scope nat_scope.

(** A Rust [u8]. Values are not forced to be below 256: no operation of the
    modelled code depends on it except the descriptor encoding, which reduces modulo 256. *)
Definition byte := N.
Definition bytes := list byte.

(** Result of a computation that may panic (index out of bounds, overflow check)
    or that never returns ([Diverge]: the fuel that bounds a loop in the model ran out). *)
Inductive outcome (A : Type) : Type :=
| Done (a : A)
| Panic
| Diverge.
Arguments Done {A} a.
Arguments Panic {A}.
Arguments Diverge {A}.

Definition obind {A B} (x : outcome A) (f : A -> outcome B) : outcome B :=
  match x with Done a => f a | Panic => Panic | Diverge => Diverge end.
Notation "'do' x <- e ; k" := (obind e (fun x => k))
  (at level 200, x pattern, e at level 100, k at level 200).

(** Rust's [Result]. *)
Inductive result (A E : Type) : Type :=
| Ok (a : A)
| Err (e : E).
Arguments Ok {A E} a.
Arguments Err {A E} e.

(** String literals as bytes: [bs "abc"]. *)
Fixpoint bs (s : string) : bytes :=
  match s with
  | EmptyString => []
  | String c s' => N_of_ascii c :: bs s'
  end.

(** Byte-string comparison, Rust's [==] on slices. *)
Fixpoint beq (a b : bytes) : bool :=
  match a, b with
  | [], [] => true
  | x :: a', y :: b' => N.eqb x y && beq a' b'
  | _, _ => false
  end.

(** [&l[a..b]]: [None] where Rust panics. *)
Definition slice (l : bytes) (a b : nat) : option bytes :=
  if (a <=? b) && (b <=? List.length l) then Some (firstn (b - a) (skipn a l)) else None.

(** [l[a..a+d.len()].copy_from_slice(d)] for an in-range target. *)
Definition write_at (l : bytes) (a : nat) (d : bytes) : bytes :=
  firstn a l ++ d ++ skipn (a + List.length d) l.

Notation len := (@List.length byte).
