(** A reader that hands on one byte at a time, and the numbers of its input. *)
From Verif Require Import Base Buffer.

(** Every read hands on one byte. *)
Definition one_by_one (d : bytes) : list event := repeat (Chunk 0) (List.length d).
(** The bytes of which JSON numbers consist. *)
Definition in_number (x : byte) : bool :=
  (((48 <=? x) && (x <=? 57)) || (x =? 43) || (x =? 45) || (x =? 46) || (x =? 69) || (x =? 101))%N.
(** No number, nor another sequence of such bytes, is as long as the buffer. *)
Definition runs_below (c : nat) (d : bytes) : Prop :=
  forall a n b, d = a ++ n ++ b -> Forall (fun x => in_number x = true) n -> List.length n < c.
(** The input does not end within what may be a number. *)
Definition ends_apart (d : bytes) : Prop := forall a x, d = a ++ [x] -> ~ (48 <= x <= 57)%N.
