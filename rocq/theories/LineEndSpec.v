(** Specification side of C111: texts that differ only in how their lines are ended. *)
From Verif Require Import Base.

(** [with_feeds l l']: [l'] is [l] with every carriage return and line feed, and every carriage return alone, replaced by a line feed. *)
Inductive with_feeds : bytes -> bytes -> Prop :=
| wf_end : with_feeds [] []
| wf_other x l l' : x <> 13%N -> with_feeds l l' -> with_feeds (x :: l) (x :: l')
| wf_both l l' : with_feeds l l' -> with_feeds (13%N :: 10%N :: l) (10%N :: l')
| wf_return l l' : (forall y k, l = y :: k -> y <> 10%N) -> with_feeds l l' -> with_feeds (13%N :: l) (10%N :: l').
