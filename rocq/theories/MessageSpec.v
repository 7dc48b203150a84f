(** Specification side of the properties about the texts of the errors. *)
From Verif Require Import Base Buffer Scan Conv Cli Messages.

(** The texts of other crates tell their values apart. *)
Record telling (v : vocabulary) : Prop := mkTelling {
  t_json a b : json_text v a = json_text v b -> a = b;
  t_kind a b : kind_text v a = kind_text v b -> a = b;
  t_peek a b : peek_debug v a = peek_debug v b -> a = b;
  t_json_debug a b : json_debug v a = json_debug v b -> a = b;
  t_kind_debug a b : kind_debug v a = kind_debug v b -> a = b;
  (** [Debug] of an enumeration is a name *)
  t_json_name a : ~ In 41%N (json_debug v a);
  t_kind_name a : ~ In 32%N (kind_debug v a) }.
(** What a reader of the messages would take for a decimal number. *)
Definition numeral (l : bytes) : Prop := l <> [] /\ Forall (fun x => (48 <= x <= 57)%N) l.
(** The number that a numeral stands for. *)
Definition value (l : bytes) : N := fold_left (fun n x => (10 * n + (x - 48))%N) l 0%N.
(** The position is in the text, behind one of these words, and is not followed by another digit. *)
Definition mentions (text : bytes) (position : nat) : Prop :=
  exists before word digits after, text = before ++ bs word ++ digits ++ after /\ (word = " at position "%string \/ word = " at index "%string) /\
    numeral digits /\ value digits = N.of_nat position /\ match after with [] => True | x :: _ => ~ (48 <= x <= 57)%N end.
(** A context of the converters, followed by a type descriptor or not: no apostrophe. *)
Definition plain_context (e : conversion_error) : Prop :=
  match e with CRJiter _ c | CIo _ c | CParse c _ => ~ In 39%N (bs c) | CScan _ => True end.
(** The type descriptor in the message is the one of the input: the conversion to text changes nothing. *)
Definition shown (v : vocabulary) (e : conversion_error) : Prop :=
  match e with CParse _ (Some t) => lossy v t = t | CScan (IOError _) => False | _ => True end.
Definition readable (v : vocabulary) (x : ending) : Prop :=
  match x with Failure (CParse _ (Some t)) _ => lossy v t = t | _ => True end.
