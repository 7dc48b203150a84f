(** Property C108: what is wrong in a number is named, and where. Only statements, examples and assumptions. *)
From Verif Require Import Base Buffer Jiter RJiter RJiterSpec Scan ScanSpec SoundSpec UnicodeSpec FaultSpec FaultNumberSpec.
From Verif Require Import ScanExamples Prop_RJiter Prop_Value FaultProofs FaultNumber Prop_Faults Prop_FaultWord.

(** C108: [next_number_bytes] on a digit missing behind a sign, a point or an exponent, or on a superfluous leading zero, says so; the position is
    that of the byte that is not the missing digit or that is superfluous, for every chunking; the parser stays in front of the number. *)
Theorem C108_number : forall s w a r e o,
  valid s -> 2 <= rcap s -> rest s = w ++ a ++ r -> blanks w -> number_wrong a e o -> len a <= rcap s ->
  refused_at s (a ++ r) (JsonError e) o (next_number_bytes s).
Proof. exact number_named. Qed.
Print Assumptions C108_number.
(** If the input ends where a digit is missing, the error is that, with the position of the end. *)
Theorem C108_end : forall s w a b,
  valid s -> 2 <= rcap s -> rest s = w ++ a -> blanks w -> awaits a b -> len a <= rcap s ->
  refused_at s a (JsonError EofWhileParsingValue) (len a) (next_number_bytes s).
Proof. exact number_cut. Qed.
Print Assumptions C108_end.
(** There is nothing else but a number. *)
Theorem C108_cases : forall x l, digit x \/ x = 45%N ->
  (exists a e o r, number_wrong a e o /\ x :: l = a ++ r) \/ (exists b, awaits (x :: l) b) \/
  exists g n f p r, sign g /\ whole n /\ fraction f /\ exponent p /\ ends f p r /\ x :: l = g ++ n ++ f ++ p ++ r.
Proof. exact number_cases. Qed.
Print Assumptions C108_cases.

Ltac nums := lazymatch goal with
  | |- sign _ => (exact sg_none || exact sg_minus)
  | |- whole _ => (exact wh_zero || (eapply wh_digits; nums))
  | |- fraction _ => (exact fr_none || (eapply fr_digits; nums))
  | |- Forall _ _ => (apply Forall_nil || (apply Forall_cons; nums))
  | |- _ => (split; vm_compute; discriminate)
  end.
Example C108_example :
  (valid (ex_word (bs "-12.5e+,") ex_one) /\ rest (ex_word (bs "-12.5e+,") ex_one) = bs "  " ++ bs "-12.5e+," ++ [] /\
   number_wrong (bs "-12.5e+,") InvalidNumber 7 /\ total (ex_word (bs "-12.5e+,") ex_one) - len (bs "-12.5e+,") = 6) /\
  ans (next_number_bytes (ex_word (bs "-12.5e+,") ex_one)) = Some (Err (mkErr (JsonError InvalidNumber) (6 + 7))) /\
  ans (next_number_bytes (ex_word (bs "007") ex_one)) = Some (Err (mkErr (JsonError InvalidNumber) (6 + 1))) /\
  ans (next_number_bytes (ex_word (bs "-01") [])) = Some (Err (mkErr (JsonError InvalidNumber) (6 + 2))) /\
  ans (next_number_bytes (ex_word (bs "-a") ex_one)) = Some (Err (mkErr (JsonError InvalidNumber) (6 + 1))) /\
  ans (next_number_bytes (ex_word (bs "1.]") ex_one)) = Some (Err (mkErr (JsonError InvalidNumber) (6 + 2))) /\
  ans (next_number_bytes (ex_word (bs "1E ") ex_one)) = Some (Err (mkErr (JsonError InvalidNumber) (6 + 2))) /\
  rest (st (next_number_bytes (ex_word (bs "1E ") ex_one))) = bs "1E ".
Proof.
  split; [|now_true]. split; [now_valid|]. split; [vm_compute; reflexivity|]. split; [|vm_compute; reflexivity].
  apply (nw_digit (bs "-12.5e+") false 44%N); [|unfold digit; lia|discriminate].
  apply (aw_exponent_sign [45%N] (bs "12") (bs ".5") 101%N 43%N); auto; nums.
Qed.
Example C108_end_example :
  (valid (ex_word (bs "0.25E") ex_one) /\ rest (ex_word (bs "0.25E") ex_one) = bs "  " ++ bs "0.25E" /\ awaits (bs "0.25E") true) /\
  ans (next_number_bytes (ex_word (bs "0.25E") ex_one)) = Some (Err (mkErr (JsonError EofWhileParsingValue) (6 + 5))) /\
  ans (next_number_bytes (ex_word (bs "-") ex_one)) = Some (Err (mkErr (JsonError EofWhileParsingValue) (6 + 1))) /\
  ans (next_number_bytes (ex_word (bs "3.") [])) = Some (Err (mkErr (JsonError EofWhileParsingValue) (6 + 2))) /\
  ans (next_number_bytes (ex_word (bs "3") [])) = Some (Ok (bs "3")).
Proof.
  split; [|now_true]. split; [now_valid|]. split; [vm_compute; reflexivity|].
  apply (aw_exponent [] (bs "0") (bs ".25") 69%N); auto; nums.
Qed.
Example C108_cases_example :
  (exists a e o r, number_wrong a e o /\ bs "1.x" = a ++ r) /\ awaits (bs "-") false /\
  (sign (bs "-") /\ whole (bs "10") /\ fraction (bs ".5") /\ exponent (bs "e7") /\ ends (bs ".5") (bs "e7") (bs ".") /\ bs "-10.5e7." = bs "-" ++ bs "10" ++ bs ".5" ++ bs "e7" ++ bs ".").
Proof.
  split; [|split; [constructor|]].
  - exists (bs "1.x"), InvalidNumber, 2, []. split; [|reflexivity]. apply (nw_digit (bs "1.") false 120%N); [|unfold digit; lia|discriminate].
    apply (aw_point [] (bs "1")); nums.
  - split; [nums|]. split; [nums|]. split; [nums|]. split; [apply (xp_digits 101%N [] 55%N []); auto; nums|].
    split; [|reflexivity]. split; [intros (H & _); revert H; vm_compute; auto|discriminate].
Qed.
