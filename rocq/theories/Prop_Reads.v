(** Property C104: the reader is not asked for more than is needed. Only statements, examples and assumptions. *)
From Coq Require Import ZArith.
From Verif Require Import Base U8Pool Buffer BufferSpec Jiter JiterValue RJiter RJiterSpec Scan ScanSpec IdTransform ArrivedSpec ReadsSpec.
From Verif Require Import ScanExamples RJiterWitness Reads ReadsErr.

Definition st {A} (x : outcome (rj * A)) : rj := match x with Done (s, _) => s | _ => ex_rj [] [] 0 end.
Definition ans {A} (x : outcome (rj * A)) : option A := match x with Done (_, r) => Some r | _ => None end.
Ltac now_valid := unfold valid, wf; vm_compute; repeat split; repeat constructor.

(** C104: if what is in the buffer is enough for the answer, the reader is not asked: for what the methods return ([f] is the plain
    parser, [jview s] is what is in the buffer), ... *)
Theorem C104_value : forall A k known token (f : jop A) op s v a, method k known token f op -> valid s ->
  f (jview s) = (Ok v, a) -> (k = Number \/ k = Whole -> a < List.length (jview s)) -> exists s', op s = Done (s', Ok v) /\ not_asked s s'.
Proof. exact @method_unasked. Qed.
Print Assumptions C104_value.
(** ... for long strings, lookahead and skipping, ... *)
Theorem C104_other : forall s P, valid s -> provided s P -> exists s', P s' /\ not_asked s s'.
Proof. exact provided_unasked. Qed.
Print Assumptions C104_other.
(** ... and for errors: an error that does not look like a lack of input is reported at once. *)
Theorem C104_error_partial : forall A k known token (f : jop A) op s e o a, method k known token f op -> valid s -> 2 <= rcap s ->
  on_token known (jview s) -> no_form_feed token (jview s) -> skip_jw (jview s) <> [] ->
  match k with Plain | Number => True | Separator | ObjectOpen | Whole => 0 < jidx s end ->
  f (jview s) = (Err (e, o), a) -> ~ seems_unfinished e ->
  exists s' er, op s = Done (s', Err er) /\ err_type er = e /\ not_asked s s'.
Proof. exact @error_at_once. Qed.
Print Assumptions C104_error_partial.
(** It is false of a missing comma. Whatever may follow what is in the buffer, there is no comma; but the reader is asked, and its
    failure is reported instead. *)
Theorem C104_comma_refuted : exists s s' e, valid s /\ 0 < jidx s /\
  (forall more, fst (j_array_step (jview s ++ more)) = Err (JsonError ExpectedListCommaOrEnd, 1)) /\
  array_step s = Done (s', Err e) /\ err_type e = IoError 5%N.
Proof.
  exists (st (next_int (st (next_array (st (peek (ex_rj (bs "[1 2]") [Chunk 3; Fail 5%N] 8))))))). do 2 eexists.
  split; [now_valid|]. split; [vm_compute; repeat constructor|]. split; [intros more; reflexivity|].
  split; vm_compute; reflexivity.
Qed.
Print Assumptions C104_comma_refuted.
(** It is reported only when the input has ended or the buffer is full, and never if the reader fails before. *)
Theorem C104_comma_waits : forall A t c er (op : rj -> outcome (rj * result A rerror)) s x l, step_method t c er op -> valid s -> 2 <= rcap s ->
  skip_aw (rest s) = x :: l -> x <> t -> x <> c ->
  exists s' e, op s = Done (s', Err e) /\ (is_io e = true /\ rquiet s = false \/ err_type e = JsonError er /\ has_read_on s').
Proof. exact @comma_waits. Qed.
Print Assumptions C104_comma_waits.
(** A call asks at most once for every byte that it gets, and twice or three times more. *)
Theorem C104_requests : forall A k known token (f : jop A) op s s' r, method k known token f op -> op s = Done (s', r) ->
  asked_beyond (match token with None => 2 | Some _ => 3 end) s s'.
Proof. exact @method_spent. Qed.
Print Assumptions C104_requests.
Theorem C104_other_requests : forall s s' n, other_call s s' n -> asked_beyond n s s'.
Proof. exact other_spent. Qed.
Print Assumptions C104_other_requests.
(** The bounds are met: the end of the input is not taken for the end when the reader says so for the first time. (At a terminal
    the end has to be typed three times.) *)
Theorem C104_end_refuted : exists s s' e, valid s /\ coming s = 0 /\ next_array s = Done (s', Err e) /\
  err_type e = JsonError EofWhileParsingValue /\ answers s = 3 /\ answers s' = 0.
Proof. exists (ex_rj [] (one_by_one (bs "abc")) 8). do 2 eexists. split; [now_valid|]. repeat (split; [vm_compute; reflexivity|]). vm_compute. reflexivity. Qed.
Print Assumptions C104_end_refuted.

(** The reader would fail if it were asked. *)
Example C104_value_example : let s := st (peek (ex_rj (bs " ""abc"", 1") [Chunk 7; Fail 5%N] 8)) in
  valid s /\ j_next_str (jview s) = (Ok (bs "abc"), 5) /\
  j_next_number (jview (st (peek (ex_rj (bs "12,") [Chunk 2; Fail 5%N] 8)))) = (Ok (AnyInt 12%Z), 2) /\
  ans (next_str s) = Some (Ok (bs "abc")) /\ ans (next_number (st (peek (ex_rj (bs "12,") [Chunk 2; Fail 5%N] 8)))) = Some (Ok (AnyInt 12%Z)).
Proof. split; [now_valid|]. repeat (split; [vm_compute; reflexivity|]). vm_compute. reflexivity. Qed.
Example C104_other_example : let s := st (peek (ex_rj (bs "data: 1") [Chunk 5; Fail 5%N] 8)) in
  valid s /\ provided s (fun s' => exists d, lookahead_n 4 s = Done (s', Ok d)) /\ provided s (fun s' => exists r, known_skip_token (bs "data:") s = Done (s', r)) /\
  provided s (fun s' => exists d, lookahead_while (fun x => negb (N.eqb x 58)) s = Done (s', Ok d)).
Proof.
  split; [now_valid|]. split; [constructor; vm_compute; repeat constructor|]. split; [constructor; vm_compute; repeat constructor|].
  apply (enough_while _ _ 58%N); [vm_compute; tauto|reflexivity].
Qed.
Example C104_error_example : let s := st (peek (ex_rj (bs "  trux") [Chunk 7; Fail 5%N] 8)) in
  valid s /\ 2 <= rcap s /\ no_form_feed None (jview s) /\ j_next_bool (jview s) = (Err (JsonError ExpectedSomeIdent, 3), 0) /\ ~ seems_unfinished (JsonError ExpectedSomeIdent) /\
  exists s' er, next_bool s = Done (s', Err er) /\ err_type er = JsonError ExpectedSomeIdent.
Proof.
  split; [now_valid|]. split; [vm_compute; repeat constructor|]. split; [vm_compute; reflexivity|]. split; [vm_compute; reflexivity|].
  split; [vm_compute; intuition discriminate|]. do 2 eexists. split; vm_compute; reflexivity.
Qed.
(** idtransform: the reader delivers [[1 2]] and fails, or goes on; the buffer has 16 bytes. *)
Definition copied (d : bytes) (q : list event) : option (bytes * result unit scan_error * nat) :=
  match idtransform 100 (ex_rj d q 16) (mkWriter [] None) (ex_pool 100 10) with Done (r, w, _, v) => Some (written w, v, coming r) | _ => None end.
Example C104_comma_example :
  copied (bs "[1 2] ") (one_by_one (bs "[1 2] ") ++ [Fail 5%N]) = Some (bs "[1", Err (RJiterError (mkErr (IoError 5%N) 3)), 0) /\
  copied (bs "[1 2, 3, 4, 5, 6, 7, 8, 9, 10, 11]") (one_by_one (repeat 0%N 40)) =
    Some (bs "[1", Err (RJiterError (mkErr (JsonError ExpectedListCommaOrEnd) 3)), 15).
Proof. split; vm_compute; reflexivity. Qed.
(** Four requests: three bytes and the end. *)
Example C104_requests_example : let s := ex_rj (bs "  1") (one_by_one (repeat 0%N 9)) 8 in
  exists s', next_int s = Done (s', Ok 1%Z) /\ answers s = 9 /\ answers s' = 5 /\ coming s = 3.
Proof. eexists. split; [vm_compute; reflexivity|]. repeat split. Qed.
Example C104_other_requests_example : exists s', other_call (ex_rj (bs "data") (one_by_one (repeat 0%N 9)) 8) s' 2 /\ answers s' = 4.
Proof. eexists. split; [eapply call_token with (t := bs "data:"); vm_compute; reflexivity|reflexivity]. Qed.
