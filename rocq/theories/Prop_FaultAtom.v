(** Property C109: what [copy_atom] does in front of something that is wrong. Only statements, examples and assumptions. *)
From Verif Require Import Base U8Pool Buffer BufferSpec Jiter RJiter RJiterSpec Scan ScanSpec IdTransform IdSpec SoundSpec UnicodeSpec FaultSpec FaultWordSpec FaultNumberSpec FaultAtomSpec.
From Verif Require Import ScanExamples Prop_RJiter Prop_Value FaultProofs FaultAtom FaultTop Prop_Faults Prop_FaultWord.

(** C109: a misspelt literal: the error of the parser, with the position of the first wrong letter; nothing is written. *)
Theorem C109_literal : forall s w x t l e k, literal x t -> valid s -> 5 <= rcap s -> rest s = x :: l -> word_wrong t l e k ->
  exists s' r, copy_atom x s w = Done (s', w, Err (RJiterError r)) /\
    ((is_io r = true /\ rquiet s = false) \/ (r = mkErr (JsonError e) (total s - len (x :: l) + (1 + k)) /\ valid s' /\ rest s' = x :: l)).
Proof. exact literal_atom. Qed.
Print Assumptions C109_literal.
(** C109: a faulty number, or what begins no atom: [UnhandledPeek] with the position of its beginning; nothing is written and the parser stays there. *)
Theorem C109_number : forall s w x l K, no_number (x :: l) K -> valid s -> 2 <= rcap s -> K <= rcap s -> rest s = x :: l ->
  exists s' i, copy_atom x s w = Done (s', w, Err (UnhandledPeek x i)) /\
    (rquiet s = true -> i = total s - len (x :: l) /\ valid s' /\ rest s' = x :: l).
Proof. exact number_atom. Qed.
Print Assumptions C109_number.
(** C109: a faulty string: a quote and a beginning of the text in front of the fault are written; the error is that of the fault. The index is the
    one of [write_long_bytes]; see C103_long_bytes_partial, also for what is missing. *)
Theorem C109_string_partial : forall s w T f e o after,
  valid s -> 8 <= rcap s -> wfail w = None -> rest s = QUOTE :: T ++ f ++ after -> fault f e o -> len f <= 6 -> faultless T ->
  long_text (buf (bf s)) T \/ (fills (bf s) /\ steady_text T) ->
  exists s' w' r p q, copy_atom QUOTE s w = Done (s', w', Err (RJiterError r)) /\ T = p ++ q /\ RJiter.written w' = RJiter.written w ++ QUOTE :: p /\ wfail w' = None /\
    ((is_io r = true /\ rquiet s = false) \/
     r = mkErr (JsonError e) (total s - len (f ++ after) + o + (if len T + len f <? len (jview s) then jidx s else 0))).
Proof. exact string_atom. Qed.
Print Assumptions C109_string_partial.

(** C109: so answers [idtransform] in front of a misspelt literal or a faulty number that is not within an array or object, behind any white space. *)
Theorem C109_top_literal : forall d r w p ws x t l e k,
  literal x t -> word_wrong t l e k -> valid r -> 5 <= rcap r -> rquiet r = true -> rest r = ws ++ x :: l -> spaces ws ->
  fresh d p -> (1 <= slices d)%N -> 5 <= space_for d ->
  exists r' p', eventually (fun fuel => idtransform fuel r w p) (Done (r', w, p', Err (RJiterError (mkErr (JsonError e) (total r - len (x :: l) + (1 + k)))))) /\
    valid r' /\ rest r' = x :: l.
Proof. exact top_literal. Qed.
Print Assumptions C109_top_literal.
Theorem C109_top_number : forall d r w p ws x l K,
  no_number (x :: l) K -> x <> LBRACK -> x <> LBRACE -> valid r -> 2 <= rcap r -> K <= rcap r -> rquiet r = true ->
  rest r = ws ++ x :: l -> spaces ws -> fresh d p -> (1 <= slices d)%N -> 5 <= space_for d ->
  exists r' p', eventually (fun fuel => idtransform fuel r w p) (Done (r', w, p', Err (UnhandledPeek x (total r - len (x :: l))))) /\
    valid r' /\ rest r' = x :: l.
Proof. exact top_number. Qed.
Print Assumptions C109_top_number.

(** C109: [scan], if there is no callback for atoms, says [UnhandledPeek] with the position of the beginning, of a literal as well. *)
Theorem C109_scan_literal : forall B (cb : callbacks B) stop d r (u : B) p ws x t l e k, (forall c v, exists v', find_action cb PAtom c v = (v', None)) ->
  literal x t -> word_wrong t l e k -> valid r -> 5 <= rcap r -> rquiet r = true -> rest r = ws ++ x :: l -> spaces ws ->
  fresh d p -> (1 <= slices d)%N -> 5 <= space_for d ->
  exists s', eventually (fun fuel => scan cb (mkOptions [] stop) fuel (mkS r u p)) (Done (s', Err (UnhandledPeek x (total r - len (x :: l))))) /\
    valid (parser s') /\ rest (parser s') = x :: l.
Proof. exact @scan_literal. Qed.
Print Assumptions C109_scan_literal.
Theorem C109_scan_number : forall B (cb : callbacks B) stop d r (u : B) p ws x l K, (forall c v, exists v', find_action cb PAtom c v = (v', None)) ->
  no_number (x :: l) K -> x <> LBRACK -> x <> LBRACE -> valid r -> 2 <= rcap r -> K <= rcap r -> rquiet r = true -> rest r = ws ++ x :: l -> spaces ws ->
  fresh d p -> (1 <= slices d)%N -> 5 <= space_for d ->
  exists s', eventually (fun fuel => scan cb (mkOptions [] stop) fuel (mkS r u p)) (Done (s', Err (UnhandledPeek x (total r - len (x :: l))))) /\
    valid (parser s') /\ rest (parser s') = x :: l.
Proof. exact @scan_number. Qed.
Print Assumptions C109_scan_number.

Definition ex_atom (text : bytes) (sched : list event) : rj := ex_behind text sched 16.
Definition atom_answer (x : outcome (rj * writer * result unit scan_error)) : option (bytes * result unit scan_error * bytes) :=
  match x with Done (s, w, v) => Some (RJiter.written w, v, rest s) | _ => None end.
Definition ex_out : writer := mkWriter (bs "[") None.
Example C109_literal_example :
  (valid (ex_atom (bs "nulk") ex_one) /\ rest (ex_atom (bs "nulk") ex_one) = 110%N :: bs "ulk" /\ word_wrong (bs "ull") (bs "ulk") ExpectedSomeIdent 2) /\
  atom_answer (copy_atom 110%N (ex_atom (bs "nulk") ex_one) ex_out) = Some (bs "[", Err (RJiterError (mkErr (JsonError ExpectedSomeIdent) (4 + 3))), bs "nulk") /\
  atom_answer (copy_atom 102%N (ex_atom (bs "fals") ex_one) ex_out) = Some (bs "[", Err (RJiterError (mkErr (JsonError EofWhileParsingValue) (4 + 4))), bs "fals").
Proof.
  split; [|now_true]. split; [now_valid|]. split; [vm_compute; reflexivity|].
  apply (ww_letter (bs "ull") (bs "ul") 108%N [] 107%N []); [reflexivity|discriminate].
Qed.
Example C109_number_example :
  (valid (ex_atom (bs "1.x") ex_one) /\ rest (ex_atom (bs "1.x") ex_one) = 49%N :: bs ".x" /\ no_number (bs "1.x") 3 /\ no_number (bs "-") 1 /\ no_number (bs "[1]") 1) /\
  atom_answer (copy_atom 49%N (ex_atom (bs "1.x") ex_one) ex_out) = Some (bs "[", Err (UnhandledPeek 49%N 4), bs "1.x") /\
  atom_answer (copy_atom 45%N (ex_atom (bs "-") ex_one) ex_out) = Some (bs "[", Err (UnhandledPeek 45%N 4), bs "-") /\
  atom_answer (copy_atom 91%N (ex_atom (bs "[1]") ex_one) ex_out) = Some (bs "[", Err (UnhandledPeek 91%N 4), bs "[1]") /\
  atom_answer (copy_atom 63%N (ex_atom (bs "?") ex_one) ex_out) = Some (bs "[", Err (UnhandledPeek 63%N 4), bs "?").
Proof.
  split; [|now_true]. split; [now_valid|]. split; [vm_compute; reflexivity|]. split; [|split].
  - apply (nn_wrong (bs "1.x") InvalidNumber 2 []). apply (nw_digit (bs "1.") false 120%N); [|unfold digit; lia|discriminate].
    apply (aw_point [] (bs "1")); [exact sg_none|apply (wh_digits 49%N []); [lia|constructor]].
  - apply (nn_end (bs "-") false). constructor.
  - apply (nn_other 91%N (bs "1]")); try discriminate; [intros [[H|[H|[H|H]]]|H]; discriminate H|unfold digit; lia].
Qed.
Example C109_string_example :
  (valid (ex_atom (34%N :: bs "abcdefghijklmnopqrs\q") ex_one) /\ rest (ex_atom (34%N :: bs "abcdefghijklmnopqrs\q") ex_one) = 34%N :: bs "abcdefghijklmnopqrs" ++ bs "\q" ++ []) /\
  atom_answer (copy_atom QUOTE (ex_atom (34%N :: bs "abcdefghijklmnopqrs\q") ex_one) ex_out) =
    Some (bs "[" ++ QUOTE :: bs "abcdefghijklmnopqrs", Err (RJiterError (mkErr (JsonError InvalidEscape) (4 + 21))), 34%N :: bs "\q").
Proof. split; [|now_true]. split; [now_valid|]. vm_compute; reflexivity. Qed.
Definition id_answer (r : rj) : option (bytes * result unit scan_error * bytes) :=
  match idtransform 100 r ex_out (ex_pool 60 5) with Done (r', w', _, v) => Some (RJiter.written w', v, rest r') | _ => None end.
Example C109_top_example :
  (fresh (mkDims 5 40) (ex_pool 60 5) /\ valid (ex_word (bs "tru1") ex_one) /\ rest (ex_word (bs "tru1") ex_one) = bs "  " ++ 116%N :: bs "ru1" /\
   literal 116%N (bs "rue") /\ word_wrong (bs "rue") (bs "ru1") ExpectedSomeIdent 2) /\
  id_answer (ex_word (bs "tru1") ex_one) = Some (bs "[", Err (RJiterError (mkErr (JsonError ExpectedSomeIdent) (6 + 3))), bs "tru1") /\
  id_answer (ex_word (bs "-x") ex_one) = Some (bs "[", Err (UnhandledPeek 45%N 6), bs "-x") /\
  id_answer (ex_word (bs "]") ex_one) = Some (bs "[", Err (UnhandledPeek 93%N 6), bs "]") /\
  id_answer (ex_word (bs "12.") []) = Some (bs "[", Err (UnhandledPeek 49%N 6), bs "12.").
Proof.
  split; [|now_true]. split; [exists true, (repeat 0%N 60); vm_compute; auto|]. split; [now_valid|]. split; [vm_compute; reflexivity|]. split; [right; left; reflexivity|].
  apply (ww_letter (bs "rue") (bs "ru") 101%N [] 49%N []); [reflexivity|discriminate].
Qed.
Definition ex_silent : callbacks nat := mkCallbacks (fun _ _ n => (S n, None)) (fun _ _ n => (n, None)).
Definition scan_answer (r : rj) (stop : bool) : option (nat * result unit scan_error * bytes) :=
  match scan ex_silent (mkOptions [] stop) 100 (mkS r 0 (ex_pool 60 5)) with Done (s, v) => Some (user s, v, rest (parser s)) | _ => None end.
Example C109_scan_example :
  (forall c v, exists v', find_action ex_silent PAtom c v = (v', None)) /\
  scan_answer (ex_word (bs "tru1") ex_one) true = Some (1, Err (UnhandledPeek 116%N 6), bs "tru1") /\
  scan_answer (ex_word (bs "01") ex_one) false = Some (1, Err (UnhandledPeek 48%N 6), bs "01") /\
  scan_answer (ex_word (bs "}") ex_one) true = Some (1, Err (UnhandledPeek 125%N 6), bs "}").
Proof. split; [intros c v; eexists; reflexivity|now_true]. Qed.
