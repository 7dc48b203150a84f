(** Property C110: what [idtransform] does with a text that is in order up to a faulty atom or a missing comma within arrays and objects. Only statements, examples and assumptions. *)
From Verif Require Import Base U8Pool Buffer BufferSpec Jiter RJiter RJiterSpec Scan ScanSpec IdTransform IdSpec SoundSpec UnicodeSpec FaultSpec FaultWordSpec FaultNumberSpec FaultAtomSpec FaultKeySpec FaultDeepSpec.
From Verif Require Import ScanExamples Prop_RJiter Prop_Value FaultProofs FaultDeepTop Prop_FaultAtom.

(** C110: a misspelt literal: what is in front of it is written, as for a text that is in order; the error is the one of the literal, with the
    position of the first wrong letter in the input; the parser stays in front of the literal. *)
Theorem C110_literal : forall m d r w p ws l o n b x t fl e k,
  sane m -> may_fail m = false -> start m r -> 5 <= rcap r -> rest r = ws ++ l -> spaces ws ->
  value_into (layout m) AtValue (x :: fl) false l o n b -> literal x t -> word_wrong t fl e k -> wfail w = None ->
  fresh d p -> (N.of_nat (1 + n) <= slices d)%N -> 5 + b <= space_for d -> (N.of_nat (5 + b) <= 65535)%N ->
  exists r' w' p', eventually (fun fuel => idtransform fuel r w p) (Done (r', w', p', Err (RJiterError (mkErr (JsonError e) (total r - len (x :: fl) + (1 + k)))))) /\
    RJiter.written w' = RJiter.written w ++ o /\ wfail w' = None /\ valid r' /\ rest r' = x :: fl.
Proof. exact deep_literal. Qed.
Print Assumptions C110_literal.
(** C110: a faulty number, or something that begins no value: the same with [UnhandledPeek] and the position of its beginning. *)
Theorem C110_number : forall m d r w p ws l o n b x fl K,
  sane m -> may_fail m = false -> start m r -> K <= rcap r -> rest r = ws ++ l -> spaces ws ->
  value_into (layout m) AtValue (x :: fl) false l o n b -> no_number (x :: fl) K -> x <> LBRACK -> x <> LBRACE -> x <> RBRACK -> wfail w = None ->
  fresh d p -> (N.of_nat (1 + n) <= slices d)%N -> 5 + b <= space_for d -> (N.of_nat (5 + b) <= 65535)%N ->
  exists r' w' p', eventually (fun fuel => idtransform fuel r w p) (Done (r', w', p', Err (UnhandledPeek x (total r - len (x :: fl))))) /\
    RJiter.written w' = RJiter.written w ++ o /\ wfail w' = None /\ valid r' /\ rest r' = x :: fl.
Proof. exact deep_number. Qed.
Print Assumptions C110_number.
(** C110: something else than a comma or the end behind an element of an array or a member of an object: the same with the error of the missing
    comma and the position of what stands there instead. *)
Theorem C110_comma : forall m d r w p ws l o n b x fl z closing e,
  sane m -> may_fail m = false -> start m r -> rest r = ws ++ l -> spaces ws ->
  value_into (layout m) z (x :: fl) false l o n b -> ends_place z closing e -> ~ blank x -> x <> COMMA -> x <> closing -> wfail w = None ->
  fresh d p -> (N.of_nat (1 + n) <= slices d)%N -> 5 + b <= space_for d -> (N.of_nat (5 + b) <= 65535)%N ->
  exists r' w' p', eventually (fun fuel => idtransform fuel r w p) (Done (r', w', p', Err (RJiterError (mkErr (JsonError e) (total r - len (x :: fl)))))) /\
    RJiter.written w' = RJiter.written w ++ o /\ wfail w' = None.
Proof. exact deep_comma. Qed.
Print Assumptions C110_comma.
(** C110: a fault in a string: what is in front of the string, a quote and a beginning of the text in front of the fault are written; the error
    is the one that names the fault. What is missing: the index is not less than the position of the fault, but may be greater, see
    C103_long_place_refuted; texts with escapes in front of the fault, if the reader does not fill what it is asked to fill; faulty
    surrogate pairs. *)
Theorem C110_string_partial : forall m d r w p ws l o n b T f e k after,
  sane m -> may_fail m = false -> start m r -> 8 <= rcap r -> rest r = ws ++ l -> spaces ws ->
  value_into (layout m) AtValue (QUOTE :: T ++ f ++ after) false l o n b -> fault f e k -> len f <= 6 -> faultless T -> front_text m T -> wfail w = None ->
  fresh d p -> (N.of_nat (1 + n) <= slices d)%N -> 5 + b <= space_for d -> (N.of_nat (5 + b) <= 65535)%N ->
  exists r' w' p' i a c, eventually (fun fuel => idtransform fuel r w p) (Done (r', w', p', Err (RJiterError (mkErr (JsonError e) i)))) /\
    total r - len (f ++ after) + k <= i /\ T = a ++ c /\ RJiter.written w' = RJiter.written w ++ o ++ QUOTE :: a /\ wfail w' = None.
Proof. exact deep_string. Qed.
Print Assumptions C110_string_partial.

Definition ex_deep_front : bytes := bs " [1, {""k"":null , ""a"" : [ true,".
Definition ex_deep (text : bytes) (sched : list event) (size : nat) : rj := ex_rj (ex_deep_front ++ text) sched size.
Definition ex_deep_sched : list event := [Chunk 4; Chunk 0; Chunk 7; Chunk 2; Chunk 0].
Definition deep_answer (text : bytes) : option (bytes * result unit scan_error * bytes) :=
  match idtransform 100 (ex_deep text ex_deep_sched 16) (mkWriter [] None) (ex_pool 80 6) with Done (r', w', _, v) => Some (RJiter.written w', v, rest r') | _ => None end.
Definition ex_deep_out : bytes := bs "[1,{""k"":null,""a"":[true,".
Ltac now_element :=
  lazymatch goal with |- value_at ?P ?b ?v ?l ?r => let l' := eval vm_compute in l in let r' := eval vm_compute in r in let v' := eval vm_compute in v in change (value_at P b v' l' r'); now_value end.
Example C110_example :
  (start (InChunks 16 true) (ex_deep (bs " nulk]}") ex_deep_sched 16) /\ rest (ex_deep (bs " nulk]}") ex_deep_sched 16) = [32%N] ++ skipn 1 (ex_deep_front ++ bs " nulk]}") /\
   value_into (layout (InChunks 16 true)) AtValue (bs "nulk]}") false (skipn 1 (ex_deep_front ++ bs " nulk]}")) ex_deep_out 3 16 /\
   literal 110%N (bs "ull") /\ word_wrong (bs "ull") (bs "ulk]}") ExpectedSomeIdent 2 /\ fresh (mkDims 6 56) (ex_pool 80 6)) /\
  deep_answer (bs " nulk]}") = Some (ex_deep_out, Err (RJiterError (mkErr (JsonError ExpectedSomeIdent) (len ex_deep_front + 4))), bs "nulk]}") /\
  deep_answer (bs "tr") = Some (ex_deep_out, Err (RJiterError (mkErr (JsonError EofWhileParsingValue) (len ex_deep_front + 2))), bs "tr") /\
  deep_answer (bs " -]") = Some (ex_deep_out, Err (UnhandledPeek 45%N (len ex_deep_front + 1)), bs "-]") /\
  deep_answer (bs ":1") = Some (ex_deep_out, Err (UnhandledPeek 58%N (len ex_deep_front)), bs ":1").
Proof.
  split; [|now_true]. split; [split; [now_valid|]; split; [reflexivity|]; split; [|reflexivity]; intros _; split; vm_compute; repeat constructor|].
  split; [vm_compute; reflexivity|]. split; [|split; [left; reflexivity|split; [apply (ww_letter (bs "ull") (bs "ul") 108%N [] 107%N (bs "]}")); [reflexivity|discriminate]|exists true, (repeat 0%N 80); vm_compute; auto]]].
  refine (vi_array _ _ (bs "nulk]}") false [] (JNumber (bs "1")) (bs "1, {""k"":null , ""a"" : [ true, nulk]}") (bs ", {""k"":null , ""a"" : [ true, nulk]}") (bs ",{""k"":null,""a"":[true,") 2 9 _ _ I _); [now_spaces|now_element|].
  refine (ii_here _ _ (bs "nulk]}") [] [32%N] (bs "{""k"":null , ""a"" : [ true, nulk]}") (bs "{""k"":null,""a"":[true,") 2 9 _ _ _); [now_spaces..|].
  refine (vi_object _ _ (bs "nulk]}") true [] (bs "k") [] [] JNull (bs "null , ""a"" : [ true, nulk]}") (bs " , ""a"" : [ true, nulk]}") (bs ",""a"":[true,") 2 9 _ _ _ _ _ _ _ _ I _);
    [now_spaces|now_text|split; discriminate|now_spaces|now_layout|now_spaces|now_layout|now_element|].
  refine (mi_here _ _ (bs "nulk]}") [32%N] [32%N] (bs "a") [32%N] [32%N] (bs "[ true, nulk]}") (bs "[true,") 1 7 _ _ _ _ _ _ _ _);
    [now_spaces|now_spaces|now_text|split; discriminate|now_spaces|now_layout|now_spaces|].
  refine (vi_array _ _ (bs "nulk]}") false [32%N] JTrue (bs "true, nulk]}") (bs ", nulk]}") (bs ",") 0 0 _ _ I _); [now_spaces|now_element|].
  refine (ii_here _ _ (bs "nulk]}") [] [32%N] (bs "nulk]}") [] 0 0 _ _ (vi_here _ _ _ _ eq_refl)); now_spaces.
Qed.

Definition comma_answer (text : bytes) : option (bytes * result unit scan_error) :=
  match idtransform 100 (ex_rj text ex_deep_sched 16) (mkWriter [] None) (ex_pool 80 6) with Done (_, w', _, v) => Some (RJiter.written w', v) | _ => None end.
Definition ex_comma : bytes := bs "[1, {""k"":null "":2}]".
Example C110_comma_example :
  (value_into (layout (InChunks 16 true)) BehindMember (bs """:2}]") false ex_comma (bs "[1,{""k"":null") 2 9 /\
   ends_place BehindMember RBRACE ExpectedObjectCommaOrEnd /\ ~ blank 34%N) /\
  comma_answer ex_comma = Some (bs "[1,{""k"":null", Err (RJiterError (mkErr (JsonError ExpectedObjectCommaOrEnd) 14))) /\
  comma_answer (bs " {""a"":[ true , {} }") = Some (bs "{""a"":[true,{}", Err (RJiterError (mkErr (JsonError ExpectedListCommaOrEnd) 18))).
Proof.
  split; [|now_true]. split; [|split; [constructor|intros [[H|[H|[H|H]]]|H]; discriminate H]].
  refine (vi_array _ _ (bs """:2}]") false [] (JNumber (bs "1")) (bs "1, {""k"":null "":2}]") (bs ", {""k"":null "":2}]") (bs ",{""k"":null") 1 2 _ _ I _); [now_spaces|now_element|].
  refine (ii_here _ _ (bs """:2}]") [] [32%N] (bs "{""k"":null "":2}]") (bs "{""k"":null") 1 2 _ _ _); [now_spaces..|].
  refine (vi_object _ _ (bs """:2}]") true [] (bs "k") [] [] JNull (bs "null "":2}]") (bs " "":2}]") [] 0 0 _ _ _ _ _ _ _ _ I _);
    [now_spaces|now_text|split; discriminate|now_spaces|now_layout|now_spaces|now_layout|now_element|].
  refine (mi_end _ _ (bs """:2}]") [32%N] eq_refl _); now_spaces.
Qed.

Definition ex_string : bytes := bs "[1,""0123456789abcdefghijkl\q""]".
Example C110_string_example :
  (value_into (layout (InChunks 16 true)) AtValue (QUOTE :: bs "0123456789abcdefghijkl" ++ [92; 113]%N ++ bs """]") false ex_string (bs "[1,") 1 7 /\
   fault [92; 113]%N InvalidEscape 1 /\ faultless (bs "0123456789abcdefghijkl") /\ front_text (InChunks 16 true) (bs "0123456789abcdefghijkl")) /\
  comma_answer ex_string = Some (bs "[1,""0123456789abc", Err (RJiterError (mkErr (JsonError InvalidEscape) 27))).
Proof.
  split; [|now_true]. split; [|split; [|split]].
  - refine (vi_array _ _ (QUOTE :: bs "0123456789abcdefghijkl" ++ [92; 113]%N ++ bs """]") false [] (JNumber (bs "1")) (bs "1,""0123456789abcdefghijkl\q""]") (bs ",""0123456789abcdefghijkl\q""]") (bs ",") 0 0 _ _ I _); [now_spaces|now_element|].
    refine (ii_here _ _ _ [] [] _ [] 0 0 _ _ (vi_here _ _ _ _ eq_refl)); now_spaces.
  - apply fa_letter; [|discriminate]. intros c H. cbn in H. repeat (destruct H as [H|H]; [discriminate H|]). exact H.
  - repeat (apply fl_byte; [discriminate..|]). constructor.
  - left. split; [repeat constructor; discriminate|vm_compute; reflexivity].
Qed.
