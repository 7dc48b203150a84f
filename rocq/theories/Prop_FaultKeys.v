(** Property C106: what is wrong at a key, at an element or at a comma is named, and where it is. Only statements, examples and assumptions. *)
From Verif Require Import Base Buffer Jiter RJiter RJiterSpec Scan ScanSpec SoundSpec UnicodeSpec ReadsSpec FaultSpec FaultKeySpec.
From Verif Require Import ScanExamples Prop_RJiter Prop_Value UnicodeProofs FaultProofs FaultKeys FaultComma Prop_Faults.

(** C106: if something is wrong at a key in front of the parser, the call fails with the name of the first thing that is wrong, for
    every chunking. The position is not that of the byte to blame, which is [total s - len m + o]: the token is counted twice, and so is
    the key if it has been read. What is missing: the position, see C106_place_refuted, and states in which the parser is at the
    beginning of a buffer that is not empty, see C106_front_refuted. *)
Theorem C106_key_partial : forall known token op s w u m e o reach a, key_method known token op -> (known = true -> w = []) ->
  valid s -> 2 <= rcap s -> rest s = w ++ token :: u ++ m -> blanks w -> blanks u -> key_wrong token m e o reach a ->
  1 + reach <= rcap s -> (0 < jidx s \/ (n_bytes (bf s) = 0 /\ known = false)) ->
  blamed (rquiet s) (JsonError e) (total s - len m + o + (1 + a)) (op s).
Proof. exact key_blamed. Qed.
Print Assumptions C106_key_partial.
Definition ex_key (text : bytes) (sched : list event) : rj := ex_behind (bs "  " ++ text) sched 24.
Example C106_key_example :
  (valid (ex_key (bs "{ ""ab"" 1") ex_one) /\ rest (ex_key (bs "{ ""ab"" 1") ex_one) = bs "  " ++ 123%N :: bs " " ++ (34%N :: bs "ab" ++ 34%N :: bs " " ++ 49%N :: []) /\
   key_wrong 123%N (34%N :: bs "ab" ++ 34%N :: bs " " ++ 49%N :: []) ExpectedColon 5 6 5 /\
   total (ex_key (bs "{ ""ab"" 1") ex_one) = 14 /\ 0 < jidx (ex_key (bs "{ ""ab"" 1") ex_one)) /\
  ans (next_object (ex_key (bs "{ ""ab"" 1") ex_one)) = Some (Err (mkErr (JsonError ExpectedColon) (13 + 6))) /\
  ans (next_object_bytes (ex_key (bs "{""ab\q") ex_one)) = Some (Err (mkErr (JsonError InvalidEscape) (11 + 1))) /\
  ans (next_key (ex_key (bs ", ""ab") ex_one)) = Some (Err (mkErr (JsonError EofWhileParsingString) (11 + 1))) /\
  ans (next_key_bytes (ex_key (bs ", x") [])) = Some (Err (mkErr (JsonError KeyMustBeAString) (8 + 1))) /\
  ans (next_key (ex_key (bs ",}") [])) = Some (Err (mkErr (JsonError TrailingComma) (7 + 1))) /\
  ans (next_key (ex_key (bs ", ") ex_one)) = Some (Err (mkErr (JsonError EofWhileParsingValue) (8 + 1))) /\
  ans (known_object (ex_behind (bs "{ ") ex_one 24)) = Some (Err (mkErr (JsonError EofWhileParsingObject) (6 + 1))) /\
  ans (known_object (ex_behind (bs "{""ab"" ") ex_one 24)) = Some (Err (mkErr (JsonError EofWhileParsingObject) (10 + 6))).
Proof.
  split; [|now_true]. split; [now_valid|]. split; [vm_compute; reflexivity|]. split; [|split; [vm_compute; reflexivity|vm_compute; lia]].
  apply (kw_no_colon 123%N (bs "ab") [97; 98]%N (bs " ") 49%N []).
  - change (bs "ab") with ([97]%N ++ [98]%N ++ []). apply rd_character; [left; lia|lia|discriminate..|apply en_one; lia|].
    apply rd_character; [left; lia|lia|discriminate..|apply en_one; lia|]. constructor.
  - repeat constructor.
  - unfold space. intros [H|[H|[H|H]]]; discriminate H.
  - discriminate.
Qed.
(** There is nothing else but keys, the end of an empty object, and keys that do not spell characters. *)
Theorem C106_cases : forall token m, token = 123%N \/ token = 44%N -> (forall x l, m = x :: l -> ~ blank x) -> key_case token m.
Proof. exact key_cases. Qed.
Print Assumptions C106_cases.
Example C106_cases_example : key_case 123%N (bs """a"" : 1") /\ key_case 44%N (bs "}") /\ key_case 123%N (34%N :: [255%N] ++ 34%N :: []).
Proof.
  repeat split; apply C106_cases; auto; intros x l E; vm_compute in E; injection E as <- _; unfold blank, space; intros [[H|[H|[H|H]]]|H]; discriminate H.
Qed.
(** C106: the same behind the opening bracket of an array and behind a comma in an array. The token is counted twice. *)
Theorem C106_element_partial : forall known token op s w u m e, element_method known token op -> (known = true -> w = []) ->
  valid s -> 2 <= rcap s -> rest s = w ++ token :: u ++ m -> blanks w -> spaces u -> element_wrong token m e ->
  (0 < jidx s \/ (n_bytes (bf s) = 0 /\ known = false)) ->
  blamed (rquiet s) (JsonError e) (total s - len m + 1) (op s).
Proof. exact element_blamed. Qed.
Print Assumptions C106_element_partial.
Example C106_element_example :
  (valid (ex_key (bs ", ]") ex_one) /\ rest (ex_key (bs ", ]") ex_one) = bs "  " ++ 44%N :: bs " " ++ 93%N :: [] /\ element_wrong 44%N (93%N :: []) TrailingComma) /\
  ans (array_step (ex_key (bs ", ]") ex_one)) = Some (Err (mkErr (JsonError TrailingComma) (8 + 1))) /\
  ans (array_step (ex_key (bs ", ") ex_one)) = Some (Err (mkErr (JsonError EofWhileParsingValue) (8 + 1))) /\
  ans (next_array (ex_key (bs "[ ") ex_one)) = Some (Err (mkErr (JsonError EofWhileParsingList) (8 + 1))) /\
  ans (known_array (ex_behind (bs "[ ") ex_one 24)) = Some (Err (mkErr (JsonError EofWhileParsingList) (6 + 1))).
Proof. split; [|now_true]. split; [now_valid|]. split; [vm_compute; reflexivity|constructor; reflexivity]. Qed.
(** C106: a comma that is missing, or a closing bracket, is reported at the position of what stands there instead; in every state. *)
Theorem C106_comma : forall A token closing e (op : rj -> outcome (rj * result A rerror)) s w x l, step_method token closing e op -> valid s -> 2 <= rcap s ->
  rest s = w ++ x :: l -> blanks w -> ~ blank x -> x <> token -> x <> closing ->
  blamed (rquiet s) (JsonError e) (total s - len (x :: l)) (op s).
Proof. exact @comma_place. Qed.
Print Assumptions C106_comma.
Example C106_comma_example :
  (valid (ex_key (bs "x]") ex_one) /\ rest (ex_key (bs "x]") ex_one) = bs "  " ++ 120%N :: bs "]" /\ total (ex_key (bs "x]") ex_one) - len (120%N :: bs "]") = 6) /\
  ans (array_step (ex_key (bs "x]") ex_one)) = Some (Err (mkErr (JsonError ExpectedListCommaOrEnd) 6)) /\
  ans (next_key (ex_key (bs "x]") [])) = Some (Err (mkErr (JsonError ExpectedObjectCommaOrEnd) 6)) /\
  ans (next_key_bytes (ex_key (bs "x]") ex_one)) = Some (Err (mkErr (JsonError ExpectedObjectCommaOrEnd) 6)).
Proof. split; [|now_true]. split; [now_valid|]. split; vm_compute; reflexivity. Qed.
(** The position is not that of the byte to blame. *)
Theorem C106_place_refuted : exists s u m e o reach a, key_method false 123%N next_object /\ valid s /\ rquiet s = true /\
  rest s = 123%N :: u ++ m /\ spaces u /\ key_wrong 123%N m e o reach a /\ 1 + reach <= rcap s /\ 0 < jidx s /\
  ans (next_object s) <> Some (Err (mkErr (JsonError e) (total s - len m + o))).
Proof.
  exists (ex_behind (bs "{""a\q"":1}") [] 24), [], (bs """a\q"":1}"), InvalidEscape, 3, 4, 0. split; [constructor|].
  split; [now_valid|]. split; [reflexivity|]. split; [vm_compute; reflexivity|]. split; [constructor|]. split; [|split; [vm_compute; lia|split; [vm_compute; lia|]]].
  - change (bs """a\q"":1}") with (34%N :: [97%N] ++ [92; 113]%N ++ bs """:1}"). apply (kw_text 123%N [97%N] [92; 113]%N InvalidEscape 1).
    + apply fl_byte; [lia|discriminate..|constructor].
    + apply fa_letter; [|discriminate]. intros c H. cbn in H. repeat (destruct H as [H|H]; [discriminate H|]). exact H.
  - vm_compute. discriminate.
Qed.
Print Assumptions C106_place_refuted.
(** If the parser is at the beginning of a buffer that is not empty, the retry starts behind the token or behind the key: what is wrong gets
    another name, or is not noticed. This is the state behind a [peek] at the beginning of the input. *)
Theorem C106_front_refuted : exists s m e o reach a, key_method false 123%N next_object /\ key_method true 123%N known_object /\
  valid s /\ rquiet s = true /\ rest s = 123%N :: m /\ key_wrong 123%N m e o reach a /\ 1 + reach <= rcap s /\
  ans (next_object s) = Some (Err (mkErr (WrongType TObject TInt) 10)) /\ ans (known_object s) = Some (Ok None).
Proof.
  exists (st (peek (rj_new (mkReader (bs "{""a"" 1}") []) (repeat 0%N 24)))), (bs """a"" 1}"), ExpectedColon, 4, 5, 4.
  split; [constructor|]. split; [constructor|]. split; [now_valid|]. split; [vm_compute; reflexivity|]. split; [vm_compute; reflexivity|].
  split; [|split; [vm_compute; lia|split; vm_compute; reflexivity]].
  apply (kw_no_colon 123%N [97%N] [97%N] (bs " ") 49%N (bs "}")).
  - change [97%N] with ([97%N] ++ [])%list at 1. apply rd_character; [left; lia|lia|discriminate..|apply en_one; lia|constructor].
  - repeat constructor.
  - unfold space. intros [H|[H|[H|H]]]; discriminate H.
  - discriminate.
Qed.
Print Assumptions C106_front_refuted.
