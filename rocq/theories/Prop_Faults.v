(** Property C103: what is wrong in a string is named, and where it is. Only statements, examples and assumptions. *)
From Verif Require Import Base Buffer Jiter RJiter RJiterSpec Scan ScanSpec SoundSpec UnicodeSpec IdTransform FaultSpec FaultTextSpec.
From Verif Require Import ScanExamples Prop_RJiter Prop_Value UnicodeProofs FaultProofs FaultLong FaultText.

(** C103: if a string in front of the parser has a fault, the call fails with the name of the first fault and the absolute position of
    the byte to blame, for every chunking; the parser stays in front of the string. The fault is within the reach of the buffer. *)
Theorem C103_fault : forall known op s w t f e o r, string_method known op -> (known = true -> w = []) ->
  valid s -> 2 <= rcap s -> rest s = w ++ QUOTE :: t ++ f ++ r -> blanks w -> faultless t -> fault f e o -> 1 + (len t + len f) <= rcap s ->
  refused_at s (QUOTE :: t ++ f ++ r) (JsonError e) (1 + len t + o) (op s).
Proof. exact fault_named. Qed.
Print Assumptions C103_fault.
(** C103: if the input ends within a string, this is said, with the end of the input as the position. *)
Theorem C103_unended : forall known op s w t a, string_method known op -> (known = true -> w = []) ->
  valid s -> 2 <= rcap s -> rest s = w ++ QUOTE :: t ++ a -> blanks w -> faultless t -> broken_off a -> 1 + (len t + len a) <= rcap s ->
  refused_at s (QUOTE :: t ++ a) (JsonError EofWhileParsingString) (1 + len t + len a) (op s).
Proof. exact unended. Qed.
Print Assumptions C103_unended.
(** C103: if the bytes of a string spell no characters, this is said, for every chunking; the parser stays in front of the string.
    What is missing: the position. It is counted in the bytes that the text stands for, not in those of the input, and it is one
    behind the first byte that is wrong; see C103_characters_place_refuted. *)
Theorem C103_characters_partial : forall known op s w t d v r, str_method known op -> (known = true -> w = []) ->
  valid s -> 2 <= rcap s -> rest s = w ++ QUOTE :: t ++ QUOTE :: r -> blanks w -> says t d -> misspelt d v -> 2 + len t <= rcap s ->
  refused_at s (QUOTE :: t ++ QUOTE :: r) (JsonError InvalidUnicodeCodePoint) (2 + v) (op s).
Proof. exact misspelt_named. Qed.
Print Assumptions C103_characters_partial.
(** There is nothing else but strings with a closing quote; those without a fault spell characters, about which is C97, or do not. *)
Theorem C103_closed : forall t, faultless t -> (exists cs, reads t cs) \/ exists d v, says t d /\ misspelt d v.
Proof. exact closed_cases. Qed.
Print Assumptions C103_closed.
Theorem C103_cases : forall l, string_case l.
Proof. exact string_cases. Qed.
Print Assumptions C103_cases.

Definition ex_fault (text : bytes) (sched : list event) : rj := ex_behind (bs "  " ++ QUOTE :: text) sched 24.
Definition ex_one : list event := repeat (Chunk 0) 40.
Example C103_example :
  (valid (ex_fault (bs "ab\n\u00zz cd") ex_one) /\ rest (ex_fault (bs "ab\n\u00zz cd") ex_one) = bs "  " ++ QUOTE :: bs "ab\n" ++ bs "\u00zz" ++ bs " cd" /\
   faultless (bs "ab\n") /\ fault (bs "\u00zz") InvalidEscape 4 /\ current_index (ex_fault (bs "ab\n\u00zz cd") ex_one) = 4) /\
  ans (next_str (ex_fault (bs "ab\n\u00zz cd") ex_one)) = Some (Err (mkErr (JsonError InvalidEscape) 15)) /\
  ans (next_bytes (ex_fault (bs "ab\q") ex_one)) = Some (Err (mkErr (JsonError InvalidEscape) 10)) /\
  ans (next_str (ex_fault (bs "ab" ++ [9%N] ++ bs "c""") [])) = Some (Err (mkErr (JsonError ControlCharacterWhileParsingString) 9)) /\
  ans (next_str (ex_fault (bs "ab\ude00""") ex_one)) = Some (Err (mkErr (JsonError LoneLeadingSurrogateInHexEscape) 14)) /\
  ans (next_bytes (ex_fault (bs "ab\ud83d""") ex_one)) = Some (Err (mkErr (JsonError UnexpectedEndOfHexEscape) 15)) /\
  ans (next_str (ex_fault (bs "ab\ud83d\n""") ex_one)) = Some (Err (mkErr (JsonError UnexpectedEndOfHexEscape) 16)) /\
  ans (next_str (ex_fault (bs "ab\ud83d\u123y""") ex_one)) = Some (Err (mkErr (JsonError InvalidEscape) 20)) /\
  ans (next_str (ex_fault (bs "ab\ud83d\u1234""") ex_one)) = Some (Err (mkErr (JsonError LoneLeadingSurrogateInHexEscape) 20)) /\
  rest (st (next_str (ex_fault (bs "ab\n\u00zz cd") ex_one))) = bs """ab\n\u00zz cd".
Proof.
  split; [|now_true]. split; [now_valid|]. split; [vm_compute; reflexivity|]. split; [|split; [|vm_compute; reflexivity]].
  - vm_compute bs. apply fl_byte; [lia|discriminate..|]. apply fl_byte; [lia|discriminate..|]. eapply fl_escape; [|constructor]. cbn. right. right. right. right. right. left. reflexivity.
  - change (bs "\u00zz") with (92%N :: 117%N :: [48; 48]%N ++ 122%N :: [122%N]). apply (fa_digit _ 2), (nh_at [48; 48]%N).
    + repeat constructor; exists 0%N; apply (hd_digit 0); lia.
    + intros n H. apply hex_is in H. discriminate H.
    + reflexivity.
Qed.
Definition ex_latin : bytes := bs "\na" ++ [233%N] ++ bs "b".
Lemma ex_latin_says : says ex_latin [10; 97; 233; 98]%N /\ misspelt [10; 97; 233; 98]%N 2.
Proof.
  split.
  - change ex_latin with ([92; 110; 97; 233; 98]%N). eapply sy_escape; [right; right; right; right; right; left; reflexivity|].
    do 3 (apply sy_byte; [lia|discriminate..|]). constructor.
  - apply (ms_at [10; 97]%N [10; 97]%N 233%N [98%N]).
    + change [10; 97]%N with ([10]%N ++ [97]%N ++ []) at 2. constructor; [left; lia|constructor; lia|]. constructor; [left; lia|constructor; lia|constructor].
    + intros c e r Hc He E. pose proof (f_equal (hd 0%N) E) as E1. pose proof (f_equal (fun l => hd 0%N (tl l)) E) as E2.
      destruct He; cbn [app hd tl] in E1, E2; lia.
Qed.
Example C103_characters_example :
  (valid (ex_fault (ex_latin ++ bs """") ex_one) /\ rest (ex_fault (ex_latin ++ bs """") ex_one) = bs "  " ++ QUOTE :: ex_latin ++ QUOTE :: [] /\
   total (ex_fault (ex_latin ++ bs """") ex_one) - len (QUOTE :: ex_latin ++ QUOTE :: []) = 6) /\
  ans (next_str (ex_fault (ex_latin ++ bs """") ex_one)) = Some (Err (mkErr (JsonError InvalidUnicodeCodePoint) (6 + 4))) /\
  ans (known_str (st (peek (ex_fault (ex_latin ++ bs """") [])))) = Some (Err (mkErr (JsonError InvalidUnicodeCodePoint) (6 + 4))).
Proof. split; [|now_true]. split; [now_valid|]. split; vm_compute; reflexivity. Qed.
Example C103_closed_example : faultless (bs "ab") /\ faultless [233%N].
Proof. split; vm_compute bs; repeat (apply fl_byte; [lia|discriminate..|]); constructor. Qed.
(** The position is not that of the first byte that is wrong. *)
Theorem C103_characters_place_refuted : exists s t v r, valid s /\ rquiet s = true /\ rest s = QUOTE :: t ++ QUOTE :: r /\ says t t /\ misspelt t v /\
  2 + len t <= rcap s /\ ans (next_str s) <> Some (Err (mkErr (JsonError InvalidUnicodeCodePoint) (total s - len (rest s) + 1 + v))).
Proof.
  exists (ex_behind (34%N :: [97; 233]%N ++ bs """") [] 24), [97; 233]%N, 1, []. split; [now_valid|]. split; [reflexivity|]. split; [vm_compute; reflexivity|].
  split; [do 2 (apply sy_byte; [lia|discriminate..|]); constructor|]. split; [|split; [vm_compute; lia|vm_compute; discriminate]].
  apply (ms_at [97]%N [97]%N 233%N []).
  - change [97]%N with ([97]%N ++ []) at 2. constructor; [left; lia|constructor; lia|constructor].
  - intros c e r Hc He E. pose proof (f_equal (hd 0%N) E) as E1. pose proof (f_equal (fun l => hd 0%N (tl l)) E) as E2.
    destruct He; cbn [app hd tl] in E1, E2; lia.
Qed.
Print Assumptions C103_characters_place_refuted.
Example C103_unended_example : broken_off (bs "\u00") /\ broken_off (bs "\ud83d\") /\
  ans (next_str (ex_fault (bs "ab\u00") ex_one)) = Some (Err (mkErr (JsonError EofWhileParsingString) 13)) /\
  ans (next_bytes (ex_fault (bs "ab\ud83d\") ex_one)) = Some (Err (mkErr (JsonError EofWhileParsingString) 16)) /\
  ans (known_str (st (peek (ex_fault (bs "ab") [])))) = Some (Err (mkErr (JsonError EofWhileParsingString) 9)).
Proof.
  split; [apply (bo_digits (bs "00")); vm_compute; lia|]. split; [|now_true].
  change (bs "\ud83d\") with (92%N :: 117%N :: [100; 56; 51; 100]%N ++ [92%N]). apply (bo_half_backslash _ 61); [lia|].
  change (55296 + 61)%N with (4096 * (10 + 3) + 256 * 8 + 16 * 3 + (10 + 3))%N. constructor; [apply (hd_lower 3)|apply (hd_digit 8)|apply (hd_digit 3)|apply (hd_lower 3)]; lia.
Qed.
Example C103_cases_example : string_case (bs "a""b") /\ string_case (bs "\x") /\ string_case (bs "\u").
Proof. repeat split; apply C103_cases. Qed.

(** C103, long strings: the fault is named, and a beginning of the text before it has been written. The position is right if
    the string is at the beginning of the parser's slice of the buffer, or if the fault is not yet in the buffer. Otherwise the
    distance of the string from the beginning is counted twice. What is missing: faults of more than six bytes, that is, of surrogate
    pairs; for them it is false, see C103_long_surrogate_refuted. *)
Theorem C103_long_bytes_partial : forall s w T f e o after, valid s -> 8 <= rcap s -> rest s = QUOTE :: T ++ f ++ after -> fault f e o -> len f <= 6 -> faultless T ->
  long_text (buf (bf s)) T \/ (fills (bf s) /\ steady_text T) ->
  stopped_at s w T (mkErr (JsonError e) (total s - len (f ++ after) + o + (if len T + len f <? len (jview s) then jidx s else 0)))
    (write_long_bytes s w).
Proof. exact fault_bytes. Qed.
Print Assumptions C103_long_bytes_partial.
Theorem C103_long_str_partial : forall s w T f e o after cs v, valid s -> 8 <= rcap s -> rest s = QUOTE :: T ++ f ++ after -> fault f e o -> len f <= 6 ->
  reads T cs -> spells cs v -> long_text (buf (bf s)) T \/ (fills (bf s) /\ steady_text T) ->
  stopped_at s w v (mkErr (JsonError e) (total s - len (f ++ after) + o + (if len T + len f <? len (jview s) then jidx s else 0)))
    (write_long_str s w).
Proof. exact fault_str. Qed.
Print Assumptions C103_long_str_partial.
Definition ex_long_fault (text : bytes) (sched : list event) (n : nat) : rj :=
  st (array_step (st (next_bool (st (next_array (ex_new (bs "[true,""" ++ text) sched n)))))).
Definition long_answer (x : outcome (rj * writer * result unit rerror)) : option (bytes * result unit rerror) :=
  match x with Done (_, w, r) => Some (RJiter.written w, r) | _ => None end.
Example C103_long_example : let s := ex_long_fault (bs "a text without escapes" ++ 10%N :: bs "..") ex_one 9 in
  valid s /\ rcap s = 9 /\ rest s = QUOTE :: bs "a text without escapes" ++ 10%N :: bs ".." /\ long_text (buf (bf s)) (bs "a text without escapes") /\
  total s = 32 /\ (1 + len (bs "a text without escapes") <? len (jview s)) = false /\
  long_answer (write_long_bytes s (mkWriter [] None)) = Some (bs "a text without escape", Err (mkErr (JsonError ControlCharacterWhileParsingString) (32 - 3))) /\
  long_answer (write_long_str s (mkWriter [] None)) = Some (bs "a text without escape", Err (mkErr (JsonError ControlCharacterWhileParsingString) (32 - 3))).
Proof.
  cbn zeta. split; [now_valid|]. split; [vm_compute; reflexivity|]. split; [vm_compute; reflexivity|].
  split; [left; split; [vm_compute bs; repeat constructor; discriminate|vm_compute; reflexivity]|]. now_true.
Qed.
(** The same with a digit that is none: the escape begins at the index 29, the letter is at 33. *)
Example C103_long_escape_example : let s := ex_long_fault (bs "a text without escapes\u00x0..") ex_one 9 in
  valid s /\ rcap s = 9 /\ rest s = QUOTE :: bs "a text without escapes" ++ bs "\u00x0" ++ bs ".." /\ fault (bs "\u00x0") InvalidEscape 4 /\ len (bs "\u00x0") <= 6 /\
  long_text (buf (bf s)) (bs "a text without escapes") /\ total s = 37 /\
  long_answer (write_long_bytes s (mkWriter [] None)) = Some (bs "a text without escapes", Err (mkErr (JsonError InvalidEscape) (37 - 8 + 4))) /\
  long_answer (write_long_str s (mkWriter [] None)) = Some (bs "a text without escapes", Err (mkErr (JsonError InvalidEscape) (37 - 8 + 4))).
Proof.
  cbn zeta. split; [now_valid|]. split; [vm_compute; reflexivity|]. split; [vm_compute; reflexivity|].
  split. { apply (fa_digit (bs "00x0") 2). apply (nh_at (bs "00") 120%N (bs "0")); [|intros n H; remember 120%N as x eqn:E; destruct H; lia|reflexivity].
    repeat constructor; exists 0%N; apply (hd_digit 0); lia. }
  split; [vm_compute; repeat constructor|].
  split; [left; split; [vm_compute bs; repeat constructor; discriminate|vm_compute; reflexivity]|]. now_true.
Qed.
(** C103 is false for long strings: the control character is the last byte of the input, at the index 9; reported is 15. Idtransform passes this on. *)
Theorem C103_long_place_refuted : exists s input, s = ex_long_fault (bs "ab" ++ [10%N]) [] 30 /\ valid s /\ rquiet s = true /\
  input = bs "[true,""ab" ++ [10%N] /\ rest s = QUOTE :: bs "ab" ++ [10%N] /\ total s = 10 /\
  long_answer (write_long_bytes s (mkWriter [] None)) = Some ([], Err (mkErr (JsonError ControlCharacterWhileParsingString) 15)) /\
  match idtransform 100 (ex_rj input [] 30) (mkWriter [] None) (ex_pool 100 10) with
  | Done (_, _, _, v) => v = Err (RJiterError (mkErr (JsonError ControlCharacterWhileParsingString) 15))
  | _ => False
  end.
Proof. do 2 eexists. split; [reflexivity|]. split; [now_valid|]. split; [vm_compute; reflexivity|]. split; [reflexivity|]. now_true. Qed.
Print Assumptions C103_long_place_refuted.
(** C103 is false for half a surrogate pair in a long string: if the piece of the input that has arrived ends behind it, it is not found to be
    wrong, and idtransform copies it; if more has arrived, the error is the right one. *)
Theorem C103_long_surrogate_refuted : exists input f, input = QUOTE :: f ++ [QUOTE] /\ fault f UnexpectedEndOfHexEscape 6 /\
  long_answer (write_long_bytes (ex_new input [Chunk 6] 20) (mkWriter [] None)) = Some (f, Ok tt) /\
  long_answer (write_long_bytes (ex_new input [Chunk 7] 20) (mkWriter [] None)) = Some ([], Err (mkErr (JsonError UnexpectedEndOfHexEscape) 7)) /\
  match idtransform 100 (ex_rj input [Chunk 6] 20) (mkWriter [] None) (ex_pool 100 10) with Done (_, w, _, v) => v = Ok tt /\ RJiter.written w = input | _ => False end /\
  match idtransform 100 (ex_rj input [Chunk 7] 20) (mkWriter [] None) (ex_pool 100 10) with
  | Done (_, w, _, v) => v = Err (RJiterError (mkErr (JsonError UnexpectedEndOfHexEscape) 7)) /\ RJiter.written w = [QUOTE] | _ => False end.
Proof.
  exists (QUOTE :: bs "\ud83dx" ++ [QUOTE]), (bs "\ud83dx"). split; [reflexivity|]. split.
  { apply (fa_alone (bs "d83d") 61%N 120%N); [lia| |lia]. apply (hex4_digits 100 56 51 100 13 8 3 13)%N; [apply (hd_lower 3%N)|apply (hd_digit 8%N)|apply (hd_digit 3%N)|apply (hd_lower 3%N)]; lia. }
  split; [vm_compute; reflexivity|]. split; [vm_compute; reflexivity|]. split; vm_compute; split; reflexivity.
Qed.
Print Assumptions C103_long_surrogate_refuted.
(** C103 is false for long strings without an end: the position is behind the end of the input by what has been written just before. *)
Theorem C103_long_end_refuted : exists s, valid s /\ rquiet s = true /\ rest s = QUOTE :: bs "abcdef" /\ total s = 7 /\
  long_answer (write_long_bytes s (mkWriter [] None)) = Some (bs "abcde", Err (mkErr (JsonError EofWhileParsingString) 10)).
Proof. exists (ex_new (QUOTE :: bs "abcdef") [Chunk 3; Chunk 7] 8). split; [now_valid|]. split; [vm_compute; reflexivity|]. now_true. Qed.
Print Assumptions C103_long_end_refuted.
