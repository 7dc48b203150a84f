(** Properties C97 and C98: strings as sequences of characters; more about C24 and C25. Only statements, examples and assumptions. *)
From Verif Require Import Base Buffer Jiter JiterValue RJiter RJiterSpec Scan ScanSpec SoundSpec ValueSpec UnicodeSpec.
From Verif Require Import ScanExamples Prop_RJiter Prop_Value UnicodeProofs PairProofs.

(** A text with characters of one to four bytes, every kind of escape, and a surrogate pair; the characters. *)
Definition ex_text : bytes := bs "aß你😀" ++ BACKSLASH :: bs "n" ++ BACKSLASH :: bs "u00E9" ++ BACKSLASH :: bs "ud83D" ++ BACKSLASH :: bs "uDe00".
Definition ex_characters : list N := [97; 223; 20320; 128512; 10; 233; 128512]%N.
Ltac now_character := unfold character; lia.
Ltac now_digit a := first
  [ apply (hd_digit (a - 48)%N); lia | apply (hd_upper (a - 65)%N); lia | apply (hd_lower (a - 97)%N); lia ].
Ltac now_hex4 h n :=
  match h with [?a; ?b; ?c; ?d] =>
    let v x := eval vm_compute in (match hex_val x with Some k => k | None => 0%N end) in
    let a' := v a in let b' := v b in let c' := v c in let d' := v d in
    change n with (4096 * a' + 256 * b' + 16 * c' + d')%N; constructor; [now_digit a|now_digit b|now_digit c|now_digit d] end.
Example ex_reads : reads ex_text ex_characters.
Proof.
  let l := eval vm_compute in ex_text in change ex_text with l. unfold ex_characters.
  apply (rd_character 97 [97%N]); [now_character|lia|discriminate|discriminate|constructor; lia|].
  apply (rd_character 223 [195%N; 159%N]); [now_character|lia|discriminate|discriminate|apply (en_two 3 31); lia|].
  apply (rd_character 20320 [228%N; 189%N; 160%N]); [now_character|lia|discriminate|discriminate|apply (en_three 4 61 32); lia|].
  apply (rd_character 128512 [240%N; 159%N; 152%N; 128%N]); [now_character|lia|discriminate|discriminate|apply (en_four 0 31 24 0); lia|].
  apply rd_escape; [cbn [escapes In]; tauto|].
  apply (rd_hex [48%N; 48%N; 69%N; 57%N]); [now_hex4 [48%N; 48%N; 69%N; 57%N] 233%N|now_character|].
  apply (rd_pair [100%N; 56%N; 51%N; 68%N] [68%N; 101%N; 48%N; 48%N] 61 512); [lia|lia| | |constructor].
  - change (55296 + 61)%N with 55357%N. now_hex4 [100%N; 56%N; 51%N; 68%N] 55357%N.
  - change (56320 + 512)%N with 56832%N. now_hex4 [68%N; 101%N; 48%N; 48%N] 56832%N.
Qed.
Example ex_spells : spells ex_characters (bs "aß你😀" ++ 10%N :: bs "é😀").
Proof.
  vm_compute bs. cbn [app]. unfold ex_characters.
  apply (sp_cons 97 [97%N]); [now_character|constructor; lia|].
  apply (sp_cons 223 [195%N; 159%N]); [now_character|apply (en_two 3 31); lia|].
  apply (sp_cons 20320 [228%N; 189%N; 160%N]); [now_character|apply (en_three 4 61 32); lia|].
  apply (sp_cons 128512 [240%N; 159%N; 152%N; 128%N]); [now_character|apply (en_four 0 31 24 0); lia|].
  apply (sp_cons 10 [10%N]); [now_character|constructor; lia|].
  apply (sp_cons 233 [195%N; 169%N]); [now_character|apply (en_two 3 41); lia|].
  apply (sp_cons 128512 [240%N; 159%N; 152%N; 128%N] []); [now_character|apply (en_four 0 31 24 0); lia|constructor].
Qed.
Definition ex_text_at : rj := ex_behind (bs "  " ++ QUOTE :: ex_text ++ QUOTE :: bs ", 1]") [Chunk 9; Chunk 2; Chunk 0; Chunk 30] 40.

(** C97: a string that fits in the buffer is returned as the spelling of the characters it stands for, for every chunking. *)
Theorem C97_characters_read : forall s w t cs r,
  valid s -> 2 <= rcap s -> rquiet s = true -> rest s = w ++ QUOTE :: t ++ QUOTE :: r -> spaces w -> reads t cs -> len t + 2 < rcap s ->
  exists s' d, next_str s = Done (s', Ok d) /\ spells cs d /\ valid s' /\ rest s' = r /\ total s' = total s /\ rcap s' = rcap s /\ rquiet s' = true.
Proof. exact str_streamed. Qed.
Print Assumptions C97_characters_read.
Theorem C97_known_characters_read : forall s t cs r,
  valid s -> 2 <= rcap s -> rquiet s = true -> rest s = QUOTE :: t ++ QUOTE :: r -> reads t cs -> len t + 2 < rcap s ->
  exists s' d, known_str s = Done (s', Ok d) /\ spells cs d /\ valid s' /\ rest s' = r /\ total s' = total s /\ rcap s' = rcap s /\ rquiet s' = true.
Proof. exact known_str_streamed. Qed.
Print Assumptions C97_known_characters_read.
Example C97_example : let s := ex_text_at in
  valid s /\ 2 <= rcap s /\ rquiet s = true /\ rest s = bs "  " ++ QUOTE :: ex_text ++ QUOTE :: bs ", 1]" /\ spaces (bs "  ") /\
  reads ex_text ex_characters /\ len ex_text + 2 < rcap s /\ ans (next_str s) = Some (Ok (bs "aß你😀" ++ 10%N :: bs "é😀")) /\
  spells ex_characters (bs "aß你😀" ++ 10%N :: bs "é😀") /\ rest (st (next_str s)) = bs ", 1]" /\
  ans (known_str (st (peek s))) = Some (Ok (bs "aß你😀" ++ 10%N :: bs "é😀")).
Proof.
  cbn zeta. split; [now_valid|]. split; [now_true|]. split; [vm_compute; reflexivity|]. split; [vm_compute; reflexivity|]. split; [vm_compute bs; now_spaces|].
  split; [exact ex_reads|]. split; [now_true|]. split; [vm_compute; reflexivity|]. split; [exact ex_spells|]. split; vm_compute; reflexivity.
Qed.

(** C97: whatever the chunks and the failures of the reader, what next_str returns spells the characters of the string that
    stood in front of the parser. *)
Theorem C97_characters_only : forall s s' d,
  valid s -> 2 <= rcap s -> next_str s = Done (s', Ok d) ->
  exists u t cs, rest s = u ++ QUOTE :: t ++ QUOTE :: rest s' /\ blanks u /\ reads t cs /\ spells cs d.
Proof. exact str_read. Qed.
Print Assumptions C97_characters_only.
(** The four ways bytes can fail to spell characters: a form that is not the shortest, a surrogate, a code point behind the
    last one, a character that is not finished. Also half a pair. *)
Example C97_only_example :
  (exists s', next_str ex_text_at = Done (s', Ok (bs "aß你😀" ++ 10%N :: bs "é😀"))) /\
  Forall (fun t => match ans (next_str (ex_behind (QUOTE :: t ++ [QUOTE; 32%N]) [] 40)) with Some (Err _) => True | _ => False end)
    [[192; 128]; [224; 159; 191]; [240; 143; 191; 191]; [237; 160; 128]; [244; 144; 128; 128]; [245; 128; 128; 128]; [226; 130]; [128]; BACKSLASH :: bs "ud83d";
     BACKSLASH :: bs "ude00"]%N.
Proof. split; [eexists; vm_compute; reflexivity|]. repeat (apply Forall_nil || (apply Forall_cons; [vm_compute; exact I|])). Qed.

(** C97: the characters are determined by what is returned, and what is returned by the text. *)
Theorem C97_characters_unique : forall cs ds d, spells cs d -> spells ds d -> cs = ds.
Proof. exact spells_unique. Qed.
Print Assumptions C97_characters_unique.
Theorem C97_text_unique : forall t cs ds, reads t cs -> reads t ds -> cs = ds.
Proof. exact reads_unique. Qed.
Print Assumptions C97_text_unique.

(** C98: whatever stands in front of the parser and whatever reader and buffer do, what write_long_str hands to the writer
    spells characters; nothing of it is missing unless the writer failed. In every state. *)
Theorem C98_write_long_str_characters : forall s w s' w' r,
  write_long_str s w = Done (s', w', r) ->
  exists cs p q, spells cs (p ++ q) /\ RJiter.written w' = RJiter.written w ++ p /\ (wfail w = None \/ r = Ok tt -> q = []).
Proof. exact long_str_spells. Qed.
Print Assumptions C98_write_long_str_characters.
(** A text cut in the middle of a character of four bytes by every chunk; one that is not UTF-8 further on; a writer that
    takes half a character. *)
Definition ex_long_at (t : bytes) : rj := st (peek (ex_new (QUOTE :: t ++ [QUOTE]) (repeat (Chunk 1) 40) 12)).
Example C98_example :
  (exists s' w', write_long_str (ex_long_at (bs "😀😀a😀你😀")) (mkWriter (bs "x") None) = Done (s', w', Ok tt) /\
    RJiter.written w' = bs "x" ++ bs "😀😀a😀你😀") /\
  (exists s' w' e, write_long_str (ex_long_at (bs "😀😀a😀😀" ++ [244; 144; 128; 128]%N ++ bs "abc")) (mkWriter [] None) = Done (s', w', Err e) /\
    RJiter.written w' = bs "😀😀a😀😀") /\
  (exists s' w' e, write_long_str (ex_long_at (bs "😀😀a😀你😀")) (mkWriter [] (Some (6, 7%N))) = Done (s', w', Err e) /\
    RJiter.written w' = bs "😀" ++ [240; 159]%N).
Proof.
  split; [do 2 eexists; split; vm_compute; reflexivity|]. split; do 3 eexists; split; vm_compute; reflexivity.
Qed.

(** C24 and C25 are false for every string that starts with a surrogate pair and does not end in the buffer, in every state
    where the buffer holds the pair: write_long_bytes writes the first half and refuses the second, write_long_str refuses
    the first. *)
Theorem C24_every_pair_refused : forall s w h g hi lo T more, valid s ->
  (hi < 1024)%N -> (lo < 1024)%N -> hex4 h (55296 + hi)%N -> hex4 g (56320 + lo)%N ->
  Forall (fun x => x <> QUOTE /\ x <> BACKSLASH /\ 32 <= x)%N T ->
  rest s = QUOTE :: BACKSLASH :: 117%N :: h ++ BACKSLASH :: 117%N :: g ++ T ++ more ->
  13 <= len (jview s) <= 13 + len T -> len (jview s) < len (rest s) -> rquiet s = true -> wfail w = None ->
  exists s' w' i, write_long_bytes s w = Done (s', w', Err (mkErr (JsonError LoneLeadingSurrogateInHexEscape) i)) /\
    RJiter.written w' = RJiter.written w ++ BACKSLASH :: 117%N :: h.
Proof. exact pair_bytes_refused. Qed.
Print Assumptions C24_every_pair_refused.
Theorem C25_every_pair_refused : forall s w h g hi lo T more, valid s ->
  (hi < 1024)%N -> (lo < 1024)%N -> hex4 h (55296 + hi)%N -> hex4 g (56320 + lo)%N ->
  Forall (fun x => x <> QUOTE /\ x <> BACKSLASH /\ 32 <= x)%N T ->
  rest s = QUOTE :: BACKSLASH :: 117%N :: h ++ BACKSLASH :: 117%N :: g ++ T ++ more ->
  13 <= len (jview s) <= 13 + len T ->
  exists s' i, write_long_str s w = Done (s', w, Err (mkErr (JsonError UnexpectedEndOfHexEscape) i)).
Proof. exact pair_str_refused. Qed.
Print Assumptions C25_every_pair_refused.
Definition ex_pair_at : rj := ex_behind (QUOTE :: ex_pair_text ++ QUOTE :: bs ", 1]") [Chunk 17; Chunk 2] 40.
Example C24_pair_example : exists h g T more, valid ex_pair_at /\ hex4 h (55296 + 61)%N /\ hex4 g (56320 + 512)%N /\
  Forall (fun x => x <> QUOTE /\ x <> BACKSLASH /\ 32 <= x)%N T /\
  rest ex_pair_at = QUOTE :: BACKSLASH :: 117%N :: h ++ BACKSLASH :: 117%N :: g ++ T ++ more /\
  13 <= len (jview ex_pair_at) <= 13 + len T /\ len (jview ex_pair_at) < len (rest ex_pair_at) /\ rquiet ex_pair_at = true.
Proof.
  exists [100; 56; 51; 100]%N, [100; 101; 48; 48]%N, (bs "abc"), (QUOTE :: bs ", 1]"). split; [now_valid|].
  split; [change (55296 + 61)%N with 55357%N; now_hex4 [100%N; 56%N; 51%N; 100%N] 55357%N|].
  split; [change (56320 + 512)%N with 56832%N; now_hex4 [100%N; 101%N; 48%N; 48%N] 56832%N|].
  split; [repeat (apply Forall_nil || (apply Forall_cons; [vm_compute; repeat split; discriminate|]))|].
  split; [vm_compute; reflexivity|]. split; [vm_compute; lia|]. split; [vm_compute; lia|reflexivity].
Qed.
