(** Proofs about the copying of long strings (write_long_bytes, write_long_str). *)
From Verif Require Import Base Buffer BufferSpec BufferProofs Jiter JiterProofs RJiter RJiterSpec RJiterProofs RJiterOpProofs.

(** ** The string scanner accepts exactly the texts *)
Lemma scan_skip k l r : List.length k <= len (k ++ l) ->
  scan_string 0 l = r ->
  scan_string (List.length k) (k ++ l) = match r with Ok (n, d) => Ok (List.length k + n, d) | Err (e, o) => Err (e, List.length k + o) end.
Proof.
  intros _ <-. induction k as [|x k IH]; cbn [List.length app scan_string].
  - destruct (scan_string 0 l) as [[n d]|[e o]]; reflexivity.
  - cbn [Nat.add]. rewrite IH. destruct (scan_string 0 l) as [[n d]|[e o]]; reflexivity.
Qed.

Lemma scan_step x k l d :
  string_step (x :: k ++ l) = SPiece (S (len k)) d ->
  scan_string 0 (x :: k ++ l) =
    match scan_string 0 l with Ok (m, t) => Ok (S (len k) + m, d ++ t) | Err (e, o) => Err (e, S (len k) + o) end.
Proof.
  intros H. cbn [scan_string]. rewrite H. cbn [Nat.sub]. rewrite Nat.sub_0_r.
  rewrite (scan_skip k l _ ltac:(rewrite app_length; lia) eq_refl).
  destruct (scan_string 0 l) as [[m t]|[e o]]; reflexivity.
Qed.

Lemma scan_text p t d : json_text p t d -> forall after, scan_string 0 (t ++ QUOTE :: after) = Ok (len t, d).
Proof.
  induction 1; intros after.
  - reflexivity.
  - etransitivity; [apply (scan_step x [] (t ++ QUOTE :: after) [x])|].
    + cbn [app string_step List.length]. destruct (N.eqb_spec x QUOTE); [contradiction|].
      destruct (N.eqb_spec x BACKSLASH); [contradiction|]. destruct (N.ltb_spec x 32); [lia|reflexivity].
    + rewrite IHjson_text. reflexivity.
  - etransitivity; [apply (scan_step BACKSLASH [y] (t ++ QUOTE :: after) [c])|].
    + cbn [app string_step List.length]. rewrite H. reflexivity.
    + rewrite IHjson_text. reflexivity.
  - etransitivity; [apply (scan_step BACKSLASH [117%N; a; b; c; e] (t ++ QUOTE :: after) (utf8_encode n))|].
    + cbn [app string_step List.length]. change (simple_escape 117%N) with (@None byte). cbn iota.
      change (N.eqb BACKSLASH QUOTE) with false. change (N.eqb BACKSLASH BACKSLASH) with true.
      change (N.eqb 117%N 117%N) with true. cbn iota. rewrite H, H0, H1. reflexivity.
    + rewrite IHjson_text. reflexivity.
  - etransitivity; [apply (scan_step BACKSLASH [117%N; a; b; c; e; BACKSLASH; 117%N; a'; b'; c'; e'] (t ++ QUOTE :: after)
      (utf8_encode ((n - 55296) * 1024 + (m - 56320) + 65536)%N))|].
    + cbn [app string_step List.length]. change (simple_escape 117%N) with (@None byte). cbn iota.
      change (N.eqb BACKSLASH QUOTE) with false. change (N.eqb BACKSLASH BACKSLASH) with true.
      change (N.eqb 117%N 117%N) with true. cbn iota. rewrite H0, H1.
      assert (Hl : is_low n = false).
      { unfold is_low, is_high in *. lia. }
      rewrite Hl. unfold low_surrogate. change (N.eqb BACKSLASH BACKSLASH && N.eqb 117%N 117%N)%bool with true. cbn iota.
      rewrite H2, H3. reflexivity.
    + rewrite IHjson_text. reflexivity.
Qed.

Lemma scan_text_inv fuel : forall l n d, len l <= fuel -> scan_string 0 l = Ok (n, d) ->
  json_text true (firstn n l) d /\ exists after, skipn n l = QUOTE :: after.
Proof.
  induction fuel as [|fuel IH]; intros l n d Hf H.
  { destruct l; [discriminate|cbn in Hf; lia]. }
  destruct l as [|x l]; [discriminate|].
  destruct (string_step (x :: l)) as [|k e|e o] eqn:E.
  - cbn [scan_string] in H. rewrite E in H. injection H as <- <-. split; [constructor|]. exists l. cbn [skipn]. f_equal.
    cbn [string_step] in E. destruct (N.eqb_spec x QUOTE); [assumption|].
    destruct (N.eqb x BACKSLASH); [|destruct (N.ltb x 32); discriminate].
    destruct l as [|y l']; [discriminate|]. destruct (simple_escape y); [discriminate|].
    destruct (N.eqb y 117); [|discriminate]. destruct l' as [|? [|? [|? [|? l']]]]; try discriminate.
    unfold low_surrogate in E. step_cases E.
  - pose proof (string_step_piece _ _ _ E) as Hk.
    assert (Hsplit : l = firstn (k - 1) l ++ skipn (k - 1) l) by (symmetry; apply firstn_skipn).
    assert (Hlk : len (firstn (k - 1) l) = k - 1) by (apply firstn_length_le'; cbn [List.length] in Hk; lia).
    assert (Hx : x :: l = x :: firstn (k - 1) l ++ skipn (k - 1) l) by (rewrite <- Hsplit; reflexivity).
    rewrite Hx in H. rewrite (scan_step x (firstn (k - 1) l) (skipn (k - 1) l) e) in H.
    2:{ rewrite <- Hsplit, Hlk. replace (S (k - 1)) with k by lia. exact E. }
    destruct (scan_string 0 (skipn (k - 1) l)) as [[m t]|[e' o]] eqn:E2; [|discriminate].
    rewrite Hlk in H. replace (S (k - 1)) with k in H by lia. injection H as <- <-.
    apply IH in E2; [|rewrite skipn_length; cbn [List.length] in Hf; lia].
    destruct E2 as (Ht & after & Ha).
    assert (Hskip : skipn k (x :: l) = skipn (k - 1) l) by (destruct k; [lia|]; cbn [skipn Nat.sub]; rewrite Nat.sub_0_r; reflexivity).
    split.
    2:{ exists after. rewrite <- skipn_skipn, Hskip. exact Ha. }
    assert (Hfst : firstn (k + m) (x :: l) = firstn k (x :: l) ++ firstn m (skipn (k - 1) l)).
    { rewrite <- Hskip. rewrite <- (firstn_skipn k (x :: l)) at 1. rewrite firstn_app.
      rewrite firstn_firstn. replace (Nat.min (k + m) k) with k by lia. f_equal.
      rewrite firstn_length_le' by lia. f_equal. lia. }
    rewrite Hfst. remember (firstn m (skipn (k - 1) l)) as T eqn:HT. clear - E Ht.
    cbn [string_step] in E.
    destruct (N.eqb_spec x QUOTE) as [|Hq]; [discriminate|].
    destruct (N.eqb_spec x BACKSLASH) as [->|Hb].
    2:{ destruct (N.ltb_spec x 32); [discriminate|]. injection E as <- <-. cbn [firstn app]. constructor; auto. }
    destruct l as [|y l]; [discriminate|].
    destruct (simple_escape y) as [s|] eqn:E4.
    { injection E as <- <-. cbn [firstn app]. constructor; auto. }
    destruct (N.eqb_spec y 117) as [->|]; [|discriminate].
    destruct l as [|a [|b [|c [|f l]]]]; try discriminate.
    destruct (u4 a b c f) as [q|] eqn:E6; [|discriminate].
    destruct (is_low q) eqn:E7; [discriminate|].
    destruct (is_high q) eqn:E8.
    2:{ injection E as <- <-. cbn [firstn app]. constructor; auto. }
    unfold low_surrogate in E. destruct l as [|p [|r l]]; [discriminate|destruct (N.eqb p BACKSLASH); discriminate|].
    destruct (N.eqb p BACKSLASH && N.eqb r 117)%bool eqn:E9; [|destruct (N.eqb p BACKSLASH); discriminate].
    apply andb_true_iff in E9 as [E9 E9']. apply N.eqb_eq in E9, E9'. subst p r.
    destruct l as [|a' [|b' [|c' [|e' l]]]]; try discriminate.
    destruct (u4 a' b' c' e') as [k'|] eqn:E10; [|discriminate].
    destruct (is_low k') eqn:E11; [|discriminate]. injection E as <- <-.
    cbn [firstn app]. apply jt_pair; auto.
  - cbn [scan_string] in H. rewrite E in H. discriminate.
Qed.

(** ** UTF-8 *)
Lemma utf8_skip a : forall n b, n <= len a -> utf8_invalid n (a ++ b) = option_map (Nat.add n) (utf8_invalid 0 (skipn n (a ++ b))).
Proof.
  induction a as [|x a IH]; intros n b Hn; cbn [List.length] in Hn.
  - replace n with 0 by lia. cbn [skipn]. destruct (utf8_invalid 0 ([] ++ b)); reflexivity.
  - destruct n as [|n].
    + cbn [skipn]. destruct (utf8_invalid 0 _); reflexivity.
    + cbn [app skipn utf8_invalid]. rewrite IH by lia. destruct (utf8_invalid 0 (skipn n (a ++ b))); reflexivity.
Qed.
Lemma utf8_char_bound l n : utf8_char l = Some n -> 1 <= n <= 4 /\ n <= len l.
Proof.
  unfold utf8_char. destruct l as [|x [|y [|z [|w l]]]]; cbn [List.length]; intros H; step_cases H; try discriminate; try (injection H as <-).
  all: try lia.
Qed.
Lemma utf8_char_conts l n i : utf8_char l = Some n -> 1 <= i < n -> exists x, nth_error l i = Some x /\ ~ leading x.
Proof.
  unfold utf8_char, leading, is_utf8_leading_byte, cont. intros H Hi.
  destruct l as [|x [|y [|z [|w l]]]]; step_cases H; try discriminate; try (injection H as <-); try lia;
    (destruct i as [|[|[|[|i]]]]; try lia; cbn [nth_error]; eexists; (split; [reflexivity|]);
     repeat match goal with H : context [if ?c then _ else _] |- _ => destruct c eqn:? end; lia).
Qed.
Lemma utf8_char_app l n m : utf8_char l = Some n -> utf8_char (l ++ m) = Some n.
Proof.
  destruct l as [|x [|y [|z [|w l]]]]; intros H; [discriminate|..|exact H];
    unfold utf8_char in *; cbn [app]; step_cases H; try discriminate; try (injection H as <-); try reflexivity;
    repeat match goal with |- context [match ?l with [] => _ | _ => _ end] => destruct l end; try reflexivity.
Qed.
Lemma utf8_char_firstn l n : utf8_char l = Some n -> utf8_char (firstn n l) = Some n.
Proof.
  intros H. destruct l as [|x [|y [|z [|w l]]]]; unfold utf8_char in H; step_cases H; try discriminate; try (injection H as <-); cbn [firstn];
    unfold utf8_char;
    repeat match goal with E : ?c = _ |- context [if ?c then _ else _] => rewrite E end; reflexivity.
Qed.
Lemma utf8_step x l : is_utf8 (x :: l) <-> exists n, utf8_char (x :: l) = Some n /\ is_utf8 (skipn n (x :: l)).
Proof.
  unfold is_utf8. cbn [utf8_invalid]. split.
  - intros H. destruct (utf8_char (x :: l)) as [n|] eqn:E; [|discriminate]. exists n. split; [reflexivity|].
    destruct (utf8_char_bound _ _ E) as [H1 H2]. cbn [List.length] in H2.
    assert (Hs : utf8_invalid (n - 1) l = option_map (Nat.add (n - 1)) (utf8_invalid 0 (skipn (n - 1) l))).
    { pose proof (utf8_skip l (n - 1) []) as Hu. rewrite app_nil_r in Hu. apply Hu. lia. }
    rewrite Hs in H. replace (skipn n (x :: l)) with (skipn (n - 1) l).
    + destruct (utf8_invalid 0 (skipn (n - 1) l)); [discriminate|reflexivity].
    + destruct n; [lia|]. cbn [skipn Nat.sub]. rewrite Nat.sub_0_r. reflexivity.
  - intros (n & E & H). rewrite E.
    destruct (utf8_char_bound _ _ E) as [H1 H2]. cbn [List.length] in H2.
    assert (Hs : utf8_invalid (n - 1) l = option_map (Nat.add (n - 1)) (utf8_invalid 0 (skipn (n - 1) l))).
    { pose proof (utf8_skip l (n - 1) []) as Hu. rewrite app_nil_r in Hu. apply Hu. lia. }
    rewrite Hs. replace (skipn n (x :: l)) with (skipn (n - 1) l) in H.
    + rewrite H. reflexivity.
    + destruct n; [lia|]. cbn [skipn Nat.sub]. rewrite Nat.sub_0_r. reflexivity.
Qed.
Lemma utf8_app fuel : forall a b, len a <= fuel -> is_utf8 a -> (is_utf8 (a ++ b) <-> is_utf8 b).
Proof.
  induction fuel as [|fuel IH]; intros a b Hf Ha.
  { destruct a; [reflexivity|cbn in Hf; lia]. }
  destruct a as [|x a]; [reflexivity|].
  pose proof Ha as Ha'. rewrite utf8_step in Ha'. destruct Ha' as (n & E & Hn).
  destruct (utf8_char_bound _ _ E) as [H1 H2].
  assert (Hsk : skipn n ((x :: a) ++ b) = skipn n (x :: a) ++ b) by (apply skipn_app_le; exact H2).
  assert (Hlen : len (skipn n (x :: a)) <= fuel).
  { rewrite skipn_length. cbn [List.length] in *. lia. }
  rewrite <- (IH (skipn n (x :: a)) b Hlen Hn), <- Hsk. cbn [app]. rewrite utf8_step.
  change (x :: a ++ b) with ((x :: a) ++ b). rewrite (utf8_char_app _ _ b E). split.
  - intros (n' & E' & H'). injection E' as <-. exact H'.
  - intros H'. exists n. auto.
Qed.
Lemma utf8_cut fuel : forall a x b, len a <= fuel -> is_utf8 (a ++ x :: b) -> leading x -> is_utf8 a.
Proof.
  induction fuel as [|fuel IH]; intros a x b Hf H Hx.
  { destruct a; [reflexivity|cbn in Hf; lia]. }
  destruct a as [|y a]; [reflexivity|]. cbn [app] in H. rewrite utf8_step in H. destruct H as (n & E & Hn).
  change (y :: a ++ x :: b) with ((y :: a) ++ x :: b) in *.
  destruct (utf8_char_bound _ _ E) as [H1 H2].
  destruct (Nat.le_gt_cases n (len (y :: a))) as [Hle|Hgt].
  - rewrite utf8_step. exists n. split.
    + pose proof (utf8_char_firstn _ _ E) as Ef. rewrite firstn_app_le in Ef by exact Hle.
      apply (utf8_char_app _ _ (skipn n (y :: a))) in Ef. rewrite firstn_skipn in Ef. exact Ef.
    + rewrite skipn_app_le in Hn by exact Hle. eapply IH; [|exact Hn|exact Hx].
      rewrite skipn_length. cbn [List.length] in *. lia.
  - exfalso. destruct (utf8_char_conts _ _ (len (y :: a)) E) as (z & Ez & Hz); [cbn [List.length] in *; lia|].
    rewrite nth_error_app2, Nat.sub_diag in Ez by lia. injection Ez as <-. auto.
Qed.
Lemma utf8_ascii l : Forall (fun x => (x < 128)%N) l -> is_utf8 l.
Proof.
  induction 1 as [|x l Hx Hl IH]; [reflexivity|]. apply utf8_step. exists 1. split; [|exact IH].
  cbn [utf8_char]. destruct (N.ltb_spec x 128); [reflexivity|lia].
Qed.
Lemma hex_val_bound x n : hex_val x = Some n -> (n < 16)%N.
Proof. unfold hex_val. intros H. step_cases H; try discriminate; try (injection H as <-); lia. Qed.
Lemma u4_bound a b c e n : u4 a b c e = inl n -> (n < 65536)%N.
Proof.
  unfold u4. intros H. destruct (hex_val a) eqn:E1; [|discriminate]. destruct (hex_val b) eqn:E2; [|discriminate].
  destruct (hex_val c) eqn:E3; [|discriminate]. destruct (hex_val e) eqn:E4; [|discriminate]. injection H as <-.
  apply hex_val_bound in E1, E2, E3, E4. lia.
Qed.
Lemma utf8_encoded n : (n < 65536)%N -> is_low n = false -> is_high n = false -> is_utf8 (utf8_encode n).
Proof.
  unfold is_low, is_high. intros Hn Hl Hh. unfold utf8_encode.
  destruct (N.ltb_spec n 128).
  { apply utf8_ascii. repeat constructor. assumption. }
  destruct (N.ltb_spec n 2048).
  { apply utf8_step. exists 2. split; [|reflexivity]. cbn [utf8_char]. unfold cont.
    assert (n / 64 < 32)%N by (apply N.div_lt_upper_bound; lia).
    assert (2 <= n / 64)%N by (apply N.div_le_lower_bound; lia).
    assert (n mod 64 < 64)%N by (apply N.mod_lt; lia).
    destruct (N.ltb_spec (192 + n / 64) 128); [lia|].
    replace ((194 <=? 192 + n / 64)%N && (192 + n / 64 <? 224)%N)%bool with true by lia.
    replace ((128 <=? 128 + n mod 64)%N && (128 + n mod 64 <? 192)%N)%bool with true by lia. reflexivity. }
  destruct (N.ltb_spec n 65536); [|lia].
  apply utf8_step. exists 3. split; [|reflexivity].
  assert (n / 4096 < 16)%N by (apply N.div_lt_upper_bound; lia).
  assert (n mod 64 < 64)%N by (apply N.mod_lt; lia).
  assert ((n / 64) mod 64 < 64)%N by (apply N.mod_lt; lia).
  assert (Hd : (n / 64 = 64 * (n / 4096) + (n / 64) mod 64)%N).
  { replace 4096%N with (64 * 64)%N by lia. rewrite <- N.div_div by lia. apply N.div_mod. lia. }
  assert (Hd2 : (n = 64 * (n / 64) + n mod 64)%N) by (apply N.div_mod; lia).
  remember (n / 4096)%N as p. remember ((n / 64) mod 64)%N as q. remember (n mod 64)%N as r. remember (n / 64)%N as u.
  cbn [utf8_char]. unfold cont.
  replace (224 + p <? 128)%N with false by lia. replace ((194 <=? 224 + p)%N && (224 + p <? 224)%N)%bool with false by lia.
  replace ((224 <=? 224 + p)%N && (224 + p <? 240)%N)%bool with true by lia.
  replace ((128 <=? 128 + r)%N && (128 + r <? 192)%N)%bool with true by lia. cbn [andb].
  destruct (N.eqb_spec (224 + p) 224).
  { replace ((160 <=? 128 + q)%N && (128 + q <? 192)%N)%bool with true by lia. reflexivity. }
  destruct (N.eqb_spec (224 + p) 237).
  { replace ((128 <=? 128 + q)%N && (128 + q <? 160)%N)%bool with true by lia. reflexivity. }
  replace ((128 <=? 128 + q)%N && (128 + q <? 192)%N)%bool with true by lia. reflexivity.
Qed.

(** ** Where a segment ends *)
Lemma find_leading_spec l : forall p, p < len l -> exists e, find_leading l p = Some e /\ e <= p /\
  (forall i x, e < i <= p -> nth_error l i = Some x -> ~ leading x) /\
  (e = 0 \/ exists x, nth_error l e = Some x /\ leading x).
Proof.
  induction p as [|p IH]; intros Hp; cbn [find_leading].
  - destruct (nth_error l 0) as [x|] eqn:E; [|apply nth_error_None in E; lia].
    destruct (is_utf8_leading_byte x); exists 0; repeat split; auto; intros; lia.
  - destruct (nth_error l (S p)) as [x|] eqn:E; [|apply nth_error_None in E; lia].
    destruct (is_utf8_leading_byte x) eqn:Ex.
    + exists (S p). split; [reflexivity|]. split; [lia|]. split; [intros; lia|]. right. exists x. auto.
    + destruct IH as (e & H1 & H2 & H3 & H4); [lia|]. exists e. split; [exact H1|]. split; [lia|]. split; [|exact H4].
      intros i y Hi Hy. destruct (Nat.eq_dec i (S p)) as [->|Hne].
      * rewrite E in Hy. injection Hy as <-. unfold leading. congruence.
      * apply (H3 i y); [lia|exact Hy].
Qed.
Lemma find_leading_here l p x : nth_error l p = Some x -> leading x -> find_leading l p = Some p.
Proof. intros H Hx. destruct p; cbn [find_leading]; rewrite H, Hx; reflexivity. Qed.

Lemma text_split p T d : json_text p T d -> forall k, k <= run_length (fun x => negb (N.eqb x BACKSLASH)) T ->
  json_text p (firstn k T) (firstn k T) /\ exists d2, json_text p (skipn k T) d2 /\ d = firstn k T ++ d2.
Proof.
  induction 1 as [|x t d Hq Hb Hx Ht IH| | |]; intros k Hk.
  - cbn in Hk. replace k with 0 by lia. split; [constructor|]. exists []. split; [constructor|reflexivity].
  - destruct k as [|k]; [cbn [firstn skipn]; split; [constructor|]; eexists; split; [|reflexivity]; constructor; auto|].
    cbn [run_length] in Hk. destruct (N.eqb_spec x BACKSLASH); [contradiction|]. cbn [negb] in Hk.
    destruct (IH k) as (H1 & d2 & H2 & ->); [lia|]. cbn [firstn skipn]. split; [constructor; auto|].
    exists d2. auto.
  - cbn [run_length] in Hk. rewrite N.eqb_refl in Hk. cbn [negb] in Hk. replace k with 0 by lia.
    cbn [firstn skipn]. split; [constructor|]. eexists. split; [|reflexivity]. constructor; auto.
  - cbn [run_length] in Hk. rewrite N.eqb_refl in Hk. cbn [negb] in Hk. replace k with 0 by lia.
    cbn [firstn skipn]. split; [constructor|]. eexists. split; [|reflexivity]. constructor; auto.
  - cbn [run_length] in Hk. rewrite N.eqb_refl in Hk. cbn [negb] in Hk. replace k with 0 by lia.
    cbn [firstn skipn]. split; [constructor|]. eexists. split; [|reflexivity]. eapply jt_pair; eauto.
Qed.

Lemma run_length_whole (p : byte -> bool) l : Forall (fun x => p x = true) l -> run_length p l = len l.
Proof. induction 1 as [|x l H Hl IH]; cbn [run_length List.length]; [reflexivity|]. rewrite H, IH. reflexivity. Qed.

Lemma ascii_leading x : (x < 128)%N -> leading x.
Proof. unfold leading, is_utf8_leading_byte. lia. Qed.

(** Progress in a valid text: a character ends soon. *)
Lemma utf8_next T : is_utf8 T -> T <> [] -> exists k, 1 <= k <= 4 /\ k <= len T /\ (k = len T \/ exists x, nth_error T k = Some x /\ leading x).
Proof.
  destruct T as [|x l]; [congruence|]. intros H _. rewrite utf8_step in H. destruct H as (n & E & Hn).
  destruct (utf8_char_bound _ _ E) as [H1 H2]. exists n. split; [lia|]. split; [exact H2|].
  destruct (skipn n (x :: l)) as [|y m] eqn:Es.
  - left. assert (len (skipn n (x :: l)) = 0) by (rewrite Es; reflexivity). rewrite skipn_length in *. lia.
  - right. exists y. split.
    + rewrite <- (firstn_skipn n (x :: l)), Es, nth_error_app2 by (rewrite firstn_length; lia).
      rewrite firstn_length_le' by exact H2. rewrite Nat.sub_diag. reflexivity.
    + rewrite utf8_step in Hn. destruct Hn as (k & Ek & _). unfold utf8_char in Ek. unfold leading, is_utf8_leading_byte.
      step_cases Ek; try discriminate; lia.
Qed.

Definition no_bs (x : byte) : bool := negb (N.eqb x BACKSLASH).
Lemma no_bs_forall T : Forall (fun x => x <> BACKSLASH) T -> Forall (fun x => no_bs x = true) T.
Proof. apply Forall_impl. intros x H. unfold no_bs. destruct (N.eqb_spec x BACKSLASH); [contradiction|reflexivity]. Qed.

Lemma nth_error_firstn_eq {A} (l m : list A) n i : firstn n l = firstn n m -> i < n -> nth_error l i = nth_error m i.
Proof.
  revert l m i. induction n as [|n IH]; intros l m i H Hi; [lia|].
  destruct l as [|x l], m as [|y m]; cbn [firstn] in H; try discriminate; [reflexivity|].
  injection H as -> H. destruct i as [|i]; [reflexivity|]. cbn [nth_error]. apply IH; [exact H|lia].
Qed.

Lemma Forall_skipn' {A} (P : A -> Prop) n l : Forall P l -> Forall P (skipn n l).
Proof. intros H. rewrite <- (firstn_skipn n l) in H. apply Forall_app in H. apply H. Qed.
Lemma Forall_firstn' {A} (P : A -> Prop) n l : Forall P l -> Forall P (firstn n l).
Proof. intros H. rewrite <- (firstn_skipn n l) in H. apply Forall_app in H. apply H. Qed.

(** What happens to a buffer that begins with an incomplete string: either nothing is written and there is room
    to read more, or a whole number of characters and escapes is cut off. *)
Lemma segment_cut b T d :
  wf b -> 8 <= cap b -> 1 <= n_bytes b <= S (len T) ->
  firstn (n_bytes b) (buf b) = firstn (n_bytes b) (QUOTE :: T) ->
  json_text false T d -> long_text (buf b) T ->
  exists e, find_leading (buf b) (raw_segment_end b) = Some e /\
    ((e <= 1 /\ n_bytes b < cap b) \/
     (1 < e <= n_bytes b /\ firstn e (buf b) = QUOTE :: firstn (e - 1) T /\
      long_text (buf b) (skipn (e - 1) T) /\
      exists d1 d2, json_text false (firstn (e - 1) T) d1 /\ json_text false (skipn (e - 1) T) d2 /\ d = d1 ++ d2 /\
        (is_utf8 d -> is_utf8 d1 /\ is_utf8 d2))).
Proof.
  intros W Hc Hn Hf HT Hm. unfold wf, cap in *.
  assert (Hfirst : forall e, e <= n_bytes b -> 1 <= e -> firstn e (buf b) = QUOTE :: firstn (e - 1) T).
  { intros e He He1. replace (firstn e (buf b)) with (firstn e (firstn (n_bytes b) (buf b))).
    - rewrite Hf, firstn_firstn. replace (Nat.min e (n_bytes b)) with e by lia. destruct e; [lia|]. cbn [firstn Nat.sub].
      rewrite Nat.sub_0_r. reflexivity.
    - rewrite firstn_firstn. f_equal. lia. }
  assert (Hnth : forall i, 1 <= i < n_bytes b -> nth_error (buf b) i = nth_error T (i - 1)).
  { intros i Hi. rewrite (nth_error_firstn_eq _ _ _ i Hf) by lia. destruct i; [lia|]. cbn [nth_error Nat.sub].
    rewrite Nat.sub_0_r. reflexivity. }
  unfold raw_segment_end. rewrite Hf.
  assert (Hrun : run_length (fun x => negb (N.eqb x BACKSLASH)) (firstn (n_bytes b) (QUOTE :: T))
                 = Nat.min (n_bytes b) (S (run_length no_bs T))).
  { rewrite BufferProofs.run_length_firstn. reflexivity. }
  rewrite Hrun. clear Hrun. cbn zeta.
  destruct Hm as [[Hb Hu]|(Hcells & Hasc & _)].
  - (* no escapes *)
    rewrite (run_length_whole no_bs T (no_bs_forall _ Hb)).
    replace (Nat.min (n_bytes b) (S (len T))) with (n_bytes b) by lia.
    rewrite Nat.ltb_irrefl.
    destruct (find_leading_spec (buf b) (n_bytes b - 1)) as (e & E & He & Hno & Hyes); [lia|].
    exists e. split; [exact E|].
    destruct (Nat.le_gt_cases e 1) as [He1|He1].
    + left. split; [exact He1|]. destruct (Nat.eq_dec (n_bytes b) (len (buf b))) as [Eq|]; [|lia]. exfalso.
      destruct (utf8_next T Hu) as (k & Hk1 & Hk2 & [Hk3|(x & Hx & Hl)]).
      * destruct T; [cbn in *; lia|congruence].
      * lia.
      * apply (Hno (S k) x); [lia| |exact Hl]. rewrite Hnth by lia. cbn [Nat.sub]. rewrite Nat.sub_0_r. exact Hx.
    + right. split; [lia|]. split; [apply Hfirst; lia|].
      destruct Hyes as [->|(x & Hx & Hl)]; [lia|]. rewrite Hnth in Hx by lia.
      assert (Hsk : exists m, skipn (e - 1) T = x :: m).
      { rewrite <- (firstn_skipn (e - 1) T) in Hx. rewrite nth_error_app2 in Hx by (rewrite firstn_length; lia).
        rewrite firstn_length_le', Nat.sub_diag in Hx by lia.
        destruct (skipn (e - 1) T) as [|y m]; [discriminate|]. injection Hx as ->. eauto. }
      destruct Hsk as (m & Hsk).
      assert (Hu1 : is_utf8 (firstn (e - 1) T)).
      { eapply (utf8_cut _ _ x m (Nat.le_refl _)); [|exact Hl]. rewrite <- Hsk, firstn_skipn. exact Hu. }
      assert (Hu2 : is_utf8 (skipn (e - 1) T)).
      { apply (utf8_app _ _ _ (Nat.le_refl _) Hu1). rewrite firstn_skipn. exact Hu. }
      destruct (text_split false T d HT (e - 1)) as (H1 & d2 & H2 & ->).
      { change (fun x => negb (N.eqb x BACKSLASH)) with no_bs. rewrite (run_length_whole no_bs T (no_bs_forall _ Hb)). lia. }
      split; [left; split; [apply Forall_skipn'; exact Hb|exact Hu2]|].
      exists (firstn (e - 1) T), d2. split; [exact H1|]. split; [exact H2|]. split; [reflexivity|].
      intros Hd. split; [exact Hu1|]. apply (utf8_app _ _ _ (Nat.le_refl _) Hu1). exact Hd.
  - (* ASCII text, cells without continuation bytes *)
    assert (Hhere : forall p, p < len (buf b) -> find_leading (buf b) p = Some p).
    { intros p Hp. destruct (nth_error (buf b) p) as [x|] eqn:E; [|apply nth_error_None in E; lia].
      apply (find_leading_here _ _ x E). rewrite Forall_forall in Hcells. apply Hcells. eapply nth_error_In; eauto. }
    assert (Hrest : forall e d2, json_text false (skipn (e - 1) T) d2 ->
              long_text (buf b) (skipn (e - 1) T)).
    { intros e d2 H2. right. split; [exact Hcells|]. split; [apply Forall_skipn'; exact Hasc|eauto]. }
    assert (Hrun : forall e, 1 < e <= n_bytes b -> e - 1 <= run_length no_bs T ->
      (1 < e <= n_bytes b /\ firstn e (buf b) = QUOTE :: firstn (e - 1) T /\
      long_text (buf b) (skipn (e - 1) T) /\
      exists d1 d2, json_text false (firstn (e - 1) T) d1 /\ json_text false (skipn (e - 1) T) d2 /\ d = d1 ++ d2 /\
        (is_utf8 d -> is_utf8 d1 /\ is_utf8 d2))).
    { intros e He Hr. split; [exact He|]. split; [apply Hfirst; lia|].
      destruct (text_split false T d HT (e - 1) Hr) as (H1 & d2 & H2 & ->).
      split; [apply (Hrest e d2 H2)|]. exists (firstn (e - 1) T), d2. split; [exact H1|]. split; [exact H2|].
      split; [reflexivity|]. intros Hd.
      assert (Hu1 : is_utf8 (firstn (e - 1) T)) by (apply utf8_ascii, Forall_firstn'; exact Hasc).
      split; [exact Hu1|]. apply (utf8_app _ _ _ (Nat.le_refl _) Hu1). exact Hd. }
    destruct (Nat.ltb_spec (Nat.min (n_bytes b) (S (run_length no_bs T))) (n_bytes b)) as [Hlt|Hge].
    2:{ exists (n_bytes b - 1). split; [apply Hhere; lia|].
        destruct (Nat.le_gt_cases (n_bytes b - 1) 1) as [H1|H1]; [left; lia|]. right. apply Hrun; lia. }
    rewrite Nat.min_r in * by lia.
    destruct (Nat.ltb_spec 1 (S (run_length no_bs T))) as [Hr|Hr].
    { exists (S (run_length no_bs T)). split; [apply Hhere; lia|]. right. apply Hrun; lia. }
    (* the escape is at the front *)
    assert (Hr0 : run_length no_bs T = 0) by lia. rewrite Hr0 in *. clear Hr.
    destruct T as [|x T]; [cbn [List.length] in *; lia|].
    cbn [run_length] in Hr0. unfold no_bs in Hr0. destruct (N.eqb_spec x BACKSLASH) as [->|]; [|cbn in Hr0; lia].
    destruct (Nat.ltb_spec (n_bytes b) 3) as [Hn3|Hn3].
    { exists 1. split; [apply Hhere; lia|]. left. lia. }
    assert (H2 : nth_error (buf b) 2 = nth_error T 0).
    { rewrite Hnth by lia. reflexivity. }
    assert (Hy : exists y t, T = y :: t).
    { destruct T as [|y t]; [cbn [List.length] in *; lia|]. eauto. }
    destruct Hy as (y & t & ->). change (nth_error (y :: t) 0) with (Some y) in H2.
    match goal with |- context [nth 2 ?l ?z] => replace (nth 2 l z) with y by (symmetry; apply nth_error_nth; exact H2) end.
    inversion HT as [| |? c ? d' He Ht|a0 b0 c0 e0 n ? d' Hu4 Hlo Hhi Ht|? ? ? ? ? ? ? ? ? ? ? ? Habs]; subst; [congruence| | |discriminate].
    + assert (Hy : (negb (N.eqb y 117) && negb (N.eqb y 85))%bool = true).
      { unfold simple_escape in He. destruct (N.eqb_spec y 117) as [->|]; [discriminate|]. destruct (N.eqb_spec y 85) as [->|]; [discriminate|]. reflexivity. }
      rewrite Hy. exists 3. split; [apply Hhere; lia|]. right. split; [lia|]. split; [apply Hfirst; lia|].
      change (3 - 1) with 2. cbn [skipn firstn].
      split; [apply (Hrest 3 d'); exact Ht|]. exists [c], d'. split; [constructor; [exact He|constructor]|].
      split; [exact Ht|]. split; [reflexivity|]. intros Hd.
      assert (Hu1 : is_utf8 [c]).
      { apply utf8_ascii. repeat constructor. inversion Hasc as [|? ? ? Ha2]. inversion Ha2. subst.
        unfold simple_escape in He. step_cases He; injection He as <-; lia. }
      split; [exact Hu1|]. apply (utf8_app _ _ _ (Nat.le_refl _) Hu1). exact Hd.
    + change (negb (N.eqb 117%N 117%N) && negb (N.eqb 117%N 85%N))%bool with false. cbn iota.
      destruct (Nat.ltb_spec (n_bytes b) 7) as [Hn7|Hn7].
      { exists 1. split; [apply Hhere; lia|]. left. lia. }
      exists 7. split; [apply Hhere; lia|]. right. split; [lia|]. split; [apply Hfirst; lia|].
      change (7 - 1) with 6. cbn [skipn firstn].
      split; [apply (Hrest 7 d'); exact Ht|]. exists (utf8_encode n), d'.
      split. { rewrite <- (app_nil_r (utf8_encode n)). eapply jt_hex; eauto. constructor. }
      split; [exact Ht|]. split; [reflexivity|]. intros Hd.
      assert (Hu1 : is_utf8 (utf8_encode n)) by (apply utf8_encoded; auto; eapply u4_bound; eauto).
      split; [exact Hu1|]. apply (utf8_app _ _ _ (Nat.le_refl _) Hu1). exact Hd.
Qed.

Lemma utf8_tail_ascii x T : (x < 128)%N -> is_utf8 (x :: T) -> is_utf8 T.
Proof. intros Hx H. apply (utf8_app _ [x] T (Nat.le_refl _)); [apply utf8_ascii; repeat constructor; exact Hx|exact H]. Qed.
Lemma utf8_head x T : is_utf8 (x :: T) -> leading x.
Proof.
  intros H. rewrite utf8_step in H. destruct H as (k & Ek & _). unfold utf8_char in Ek. unfold leading, is_utf8_leading_byte.
  step_cases Ek; try discriminate; lia.
Qed.
Lemma hex_ascii x d : hex_val x = Some d -> (x < 128)%N.
Proof. unfold hex_val. intros H. step_cases H; try discriminate; lia. Qed.
Lemma u4_ascii a b c e n : u4 a b c e = inl n -> (a < 128 /\ b < 128 /\ c < 128 /\ e < 128)%N.
Proof.
  unfold u4. intros H. step_cases H; try discriminate.
  repeat match goal with H : hex_val _ = Some _ |- _ => apply hex_ascii in H end. auto.
Qed.
(** The same for a text with escapes, if the buffer is full or the text does not start with an escape. *)
Lemma segment_cut_full b T d :
  wf b -> 8 <= cap b -> 1 <= n_bytes b <= S (len T) ->
  firstn (n_bytes b) (buf b) = firstn (n_bytes b) (QUOTE :: T) ->
  json_text false T d -> is_utf8 T -> (hd_error T <> Some BACKSLASH \/ n_bytes b = cap b) ->
  exists e, find_leading (buf b) (raw_segment_end b) = Some e /\
    ((e <= 1 /\ n_bytes b < cap b) \/
     (1 < e <= n_bytes b /\ firstn e (buf b) = QUOTE :: firstn (e - 1) T /\
      is_utf8 (skipn (e - 1) T) /\
      exists d1 d2, json_text false (firstn (e - 1) T) d1 /\ json_text false (skipn (e - 1) T) d2 /\ d = d1 ++ d2 /\
        (is_utf8 d -> is_utf8 d1 /\ is_utf8 d2))).
Proof.
  intros W Hc Hn Hf HT Hu Hm. unfold wf, cap in *.
  assert (Hfirst : forall e, e <= n_bytes b -> 1 <= e -> firstn e (buf b) = QUOTE :: firstn (e - 1) T).
  { intros e He He1. replace (firstn e (buf b)) with (firstn e (firstn (n_bytes b) (buf b))).
    - rewrite Hf, firstn_firstn. replace (Nat.min e (n_bytes b)) with e by lia. destruct e; [lia|]. cbn [firstn Nat.sub].
      rewrite Nat.sub_0_r. reflexivity.
    - rewrite firstn_firstn. f_equal. lia. }
  assert (Hnth : forall i, 1 <= i < n_bytes b -> nth_error (buf b) i = nth_error T (i - 1)).
  { intros i Hi. rewrite (nth_error_firstn_eq _ _ _ i Hf) by lia. destruct i; [lia|]. cbn [nth_error Nat.sub].
    rewrite Nat.sub_0_r. reflexivity. }
  assert (Hcut : forall e x, 1 < e <= n_bytes b -> e - 1 <= run_length no_bs T -> nth_error T (e - 1) = Some x -> leading x ->
      1 < e <= n_bytes b /\ firstn e (buf b) = QUOTE :: firstn (e - 1) T /\ is_utf8 (skipn (e - 1) T) /\
      exists d1 d2, json_text false (firstn (e - 1) T) d1 /\ json_text false (skipn (e - 1) T) d2 /\ d = d1 ++ d2 /\
        (is_utf8 d -> is_utf8 d1 /\ is_utf8 d2)).
  { intros e x He Hr Hx Hl. split; [exact He|]. split; [apply Hfirst; lia|].
    assert (Hle : e - 1 < len T) by (apply nth_error_Some; rewrite Hx; discriminate).
    assert (Hsk : exists m, skipn (e - 1) T = x :: m).
    { rewrite <- (firstn_skipn (e - 1) T) in Hx. rewrite nth_error_app2 in Hx by (rewrite firstn_length; lia).
      rewrite firstn_length_le', Nat.sub_diag in Hx by lia.
      destruct (skipn (e - 1) T) as [|y m]; [discriminate|]. injection Hx as ->. eauto. }
    destruct Hsk as (m & Hsk).
    assert (Hu1 : is_utf8 (firstn (e - 1) T)).
    { eapply (utf8_cut _ _ x m (Nat.le_refl _)); [|exact Hl]. rewrite <- Hsk, firstn_skipn. exact Hu. }
    assert (Hu2 : is_utf8 (skipn (e - 1) T)).
    { apply (utf8_app _ _ _ (Nat.le_refl _) Hu1). rewrite firstn_skipn. exact Hu. }
    destruct (text_split false T d HT (e - 1)) as (H1 & d2 & H2 & ->); [exact Hr|].
    split; [exact Hu2|]. exists (firstn (e - 1) T), d2. split; [exact H1|]. split; [exact H2|]. split; [reflexivity|].
    intros Hd. split; [exact Hu1|]. apply (utf8_app _ _ _ (Nat.le_refl _) Hu1). exact Hd. }
  unfold raw_segment_end. rewrite Hf.
  assert (Hrun : run_length (fun x => negb (N.eqb x BACKSLASH)) (firstn (n_bytes b) (QUOTE :: T))
                 = Nat.min (n_bytes b) (S (run_length no_bs T))).
  { rewrite BufferProofs.run_length_firstn. reflexivity. }
  rewrite Hrun. clear Hrun. cbn zeta.
  destruct (Nat.ltb_spec (Nat.min (n_bytes b) (S (run_length no_bs T))) (n_bytes b)) as [Hlt|Hge].
  2:{ (* no escape in the buffer *)
    destruct (find_leading_spec (buf b) (n_bytes b - 1)) as (e & E & He & Hno & Hyes); [lia|].
    exists e. split; [exact E|].
    destruct (Nat.le_gt_cases e 1) as [He1|He1].
    + left. split; [exact He1|]. destruct (Nat.eq_dec (n_bytes b) (len (buf b))) as [Eq|]; [|lia]. exfalso.
      destruct (utf8_next T Hu) as (k & Hk1 & Hk2 & [Hk3|(x & Hx & Hl)]).
      * destruct T; [cbn in *; lia|congruence].
      * lia.
      * apply (Hno (S k) x); [lia| |exact Hl]. rewrite Hnth by lia. cbn [Nat.sub]. rewrite Nat.sub_0_r. exact Hx.
    + right. destruct Hyes as [->|(x & Hx & Hl)]; [lia|]. rewrite Hnth in Hx by lia. apply (Hcut e x); auto; lia. }
  rewrite Nat.min_r in * by lia.
  assert (Hbs : nth_error T (run_length no_bs T) = Some BACKSLASH).
  { assert (Hl : run_length no_bs T < len T) by lia. clear - Hl. revert Hl. induction T as [|x T IH]; cbn [run_length List.length]; [lia|].
    unfold no_bs at 1 3. destruct (N.eqb_spec x BACKSLASH) as [->|]; [reflexivity|]. cbn [negb]. intros Hl. apply IH. lia. }
  destruct (Nat.ltb_spec 1 (S (run_length no_bs T))) as [Hr|Hr].
  { exists (S (run_length no_bs T)). split.
    - apply (find_leading_here _ _ BACKSLASH); [|reflexivity]. rewrite Hnth by lia. cbn [Nat.sub]. rewrite Nat.sub_0_r. exact Hbs.
    - right. apply (Hcut _ BACKSLASH); [lia|lia| |reflexivity]. cbn [Nat.sub]. rewrite Nat.sub_0_r. exact Hbs. }
  (* the escape is at the front: the buffer is full *)
  assert (Hr0 : run_length no_bs T = 0) by lia. rewrite Hr0 in *. clear Hr.
  destruct T as [|x T]; [discriminate|]. cbn [nth_error] in Hbs. injection Hbs as ->.
  destruct Hm as [Hm|Hfull]; [elim Hm; reflexivity|].
  destruct (Nat.ltb_spec (n_bytes b) 3) as [Hn3|Hn3]; [lia|].
  assert (H2 : nth_error (buf b) 2 = nth_error T 0) by (rewrite Hnth by lia; reflexivity).
  destruct T as [|y t]; [cbn [List.length] in *; lia|]. change (nth_error (y :: t) 0) with (Some y) in H2.
  match goal with |- context [nth 2 ?l ?z] => replace (nth 2 l z) with y by (symmetry; apply nth_error_nth; exact H2) end.
  apply utf8_tail_ascii in Hu; [|reflexivity].
  inversion HT as [| |? c ? d' He Ht|a0 b0 c0 e0 n ? d' Hu4 Hlo Hhi Ht|? ? ? ? ? ? ? ? ? ? ? ? Habs]; subst; [congruence| | |discriminate].
  + assert (Hy : (negb (N.eqb y 117) && negb (N.eqb y 85))%bool = true).
    { unfold simple_escape in He. destruct (N.eqb_spec y 117) as [->|]; [discriminate|]. destruct (N.eqb_spec y 85) as [->|]; [discriminate|]. reflexivity. }
    assert (Hya : (y < 128)%N) by (unfold simple_escape in He; step_cases He; try discriminate; lia).
    apply utf8_tail_ascii in Hu; [|exact Hya].
    assert (Hne : exists z t', t = z :: t').
    { destruct t as [|z t']; [cbn [List.length] in *; lia|eauto]. }
    destruct Hne as (z & t' & ->).
    rewrite Hy. exists 3. split; [apply (find_leading_here _ _ z); [rewrite Hnth by lia; reflexivity|exact (utf8_head _ _ Hu)]|].
    right. split; [lia|]. split; [apply Hfirst; lia|].
    change (3 - 1) with 2. cbn [skipn firstn].
    split; [exact Hu|]. exists [c], d'. split; [constructor; [exact He|constructor]|].
    split; [exact Ht|]. split; [reflexivity|]. intros Hd.
    assert (Hu1 : is_utf8 [c]).
    { apply utf8_ascii. repeat constructor. unfold simple_escape in He. step_cases He; injection He as <-; lia. }
    split; [exact Hu1|]. apply (utf8_app _ _ _ (Nat.le_refl _) Hu1). exact Hd.
  + change (negb (N.eqb 117%N 117%N) && negb (N.eqb 117%N 85%N))%bool with false. cbn iota.
    destruct (Nat.ltb_spec (n_bytes b) 7) as [Hn7|Hn7]; [lia|].
    destruct (u4_ascii _ _ _ _ _ Hu4) as (Ha & Hb & Hc' & He').
    do 5 (apply utf8_tail_ascii in Hu; [|first [reflexivity|assumption]]).
    assert (Hne : exists z t', t0 = z :: t').
    { destruct t0 as [|z t']; [cbn [List.length] in *; lia|eauto]. }
    destruct Hne as (z & t' & ->).
    exists 7. split; [apply (find_leading_here _ _ z); [rewrite Hnth by lia; reflexivity|exact (utf8_head _ _ Hu)]|].
    right. split; [lia|]. split; [apply Hfirst; lia|].
    change (7 - 1) with 6. cbn [skipn firstn].
    split; [exact Hu|]. exists (utf8_encode n), d'.
    split. { rewrite <- (app_nil_r (utf8_encode n)). eapply jt_hex; eauto. constructor. }
    split; [exact Ht|]. split; [reflexivity|]. intros Hd.
    assert (Hu1 : is_utf8 (utf8_encode n)) by (apply utf8_encoded; auto; eapply u4_bound; eauto).
    split; [exact Hu1|]. apply (utf8_app _ _ _ (Nat.le_refl _) Hu1). exact Hd.
Qed.

(** ** The loop *)
Lemma Forall_write_at P l n d : Forall P l -> Forall P d -> Forall P (write_at l n d).
Proof. intros Hl Hd. unfold write_at. apply Forall_app. split; [apply Forall_firstn'; exact Hl|]. apply Forall_app. split; [exact Hd|apply Forall_skipn'; exact Hl]. Qed.
Lemma shift_cells P b t f : Forall P (buf b) -> Forall P (buf (shift_buffer b t f)).
Proof.
  intros H. unfold shift_buffer. destruct (if t <? Nat.min f (n_bytes b) then _ else _) as [l c].
  destruct ((t <? f) && (t <? n_bytes b)); cbn [buf]; [|exact H]. destruct (f <? n_bytes b); [|exact H].
  apply Forall_write_at; [exact H|]. apply Forall_firstn', Forall_skipn'. exact H.
Qed.
Lemma read_cells b b' k : read_more b = (b', Ok k) ->
  exists d, src (rd b) = d ++ src (rd b') /\ len d = k /\ buf b' = write_at (buf b) (n_bytes b) d.
Proof.
  unfold read_more. destruct (reader_read (rd b) (len (buf b) - n_bytes b)) as [[d|e] r] eqn:E; [|discriminate].
  intros H. injection H as <- <-. cbn [rd buf]. exists d. split; [|auto].
  unfold reader_read in E. destruct (sched (rd b)) as [|[n|e] sc]; [| |discriminate].
  - injection E as <- <-. cbn [src]. symmetry. apply firstn_skipn.
  - injection E as <- <-. cbn [src]. symmetry. apply firstn_skipn.
Qed.
Lemma long_text_move c c' T : long_text c T -> (Forall leading c -> Forall leading c') -> long_text c' T.
Proof. intros [H|(H1 & H2)] Hc; [left; exact H|right; auto]. Qed.

(** Texts that are copied from here on. *)
Definition copyable (s : rj) (T : bytes) : Prop :=
  long_text (buf (bf s)) T \/
  (fills (bf s) /\ is_utf8 T /\ (hd_error T <> Some BACKSLASH \/ (jidx s = 0 /\ n_bytes (bf s) = cap (bf s)))).
Lemma read_fills b b' k : wf b -> fills b -> read_more b = (b', Ok k) -> fills b' /\ (n_bytes b' = cap b' \/ src (rd b') = []).
Proof.
  unfold fills, wf, cap, read_more, reader_read. intros W H. rewrite H. intros E. injection E as <- <-. cbn [rd sched src n_bytes buf]. split; [reflexivity|].
  assert (L : len (firstn (len (buf b) - n_bytes b) (src (rd b))) <= len (buf b) - n_bytes b) by (rewrite firstn_length; lia).
  rewrite write_at_length by lia. rewrite firstn_length in *. destruct (Nat.le_gt_cases (len (src (rd b))) (len (buf b) - n_bytes b)) as [H1|H1].
  - right. apply skipn_all2. exact H1.
  - left. lia.
Qed.

Lemma written_plain d h f : written (mkBuffered d h 0 f) = d.
Proof. reflexivity. Qed.
Lemma written_held d h c f : written (mkBuffered d h (S c) f) = d ++ h.
Proof. reflexivity. Qed.
(** What a [write_all] does: the bytes [x] that are taken, and [a] that go to the destination. *)
Lemma write_all_cases w d : exists w' r p q a, write_all w d = (w', r) /\ d = p ++ q /\ written w' = written w ++ p /\ wcap w' = wcap w /\
  delivered w' = delivered w ++ a /\ (wcap w = 0 -> a = p /\ held w' = held w) /\
  match wfail w with
  | None => wfail w' = None /\ r = Ok tt
  | Some (n, k) => len a <= n /\ wfail w' = Some (n - len a, k) /\ (r <> Ok tt -> r = Err k /\ n = len a)
  end /\ (r = Ok tt -> q = []) /\ (r <> Ok tt -> q <> []).
Proof.
  assert (HD : forall w d, exists a rest f r, deliver w d = (delivered w ++ a, f, rest, r) /\ d = a ++ rest /\
    match wfail w with
    | None => f = None /\ r = Ok tt
    | Some (n, k) => len a <= n /\ f = Some (n - len a, k) /\ (r <> Ok tt -> r = Err k /\ n = len a)
    end /\ (r = Ok tt -> rest = []) /\ (r <> Ok tt -> rest <> [])).
  { clear. intros w d. unfold deliver. destruct (wfail w) as [[n k]|].
    - destruct (Nat.leb_spec (len d) n) as [H|H].
      + exists d, []. eexists _, _. split; [reflexivity|]. rewrite app_nil_r. split; [reflexivity|]. split; [split; [exact H|split; [reflexivity|intros X; elim X; reflexivity]]|].
        split; [reflexivity|]. intros X. elim X. reflexivity.
      + exists (firstn n d), (skipn n d). eexists _, _. split; [reflexivity|]. rewrite firstn_skipn. split; [reflexivity|].
        rewrite firstn_length_le by lia. split; [split; [lia|]; split; [rewrite Nat.sub_diag; reflexivity|auto]|]. split; [discriminate|]. intros _ HH.
        apply (f_equal (@List.length byte)) in HH. rewrite skipn_length in HH. cbn in HH. unfold byte in *. lia.
    - exists d, []. eexists _, _. split; [reflexivity|]. rewrite app_nil_r. split; [reflexivity|]. split; [split; reflexivity|]. split; [reflexivity|]. intros X. elim X. reflexivity. }
  unfold write_all. destruct (wcap w) as [|c] eqn:Ec; cbn [Nat.eqb].
  { destruct (HD w d) as (a & rest & f & r & -> & Ed & Hf & H1 & H2). eexists _, r, a, rest, a. split; [reflexivity|]. split; [exact Ed|].
    rewrite written_plain. unfold written. rewrite Ec. split; [reflexivity|]. split; [reflexivity|]. split; [reflexivity|]. split; [split; reflexivity|]. split; [|auto].
    destruct (wfail w) as [[n k]|]; exact Hf. }
  assert (HW : written w = delivered w ++ held w) by (unfold written; rewrite Ec; reflexivity).
  assert (HN : forall (a : bytes) (v : result unit io_kind), a = [] -> v = Ok tt -> match wfail w with None => wfail w = None /\ v = Ok tt | Some (n, k) => len a <= n /\ wfail w = Some (n - len a, k) /\ (v <> Ok tt -> v = Err k /\ n = len a) end).
  { intros a v -> ->. destruct (wfail w) as [[n k]|]; [|auto]. cbn [List.length]. rewrite Nat.sub_0_r. split; [lia|]. split; [reflexivity|]. intros X. elim X. reflexivity. }
  destruct ((len d <? S c - len (held w)) || (len d =? 0)) eqn:Efit.
  { eexists _, (Ok tt), d, [], []. split; [reflexivity|]. rewrite !app_nil_r. split; [reflexivity|]. rewrite written_held, HW, app_assoc. split; [reflexivity|].
    split; [reflexivity|]. split; [reflexivity|]. split; [discriminate|]. split; [exact (HN [] _ eq_refl eq_refl)|]. split; [reflexivity|]. intros X. elim X. reflexivity. }
  apply orb_false_iff in Efit as (Efit & Ez). apply Nat.ltb_ge in Efit. apply Nat.eqb_neq in Ez.
  assert (HF : exists a1 w1 r1, (if S c - len (held w) <? len d then flush_held w else (w, Ok tt)) = (w1, r1) /\
    written w1 = written w /\ wcap w1 = S c /\ delivered w1 = delivered w ++ a1 /\
    (match wfail w with
     | None => wfail w1 = None /\ r1 = Ok tt
     | Some (n, k) => len a1 <= n /\ wfail w1 = Some (n - len a1, k) /\ (r1 <> Ok tt -> r1 = Err k /\ n = len a1)
     end) /\ (r1 = Ok tt -> held w1 = [] \/ len d < S c)).
  { destruct (Nat.ltb_spec (S c - len (held w)) (len d)) as [Hlt|Hge].
    - unfold flush_held. rewrite Ec. destruct (HD w (held w)) as (a & rest & f & r & -> & Ed & Hf & H1 & H2). exists a. eexists _, r. split; [reflexivity|].
      rewrite written_held, HW, Ed, app_assoc. split; [reflexivity|]. split; [reflexivity|]. split; [reflexivity|]. cbn [wfail held]. split; [exact Hf|]. intros Hr. left. auto.
    - exists []. eexists w, (Ok tt). split; [reflexivity|]. split; [reflexivity|]. split; [exact Ec|]. rewrite app_nil_r. split; [reflexivity|]. split; [exact (HN [] _ eq_refl eq_refl)|].
      intros _. destruct (held w) as [|x h]; [left; reflexivity|right]. cbn [List.length] in *. lia. }
  destruct HF as (a1 & w1 & r1 & -> & Hw1 & Hc1 & Hd1 & Hf1 & Hh1). destruct r1 as [[]|e].
  2:{ eexists _, (Err e), [], d, a1. split; [reflexivity|]. split; [reflexivity|]. rewrite app_nil_r. split; [exact Hw1|]. split; [congruence|]. split; [exact Hd1|]. split; [discriminate|].
      split; [exact Hf1|]. split; [discriminate|]. intros _ ->. elim Ez. reflexivity. }
  specialize (Hh1 eq_refl). destruct (Nat.leb_spec (S c) (len d)) as [Hbig|Hsmall].
  - assert (Hh : held w1 = []) by (destruct Hh1 as [H|H]; [exact H|lia]). assert (Hw : written w = delivered w1) by (rewrite <- Hw1; unfold written; rewrite Hc1, Hh; apply app_nil_r).
    destruct (HD w1 d) as (a & rest & f & r & -> & Ed & Hf & H1 & H2).
    assert (HFF : forall v : result unit io_kind, (v <> Ok tt -> v = r) ->
      match wfail w with None => f = None /\ v = Ok tt | Some (n, k) => len (a1 ++ a) <= n /\ f = Some (n - len (a1 ++ a), k) /\ (v <> Ok tt -> v = Err k /\ n = len (a1 ++ a)) end).
    { intros v Hv. rewrite app_length. destruct (wfail w) as [[n k]|].
      - destruct Hf1 as (A & B & _). rewrite B in Hf. destruct Hf as (C & D & E). split; [lia|]. split; [rewrite D; f_equal; f_equal; lia|]. intros X. specialize (Hv X). subst r. destruct (E X) as (E1 & E2). split; [exact E1|lia].
      - destruct Hf1 as (B & _). rewrite B in Hf. destruct Hf as (-> & ->). split; [reflexivity|]. destruct v as [[]|e]; [reflexivity|apply Hv; discriminate]. }
    destruct (len rest <? S c) eqn:Er.
    + eexists _, (Ok tt), d, [], (a1 ++ a). split; [reflexivity|]. rewrite app_nil_r. split; [reflexivity|]. rewrite written_held, Hw, <- app_assoc, <- Ed. split; [reflexivity|].
      split; [reflexivity|]. cbn [delivered wfail]. rewrite Hd1, app_assoc. split; [reflexivity|]. split; [discriminate|]. split; [apply HFF; intros X; elim X; reflexivity|]. split; [reflexivity|]. intros X. elim X. reflexivity.
    + assert (r <> Ok tt) by (intros ->; rewrite (H1 eq_refl) in Er; discriminate).
      eexists _, r, a, rest, (a1 ++ a). split; [reflexivity|]. split; [exact Ed|]. rewrite written_held, Hw, app_nil_r. split; [reflexivity|].
      split; [reflexivity|]. cbn [delivered wfail]. rewrite Hd1, app_assoc. split; [reflexivity|]. split; [discriminate|]. split; [apply HFF; reflexivity|]. split; [contradiction|exact H2].
  - eexists _, (Ok tt), d, [], a1. split; [reflexivity|]. rewrite app_nil_r. split; [reflexivity|]. rewrite written_held, app_assoc.
    replace (delivered w1 ++ held w1) with (written w1) by (unfold written; rewrite Hc1; reflexivity). rewrite Hw1. split; [reflexivity|].
    split; [reflexivity|]. split; [exact Hd1|]. split; [discriminate|]. split; [exact Hf1|]. split; [reflexivity|]. intros X. elim X. reflexivity.
Qed.
Lemma write_all_spec w x : exists w' r, write_all w x = (w', r) /\ (wfail w = None -> wfail w' = None) /\
  match r with
  | Ok _ => written w' = written w ++ x
  | Err _ => wfail w <> None /\ exists p q, x = p ++ q /\ written w' = written w ++ p
  end.
Proof.
  destruct (write_all_cases w x) as (w' & r & p & q & a & E & -> & Hw & _ & _ & _ & Hf & H1 & H2). exists w', r. split; [exact E|].
  destruct (wfail w) as [[n k]|].
  - split; [discriminate|]. destruct r as [[]|e]; [rewrite (H1 eq_refl), app_nil_r; exact Hw|]. split; [discriminate|]. eauto.
  - destruct Hf as (Hf & ->). split; [auto|]. rewrite (H1 eq_refl), app_nil_r. exact Hw.
Qed.
(** The buffer does not overflow. *)
Lemma write_all_held w d : len (held w) <= wcap w -> len (held (fst (write_all w d))) <= wcap w.
Proof.
  intros H. assert (HD : forall w d, let '(_, _, rest, r) := deliver w d in len rest <= len d /\ (r = Ok tt -> rest = [])).
  { clear. intros w d. unfold deliver. destruct (wfail w) as [[n k]|]; [destruct (len d <=? n)|]; (split; [|try discriminate; auto]); cbn [List.length]; try lia. rewrite skipn_length. lia. }
  unfold write_all. destruct (wcap w) as [|c] eqn:Ec; cbn [Nat.eqb].
  { destruct (deliver w d) as [[[d' f] rest] r]. exact H. }
  destruct ((len d <? S c - len (held w)) || (len d =? 0)) eqn:Ef.
  { cbn [fst held]. rewrite app_length. apply orb_true_iff in Ef as [Ef|Ef]; [apply Nat.ltb_lt in Ef|apply Nat.eqb_eq in Ef]; lia. }
  assert (HF : exists w1 r1, (if S c - len (held w) <? len d then flush_held w else (w, Ok tt)) = (w1, r1) /\ len (held w1) <= S c /\ (r1 = Ok tt -> len (held w1) = 0 \/ len (held w1) + len d <= S c)).
  { destruct (Nat.ltb_spec (S c - len (held w)) (len d)).
    - unfold flush_held. specialize (HD w (held w)). destruct (deliver w (held w)) as [[[d' f] rest] r]. eexists _, _. split; [reflexivity|]. cbn [held]. split; [lia|]. intros Hr. left. destruct HD as (_ & HD). rewrite (HD Hr). reflexivity.
    - exists w, (Ok tt). split; [reflexivity|]. split; [exact H|]. intros _. right. lia. }
  destruct HF as (w1 & r1 & -> & H1 & H2). destruct r1 as [u|e]; [|exact H1]. destruct (Nat.leb_spec (S c) (len d)).
  - destruct (deliver w1 d) as [[[d' f] rest] r]. destruct (Nat.ltb_spec (len rest) (S c)); cbn [fst held List.length]; lia.
  - cbn [fst held]. rewrite app_length. destruct u. destruct (H2 eq_refl); lia.
Qed.
Lemma write_all_open w x : wfail w = None -> exists w', write_all w x = (w', Ok tt) /\ wfail w' = None /\ written w' = written w ++ x.
Proof.
  intros H. destruct (write_all_spec w x) as (w' & [[]|e] & E & H1 & H2); [|destruct H2 as (H2 & _); contradiction]. eauto.
Qed.

Lemma handle_long_spec (parser : jop bytes) segment (sem : bytes -> bytes -> bytes -> Prop) :
  stable false parser -> bounded parser -> inert parser ->
  (forall T d o after, json_text false T d -> sem T d o -> parser (QUOTE :: T ++ QUOTE :: after) = (Ok o, S (S (len T)))) ->
  (forall T1 d1 T2 d2 o, json_text false T1 d1 -> json_text false T2 d2 ->
     (is_utf8 (d1 ++ d2) -> is_utf8 d1 /\ is_utf8 d2) -> sem (T1 ++ T2) (d1 ++ d2) o ->
     exists o1 o2, o = o1 ++ o2 /\ sem T2 d2 o2 /\
       forall cells e, e = S (len T1) -> firstn e cells = QUOTE :: T1 -> segment cells e = Ok o1) ->
  forall fuel s w T d o after,
  valid s -> 8 <= rcap s -> rest s = QUOTE :: T ++ QUOTE :: after -> json_text false T d -> sem T d o ->
  (copyable s T \/ S (S (len T)) <= n_bytes (bf s) - jidx s) ->
  len (src (rd (bf s))) < fuel ->
  exists s' w' r p q, handle_long fuel parser segment s w = Done (s', w', r) /\
    o = p ++ q /\ written w' = written w ++ p /\ (wfail w = None -> wfail w' = None) /\
    match r with
    | Ok _ => q = [] /\ valid s' /\ rest s' = after /\ total s' = total s /\ rcap s' = rcap s /\ (rquiet s = true -> rquiet s' = true)
    | Err e => is_io e = true /\ (rquiet s = false \/ wfail w <> None)
    end.
Proof.
  intros Hst Hbo Hin Hpar Hseg. induction fuel as [|fuel IH]; intros s w T d o after V Hc HR HT Ho Hm Hfu; [lia|].
  cbn [handle_long]. unfold jcall.
  pose proof (jview_split s V) as Hsp. pose proof (jview_length s V) as Hvl.
  assert (Hwhole := Hpar T d o after HT Ho). rewrite <- HR, Hsp in Hwhole.
  destruct (parser (jview s)) as [[v|[er off]] a] eqn:Ep.
  { (* complete *)
    assert (Hva : v = o /\ a = S (S (len T))).
    { destruct (Hst (jview s) (src (rd (bf s)))) as [(e & o' & a' & E & _)|[[E _]|E]].
      - rewrite Ep in E. discriminate.
      - discriminate.
      - rewrite Ep, Hwhole in E. injection E as -> ->. auto. }
    destruct Hva as [-> ->].
    assert (Hle : S (S (len T)) <= n_bytes (bf s) - jidx s).
    { rewrite <- Hvl. eapply Hbo; eauto. }
    destruct (write_all_spec w o) as (w' & r & Ew & Hwf & Hr). rewrite Ew.
    destruct r as [u|e].
    - do 5 eexists. split; [reflexivity|]. split; [symmetry; apply app_nil_r|]. split; [exact Hr|]. split; [exact Hwf|].
      destruct V as (W & J & I). cbn [bf jlen jidx]. split; [reflexivity|]. split; [|split; [|split; [|split]]].
      + unfold valid. cbn [bf jlen jidx]. split; [exact W|]. split; [exact J|]. lia.
      + unfold rest. cbn [bf jidx]. rewrite <- skipn_skipn. change (skipn (jidx s) (stream (bf s))) with (rest s).
        rewrite HR. replace (QUOTE :: T ++ QUOTE :: after) with ((QUOTE :: T ++ [QUOTE]) ++ after) by (cbn [app]; rewrite <- app_assoc; reflexivity).
        replace (S (S (len T))) with (len (QUOTE :: T ++ [QUOTE])) by (cbn [List.length]; rewrite app_length; cbn; lia). apply skipn_app_all.
      + reflexivity.
      + reflexivity.
      + auto.
    - destruct Hr as (Hr & p & q & -> & Hp). do 5 eexists. split; [reflexivity|]. split; [reflexivity|].
      split; [exact Hp|]. split; [exact Hwf|]. split; [reflexivity|auto]. }
  (* incomplete *)
  apply Hin in Ep as Ha. subst a. replace (jidx s + 0) with (jidx s) by lia.
  assert (Hretry : can_retry er = true).
  { destruct (Hst (jview s) (src (rd (bf s)))) as [(e & o' & a' & E & Hk)|[[E _]|E]].
    - rewrite Ep in E. injection E as -> _ _. destruct e as [[]| | |]; (reflexivity || discriminate).
    - discriminate.
    - rewrite Ep, Hwhole in E. discriminate. }
  cbn [fst]. rewrite Hretry.
  assert (Hshort : n_bytes (bf s) - jidx s <= S (len T)).
  { destruct (Nat.le_gt_cases (n_bytes (bf s) - jidx s) (S (len T))) as [H|H]; [exact H|]. exfalso.
    rewrite (jview_rest s V), HR in Ep.
    replace (QUOTE :: T ++ QUOTE :: after) with ((QUOTE :: T ++ [QUOTE]) ++ after) in Ep by (cbn [app]; rewrite <- app_assoc; reflexivity).
    rewrite firstn_app in Ep. rewrite firstn_all2 in Ep by (cbn [List.length]; rewrite app_length; cbn [List.length]; lia).
    cbn [app] in Ep. rewrite <- app_assoc in Ep. cbn [app] in Ep. rewrite (Hpar T d o _ HT Ho) in Ep. discriminate. }
  assert (Hlt : copyable s T) by (destruct Hm as [H|H]; [exact H|lia]). clear Hm.
  set (s1 := mkRj (bf s) (jlen s) (jidx s)).
  set (s2 := if 0 <? jidx s1 then create_new_jiter (with_bf s1 (shift_buffer (bf s1) 0 (jidx s1))) else s1).
  assert (H2 : valid s2 /\ rest s2 = QUOTE :: T ++ QUOTE :: after /\ jidx s2 = 0 /\ n_bytes (bf s2) = n_bytes (bf s) - jidx s /\
               total s2 = total s /\ rcap s2 = rcap s /\ rquiet s2 = rquiet s /\ rd (bf s2) = rd (bf s) /\ copyable s2 T).
  { destruct V as (W & J & I). unfold s2. cbn [s1 jidx bf]. destruct (Nat.ltb_spec 0 (jidx s)) as [Hj|Hj].
    - destruct (shift_front (bf s) (jidx s) W I) as (C & N' & L & R & S').
      cbn [with_bf create_new_jiter bf jlen jidx]. unfold valid, rest, total, rcap, rquiet. cbn [with_bf create_new_jiter bf jlen jidx].
      split; [split; [apply (cut_wf _ _ _ _ C)|split; [reflexivity|lia]]|].
      split; [cbn [skipn]; rewrite S'; exact HR|]. split; [reflexivity|]. split; [exact N'|].
      split; [apply (cut_total _ _ _ _ C)|]. split; [apply (cut_cap _ _ _ _ C)|]. split; [apply quiet_rd; exact R|].
      split; [exact R|]. destruct Hlt as [Hlt|(F1 & F2 & F3)].
      + left. eapply long_text_move; [exact Hlt|]. apply shift_cells.
      + right. unfold fills in *. cbn [with_bf create_new_jiter bf]. rewrite R. split; [exact F1|]. split; [exact F2|]. left. destruct F3 as [F3|(F3 & _)]; [exact F3|lia].
    - assert (jidx s = 0) by lia. subst s1. destruct s as [b jl ji]. cbn [jidx bf jlen] in *. subst ji.
      split; [split; [exact W|split; [exact J|exact I]]|]. split; [exact HR|]. split; [reflexivity|].
      split; [lia|]. repeat split; auto. }
  clearbody s2. clear s1. destruct H2 as (V2 & R2 & J2 & N2 & T2 & C2 & Q2 & D2 & L2).
  assert (Hstream : stream (bf s2) = QUOTE :: T ++ QUOTE :: after) by (unfold rest in R2; rewrite J2 in R2; exact R2).
  assert (Hsrc : n_bytes (bf s2) + len (src (rd (bf s2))) = S (S (len T + len after))).
  { rewrite <- stream_length by apply V2. rewrite Hstream. cbn [List.length]. rewrite app_length. cbn [List.length]. lia. }
  (* reading on *)
  assert (Hread : forall s3 w3 T3 d3 o3 p0,
    wf (bf s3) -> jidx s3 = 0 -> n_bytes (bf s3) < rcap s3 -> rest s3 = QUOTE :: T3 ++ QUOTE :: after -> json_text false T3 d3 -> sem T3 d3 o3 ->
    total s3 = total s2 -> rcap s3 = rcap s2 -> rd (bf s3) = rd (bf s2) -> n_bytes (bf s3) <= S (len T3) ->
    (long_text (buf (bf s3)) T3 \/ (fills (bf s3) /\ is_utf8 T3)) -> o = p0 ++ o3 -> written w3 = written w ++ p0 -> (wfail w = None -> wfail w3 = None) ->
    exists s' w' r p q,
      match read_more (bf s3) with
      | (b, Err e) => Done (with_bf s3 b, w3, Err e)
      | (b, Ok 0) => Done (with_bf s3 b, w3, Err (from_jiter_error (current_index (with_bf s3 b)) (er, jidx s + off)))
      | (b, Ok _) => handle_long fuel parser segment (create_new_jiter (with_bf s3 b)) w3
      end = Done (s', w', r) /\
      o = p ++ q /\ written w' = written w ++ p /\ (wfail w = None -> wfail w' = None) /\
      match r with
      | Ok _ => q = [] /\ valid s' /\ rest s' = after /\ total s' = total s /\ rcap s' = rcap s /\ (rquiet s = true -> rquiet s' = true)
      | Err e => is_io e = true /\ (rquiet s = false \/ wfail w <> None)
      end).
  { intros s3 w3 T3 d3 o3 p0 V3 J3 Hroom R3 HT3 Ho3 Tt3 Cp3 Rd3 N3 L3 -> Hw3 Hwf3.
    assert (Hst3 : stream (bf s3) = QUOTE :: T3 ++ QUOTE :: after) by (unfold rest in R3; rewrite J3 in R3; exact R3).
    destruct (read_more (bf s3)) as [b [k|e]] eqn:Er.
    - destruct (read_more_spec _ _ _ V3 Er) as (C & Sh & Q & N' & Ls & Hz).
      pose proof (cut_nil_stream _ _ _ C) as Hs.
      assert (Hslen : n_bytes (bf s3) + len (src (rd (bf s3))) = S (S (len T3 + len after))).
      { rewrite <- stream_length by exact V3. rewrite Hst3. cbn [List.length]. rewrite app_length. cbn [List.length]. lia. }
      destruct k as [|k].
      { exfalso. destruct (Hz eq_refl) as [H|H]; [unfold rcap in *; lia|]. rewrite H in Hslen. cbn in Hslen. lia. }
      destruct (IH (create_new_jiter (with_bf s3 b)) w3 T3 d3 o3 after) as (s' & w' & r & p & q & E & Hpq & Hw' & Hwf' & Hr).
      + unfold valid. cbn [create_new_jiter with_bf bf jlen jidx]. split; [apply (cut_wf _ _ _ _ C)|]. split; [reflexivity|lia].
      + unfold rcap in *. cbn [create_new_jiter with_bf bf]. rewrite (cut_cap _ _ _ _ C). lia.
      + unfold rest. cbn [create_new_jiter with_bf bf jidx skipn]. rewrite Hs. exact Hst3.
      + exact HT3.
      + exact Ho3.
      + cbn [create_new_jiter with_bf bf jidx].
        destruct (Nat.le_gt_cases (S (S (len T3))) (n_bytes b - 0)) as [Hge|Hlt']; [right; exact Hge|left].
        destruct L3 as [L3|(F1 & F2)].
        2:{ right. cbn [create_new_jiter with_bf bf jidx]. destruct (read_fills _ _ _ V3 F1 Er) as (F3 & [F4|F4]).
            - split; [exact F3|]. split; [exact F2|]. right. split; [reflexivity|exact F4].
            - exfalso. pose proof (stream_length b (cut_wf _ _ _ _ C)) as HL. rewrite Hs, Hst3, F4 in HL. cbn [List.length] in HL. rewrite app_length in HL. cbn [List.length] in HL. lia. }
        left. destruct L3 as [HA|(Hlead & Hasc & Hd)]; [left; exact HA|right]. split; [|auto]. cbn [create_new_jiter with_bf bf].
        destruct (read_cells _ _ _ Er) as (x & Hx & Lx & ->).
        apply Forall_write_at; [exact Hlead|].
        replace x with (skipn (n_bytes (bf s3)) (firstn (n_bytes (bf s3) + len x) (stream (bf s3)))).
        * rewrite Hst3. change (QUOTE :: T3 ++ QUOTE :: after) with ((QUOTE :: T3) ++ QUOTE :: after).
          rewrite firstn_app_le by (cbn [List.length]; lia). apply Forall_skipn', Forall_firstn'.
          constructor; [reflexivity|]. eapply Forall_impl; [|exact Hasc]. apply ascii_leading.
        * rewrite skipn_firstn. replace (n_bytes (bf s3) + len x - n_bytes (bf s3)) with (len x) by lia.
          rewrite stream_skipn by exact V3. rewrite Hx. apply firstn_app_all.
      + cbn [create_new_jiter with_bf bf]. rewrite Rd3, D2 in Ls. lia.
      + exists s', w', r, (p0 ++ p), q. split; [exact E|]. split; [rewrite Hpq; apply app_assoc|].
        split; [rewrite Hw', Hw3; symmetry; apply app_assoc|]. split; [auto|]. destruct r as [u|e].
        * destruct Hr as (H1 & H2 & H3 & H4 & H5 & H6). split; [exact H1|]. split; [exact H2|]. split; [exact H3|].
          split; [|split].
          -- rewrite H4, <- T2, <- Tt3. unfold total. cbn [create_new_jiter with_bf bf]. rewrite Hs, Sh. reflexivity.
          -- rewrite H5. unfold rcap in *. cbn [create_new_jiter with_bf bf]. rewrite (cut_cap _ _ _ _ C). lia.
          -- intros Hq. apply H6. unfold rquiet. cbn [create_new_jiter with_bf bf]. apply Q.
             rewrite (quiet_rd _ _ Rd3). unfold rquiet in *. rewrite Q2. exact Hq.
        * destruct Hr as [H1 H2]. split; [exact H1|]. destruct H2 as [H2|H2]; [left|right].
          -- unfold rquiet in *. cbn [create_new_jiter with_bf bf] in H2. rewrite <- Q2, <- (quiet_rd _ _ Rd3).
             destruct (quiet (bf s3)); [rewrite Q in H2 by reflexivity; discriminate|reflexivity].
          -- intros H. apply H2. auto.
    - destruct (read_more_spec _ _ _ V3 Er) as (C & Sh & Q & (kind & ->) & N' & Ls & Hb & Hq).
      do 5 eexists. split; [reflexivity|]. split; [reflexivity|]. split; [exact Hw3|]. split; [exact Hwf3|].
      split; [reflexivity|]. left. unfold rquiet in *. rewrite <- Q2, <- (quiet_rd _ _ Rd3). exact Hq. }
  destruct (Nat.eq_dec (n_bytes (bf s2)) 0) as [H0|H0].
  { assert (Hraw : raw_segment_end (bf s2) = 0).
    { unfold raw_segment_end. rewrite H0. reflexivity. }
    rewrite Hraw.
    assert (Hfl : find_leading (buf (bf s2)) 0 = Some 0).
    { cbn [find_leading]. destruct (nth_error (buf (bf s2)) 0) as [x|] eqn:E.
      - destruct (is_utf8_leading_byte x); reflexivity.
      - apply nth_error_None in E. unfold rcap, cap in *. lia. }
    rewrite Hfl. cbn [Nat.ltb Nat.leb].
    apply (Hread s2 w T d o []); auto; try lia; [apply V2| |symmetry; apply app_nil_r]. destruct L2 as [L2|(F1 & F2 & _)]; auto. }
  assert (Hcut : exists e, find_leading (buf (bf s2)) (raw_segment_end (bf s2)) = Some e /\
    ((e <= 1 /\ n_bytes (bf s2) < cap (bf s2)) \/
     (1 < e <= n_bytes (bf s2) /\ firstn e (buf (bf s2)) = QUOTE :: firstn (e - 1) T /\
      (long_text (buf (bf s2)) (skipn (e - 1) T) \/ (fills (bf s2) /\ is_utf8 (skipn (e - 1) T))) /\
      exists d1 d2, json_text false (firstn (e - 1) T) d1 /\ json_text false (skipn (e - 1) T) d2 /\ d = d1 ++ d2 /\
        (is_utf8 d -> is_utf8 d1 /\ is_utf8 d2)))).
  { assert (G1 : wf (bf s2)) by apply V2. assert (G2 : 8 <= cap (bf s2)) by (unfold rcap in *; lia). assert (G3 : 1 <= n_bytes (bf s2) <= S (len T)) by lia.
    assert (G4 : firstn (n_bytes (bf s2)) (buf (bf s2)) = firstn (n_bytes (bf s2)) (QUOTE :: T)).
    { rewrite <- stream_firstn by apply V2. rewrite Hstream.
      change (QUOTE :: T ++ QUOTE :: after) with ((QUOTE :: T) ++ QUOTE :: after). apply firstn_app_le. cbn [List.length]. lia. }
    destruct L2 as [L2|(F1 & F2 & F3)].
    - destruct (segment_cut (bf s2) T d G1 G2 G3 G4 HT L2) as (e & He & [Hcase|(A1 & A2 & A3 & A4)]); exists e; (split; [exact He|]); [left; exact Hcase|right].
      split; [exact A1|]. split; [exact A2|]. split; [left; exact A3|exact A4].
    - assert (F4 : hd_error T <> Some BACKSLASH \/ n_bytes (bf s2) = cap (bf s2)) by tauto.
      destruct (segment_cut_full (bf s2) T d G1 G2 G3 G4 HT F2 F4) as (e & He & [Hcase|(A1 & A2 & A3 & A4)]); exists e; (split; [exact He|]); [left; exact Hcase|right].
      split; [exact A1|]. split; [exact A2|]. split; [right; split; [exact F1|exact A3]|exact A4]. }
  destruct Hcut as (e & He & Hcase).
  rewrite He. destruct Hcase as [[He1 Hroom]|(He1 & Hfirst & Hlt2 & d1 & d2 & HT1 & HT2 & -> & Hutf)].
  { destruct (Nat.ltb_spec 1 e) as [?|_]; [lia|].
    apply (Hread s2 w T d o []); auto; try lia; [apply V2| |symmetry; apply app_nil_r]. destruct L2 as [L2|(F1 & F2 & _)]; auto. }
  destruct (Nat.ltb_spec 1 e) as [_|?]; [|lia].
  assert (Hl1 : len (firstn (e - 1) T) = e - 1) by (apply firstn_length_le'; lia).
  destruct (Hseg (firstn (e - 1) T) d1 (skipn (e - 1) T) d2 o HT1 HT2 Hutf) as (o1 & o2 & -> & Ho2 & Hsegok).
  { rewrite firstn_skipn. exact Ho. }
  rewrite (Hsegok (buf (bf s2)) e) by (try lia; exact Hfirst).
  destruct (write_all_spec w o1) as (w' & r & Ew & Hwf & Hr). rewrite Ew.
  destruct r as [u|er'].
  2:{ destruct Hr as (Hr & p & q & -> & Hp). exists s2, w'. do 3 eexists. split; [reflexivity|].
      split; [symmetry; apply app_assoc|]. split; [exact Hp|]. split; [exact Hwf|]. split; [reflexivity|auto]. }
  destruct (shift_spec (bf s2) 1 e (proj1 V2)) as (C & N' & Ld & Rd').
  replace (Nat.min e (n_bytes (bf s2))) with e in * by lia.
  assert (Hcutst : stream (shift_buffer (bf s2) 1 e) = QUOTE :: skipn (e - 1) T ++ QUOTE :: after).
  { destruct C as (_ & _ & _ & _ & a' & c & E1 & E2 & Ha). rewrite E2. rewrite Hstream in E1 at 1.
    rewrite Hstream in E1, Ha, Ld. cbn [skipn] in *.
    destruct Ha as [Ha|Ha]; [rewrite Ha in Ld; cbn in Ld; lia|].
    destruct a' as [|x [|y a']]; [cbn in Ha; lia| |cbn in Ha; lia]. cbn [app] in E1 |- *. injection E1 as Hx1 E1. rewrite <- Hx1.
    f_equal. apply (app_inv_head (firstn (e - 1) (T ++ QUOTE :: after))). rewrite <- E1.
    rewrite firstn_app_le by lia. rewrite app_assoc, firstn_skipn. reflexivity. }
  apply (Hread (with_bf s2 (shift_buffer (bf s2) 1 e)) w' (skipn (e - 1) T) d2 o2 o1); auto.
  - apply (cut_wf _ _ _ _ C).
  - unfold rcap. cbn [with_bf bf]. rewrite (cut_cap _ _ _ _ C), N'. unfold rcap in *. destruct V2 as (W2 & _). unfold wf, cap in *. lia.
  - unfold rest. cbn [with_bf bf jidx]. rewrite J2. exact Hcutst.
  - unfold total. cbn [with_bf bf]. apply (cut_total _ _ _ _ C).
  - unfold rcap. cbn [with_bf bf]. apply (cut_cap _ _ _ _ C).
  - cbn [with_bf bf]. rewrite N', skipn_length. lia.
  - cbn [with_bf bf]. destruct Hlt2 as [Hlt2|(F1 & F2)]; [left|right].
    + eapply long_text_move; [exact Hlt2|]. apply shift_cells.
    + unfold fills in *. rewrite Rd'. auto.
Qed.

(** ** The two methods *)
Definition copies (o : bytes) (after : bytes) (s : rj) (w : writer) (x : outcome (rj * writer * result unit rerror)) : Prop :=
  exists s' w' r p q, x = Done (s', w', r) /\
    o = p ++ q /\ written w' = written w ++ p /\ (wfail w = None -> wfail w' = None) /\
    match r with
    | Ok _ => q = [] /\ valid s' /\ rest s' = after /\ total s' = total s /\ rcap s' = rcap s /\ (rquiet s = true -> rquiet s' = true)
    | Err e => is_io e = true /\ (rquiet s = false \/ wfail w <> None)
    end.

Lemma json_text_mono T d : json_text false T d -> json_text true T d.
Proof.
  induction 1; [constructor|constructor; auto|constructor; auto|constructor; auto|discriminate].
Qed.
Lemma json_text_fun p q T d d' : json_text p T d -> json_text q T d' -> d = d'.
Proof. intros H H'. apply scan_text with (after := []) in H, H'. rewrite H in H'. congruence. Qed.
Lemma json_text_plain T d : json_text true T d -> Forall (fun x => x <> BACKSLASH) T -> json_text false T T /\ d = T.
Proof.
  induction 1 as [|x t d Hq Hb Hx Ht IH| | |]; intros Hf; inversion Hf; subst; try congruence.
  - split; [constructor|reflexivity].
  - destruct IH as [IH ->]; [assumption|]. split; [constructor; auto|reflexivity].
Qed.
Lemma long_text_plain cells T d : long_text cells T -> json_text true T d -> json_text false T d.
Proof.
  intros [[Hb _]|(_ & _ & d' & H')] H.
  - destruct (json_text_plain _ _ H Hb) as [H1 ->]. exact H1.
  - rewrite (json_text_fun _ _ _ _ _ H (json_text_mono _ _ H')). exact H'.
Qed.

Lemma copied_text_plain s T d : long_text (buf (bf s)) T \/ (fills (bf s) /\ steady_text T) -> json_text true T d -> json_text false T d /\ copyable s T.
Proof.
  intros [H|(H1 & H2 & H3 & d' & H')] HT.
  - split; [exact (long_text_plain _ _ _ H HT)|left; exact H].
  - split; [|right; auto]. rewrite (json_text_fun _ _ _ _ _ HT (json_text_mono _ _ H')). exact H'.
Qed.
Lemma write_long_bytes_spec s w T after :
  valid s -> 8 <= rcap s -> rest s = QUOTE :: T ++ QUOTE :: after -> parsed j_known_bytes (rest s) T after ->
  long_text (buf (bf s)) T \/ (fills (bf s) /\ steady_text T) -> copies T after s w (write_long_bytes s w).
Proof.
  intros V Hc HR (a & Hp & Ha) Hl. unfold write_long_bytes.
  assert (HT : exists d, json_text true T d).
  { rewrite HR in Hp. unfold j_known_bytes in Hp. cbn [skipn] in Hp.
    destruct (scan_string 0 (T ++ QUOTE :: after)) as [[n d]|[? ?]] eqn:E; [|discriminate].
    injection Hp as Hp _. exists d. destruct (scan_text_inv _ _ _ _ (Nat.le_refl _) E) as [Ht _]. rewrite Hp in Ht. exact Ht. }
  destruct HT as [d HT]. apply (copied_text_plain _ _ _ Hl) in HT as [HT HC].
  apply (handle_long_spec j_known_bytes bytes_segment (fun T d o => o = T)) with (T := T) (d := d); auto.
  - apply known_bytes_stable.
  - apply known_bytes_bounded.
  - apply known_bytes_inert.
  - intros T0 d0 o0 af H ->. unfold j_known_bytes. cbn [skipn]. rewrite (scan_text _ _ _ H).
    rewrite firstn_app_all. reflexivity.
  - intros T1 d1 T2 d2 o H1 H2 _ ->. exists T1, T2. split; [reflexivity|]. split; [reflexivity|].
    intros cells e -> Hf. unfold bytes_segment. f_equal. cbn [Nat.sub]. rewrite Nat.sub_0_r.
    destruct cells as [|x cells]; [discriminate|]. cbn [firstn] in Hf. injection Hf as _ Hf. exact Hf.
Qed.

Lemma write_long_str_spec s w T o after :
  valid s -> 8 <= rcap s -> rest s = QUOTE :: T ++ QUOTE :: after -> parsed j_known_str (rest s) o after ->
  long_text (buf (bf s)) T \/ (fills (bf s) /\ steady_text T) -> copies o after s w (write_long_str s w).
Proof.
  intros V Hc HR (a & Hp & Ha) Hl. unfold write_long_str.
  assert (HT : json_text true T o /\ is_utf8 o).
  { rewrite HR in Hp, Ha. unfold j_known_str in Hp. cbn [skipn] in Hp.
    destruct (scan_string 0 (T ++ QUOTE :: after)) as [[n d]|[? ?]] eqn:E; [|discriminate].
    destruct (utf8_invalid 0 d) eqn:Eu; [discriminate|]. injection Hp as <- <-. split; [|exact Eu].
    destruct (scan_text_inv _ _ _ _ (Nat.le_refl _) E) as [Ht (af & Hs)].
    pose proof (scan_string_bound _ _ _ _ E) as Hb.
    assert (Hn : n = len T).
    { apply (f_equal (@List.length byte)) in Ha. rewrite skipn_length in Ha. cbn [List.length] in Ha. rewrite app_length in Ha.
      rewrite app_length in Hb. cbn [List.length] in *. lia. }
    rewrite Hn, firstn_app_all in Ht. exact Ht. }
  destruct HT as [HT Hu]. apply (copied_text_plain _ _ _ Hl) in HT as [HT HC].
  apply (handle_long_spec j_known_str str_segment (fun T d o => o = d /\ is_utf8 d)) with (T := T) (d := o); auto.
  - apply known_str_stable.
  - apply known_str_bounded.
  - apply known_str_inert.
  - intros T0 d0 o0 af H [-> Hu0]. unfold j_known_str. cbn [skipn]. rewrite (scan_text _ _ _ H), Hu0. reflexivity.
  - intros T1 d1 T2 d2 o' H1 H2 Hu12 [-> Hu']. exists d1, d2. destruct (Hu12 Hu') as [Hu1 Hu2].
    split; [reflexivity|]. split; [auto|]. intros cells e -> Hf. unfold str_segment, j_known_str.
    rewrite Hf. cbn [app skipn]. rewrite (scan_text _ _ _ H1), Hu1. reflexivity.
Qed.
