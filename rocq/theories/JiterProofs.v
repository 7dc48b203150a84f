(** Facts about the parser operations: their results do not change when bytes are appended, except for
    end-of-input errors and for numbers that touch the end. *)
From Verif Require Import Base Buffer BufferSpec BufferProofs Jiter.

Definition eof_kind (e : error_type) : bool :=
  match e with
  | JsonError (EofWhileParsingList | EofWhileParsingObject | EofWhileParsingString | EofWhileParsingValue) => true
  | _ => false
  end.
Definition eof_result {A} (r : jres A * nat) : Prop := exists e o a, r = (Err (e, o), a) /\ eof_kind e = true.
Definition touches {A} (r : jres A * nat) (l : bytes) : Prop := exists v, r = (Ok v, len l).

Definition stable {A} (eager : bool) (f : jop A) : Prop :=
  forall l m, eof_result (f l) \/ (eager = true /\ touches (f l) l) \/ f (l ++ m) = f l.
Definition bounded {A} (f : jop A) : Prop := forall l v a, f l = (Ok v, a) -> a <= len l.

Lemma eof_fail {A} e : eof_kind (JsonError e) = true -> eof_result (@jfail A e).
Proof. intros H. exists (JsonError e), 0, 0. auto. Qed.

Lemma skipn_app_le {A} (l m : list A) n : n <= List.length l -> skipn n (l ++ m) = skipn n l ++ m.
Proof. intros H. rewrite skipn_app. replace (n - List.length l) with 0 by lia. reflexivity. Qed.

Lemma jat_eof {A} n (f : jop A) l : eof_result (f (skipn n l)) -> eof_result (jat n f l).
Proof. intros (e & o & a & E & H). unfold jat. rewrite E. exists e, (n + o), (n + a). auto. Qed.

Lemma jat_touches {A} n (f : jop A) l : n <= len l -> touches (f (skipn n l)) (skipn n l) -> touches (jat n f l) l.
Proof. intros Hn (v & E). unfold jat. rewrite E. exists v. rewrite skipn_length. f_equal. lia. Qed.

Lemma jat_stable {A} n (f : jop A) eager l m :
  n <= len l -> stable eager f ->
  eof_result (jat n f l) \/ (eager = true /\ touches (jat n f l) l) \/ jat n f (l ++ m) = jat n f l.
Proof.
  intros Hn Hf. destruct (Hf (skipn n l) m) as [H|[(He & H)|H]].
  - left. apply jat_eof. exact H.
  - right. left. split; [exact He|]. apply jat_touches; auto.
  - right. right. unfold jat. rewrite skipn_app_le by exact Hn. rewrite H. reflexivity.
Qed.

Lemma run_length_app_lt p l m : run_length p l < List.length l -> run_length p (l ++ m) = run_length p l.
Proof.
  induction l as [|x l IH]; cbn; [lia|]. destruct (p x); [|reflexivity]. intros. rewrite IH by lia. reflexivity.
Qed.

Lemma after_ws_stable {A} (f : jop A) eager :
  stable eager f -> eof_result (f []) -> stable eager (after_ws f).
Proof.
  intros Hf H0 l m. unfold after_ws.
  pose proof (run_length_le json_ws l) as Hle.
  destruct (Nat.eq_dec (run_length json_ws l) (len l)) as [E|E].
  - left. apply jat_eof. rewrite E, skipn_all. exact H0.
  - rewrite run_length_app_lt by (unfold bytes, byte in *; lia). apply jat_stable; auto.
Qed.

Lemma jat1_stable {A} (f : jop A) eager : stable eager f -> eof_result (f []) -> stable eager (jat 1 f).
Proof.
  intros Hf H0 l m. destruct l as [|x l].
  - left. apply jat_eof. exact H0.
  - apply jat_stable; auto. cbn. lia.
Qed.

Lemma after_ws_nil {A} (f : jop A) : eof_result (f []) -> eof_result (after_ws f []).
Proof. intros H. apply jat_eof. exact H. Qed.
Lemma jat1_nil {A} (f : jop A) : eof_result (f []) -> eof_result (jat 1 f []).
Proof. intros H. apply jat_eof. exact H. Qed.

Lemma jat_bounded {A} n (f : jop A) l v a : n <= len l -> bounded f -> jat n f l = (Ok v, a) -> a <= len l.
Proof.
  intros Hn Hf H. unfold jat in H. destruct (f (skipn n l)) as [[v'|[e o]] b] eqn:E; [|discriminate].
  injection H as <- <-. apply Hf in E. rewrite skipn_length in E. lia.
Qed.
Lemma after_ws_bounded {A} (f : jop A) : bounded f -> bounded (after_ws f).
Proof. intros Hf l v a H. apply (jat_bounded (run_length json_ws l) f l v a); [apply run_length_le|exact Hf|exact H]. Qed.
Lemma jat1_bounded {A} (f : jop A) : bounded f -> eof_result (f []) -> bounded (jat 1 f).
Proof.
  intros Hf H0 l v a H. destruct l as [|x l].
  - destruct (jat1_nil f H0) as (e & o & b & E & _). rewrite E in H. discriminate.
  - apply (jat_bounded 1 f (x :: l) v a); [cbn; lia|exact Hf|exact H].
Qed.

(** ** peek, arrays *)
Ltac head_stable := intros [|? ?] ?; [left; apply eof_fail; reflexivity|right; right; reflexivity].

Lemma peek_stable : stable false j_peek.
Proof. apply after_ws_stable; [|apply eof_fail; reflexivity]. head_stable. Qed.
Lemma peek_bounded : bounded j_peek.
Proof. apply after_ws_bounded. intros [|x l] v a H; [discriminate|]. injection H as <- <-. lia. Qed.

Lemma known_array_stable : stable false j_known_array.
Proof.
  apply jat1_stable; [|apply after_ws_nil, eof_fail; reflexivity].
  apply after_ws_stable; [|apply eof_fail; reflexivity]. head_stable.
Qed.
Lemma known_array_bounded : bounded j_known_array.
Proof.
  apply jat1_bounded; [|apply after_ws_nil, eof_fail; reflexivity].
  apply after_ws_bounded. intros [|x l] v a H; [discriminate|].
  destruct (N.eqb x RBRACK); injection H as <- <-; cbn; lia.
Qed.

Lemma array_peek_stable : stable false array_peek.
Proof. apply after_ws_stable; [|apply eof_fail; reflexivity]. head_stable. Qed.
Lemma array_peek_bounded : bounded array_peek.
Proof.
  apply after_ws_bounded. intros [|x l] v a H; [discriminate|].
  destruct (N.eqb x RBRACK); [discriminate|]. injection H as <- <-. lia.
Qed.
Lemma array_peek_nil : eof_result (array_peek []).
Proof. apply after_ws_nil, eof_fail. reflexivity. Qed.
Lemma array_step_stable : stable false j_array_step.
Proof.
  apply after_ws_stable; [|apply eof_fail; reflexivity].
  intros [|x l] m; [left; apply eof_fail; reflexivity|]. cbn [app].
  destruct (N.eqb x COMMA); [|right; right; reflexivity].
  apply (jat1_stable array_peek false array_peek_stable array_peek_nil (x :: l) m).
Qed.
Lemma array_step_bounded : bounded j_array_step.
Proof.
  apply after_ws_bounded. intros [|x l] v a H; [discriminate|].
  destruct (N.eqb x COMMA).
  - eapply (jat1_bounded array_peek array_peek_bounded array_peek_nil); eauto.
  - destruct (N.eqb x RBRACK); [|discriminate]. injection H as <- <-. cbn. lia.
Qed.

(** ** Strings *)
Definition sfail_eof (s : sstep) : Prop := exists o, s = SFail EofWhileParsingString o.

Lemma low_surrogate_stable n l m t t' :
  sfail_eof (low_surrogate n l t) \/ low_surrogate n (l ++ m) t' = low_surrogate n l t.
Proof.
  destruct l as [|x [|y l]]; cbn [app low_surrogate].
  - left. eexists. reflexivity.
  - destruct (N.eqb x BACKSLASH) eqn:E; [left; eexists; reflexivity|]. right.
    destruct m as [|y m]; cbn [low_surrogate andb]; try rewrite E; reflexivity.
  - destruct (N.eqb x BACKSLASH && N.eqb y 117)%bool; [|right; reflexivity].
    destruct l as [|a [|b [|c [|d l]]]]; try (left; eexists; reflexivity). right. reflexivity.
Qed.

Lemma string_step_stable l m : sfail_eof (string_step l) \/ string_step (l ++ m) = string_step l.
Proof.
  destruct l as [|x l]; [left; eexists; reflexivity|]. cbn [app string_step].
  destruct (N.eqb x QUOTE); [right; reflexivity|].
  destruct (N.eqb x BACKSLASH); [|right; reflexivity].
  destruct l as [|y l]; [left; eexists; reflexivity|]. cbn [app].
  destruct (simple_escape y); [right; reflexivity|].
  destruct (N.eqb y 117); [|right; reflexivity].
  destruct l as [|a [|b [|c [|d l]]]]; try (left; eexists; reflexivity). cbn [app].
  destruct (u4 a b c d) as [n|i]; [|right; reflexivity].
  destruct (is_low n); [right; reflexivity|].
  destruct (is_high n); [|right; reflexivity]. apply low_surrogate_stable.
Qed.

Lemma string_step_piece l n d : string_step l = SPiece n d -> 1 <= n <= len l.
Proof.
  destruct l as [|x l]; [discriminate|]. cbn [string_step].
  destruct (N.eqb x QUOTE); [discriminate|].
  destruct (N.eqb x BACKSLASH).
  2:{ destruct (N.ltb x 32); [discriminate|]. intros H. injection H as <- <-. cbn. lia. }
  destruct l as [|y l]; [discriminate|].
  destruct (simple_escape y); [intros H; injection H as <- <-; cbn; lia|].
  destruct (N.eqb y 117); [|discriminate].
  destruct l as [|a [|b [|c [|e l]]]]; try discriminate.
  destruct (u4 a b c e) as [k|i]; [|discriminate].
  destruct (is_low k); [discriminate|].
  destruct (is_high k); [|intros H; injection H as <- <-; cbn; lia].
  destruct l as [|x1 [|y1 l]]; cbn [low_surrogate]; try discriminate.
  { destruct (N.eqb x1 BACKSLASH); discriminate. }
  destruct (N.eqb x1 BACKSLASH && N.eqb y1 117)%bool.
  2:{ destruct (N.eqb x1 BACKSLASH); discriminate. }
  destruct l as [|a1 [|b1 [|c1 [|e1 l]]]]; try discriminate.
  destruct (u4 a1 b1 c1 e1); [|discriminate].
  destruct (is_low n0); [|discriminate]. intros H; injection H as <- <-. cbn. lia.
Qed.

Lemma scan_string_stable l : forall skip m,
  (exists o, scan_string skip l = Err (EofWhileParsingString, o)) \/
  scan_string skip (l ++ m) = scan_string skip l.
Proof.
  induction l as [|x l IH]; intros skip m.
  - left. destruct skip; eexists; reflexivity.
  - destruct skip as [|k].
    + cbn [app scan_string]. destruct (string_step_stable (x :: l) m) as [(o & E)|E].
      * left. rewrite E. eexists. reflexivity.
      * cbn [app] in E. rewrite E. destruct (string_step (x :: l)) as [|n d|e o]; try (right; reflexivity).
        destruct (IH (n - 1) m) as [(o & H)|H].
        -- left. rewrite H. eexists. reflexivity.
        -- right. rewrite H. reflexivity.
    + cbn [app scan_string]. destruct (IH k m) as [(o & H)|H].
      * left. rewrite H. eexists. reflexivity.
      * right. rewrite H. reflexivity.
Qed.

Lemma scan_string_bound l : forall skip n d, scan_string skip l = Ok (n, d) -> n < len l.
Proof.
  induction l as [|x l IH]; intros skip n d H.
  - destruct skip; discriminate.
  - destruct skip as [|k]; cbn [scan_string] in H.
    + destruct (string_step (x :: l)) as [|p t|e o]; try discriminate.
      * injection H as <- <-. cbn. lia.
      * destruct (scan_string (p - 1) l) as [[n' d']|[e o]] eqn:E; [|discriminate].
        injection H as <- <-. apply IH in E. cbn. lia.
    + destruct (scan_string k l) as [[n' d']|[e o]] eqn:E; [|discriminate].
      injection H as <- <-. apply IH in E. cbn. lia.
Qed.

Lemma skipn1_app (l m : bytes) : l <> [] -> skipn 1 (l ++ m) = skipn 1 l ++ m.
Proof. destruct l; [congruence|]. reflexivity. Qed.

Lemma known_bytes_stable : stable false j_known_bytes.
Proof.
  intros l m. unfold j_known_bytes.
  destruct l as [|x l]; [left; do 3 eexists; split; reflexivity|].
  cbn [app skipn]. destruct (scan_string_stable l 0 m) as [(o & E)|E].
  - left. rewrite E. do 3 eexists; split; reflexivity.
  - right. right. rewrite E. destruct (scan_string 0 l) as [[n d]|[e o]] eqn:E2; [|reflexivity].
    apply scan_string_bound in E2. rewrite firstn_app_le by (unfold bytes, byte in *; lia). reflexivity.
Qed.
Lemma known_bytes_bounded : bounded j_known_bytes.
Proof.
  intros [|x l] v a H; [discriminate|]. unfold j_known_bytes in H. cbn [skipn] in H.
  destruct (scan_string 0 l) as [[n d]|[e o]] eqn:E; [|discriminate]. injection H as <- <-.
  apply scan_string_bound in E. cbn. lia.
Qed.
Lemma known_str_stable : stable false j_known_str.
Proof.
  intros l m. unfold j_known_str.
  destruct l as [|x l]; [left; do 3 eexists; split; reflexivity|].
  cbn [app skipn]. destruct (scan_string_stable l 0 m) as [(o & E)|E].
  - left. rewrite E. do 3 eexists; split; reflexivity.
  - right. right. rewrite E. reflexivity.
Qed.
Lemma known_str_bounded : bounded j_known_str.
Proof.
  intros [|x l] v a H; [discriminate|]. unfold j_known_str in H. cbn [skipn] in H.
  destruct (scan_string 0 l) as [[n d]|[e o]] eqn:E; [|discriminate].
  destruct (utf8_invalid 0 d); [discriminate|]. injection H as <- <-.
  apply scan_string_bound in E. cbn. lia.
Qed.

(** ** Objects *)
Lemma object_key_stable D : stable false D -> bounded D -> stable false (object_key D).
Proof.
  intros HD HB l m. unfold object_key.
  destruct (HD l m) as [(e & o & a & E & H)|[(Habs & _)|E]]; [|discriminate|].
  - left. rewrite E. do 3 eexists; split; [reflexivity|exact H].
  - rewrite E. destruct (D l) as [[k|e] a] eqn:E2; [|right; right; reflexivity].
    apply jat_stable; [eapply HB; eauto|].
    apply after_ws_stable; [|apply eof_fail; reflexivity]. head_stable.
Qed.
Lemma object_key_bounded D : bounded D -> bounded (object_key D).
Proof.
  intros HB l v a H. unfold object_key in H. destruct (D l) as [[k|e] b] eqn:E; [|discriminate].
  eapply jat_bounded; [eapply HB; eauto| |exact H].
  apply after_ws_bounded. intros [|x l'] v' a' H'; [discriminate|].
  destruct (N.eqb x COLON); [|discriminate]. injection H' as <- <-. cbn. lia.
Qed.
Lemma known_object_stable D : stable false D -> bounded D -> stable false (j_known_object D).
Proof.
  intros HD HB. apply jat1_stable; [|apply after_ws_nil, eof_fail; reflexivity].
  apply after_ws_stable; [|apply eof_fail; reflexivity].
  intros [|x l] m; [left; apply eof_fail; reflexivity|]. cbn [app].
  destruct (N.eqb x QUOTE); [|right; right; reflexivity].
  apply (object_key_stable D HD HB (x :: l) m).
Qed.
Lemma known_object_bounded D : bounded D -> bounded (j_known_object D).
Proof.
  intros HB. apply jat1_bounded; [|apply after_ws_nil, eof_fail; reflexivity].
  apply after_ws_bounded. intros [|x l] v a H; [discriminate|].
  destruct (N.eqb x QUOTE); [eapply object_key_bounded; eauto|].
  destruct (N.eqb x RBRACE); [|discriminate]. injection H as <- <-. cbn. lia.
Qed.
Lemma next_key_stable D : stable false D -> bounded D -> stable false (j_next_key D).
Proof.
  intros HD HB. apply after_ws_stable; [|apply eof_fail; reflexivity].
  intros [|x l] m; [left; apply eof_fail; reflexivity|]. cbn [app].
  destruct (N.eqb x COMMA); [|right; right; reflexivity].
  apply jat1_stable with (l := x :: l).
  - apply after_ws_stable; [|apply eof_fail; reflexivity].
    intros [|y l'] m'; [left; apply eof_fail; reflexivity|]. cbn [app].
    destruct (N.eqb y QUOTE); [|right; right; reflexivity].
    apply (object_key_stable D HD HB (y :: l') m').
  - apply after_ws_nil, eof_fail; reflexivity.
Qed.
Lemma next_key_bounded D : bounded D -> bounded (j_next_key D).
Proof.
  intros HB. apply after_ws_bounded. intros [|x l] v a H; [discriminate|].
  destruct (N.eqb x COMMA).
  - eapply jat1_bounded; [| |exact H].
    + apply after_ws_bounded. intros [|y l'] v' a' H'; [discriminate|].
      destruct (N.eqb y QUOTE); [eapply object_key_bounded; eauto|].
      destruct (N.eqb y RBRACE); discriminate.
    + apply after_ws_nil, eof_fail; reflexivity.
  - destruct (N.eqb x RBRACE); [|discriminate]. injection H as <- <-. cbn. lia.
Qed.

(** ** Identifiers *)
Lemma ident_rest_stable w : forall l m o,
  (exists o', ident_rest w l o = Some (EofWhileParsingValue, o')) \/ ident_rest w (l ++ m) o = ident_rest w l o.
Proof.
  induction w as [|x w IH]; intros l m o; [right; reflexivity|].
  destruct l as [|y l]; [left; eexists; reflexivity|]. cbn [app ident_rest].
  destruct (N.eqb x y); [apply IH|right; reflexivity].
Qed.
Lemma ident_rest_bound w : forall l o, ident_rest w l o = None -> len w <= len l.
Proof.
  induction w as [|x w IH]; intros l o H; cbn; [lia|].
  destruct l as [|y l]; [discriminate|]. cbn [ident_rest] in H.
  destruct (N.eqb x y); [|discriminate]. apply IH in H. cbn. lia.
Qed.
Lemma ident_stable {A} w (v : A) : w <> [] -> stable false (j_ident w v).
Proof.
  intros Hw l m. unfold j_ident. destruct l as [|x l].
  - left. destruct w; [congruence|]. do 3 eexists; split; reflexivity.
  - cbn [app skipn]. destruct (ident_rest_stable w l m 1) as [(o & E)|E].
    + left. rewrite E. do 3 eexists; split; reflexivity.
    + right. right. rewrite E. reflexivity.
Qed.
Lemma ident_bounded {A} w (v : A) : w <> [] -> bounded (j_ident w v).
Proof.
  intros Hw [|x l] v' a H; unfold j_ident in H; cbn [skipn] in H.
  - destruct w; [congruence|discriminate].
  - destruct (ident_rest w l 1) as [[e o]|] eqn:E; [discriminate|]. injection H as <- <-.
    apply ident_rest_bound in E. cbn. lia.
Qed.

(** ** Numbers *)
Definition nstable (f : bytes -> result nat (json_error * nat)) : Prop := forall l m,
  (exists o, f l = Err (EofWhileParsingValue, o)) \/ f l = Ok (len l) \/ f (l ++ m) = f l.
Definition nbounded (f : bytes -> result nat (json_error * nat)) : Prop := forall l n, f l = Ok n -> n <= len l.

Lemma add_off_stable n f l m :
  n <= len l -> nstable f ->
  (exists o, add_off n (f (skipn n l)) = Err (EofWhileParsingValue, o)) \/
  add_off n (f (skipn n l)) = Ok (len l) \/
  add_off n (f (skipn n (l ++ m))) = add_off n (f (skipn n l)).
Proof.
  intros Hn Hf. rewrite skipn_app_le by exact Hn.
  destruct (Hf (skipn n l) m) as [(o & E)|[E|E]]; rewrite E; cbn [add_off].
  - left. eexists. reflexivity.
  - right. left. rewrite skipn_length. f_equal. lia.
  - right. right. reflexivity.
Qed.
Lemma add_off_bounded n f l k : n <= len l -> nbounded f -> add_off n (f (skipn n l)) = Ok k -> k <= len l.
Proof.
  intros Hn Hf H. destruct (f (skipn n l)) as [j|[e o]] eqn:E; [|discriminate]. injection H as <-.
  apply Hf in E. rewrite skipn_length in E. lia.
Qed.

(** Digits followed by a continuation. *)
Lemma digits_app l m : digits l < len l -> digits (l ++ m) = digits l.
Proof. apply run_length_app_lt. Qed.

Lemma exponent_stable : nstable num_exponent.
Proof.
  intros l m. unfold num_exponent.
  destruct l as [|x l]; [left; eexists; reflexivity|]. cbn [app].
  set (s := if (N.eqb x 43 || N.eqb x 45)%bool then 1 else 0).
  assert (Hs : s <= len (x :: l)) by (unfold s; destruct (_ || _)%bool; cbn; lia).
  replace (skipn s (x :: l ++ m)) with (skipn s (x :: l) ++ m) by (symmetry; apply (skipn_app_le (x :: l)); exact Hs).
  destruct (skipn s (x :: l)) as [|y t] eqn:E; [left; eexists; reflexivity|]. cbn [app].
  destruct (is_digit y) eqn:Ed; [|right; right; reflexivity].
  right.
  destruct (Nat.eq_dec (digits (y :: t)) (len (y :: t))) as [Hd|Hd].
  - left. rewrite Hd, <- E, skipn_length. f_equal. lia.
  - right. f_equal. f_equal. change (y :: t ++ m) with ((y :: t) ++ m). apply digits_app.
    pose proof (run_length_le is_digit (y :: t)). unfold digits in *. unfold bytes, byte in *. lia.
Qed.
Lemma exponent_bounded : nbounded num_exponent.
Proof.
  intros l n H. unfold num_exponent in H.
  destruct l as [|x l]; [discriminate|].
  set (s := if (N.eqb x 43 || N.eqb x 45)%bool then 1 else 0) in *.
  assert (Hs : s <= len (x :: l)) by (unfold s; destruct (_ || _)%bool; cbn; lia).
  destruct (skipn s (x :: l)) as [|y t] eqn:E; [discriminate|].
  destruct (is_digit y) eqn:Ed; [|discriminate]. injection H as <-.
  pose proof (run_length_le is_digit (y :: t)). unfold digits.
  pose proof (skipn_length s (x :: l)) as HH. rewrite E in HH. lia.
Qed.

Lemma decimal_stable : nstable num_decimal.
Proof.
  intros l m. unfold num_decimal.
  destruct l as [|x l]; [left; eexists; reflexivity|]. cbn [app].
  destruct (is_digit x); [|right; right; reflexivity].
  pose proof (run_length_le is_digit (x :: l)) as Hle. fold (digits (x :: l)) in Hle.
  destruct (Nat.eq_dec (digits (x :: l)) (len (x :: l))) as [Hd|Hd].
  - right. left. rewrite Hd, skipn_all. reflexivity.
  - change (x :: l ++ m) with ((x :: l) ++ m). rewrite digits_app by (unfold bytes, byte in *; lia).
    rewrite skipn_app_le by exact Hle.
    destruct (skipn (digits (x :: l)) (x :: l)) as [|y t] eqn:E.
    { exfalso. pose proof (skipn_length (digits (x :: l)) (x :: l)) as HH. rewrite E in HH. cbn [List.length] in *. lia. }
    cbn [app]. destruct (is_exp y); [|right; right; reflexivity].
    pose proof (skipn_length (digits (x :: l)) (x :: l)) as HH. rewrite E in HH. cbn [List.length] in HH.
    destruct (exponent_stable t m) as [(o & H)|[H|H]]; rewrite H; cbn [add_off].
    + left. eexists. reflexivity.
    + right. left. f_equal. cbn [List.length]. lia.
    + right. right. reflexivity.
Qed.
Lemma decimal_bounded : nbounded num_decimal.
Proof.
  intros l n H. unfold num_decimal in H. destruct l as [|x l]; [discriminate|].
  destruct (is_digit x); [|discriminate].
  pose proof (run_length_le is_digit (x :: l)) as Hle. fold (digits (x :: l)) in Hle.
  pose proof (skipn_length (digits (x :: l)) (x :: l)) as HH.
  destruct (skipn (digits (x :: l)) (x :: l)) as [|y t] eqn:E; [injection H as <-; exact Hle|].
  destruct (is_exp y); [|injection H as <-; exact Hle].
  destruct (num_exponent t) as [k|[e o]] eqn:Ee; [|discriminate]. injection H as <-.
  apply exponent_bounded in Ee. cbn [List.length] in HH. cbn [List.length] in *. lia.
Qed.

Lemma tail_stable : nstable num_tail.
Proof.
  intros l m. destruct l as [|x l]; [right; left; reflexivity|]. cbn [app num_tail].
  destruct (N.eqb x 46).
  - destruct (decimal_stable l m) as [(o & H)|[H|H]]; rewrite H; cbn [add_off]; eauto.
  - destruct (is_exp x); [|right; right; reflexivity].
    destruct (exponent_stable l m) as [(o & H)|[H|H]]; rewrite H; cbn [add_off]; eauto.
Qed.
Lemma tail_bounded : nbounded num_tail.
Proof.
  intros l n H. destruct l as [|x l]; cbn [num_tail] in H; [injection H as <-; lia|].
  destruct (N.eqb x 46); [|destruct (is_exp x); [|injection H as <-; lia]].
  - destruct (num_decimal l) as [k|[e o]] eqn:E; [|discriminate]. injection H as <-. apply decimal_bounded in E. cbn. lia.
  - destruct (num_exponent l) as [k|[e o]] eqn:E; [|discriminate]. injection H as <-. apply exponent_bounded in E. cbn. lia.
Qed.

Lemma unsigned_stable : nstable num_unsigned.
Proof.
  intros l m. destruct l as [|x l]; [left; eexists; reflexivity|]. cbn [app num_unsigned].
  destruct (N.eqb x 48).
  - destruct l as [|y l]; [right; left; reflexivity|]. cbn [app].
    destruct (is_digit y); [right; right; reflexivity|].
    destruct (tail_stable (y :: l) m) as [(o & H)|[H|H]]; cbn [app] in H; rewrite H; cbn [add_off]; eauto.
  - destruct (is_digit x) eqn:Ed; [|right; right; reflexivity].
    pose proof (run_length_le is_digit (x :: l)) as Hle. fold (digits (x :: l)) in Hle.
    destruct (Nat.eq_dec (digits (x :: l)) (len (x :: l))) as [Hd|Hd].
    + right. left. rewrite Hd, skipn_all. cbn [num_tail add_off]. f_equal. lia.
    + change (x :: l ++ m) with ((x :: l) ++ m). rewrite digits_app by (unfold bytes, byte in *; lia).
      apply add_off_stable; [exact Hle|apply tail_stable].
Qed.
Lemma unsigned_bounded : nbounded num_unsigned.
Proof.
  intros l n H. destruct l as [|x l]; cbn [num_unsigned] in H; [discriminate|].
  destruct (N.eqb x 48).
  - destruct l as [|y l]; [injection H as <-; cbn; lia|]. destruct (is_digit y); [discriminate|].
    destruct (num_tail (y :: l)) as [k|[e o]] eqn:E; [|discriminate]. injection H as <-.
    apply tail_bounded in E. cbn [List.length] in *. lia.
  - destruct (is_digit x); [|discriminate].
    eapply add_off_bounded; [|apply tail_bounded|exact H].
    apply (run_length_le is_digit (x :: l)).
Qed.

Lemma range_stable : nstable num_range.
Proof.
  intros l m. destruct l as [|x l]; [left; eexists; reflexivity|]. cbn [app num_range].
  destruct (N.eqb x 45).
  - destruct (unsigned_stable l m) as [(o & H)|[H|H]]; rewrite H; cbn [add_off]; eauto.
  - destruct (is_inf_nan x); [right; right; reflexivity|]. apply (unsigned_stable (x :: l) m).
Qed.
Lemma range_bounded : nbounded num_range.
Proof.
  intros l n H. destruct l as [|x l]; cbn [num_range] in H; [discriminate|].
  destruct (N.eqb x 45).
  - destruct (num_unsigned l) as [k|[e o]] eqn:E; [|discriminate]. injection H as <-. apply unsigned_bounded in E. cbn. lia.
  - destruct (is_inf_nan x); [discriminate|]. apply unsigned_bounded in H. exact H.
Qed.

(** ** The next_* family *)
(** The type error may depend on a number that touches the end; it stays an error, and is not an
    end-of-input error once it is none. *)
Definition weakly_stable {A} (eager : bool) (f : jop A) : Prop := forall l m,
  eof_result (f l) \/ (eager = true /\ touches (f l) l) \/ f (l ++ m) = f l \/
  (exists e a, f l = (Err e, a)) /\ (exists e a, f (l ++ m) = (Err e, a)).

Lemma stable_weakly {A} eager (f : jop A) : stable eager f -> weakly_stable eager f.
Proof. intros H l m. destruct (H l m) as [?|[?|?]]; auto. Qed.

Lemma wrong_type_err {A} t x l : exists e, @wrong_type A t x l = Err e.
Proof.
  unfold wrong_type. repeat (destruct (_ : bool); [eexists; reflexivity|]).
  destruct (is_num x); [|eexists; reflexivity].
  destruct (num_range l) as [n|[e o]]; eexists; reflexivity.
Qed.

Lemma next_as_stable {A} eager t ok (f : byte -> jop A) :
  (forall x, ok x = true -> stable eager (f x)) -> weakly_stable eager (next_as t ok f).
Proof.
  intros Hf l m. unfold next_as, after_ws.
  pose proof (run_length_le json_ws l) as Hle.
  destruct (Nat.eq_dec (run_length json_ws l) (len l)) as [E|E].
  - left. apply jat_eof. rewrite E, skipn_all. apply eof_fail. reflexivity.
  - rewrite run_length_app_lt by (unfold bytes, byte in *; lia).
    unfold jat. rewrite skipn_app_le by exact Hle.
    pose proof (skipn_length (run_length json_ws l) l) as Hlen.
    destruct (skipn (run_length json_ws l) l) as [|x t'] eqn:Et; [cbn in Hlen; unfold bytes, byte in *; lia|].
    cbn [app]. destruct (ok x) eqn:Eo.
    + destruct (Hf x Eo (x :: t') m) as [(e & o & a & H1 & H2)|[(He & v & H)|H]].
      * left. rewrite H1. do 3 eexists. split; [reflexivity|exact H2].
      * right. left. split; [exact He|]. rewrite H. exists v. f_equal. rewrite Hlen. unfold bytes, byte in *. lia.
      * right. right. left. cbn [app] in H. rewrite H. reflexivity.
    + right. right. right.
      destruct (@wrong_type_err A t x (x :: t')) as [[e o] ->].
      destruct (@wrong_type_err A t x (x :: t' ++ m)) as [[e' o'] ->]. eauto 10.
Qed.
Lemma next_as_bounded {A} t ok (f : byte -> jop A) :
  (forall x, ok x = true -> bounded (f x)) -> bounded (next_as t ok f).
Proof.
  intros Hf. apply after_ws_bounded. intros [|x l] v a H; [discriminate|].
  destruct (ok x) eqn:E; [eapply Hf; eauto|].
  destruct (@wrong_type_err A t x (x :: l)) as [e He]. rewrite He in H. discriminate.
Qed.

Lemma number_stable : stable true j_number.
Proof.
  intros l m. unfold j_number. destruct (range_stable l m) as [(o & E)|[E|E]].
  - left. rewrite E. do 3 eexists; split; reflexivity.
  - right. left. split; [reflexivity|]. rewrite E. eexists. reflexivity.
  - right. right. rewrite E. destruct (num_range l) as [n|[e o]] eqn:E2; [|reflexivity].
    apply range_bounded in E2. rewrite firstn_app_le by exact E2. reflexivity.
Qed.
Lemma number_bounded : bounded j_number.
Proof.
  intros l v a H. unfold j_number in H. destruct (num_range l) as [n|[e o]] eqn:E; [|discriminate].
  injection H as <- <-. apply range_bounded in E. exact E.
Qed.

Lemma known_bool_stable x : (N.eqb x 116 || N.eqb x 102)%bool = true -> stable false (j_known_bool x).
Proof.
  intros H l m. unfold j_known_bool. destruct (N.eqb x 116).
  - apply ident_stable. discriminate.
  - cbn [orb] in H. rewrite H. apply ident_stable. discriminate.
Qed.
Lemma known_bool_bounded x : bounded (j_known_bool x).
Proof.
  intros l v a H. unfold j_known_bool in H. destruct (N.eqb x 116).
  - eapply ident_bounded; [|exact H]. discriminate.
  - destruct (N.eqb x 102); [eapply ident_bounded; [|exact H]; discriminate|].
    destruct (@wrong_type_err bool TBool x l) as [e He]. rewrite He in H. discriminate.
Qed.

Lemma next_bool_stable : weakly_stable false j_next_bool.
Proof. apply next_as_stable. intros x H. apply known_bool_stable. exact H. Qed.
Lemma next_null_stable : weakly_stable false j_next_null.
Proof. apply next_as_stable. intros x H. apply ident_stable. discriminate. Qed.
Lemma next_array_stable : weakly_stable false j_next_array.
Proof. apply next_as_stable. intros x H. apply known_array_stable. Qed.
Lemma next_object_stable D : stable false D -> bounded D -> weakly_stable false (j_next_object D).
Proof. intros. apply next_as_stable. intros x Hx. apply known_object_stable; auto. Qed.
Lemma next_bytes_stable : weakly_stable false j_next_bytes.
Proof. apply next_as_stable. intros x H. apply known_bytes_stable. Qed.
Lemma next_str_stable : weakly_stable false j_next_str.
Proof. apply next_as_stable. intros x H. apply known_str_stable. Qed.
Lemma next_number_stable : weakly_stable true j_next_number_bytes.
Proof. apply next_as_stable. intros x H. apply number_stable. Qed.

Lemma next_bool_bounded : bounded j_next_bool.
Proof. apply next_as_bounded. intros x H. apply known_bool_bounded. Qed.
Lemma next_null_bounded : bounded j_next_null.
Proof. apply next_as_bounded. intros x H. apply ident_bounded. discriminate. Qed.
Lemma next_array_bounded : bounded j_next_array.
Proof. apply next_as_bounded. intros x H. apply known_array_bounded. Qed.
Lemma next_object_bounded D : bounded D -> bounded (j_next_object D).
Proof. intros. apply next_as_bounded. intros x Hx. apply known_object_bounded; auto. Qed.
Lemma next_bytes_bounded : bounded j_next_bytes.
Proof. apply next_as_bounded. intros x H. apply known_bytes_bounded. Qed.
Lemma next_str_bounded : bounded j_next_str.
Proof. apply next_as_bounded. intros x H. apply known_str_bounded. Qed.
Lemma next_number_bounded : bounded j_next_number_bytes.
Proof. apply next_as_bounded. intros x H. apply number_bounded. Qed.

(** ** Locality: a success that ends before the end of a prefix is found on the prefix alone *)
Definition local {A} (f : jop A) : Prop := forall l m v a, f (l ++ m) = (Ok v, a) -> a < len l -> f l = (Ok v, a).

Lemma jat_ok {A} n (f : jop A) l v a : jat n f l = (Ok v, a) -> exists b, f (skipn n l) = (Ok v, b) /\ a = n + b.
Proof. unfold jat. destruct (f (skipn n l)) as [[v'|[e o]] b]; [|discriminate]. intros [= <- <-]. eauto. Qed.
Lemma jat_ok_intro {A} n (f : jop A) l v b : f (skipn n l) = (Ok v, b) -> jat n f l = (Ok v, n + b).
Proof. intros H. unfold jat. rewrite H. reflexivity. Qed.

Lemma jat_local {A} n (f : jop A) l m v a : local f -> jat n f (l ++ m) = (Ok v, a) -> a < len l -> jat n f l = (Ok v, a).
Proof.
  intros Hf H Ha. apply jat_ok in H as (b & H & ->). apply jat_ok_intro.
  rewrite skipn_app_le in H by lia. eapply Hf; [exact H|]. rewrite skipn_length. lia.
Qed.
Lemma run_length_app_inv p l m : run_length p (l ++ m) < List.length l -> run_length p l = run_length p (l ++ m).
Proof.
  induction l as [|x l IH]; cbn; [lia|]. destruct (p x); [|reflexivity]. intros. rewrite IH by lia. reflexivity.
Qed.
Lemma after_ws_local {A} (f : jop A) : local f -> local (after_ws f).
Proof.
  intros Hf l m v a H Ha. unfold after_ws in *.
  assert (Hk : run_length json_ws (l ++ m) <= a) by (apply jat_ok in H as (b & _ & ->); lia).
  rewrite (run_length_app_inv _ l m) by (unfold bytes, byte in *; lia). eapply jat_local; eauto.
Qed.
Lemma jat1_local {A} (f : jop A) : local f -> local (jat 1 f).
Proof. intros Hf l m v a. apply jat_local. exact Hf. Qed.

Ltac head_local := intros [|? ?] ? ? ? ?Hloc ?Hlen; [cbn in Hlen; lia|exact Hloc].

Lemma peek_local : local j_peek.
Proof. apply after_ws_local. head_local. Qed.
Lemma known_array_local : local j_known_array.
Proof. apply jat1_local, after_ws_local. head_local. Qed.
Lemma array_peek_local : local array_peek.
Proof. apply after_ws_local. head_local. Qed.
Lemma array_step_local : local j_array_step.
Proof.
  apply after_ws_local. intros [|x l] m v a H Ha; [cbn in Ha; lia|]. cbn [app] in H.
  destruct (N.eqb x COMMA); [|exact H]. change (x :: l ++ m) with ((x :: l) ++ m) in H.
  eapply jat_local; [apply array_peek_local|exact H|exact Ha].
Qed.

Ltac step_cases H :=
  repeat match type of H with
  | (if ?c then _ else _) = _ => destruct c eqn:?; try discriminate
  | match ?x with _ => _ end = _ => destruct x eqn:?; try discriminate
  end.
Lemma string_step_prefix l n d : string_step l = SPiece n d -> string_step (firstn n l) = SPiece n d.
Proof.
  intros H. destruct l as [|x l]; [discriminate|]. cbn [string_step] in H.
  destruct (N.eqb x QUOTE) eqn:E1; [discriminate|].
  destruct (N.eqb x BACKSLASH) eqn:E2.
  2:{ destruct (N.ltb x 32) eqn:E3; [discriminate|]. injection H as <- <-. cbn [firstn string_step].
      rewrite E1, E2, E3. reflexivity. }
  destruct l as [|y l]; [discriminate|].
  destruct (simple_escape y) as [s|] eqn:E4.
  { injection H as <- <-. cbn [firstn string_step]. rewrite E1, E2, E4. reflexivity. }
  destruct (N.eqb y 117) eqn:E5; [|discriminate].
  destruct l as [|a [|b [|c [|e l]]]]; try discriminate.
  destruct (u4 a b c e) as [k|] eqn:E6; [|discriminate].
  destruct (is_low k) eqn:E7; [discriminate|].
  destruct (is_high k) eqn:E8.
  2:{ injection H as <- <-. cbn [firstn string_step]. rewrite E1, E2, E4, E5, E6, E7, E8. reflexivity. }
  unfold low_surrogate in H. destruct l as [|p [|q l]]; [discriminate|destruct (N.eqb p BACKSLASH); discriminate|].
  destruct (N.eqb p BACKSLASH && N.eqb q 117)%bool eqn:E9; [|destruct (N.eqb p BACKSLASH); discriminate].
  destruct l as [|a' [|b' [|c' [|e' l]]]]; try discriminate.
  destruct (u4 a' b' c' e') as [k'|] eqn:E10; [|discriminate].
  destruct (is_low k') eqn:E11; [|discriminate]. injection H as <- <-.
  cbn [firstn string_step]. rewrite E1, E2, E4, E5, E6, E7, E8. cbn [low_surrogate]. rewrite E9, E10, E11. reflexivity.
Qed.
Lemma string_step_local l m n d : string_step (l ++ m) = SPiece n d -> n <= len l -> string_step l = SPiece n d.
Proof.
  intros H Hn. apply string_step_prefix in H. rewrite firstn_app_le in H by exact Hn.
  destruct (string_step_stable (firstn n l) (skipn n l)) as [(o & E)|E]; [congruence|].
  rewrite firstn_skipn in E. congruence.
Qed.
Lemma scan_string_local l : forall skip m n d,
  scan_string skip (l ++ m) = Ok (n, d) -> n < len l -> scan_string skip l = Ok (n, d).
Proof.
  induction l as [|x l IH]; intros skip m n d H Hn; [cbn in Hn; lia|]. cbn [app scan_string] in *.
  destruct skip as [|k].
  - destruct (string_step (x :: l ++ m)) as [|k e|e o] eqn:E.
    + destruct (string_step_stable (x :: l) m) as [(o & Eo)|Eo]; cbn [app] in Eo.
      * exfalso. cbn [string_step] in E, Eo. destruct (N.eqb x QUOTE); [discriminate|].
        destruct (N.eqb x BACKSLASH).
        -- destruct (l ++ m) as [|y l']; [discriminate|]. destruct (simple_escape y); [discriminate|].
           destruct (N.eqb y 117); [|discriminate]. destruct l' as [|? [|? [|? [|? l']]]]; try discriminate.
           unfold low_surrogate in E. step_cases E.
        -- destruct (N.ltb x 32); discriminate.
      * rewrite <- Eo, E. exact H.
    + destruct (scan_string (k - 1) (l ++ m)) as [[n' t]|[e' o']] eqn:E1; [|discriminate].
      injection H as <- <-. cbn [List.length] in Hn.
      assert (Hk : k <= len (x :: l)).
      { clear IH. destruct (Nat.le_gt_cases k (len (x :: l))) as [?|Hgt]; [assumption|exfalso].
        assert (forall l' k' n' t, scan_string k' l' = Ok (n', t) -> k' <= n').
        { induction l' as [|y l' IHl]; intros k' n'' t' Hs; destruct k'; cbn [scan_string] in Hs; try lia; try discriminate.
          destruct (scan_string k' l') as [[q w]|[? ?]] eqn:Eq; [|discriminate]. injection Hs as <- <-.
          apply IHl in Eq. lia. }
        apply H in E1. cbn [List.length] in Hgt. lia. }
      rewrite (string_step_local (x :: l) m k e E Hk).
      rewrite (IH _ _ _ _ E1) by lia. reflexivity.
    + discriminate.
  - destruct (scan_string k (l ++ m)) as [[n' t]|[e' o']] eqn:E1; [|discriminate].
    injection H as <- <-. cbn [List.length] in Hn. rewrite (IH _ _ _ _ E1) by lia. reflexivity.
Qed.
Lemma known_bytes_local : local j_known_bytes.
Proof.
  intros [|x l] m v a H Ha; [cbn in Ha; lia|]. unfold j_known_bytes in *. cbn [app skipn] in *.
  destruct (scan_string 0 (l ++ m)) as [[n d]|[e o]] eqn:E; [|discriminate]. injection H as <- <-. cbn [List.length] in Ha.
  rewrite (scan_string_local _ _ _ _ _ E) by lia. rewrite firstn_app_le by lia. reflexivity.
Qed.
Lemma known_str_local : local j_known_str.
Proof.
  intros [|x l] m v a H Ha; [cbn in Ha; lia|]. unfold j_known_str in *. cbn [app skipn] in *.
  destruct (scan_string 0 (l ++ m)) as [[n d]|[e o]] eqn:E; [|discriminate].
  destruct (utf8_invalid 0 d) eqn:E2; [discriminate|]. injection H as <- <-. cbn [List.length] in Ha.
  rewrite (scan_string_local _ _ _ _ _ E) by lia. rewrite E2. reflexivity.
Qed.
Lemma object_key_local D : local D -> local (object_key D).
Proof.
  intros HD l m v a H Ha. unfold object_key in *.
  destruct (D (l ++ m)) as [[k|e] b] eqn:E; [|discriminate].
  assert (Hb : b <= a) by (apply jat_ok in H as (c & _ & ->); lia).
  rewrite (HD _ _ _ _ E) by lia. eapply jat_local; [|exact H|exact Ha].
  apply after_ws_local. head_local.
Qed.
Lemma known_object_local D : local D -> local (j_known_object D).
Proof.
  intros HD. apply jat1_local, after_ws_local. intros [|x l] m v a H Ha; [cbn in Ha; lia|]. cbn [app] in H.
  destruct (N.eqb x QUOTE); [|exact H]. change (x :: l ++ m) with ((x :: l) ++ m) in H.
  eapply object_key_local; eauto.
Qed.
Lemma next_key_local D : local D -> local (j_next_key D).
Proof.
  intros HD. apply after_ws_local. intros [|x l] m v a H Ha; [cbn in Ha; lia|]. cbn [app] in H.
  destruct (N.eqb x COMMA); [|exact H]. change (x :: l ++ m) with ((x :: l) ++ m) in H.
  eapply jat_local; [|exact H|exact Ha]. apply after_ws_local. clear - HD.
  intros [|x l] m v a H Ha; [cbn in Ha; lia|]. cbn [app] in H.
  destruct (N.eqb x QUOTE); [|exact H]. change (x :: l ++ m) with ((x :: l) ++ m) in H.
  eapply object_key_local; eauto.
Qed.
Lemma ident_rest_local w : forall l m o, ident_rest w (l ++ m) o = None -> len w <= len l -> ident_rest w l o = None.
Proof.
  induction w as [|x w IH]; intros l m o H Hl; [reflexivity|].
  destruct l as [|y l]; [cbn in Hl; lia|]. cbn [app ident_rest List.length] in *.
  destruct (N.eqb x y); [|discriminate]. eapply IH; [exact H|lia].
Qed.
Lemma ident_local {A} w (v : A) : local (j_ident w v).
Proof.
  intros [|x l] m v' a H Ha; [cbn in Ha; lia|]. unfold j_ident in *. cbn [app skipn] in *.
  destruct (ident_rest w (l ++ m) 1) as [[e o]|] eqn:E; [discriminate|]. injection H as <- <-. cbn [List.length] in Ha.
  erewrite ident_rest_local; [reflexivity|exact E|lia].
Qed.

Definition nlocal (f : bytes -> result nat (json_error * nat)) : Prop :=
  forall l m n, f (l ++ m) = Ok n -> n < len l -> f l = Ok n.
Lemma add_off_ok n r k : add_off n r = Ok k -> exists j, r = Ok j /\ k = n + j.
Proof. destruct r as [j|[e o]]; [|discriminate]. intros [= <-]. eauto. Qed.
Lemma exponent_local : nlocal num_exponent.
Proof.
  intros l m n H Hn. unfold num_exponent in *. destruct l as [|x l]; [cbn in Hn; lia|]. cbn [app] in *.
  set (s := if (N.eqb x 43 || N.eqb x 45)%bool then 1 else 0) in *.
  assert (Hs : s <= 1) by (unfold s; destruct (_ || _)%bool; lia).
  change (x :: l ++ m) with ((x :: l) ++ m) in H. rewrite skipn_app_le in H by (cbn; lia).
  destruct (skipn s (x :: l)) as [|y l'] eqn:E; cbn [app] in H.
  - assert (len (skipn s (x :: l)) = 0) by (rewrite E; reflexivity). rewrite skipn_length in H0.
    destruct m as [|y m]; [discriminate|]. destruct (is_digit y) eqn:Ey; [|discriminate]. injection H as <-.
    assert (1 <= digits (y :: m)) by (unfold digits; cbn [run_length]; rewrite Ey; lia). lia.
  - destruct (is_digit y) eqn:Ey; [|discriminate]. injection H as <-.
    assert (Hl : len (skipn s (x :: l)) = len (y :: l')) by (rewrite E; reflexivity). rewrite skipn_length in Hl.
    change (y :: l' ++ m) with ((y :: l') ++ m) in *.
    unfold digits in *. rewrite (run_length_app_inv _ (y :: l') m) by (unfold bytes, byte in *; lia). reflexivity.
Qed.
Lemma decimal_local : nlocal num_decimal.
Proof.
  intros l m n H Hn. unfold num_decimal in *. destruct l as [|x l]; [cbn in Hn; lia|]. cbn [app] in *.
  destruct (is_digit x) eqn:Ex; [|discriminate].
  change (x :: l ++ m) with ((x :: l) ++ m) in H.
  assert (Hd : digits ((x :: l) ++ m) <= n).
  { destruct (skipn _ _) as [|y l'] eqn:E; [injection H as <-; apply le_n|]. destruct (is_exp y); [|injection H as <-; apply le_n].
    apply add_off_ok in H as (j & _ & ->). lia. }
  assert (Hd' : digits (x :: l) = digits ((x :: l) ++ m)).
  { unfold digits in *. apply run_length_app_inv. unfold bytes, byte in *. lia. }
  rewrite Hd'. remember (digits ((x :: l) ++ m)) as D eqn:HD. clear Hd' HD.
  rewrite skipn_app_le in H by (unfold bytes, byte in *; lia).
  pose proof (skipn_length D (x :: l)) as Hl.
  destruct (skipn D (x :: l)) as [|y l'] eqn:E; cbn [List.length] in Hl, Hn; [unfold bytes, byte in *; lia|]. cbn [app] in H.
  destruct (is_exp y); [|exact H]. apply add_off_ok in H as (j & H & ->).
  rewrite (exponent_local _ _ _ H) by (unfold bytes, byte in *; lia). reflexivity.
Qed.
Lemma tail_local : nlocal num_tail.
Proof.
  intros [|x l] m n H Hn; [cbn in Hn; lia|]. cbn [app num_tail List.length] in *.
  destruct (N.eqb x 46).
  - apply add_off_ok in H as (j & H & ->). rewrite (decimal_local _ _ _ H) by lia. reflexivity.
  - destruct (is_exp x); [|exact H]. apply add_off_ok in H as (j & H & ->). rewrite (exponent_local _ _ _ H) by lia. reflexivity.
Qed.
Lemma unsigned_local : nlocal num_unsigned.
Proof.
  intros [|x l] m n H Hn; [cbn in Hn; lia|]. cbn [app num_unsigned] in *.
  destruct (N.eqb x 48).
  - destruct l as [|y l]; cbn [app] in *.
    + destruct m as [|y m]; [exact H|]. destruct (is_digit y); [discriminate|].
      apply add_off_ok in H as (j & H & ->). cbn in Hn. lia.
    + destruct (is_digit y); [discriminate|]. apply add_off_ok in H as (j & H & ->).
      change (y :: l ++ m) with ((y :: l) ++ m) in H. cbn [List.length] in Hn.
      rewrite (tail_local _ _ _ H) by (cbn [List.length]; lia). reflexivity.
  - destruct (is_digit x) eqn:Ex.
    + change (x :: l ++ m) with ((x :: l) ++ m) in H. apply add_off_ok in H as (j & H & ->).
      assert (Hd' : digits (x :: l) = digits ((x :: l) ++ m)).
      { unfold digits in *. apply run_length_app_inv. unfold bytes, byte in *. lia. }
      rewrite Hd'. remember (digits ((x :: l) ++ m)) as D eqn:HD. clear Hd' HD.
      rewrite skipn_app_le in H by (unfold bytes, byte in *; lia).
      rewrite (tail_local _ _ _ H) by (rewrite skipn_length; unfold bytes, byte in *; lia). reflexivity.
    + discriminate.
Qed.
Lemma range_local : nlocal num_range.
Proof.
  intros [|x l] m n H Hn; [cbn in Hn; lia|]. cbn [app num_range] in *.
  destruct (N.eqb x 45).
  - apply add_off_ok in H as (j & H & ->). cbn [List.length] in Hn. rewrite (unsigned_local _ _ _ H) by lia. reflexivity.
  - destruct (is_inf_nan x); [discriminate|]. change (x :: l ++ m) with ((x :: l) ++ m) in H. eapply unsigned_local; eauto.
Qed.
Lemma number_local : local j_number.
Proof.
  intros l m v a H Ha. unfold j_number in *. destruct (num_range (l ++ m)) as [n|[e o]] eqn:E; [|discriminate].
  injection H as <- <-. rewrite (range_local _ _ _ E) by exact Ha. rewrite firstn_app_le by lia. reflexivity.
Qed.

Lemma next_as_local {A} t ok (f : byte -> jop A) : (forall x, ok x = true -> local (f x)) -> local (next_as t ok f).
Proof.
  intros Hf. apply after_ws_local. intros [|x l] m v a H Ha; [cbn in Ha; lia|]. cbn [app] in *.
  destruct (ok x) eqn:E.
  - change (x :: l ++ m) with ((x :: l) ++ m) in H. eapply Hf; eauto.
  - destruct (@wrong_type_err A t x (x :: l ++ m)) as [e He]. rewrite He in H. discriminate.
Qed.
Lemma known_bool_local x : local (j_known_bool x).
Proof.
  intros l m v a H Ha. unfold j_known_bool in *. destruct (N.eqb x 116); [eapply ident_local; eauto|].
  destruct (N.eqb x 102); [eapply ident_local; eauto|].
  destruct (@wrong_type_err bool TBool x (l ++ m)) as [e He]. rewrite He in H. discriminate.
Qed.

(** An operation that leaves the index on failure. *)
Definition inert {A} (f : jop A) : Prop := forall l e a, f l = (Err e, a) -> a = 0.
Lemma ident_inert {A} w (v : A) : inert (j_ident w v).
Proof. intros l e a H. unfold j_ident in H. destruct (ident_rest _ _ _) as [[? ?]|]; [|discriminate]. injection H as _ <-. reflexivity. Qed.
Lemma known_bytes_inert : inert j_known_bytes.
Proof. intros l e a H. unfold j_known_bytes in H. destruct (scan_string _ _) as [[? ?]|[? ?]]; [discriminate|]. injection H as _ <-. reflexivity. Qed.
Lemma known_str_inert : inert j_known_str.
Proof.
  intros l e a H. unfold j_known_str in H. destruct (scan_string _ _) as [[? ?]|[? ?]].
  - destruct (utf8_invalid _ _); [|discriminate]. injection H as _ <-. reflexivity.
  - injection H as _ <-. reflexivity.
Qed.
Lemma known_bool_inert x : inert (j_known_bool x).
Proof.
  intros l e a H. unfold j_known_bool in H. destruct (N.eqb x 116); [eapply ident_inert; exact H|].
  destruct (N.eqb x 102); [eapply ident_inert; exact H|]. injection H as _ <-. reflexivity.
Qed.
Lemma number_inert : inert j_number.
Proof. intros l e a H. unfold j_number in H. destruct (num_range l) as [|[? ?]]; [discriminate|]. injection H as _ <-. reflexivity. Qed.
