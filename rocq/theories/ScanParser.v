(** The parser as the scanner uses it, as a list of facts about a set of parser states, and four such sets: everything
    that is valid (calls may fail), whole input in the buffer, input in chunks with tokens that fit, and
    a reader that fills the buffer. *)
From Verif Require Import Base Buffer BufferSpec BufferProofs Jiter JiterProofs RJiter RJiterSpec RJiterProofs RJiterOpProofs
  RJiterLookProofs RJiterLongProofs RJiterIndexProofs RJiterInvProofs RJiterGreedy Scan ScanSpec ScanTokens.

(** ** Writers *)
Lemma spent_refl w : spent w [] w.
Proof.
  unfold spent. rewrite app_nil_r. split; [reflexivity|]. split; [reflexivity|]. split; [auto|]. exists []. rewrite app_nil_r. split; [reflexivity|]. split; [split; reflexivity|].
  destruct (wfail w) as [[n k]|]; [|reflexivity]. cbn [List.length]. rewrite Nat.sub_0_r. split; [lia|reflexivity].
Qed.
Lemma spent_trans w p w1 q w2 : spent w p w1 -> spent w1 q w2 -> spent w (p ++ q) w2.
Proof.
  intros (A1 & C1 & O1 & a1 & D1 & P1 & B1) (A2 & C2 & O2 & a2 & D2 & P2 & B2). unfold spent. rewrite A2, A1, app_assoc. split; [reflexivity|]. split; [congruence|]. split; [rewrite C1 in O2; auto|].
  exists (a1 ++ a2). split; [rewrite D2, D1, app_assoc; reflexivity|]. split; [intros H; destruct (P1 H) as (-> & P3); destruct P2 as (-> & P4); [congruence|]; split; [reflexivity|congruence]|].
  destruct (wfail w) as [[n k]|]; [|rewrite B1 in B2; exact B2]. destruct B1 as (B1 & B3). rewrite B3 in B2. destruct B2 as (B2 & B4).
  rewrite app_length. split; [lia|]. rewrite B4. do 2 f_equal. lia.
Qed.
Lemma spent_exhausted w1 k j w' : exhausted w1 k -> spent w1 j w' -> exhausted w' k /\ delivered w' = delivered w1 /\ (wcap w1 = 0 -> j = []).
Proof.
  unfold exhausted. intros Hk (A & B & _ & a & C & D & F). rewrite Hk in F. destruct F as (F1 & F2). assert (a = []) as -> by (destruct a; [reflexivity|cbn in F1; lia]).
  rewrite app_nil_r in C. split; [exact F2|]. split; [exact C|]. intros H. symmetry. apply (D H).
Qed.
Lemma worn_now w a w' k : spent w a w' -> exhausted w' k -> worn w a w' k.
Proof. intros H1 H2. exists w', []. split; [exact H1|]. split; [exact H2|apply spent_refl]. Qed.
Lemma worn_after w p w1 a w' k : spent w p w1 -> worn w1 a w' k -> worn w (p ++ a) w' k.
Proof. intros H (w2 & j & H1 & H2 & H3). exists w2, j. split; [eapply spent_trans; eassumption|auto]. Qed.
Lemma worn_exhausted w a w' k : worn w a w' k -> exhausted w' k.
Proof. intros (w1 & j & _ & H1 & H2). apply (spent_exhausted _ _ _ _ H1 H2). Qed.
Lemma worn_plain w a w' k : worn w a w' k -> wcap w = 0 -> spent w a w'.
Proof.
  intros (w1 & j & H & H1 & H2) Hc. destruct (spent_exhausted _ _ _ _ H1 H2) as (_ & _ & Hj). rewrite Hj in H2 by (destruct H as (_ & H & _); congruence).
  pose proof (spent_trans _ _ _ _ _ H H2) as Hx. rewrite app_nil_r in Hx. exact Hx.
Qed.
Lemma write_all_spent w d : exists w' r, write_all w d = (w', r) /\
  match r with
  | Ok _ => spent w d w'
  | Err k => exists p q, d = p ++ q /\ q <> [] /\ spent w p w' /\ exhausted w' k
  end.
Proof.
  destruct (write_all_cases w d) as (w' & r & p & q & a & E & -> & Hw & Hc & Hd & Hp & Hf & H1 & H2). exists w', r. split; [exact E|].
  assert (Hs : spent w p w').
  { split; [exact Hw|]. split; [exact Hc|]. split; [pose proof (write_all_held w (p ++ q)) as Ho; rewrite E in Ho; exact Ho|]. exists a. split; [exact Hd|]. split; [exact Hp|]. destruct (wfail w) as [[n k]|]; destruct Hf as (A & B); [split; [exact A|apply B]|exact A]. }
  destruct r as [[]|k]; [rewrite (H1 eq_refl), app_nil_r; exact Hs|]. exists p, q. split; [reflexivity|]. split; [apply H2; discriminate|]. split; [exact Hs|].
  unfold exhausted. destruct (wfail w) as [[n k']|]; [|destruct Hf; discriminate]. destruct Hf as (A & B & C). destruct (C ltac:(discriminate)) as (Ek & En). injection Ek as ->.
  rewrite B, En, Nat.sub_diag. reflexivity.
Qed.
Lemma shift_rd b t f : rd (shift_buffer b t f) = rd b.
Proof. unfold shift_buffer. destruct (if t <? Nat.min f (n_bytes b) then _ else _). destruct ((t <? f) && (t <? n_bytes b)); reflexivity. Qed.
Lemma read_more_quiet b b' r : read_more b = (b', r) -> quiet b = true -> quiet b' = true /\ exists n, r = Ok n.
Proof.
  unfold read_more, reader_read, quiet. intros E Hq.
  destruct (sched (rd b)) as [|[k|e] sc]; cbn in *; try discriminate; injection E as <- <-; cbn; eauto.
Qed.
Definition json_failures (f : jop bytes) : Prop := forall l e a, f l = (Err e, a) -> exists j, fst e = JsonError j.
Lemma handle_long_spent parser segment fuel : json_failures parser -> (forall b e x, segment b e = Err x -> exists j, fst x = JsonError j) ->
  forall s w s' w' r, handle_long fuel parser segment s w = Done (s', w', r) ->
  exists p, spent w p w' /\
    forall e, r = Err e -> is_io e = true -> rquiet s = true -> exists k, err_type e = IoError k /\ exhausted w' k.
Proof.
  intros Hp Hseg. induction fuel as [|fuel IH]; intros s w s' w' r E; [discriminate|]. cbn [handle_long] in E. unfold jcall in E.
  destruct (parser (jview s)) as [[v|[er o]] a] eqn:Ep.
  - destruct (write_all_spent w v) as (w1 & r1 & Ew & Hw). rewrite Ew in E. destruct r1 as [u|k].
    + injection E as <- <- <-. exists v. split; [exact Hw|]. discriminate.
    + injection E as <- <- <-. destruct Hw as (p & q & -> & _ & Hw & He). exists p. split; [exact Hw|].
      intros e E _ _. injection E as <-. exists k. split; [reflexivity|exact He].
  - destruct (Hp _ _ _ Ep) as (j & Hj). cbn [fst] in *. subst er.
    destruct (can_retry (JsonError j)).
    2:{ injection E as <- <- <-. exists []. split; [apply spent_refl|]. intros e E. injection E as <-. discriminate. }
    match type of E with context [find_leading (buf (bf ?x))] => set (s2 := x) in * end.
    assert (Hq2 : rquiet s = true -> rquiet s2 = true).
    { intros H. unfold s2. cbn [jidx]. destruct (0 <? jidx s + a); [|exact H]. unfold rquiet, create_new_jiter, with_bf. cbn [bf].
      rewrite (quiet_rd (bf s)) by apply shift_rd. exact H. }
    clearbody s2. destruct (find_leading (buf (bf s2)) (raw_segment_end (bf s2))) as [seg|]; [|discriminate].
    assert (HR : forall s3 w3, rd (bf s3) = rd (bf s2) ->
      match read_more (bf s3) with
      | (b, Ok 0) => Done (with_bf s3 b, w3, Err (from_jiter_error (current_index (with_bf s3 b)) (JsonError j, jidx s + o)))
      | (b, Ok (S _)) => handle_long fuel parser segment (create_new_jiter (with_bf s3 b)) w3
      | (b, Err e) => Done (with_bf s3 b, w3, Err e)
      end = Done (s', w', r) ->
      exists p, spent w3 p w' /\ forall e, r = Err e -> is_io e = true -> rquiet s = true -> exists k, err_type e = IoError k /\ exhausted w' k).
    { intros s3 w3 Hq3 ER. destruct (read_more (bf s3)) as [b [[|n]|e]] eqn:Er.
      - injection ER as <- <- <-. exists []. split; [apply spent_refl|]. intros e E1. injection E1 as <-. discriminate.
      - destruct (IH _ _ _ _ _ ER) as (p & Hsp & He). exists p. split; [exact Hsp|]. intros e E1 E2 E3. apply (He e E1 E2).
        unfold rquiet. cbn [create_new_jiter with_bf bf]. apply (read_more_quiet _ _ _ Er). rewrite (quiet_rd _ _ Hq3). apply Hq2, E3.
      - injection ER as <- <- <-. exists []. split; [apply spent_refl|]. intros e1 E1 E2 E3. injection E1 as ->. exfalso.
        apply Hq2 in E3. unfold rquiet in E3. rewrite <- (quiet_rd _ _ Hq3) in E3. apply (read_more_quiet _ _ _ Er) in E3 as (_ & n & E3). discriminate. }
    destruct (1 <? seg).
    + destruct (segment (buf (bf s2)) seg) as [d|x] eqn:Es.
      * destruct (write_all_spent w d) as (w1 & r1 & Ew & Hw). rewrite Ew in E. destruct r1 as [u|k].
        -- destruct (HR (with_bf s2 (shift_buffer (bf s2) 1 seg)) w1 (shift_rd _ _ _) E) as (p & Hsp & He). exists (d ++ p). split; [eapply spent_trans; eauto|exact He].
        -- injection E as <- <- <-. destruct Hw as (p & q & -> & _ & Hw & He). exists p. split; [exact Hw|].
           intros e E _ _. injection E as <-. exists k. split; [reflexivity|exact He].
      * injection E as <- <- <-. exists []. split; [apply spent_refl|]. destruct (Hseg _ _ _ Es) as (j' & Hj').
        intros e E. injection E as <-. unfold is_io, from_jiter_error. cbn. rewrite Hj'. discriminate.
    + exact (HR _ _ eq_refl E).
Qed.

(** What a failing writer is given before it fails is less than what one that takes everything is given. *)
Lemma handle_long_budget parser segment fuel : forall s w w2 s' w' r s2 w2' r2, wfail w2 = None ->
  handle_long fuel parser segment s w = Done (s', w', r) -> handle_long fuel parser segment s w2 = Done (s2, w2', r2) ->
  exists p, written w2' = written w2 ++ p /\
    ((written w' = written w ++ p /\ r = r2) \/ exists a b, p = a ++ b /\ b <> [] /\ written w' = written w ++ a).
Proof.
  induction fuel as [|fuel IH]; intros s w w2 s' w' r s2 w2' r2 H0 E E2; [discriminate|]. cbn [handle_long] in E, E2. unfold jcall in E, E2.
  assert (HS : exists p, written w2 = written w2 ++ p /\ ((written w = written w ++ p /\ r = r) \/ exists a b, p = a ++ b /\ b <> [] /\ written w = written w ++ a))
    by (exists []; rewrite !app_nil_r; auto).
  destruct (parser (jview s)) as [[v|[er o]] a] eqn:Ep.
  - destruct (write_all_open w2 v H0) as (w3 & E3 & _ & Hw3). rewrite E3 in E2. destruct (write_all_spent w v) as (w1 & r1 & Ew & Hw). rewrite Ew in E. injection E2 as <- <- <-. exists v. split; [exact Hw3|].
    destruct r1 as [u|k]; injection E as <- <- <-; [left; split; [apply Hw|reflexivity]|right].
    destruct Hw as (p & q & -> & Hq & Hw & _). exists p, q. split; [reflexivity|]. split; [exact Hq|apply Hw].
  - destruct (can_retry (fst (er, jidx s + o))).
    2:{ injection E as <- <- <-. injection E2 as <- <- <-. exact HS. }
    match type of E with context [find_leading (buf (bf ?x))] => set (s3 := x) in * end. clearbody s3.
    destruct (find_leading (buf (bf s3)) (raw_segment_end (bf s3))) as [seg|]; [|discriminate].
    assert (HR : forall s4 w4 w5, wfail w5 = None ->
      match read_more (bf s4) with
      | (b, Ok 0) => Done (with_bf s4 b, w4, Err (from_jiter_error (current_index (with_bf s4 b)) (er, jidx s + o)))
      | (b, Ok (S _)) => handle_long fuel parser segment (create_new_jiter (with_bf s4 b)) w4
      | (b, Err e) => Done (with_bf s4 b, w4, Err e)
      end = Done (s', w', r) ->
      match read_more (bf s4) with
      | (b, Ok 0) => Done (with_bf s4 b, w5, Err (from_jiter_error (current_index (with_bf s4 b)) (er, jidx s + o)))
      | (b, Ok (S _)) => handle_long fuel parser segment (create_new_jiter (with_bf s4 b)) w5
      | (b, Err e) => Done (with_bf s4 b, w5, Err e)
      end = Done (s2, w2', r2) ->
      exists p, written w2' = written w5 ++ p /\
        ((written w' = written w4 ++ p /\ r = r2) \/ exists a b, p = a ++ b /\ b <> [] /\ written w' = written w4 ++ a)).
    { intros s4 w4 w5 H5 F1 F2. destruct (read_more (bf s4)) as [b [[|n]|e]].
      - injection F1 as <- <- <-. injection F2 as <- <- <-. exists []. rewrite !app_nil_r. auto.
      - apply (IH _ _ _ _ _ _ _ _ _ H5 F1 F2).
      - injection F1 as <- <- <-. injection F2 as <- <- <-. exists []. rewrite !app_nil_r. auto. }
    destruct (1 <? seg).
    + destruct (segment (buf (bf s3)) seg) as [d|x].
      2:{ injection E as <- <- <-. injection E2 as <- <- <-. exact HS. }
      destruct (write_all_open w2 d H0) as (w3 & E3 & Hf3 & Hw3). rewrite E3 in E2. destruct (write_all_spent w d) as (w1 & r1 & Ew & Hw). rewrite Ew in E. destruct r1 as [u|k].
      * destruct (HR (with_bf s3 (shift_buffer (bf s3) 1 seg)) w1 w3 Hf3 E E2) as (p & Hp & HC). rewrite Hw3 in Hp. exists (d ++ p). rewrite app_assoc. split; [exact Hp|].
        destruct Hw as (Hw & _). rewrite Hw in HC. destruct HC as [(C1 & C2)|(a0 & b0 & -> & Hb & C)].
        -- left. rewrite app_assoc. auto.
        -- right. exists (d ++ a0), b0. rewrite <- app_assoc, app_assoc. rewrite <- app_assoc. split; [reflexivity|]. split; [exact Hb|]. rewrite C, app_assoc. reflexivity.
      * injection E as <- <- <-. destruct Hw as (p & q & -> & Hq & Hw & _).
        assert (exists y, written w2' = (written w2 ++ p ++ q) ++ y) as (y & Hy).
        { rewrite <- Hw3. clear - E2 IH Hf3. revert E2. rename w3 into w5. set (s4 := with_bf s3 _). intros F2.
          destruct (read_more (bf s4)) as [b [[|n]|e]].
          - injection F2 as _ <- _. exists []. rewrite app_nil_r. reflexivity.
          - destruct (IH _ w5 w5 _ _ _ _ _ _ Hf3 F2 F2) as (y & Hy & _). exists y. exact Hy.
          - injection F2 as _ <- _. exists []. rewrite app_nil_r. reflexivity. }
        exists ((p ++ q) ++ y). rewrite app_assoc. split; [exact Hy|]. right. exists p, (q ++ y). split; [rewrite app_assoc; reflexivity|].
        split; [destruct q; [contradiction|discriminate]|apply Hw].
    + exact (HR _ _ _ H0 E E2).
Qed.

(** ** The facts *)
Definition tried {A} (E : bool) (x : outcome (rj * result A rerror)) (Q : rj -> A -> Prop) : Prop :=
  exists s' r, x = Done (s', r) /\ match r with Ok v => Q s' v | Err _ => E = true end.

(** [G0]: states in which the scanner may be started; [G]: states between calls; [E]: whether a call may fail. *)
Record parser_facts (G0 G : rj -> Prop) (P : profile) (E : bool) : Prop := mkPF {
  pf_start s : G s -> G0 s;
  pf_peek s w x l : G0 s -> rest s = w ++ x :: l -> spaces w -> solid x ->
    exists s' r, peek s = Done (s', r) /\
      match r with Ok v => v = x /\ rest s' = x :: l /\ G s' | Err e => E = true /\ is_io e = true end;
  pf_end s : G0 s -> spaces (rest s) ->
    exists s' e, peek s = Done (s', Err e) /\
      ((err_type e = JsonError EofWhileParsingValue /\ tried E (finish s') (fun s'' _ => rest s'' = [] /\ G0 s'')) \/
       (err_type e <> JsonError EofWhileParsingValue /\ E = true));
  pf_array_empty s w r : G s -> rest s = LBRACK :: w ++ RBRACK :: r -> spaces w ->
    tried E (known_array s) (fun s' v => v = None /\ rest s' = r /\ G s');
  pf_array s w x l : G s -> rest s = LBRACK :: w ++ x :: l -> spaces w -> solid x -> x <> RBRACK ->
    tried E (known_array s) (fun s' v => v = Some x /\ rest s' = x :: l /\ 0 < jidx s' /\ G s');
  pf_step_end s w r : G s -> rest s = w ++ RBRACK :: r -> spaces w ->
    tried E (array_step s) (fun s' v => v = None /\ rest s' = r /\ G s');
  pf_step s w w2 x l : G s -> rest s = w ++ COMMA :: w2 ++ x :: l -> spaces w -> spaces w2 -> solid x -> x <> RBRACK ->
    tried E (array_step s) (fun s' v => v = Some x /\ rest s' = x :: l /\ 0 < jidx s' /\ G s');
  pf_object_empty b s w r : G s -> rest s = LBRACE :: w ++ RBRACE :: r -> spaces w ->
    (b = true -> 0 < jidx s) -> open_ok P b (w ++ RBRACE :: r) ->
    tried E (next_object_bytes s) (fun s' v => v = None /\ rest s' = r /\ G s');
  pf_object b s w k w1 l : G s -> rest s = LBRACE :: w ++ QUOTE :: k ++ QUOTE :: w1 ++ COLON :: l ->
    spaces w -> string_text k -> spaces w1 -> key_ok P k w1 ->
    (b = true -> 0 < jidx s) -> open_ok P b (w ++ QUOTE :: k ++ QUOTE :: w1 ++ COLON :: l) ->
    tried E (next_object_bytes s) (fun s' v => v = Some k /\ rest s' = l /\ G s');
  pf_key_end s w r : G s -> rest s = w ++ RBRACE :: r -> spaces w ->
    tried E (next_key_bytes s) (fun s' v => v = None /\ rest s' = r /\ G s');
  pf_key s w w0 k w1 l : G s -> rest s = w ++ COMMA :: w0 ++ QUOTE :: k ++ QUOTE :: w1 ++ COLON :: l ->
    spaces w -> spaces w0 -> string_text k -> spaces w1 -> key_ok P k w1 ->
    tried E (next_key_bytes s) (fun s' v => v = Some k /\ rest s' = l /\ G s');
  pf_null s r : G s -> rest s = bs "null" ++ r -> tried E (known_null s) (fun s' _ => rest s' = r /\ G s');
  pf_true s r : G s -> rest s = bs "true" ++ r -> tried E (known_bool PeekTrue s) (fun s' v => v = true /\ rest s' = r /\ G s');
  pf_false s r : G s -> rest s = bs "false" ++ r -> tried E (known_bool PeekFalse s) (fun s' v => v = false /\ rest s' = r /\ G s');
  pf_number s t r : G s -> rest s = t ++ r -> number_text t -> delimited r -> number_ok P t r ->
    tried E (next_number_bytes s) (fun s' v => v = t /\ rest s' = r /\ G s');
  pf_string s w t r : G s -> rest s = QUOTE :: t ++ QUOTE :: r -> string_text t -> string_ok P t ->
    exists s' w' res p q, write_long_bytes s w = Done (s', w', res) /\ t = p ++ q /\ spent w p w' /\
      match res with
      | Ok _ => q = [] /\ rest s' = r /\ G s'
      | Err e => E = true \/ exists k, err_type e = IoError k /\ exhausted w' k /\ q <> []
      end }.

(** ** Sets of states *)
Lemma closed_quiet : closed (fun b => quiet b = true).
Proof.
  split; [intros b t f H; rewrite (quiet_rd b); [exact H|apply shift_rd]|].
  intros b H. destruct (read_more b) as [b' r] eqn:E. apply (read_more_quiet _ _ _ E H).
Qed.
Lemma closed_and J K : closed J -> closed K -> closed (fun b => J b /\ K b).
Proof. intros (A & B) (C & D). split; intros; destruct H; auto. Qed.
Lemma closed_if (b : bool) J : closed J -> closed (fun x => b = true -> J x).
Proof. intros (A & B). split; auto. Qed.
Lemma closed_drained : closed (fun b => src (rd b) = []).
Proof.
  split; [intros b t f H; rewrite shift_rd; exact H|]. intros b H. destruct (read_more b) as [b' r] eqn:E. unfold read_more in E.
  destruct (reader_read (rd b) (len (buf b) - n_bytes b)) as [x r'] eqn:Er. destruct (reader_src _ _ _ _ Er) as (k & Hk & _).
  rewrite H, skipn_nil in Hk. destruct x; inversion E; subst; exact Hk.
Qed.

Definition advancing {A} (f : jop A) : Prop := forall l v a, f l = (Ok v, a) -> 1 <= a.
Lemma jat_advancing {A} (f : jop A) n : 1 <= n -> advancing (jat n f).
Proof. intros Hn l v a. unfold jat. destruct (f (skipn n l)) as [[x|[e o]] b]; intros E; inversion E. lia. Qed.
Lemma array_step_advancing : advancing j_array_step.
Proof.
  intros l v a. unfold j_array_step, after_ws. unfold jat at 1.
  destruct (skipn (run_length json_ws l) l) as [|x m]; [discriminate|]. destruct (N.eqb x COMMA).
  - destruct (jat 1 array_peek (x :: m)) as [[y|[e o]] b] eqn:E; [|discriminate]. intros E1. inversion E1. subst.
    apply (jat_advancing array_peek 1 (le_n _)) in E. lia.
  - destruct (N.eqb x RBRACK); [|discriminate]. intros E1. inversion E1. lia.
Qed.

(** Methods that consume something whenever they succeed. *)
Lemma after_ws_advancing {A} (f : jop A) : advancing f -> advancing (after_ws f).
Proof. intros H l v a. apply after_ws_one. exact H. Qed.
Lemma ident_advancing {A} w (v : A) : advancing (j_ident w v).
Proof. intros l x a. unfold j_ident. destruct (ident_rest _ _ _) as [[e o]|]; [discriminate|]. intros E. injection E as _ <-. lia. Qed.
Lemma known_bool_advancing p : advancing (j_known_bool p).
Proof.
  intros l x a. unfold j_known_bool. destruct (N.eqb p 116); [apply ident_advancing|]. destruct (N.eqb p 102); [apply ident_advancing|].
  unfold wrong_type. repeat match goal with |- (if ?b then _ else _, _) = _ -> _ => destruct b; try discriminate end.
  destruct (num_range l) as [n|[e o]]; discriminate.
Qed.
Lemma token_advancing {A} k known t (f : jop A) op : method k known (Some t) f op -> advancing f.
Proof. intros M l v a. eapply token_one; eauto. Qed.
Lemma add_off_least n x m : add_off n x = Ok m -> n <= m.
Proof. unfold add_off. destruct x as [y|[e o]]; [|discriminate]. intros E. injection E as <-. lia. Qed.
Lemma num_unsigned_one l n : num_unsigned l = Ok n -> 1 <= n.
Proof.
  unfold num_unsigned. destruct l as [|x l]; [discriminate|]. destruct (N.eqb x 48).
  - destruct l as [|y l]; [intros E; injection E as <-; lia|]. destruct (is_digit y); [discriminate|]. apply add_off_least.
  - destruct (is_digit x) eqn:Ex.
    + intros E. apply add_off_least in E. unfold digits in E. cbn [run_length] in E. rewrite Ex in E. lia.
    + discriminate.
Qed.
Lemma num_range_one l n : num_range l = Ok n -> 1 <= n.
Proof.
  unfold num_range. destruct l as [|x l]; [discriminate|]. destruct (N.eqb x 45); [apply add_off_least|]. destruct (is_inf_nan x); [discriminate|apply num_unsigned_one].
Qed.
Lemma number_advancing : advancing j_next_number_bytes.
Proof.
  intros l v a. apply next_as_one. clear. intros x l v a. unfold j_number. destruct (num_range l) as [n|[e o]] eqn:E; [|discriminate].
  intros H. injection H as _ <-. eapply num_range_one; eauto.
Qed.

(** What a call of a parsing method with [v] and [l'] in front gives. *)
Definition given {A} (G : rj -> Prop) (E : bool) (f : jop A) (op : rj -> outcome (rj * result A rerror)) (s : rj) (v : A) (l' : bytes) : Prop :=
  tried E (op s) (fun s' v' => v' = v /\ rest s' = l' /\ G s' /\ (advancing f -> 0 < jidx s')).
Lemma tried_weaken {A} E x (Q Q' : rj -> A -> Prop) : (forall s v, Q s v -> Q' s v) -> tried E x Q -> tried E x Q'.
Proof. intros H (s' & r & E1 & E2). exists s', r. split; [exact E1|]. destruct r; auto. Qed.
Lemma given_plain {A} G E (f : jop A) op s v l' : given G E f op s v l' -> tried E (op s) (fun s' v' => v' = v /\ rest s' = l' /\ G s').
Proof. apply tried_weaken. tauto. Qed.
Lemma given_further {A} G E (f : jop A) op s v l' : advancing f -> given G E f op s v l' ->
  tried E (op s) (fun s' v' => v' = v /\ rest s' = l' /\ 0 < jidx s' /\ G s').
Proof. intros H. apply tried_weaken. intuition. Qed.
Lemma found_given {A} c J k known token (f : jop A) op s v l' : closed J -> method k known token f op -> states c J s ->
  found s v l' (op s) -> given (states c J) true f op s v l'.
Proof.
  intros HJ M (Hv & Hc & Hj) (s' & r & E & H). exists s', r. split; [exact E|]. destruct r as [v'|e]; [|reflexivity].
  destruct H as (-> & Hr & Hv' & Hc' & _). split; [reflexivity|]. split; [exact Hr|].
  split. { split; [exact Hv'|]. split; [congruence|]. exact (closed_method J HJ _ _ _ _ _ _ _ _ M E Hj). }
  intros Ha. rewrite (f_op _ _ _ _ _ (method_facts _ _ _ _ _ M)) in E. exact (loop_advances _ _ _ _ _ _ Ha E).
Qed.
Lemma quiet_given {A} c J k known token (f : jop A) op s v l' : closed J -> method k known token f op -> states c J s ->
  (exists s', op s = Done (s', Ok v) /\ valid s' /\ rest s' = l' /\ rcap s' = rcap s) -> given (states c J) false f op s v l'.
Proof.
  intros HJ M (Hv & Hc & Hj) (s' & E & Hv' & Hr & Hc'). exists s', (Ok v). split; [exact E|]. split; [reflexivity|]. split; [exact Hr|].
  split. { split; [exact Hv'|]. split; [congruence|]. exact (closed_method J HJ _ _ _ _ _ _ _ _ M E Hj). }
  intros Ha. rewrite (f_op _ _ _ _ _ (method_facts _ _ _ _ _ M)) in E. exact (loop_advances _ _ _ _ _ _ Ha E).
Qed.

Lemma key_length (k w1 l : bytes) : len (QUOTE :: k ++ QUOTE :: w1 ++ COLON :: l) = len k + len w1 + 3 + len l.
Proof. cbn [List.length]. rewrite !app_length. cbn [List.length]. rewrite app_length. cbn [List.length]. lia. Qed.
(** The pattern shared by the instances: most facts follow from one about all parsing methods. [fit n]: a token that ends
    [n] bytes behind the white space in front of it is short enough. *)
Section Facts.
Context (G0 G : rj -> Prop) (P : profile) (E : bool) (fit : nat -> Prop).
Context (fit_5 : forall n, n <= 5 -> fit n) (fit_key : forall k w1, key_ok P k w1 -> fit (len k + len w1 + 4)).
Context (by_method : forall A k known token (f : jop A) op s v l' n, method k known token f op -> k = Plain \/ k = Separator ->
  advancing f -> G s -> on_token known (rest s) -> no_form_feed token (rest s) -> parsed f (rest s) v l' ->
  len (strip token (rest s)) = n + len l' -> fit n -> given G E f op s v l').
Context (by_open : forall b s v l' n l, G s -> rest s = LBRACE :: l -> (b = true -> 0 < jidx s) -> open_ok P b l ->
  no_form_feed (Some LBRACE) (rest s) -> parsed (j_next_object j_known_bytes) (rest s) v l' ->
  len (strip (Some LBRACE) (rest s)) = n + len l' -> fit n ->
  given G E (j_next_object j_known_bytes) next_object_bytes s v l').

Lemma strip_token t w y l : solid t -> spaces w -> solid y -> strip (Some t) (t :: w ++ y :: l) = t :: y :: l.
Proof. intros Ht Hw Hy. pose proof (strip_spaces t [] t w y l spaces_nil Ht Hw Hy) as H. rewrite N.eqb_refl in H. exact H. Qed.
Lemma by_array_empty s w r : G s -> rest s = LBRACK :: w ++ RBRACK :: r -> spaces w ->
  tried E (known_array s) (fun s' v => v = None /\ rest s' = r /\ G s').
Proof.
  intros HG HR Hw. apply (given_plain G E j_known_array).
  apply (by_method _ _ _ _ _ _ _ _ _ 2 m_known_array); rewrite ?HR; auto 9.
  - apply jat_advancing, le_n.
  - intros _. reflexivity.
  - apply (nff_token LBRACK [] LBRACK w RBRACK r); auto; reflexivity.
  - apply at_known_array_end, Hw.
  - rewrite strip_token; auto; reflexivity.
Qed.
Lemma by_array s w x l : G s -> rest s = LBRACK :: w ++ x :: l -> spaces w -> solid x -> x <> RBRACK ->
  tried E (known_array s) (fun s' v => v = Some x /\ rest s' = x :: l /\ 0 < jidx s' /\ G s').
Proof.
  intros HG HR Hw Hx Hn. apply (given_further G E j_known_array); [apply jat_advancing, le_n|].
  apply (by_method _ _ _ _ _ _ _ _ _ 1 m_known_array); rewrite ?HR; auto 9.
  - apply jat_advancing, le_n.
  - intros _. reflexivity.
  - apply (nff_token LBRACK [] LBRACK w x l); auto; reflexivity.
  - apply at_known_array; auto.
  - rewrite strip_token; auto; reflexivity.
Qed.
Lemma by_step_end s w r : G s -> rest s = w ++ RBRACK :: r -> spaces w ->
  tried E (array_step s) (fun s' v => v = None /\ rest s' = r /\ G s').
Proof.
  intros HG HR Hw. apply (given_plain G E j_array_step).
  apply (by_method _ _ _ _ _ _ _ _ _ 1 m_array_step); rewrite ?HR; auto 9.
  - apply array_step_advancing.
  - intros H. discriminate.
  - apply nff_other; auto; [reflexivity|discriminate].
  - apply at_array_step_end, Hw.
  - cbn [strip]. rewrite aw_spaces by (auto; reflexivity). reflexivity.
Qed.
Lemma by_step s w w2 x l : G s -> rest s = w ++ COMMA :: w2 ++ x :: l -> spaces w -> spaces w2 -> solid x -> x <> RBRACK ->
  tried E (array_step s) (fun s' v => v = Some x /\ rest s' = x :: l /\ 0 < jidx s' /\ G s').
Proof.
  intros HG HR Hw Hw2 Hx Hn. apply (given_further G E j_array_step); [apply array_step_advancing|].
  apply (by_method _ _ _ _ _ _ _ _ _ 1 m_array_step); rewrite ?HR; auto 9.
  - apply array_step_advancing.
  - intros H. discriminate.
  - apply nff_token; auto; reflexivity.
  - apply at_array_step; auto.
  - rewrite strip_spaces; auto; reflexivity.
Qed.
Lemma by_object_empty b s w r : G s -> rest s = LBRACE :: w ++ RBRACE :: r -> spaces w ->
  (b = true -> 0 < jidx s) -> open_ok P b (w ++ RBRACE :: r) ->
  tried E (next_object_bytes s) (fun s' v => v = None /\ rest s' = r /\ G s').
Proof.
  intros HG HR Hw Hb Ho. apply (given_plain G E (j_next_object j_known_bytes)).
  apply (by_open b s None r 2 (w ++ RBRACE :: r)); auto; rewrite ?HR.
  - apply (nff_token LBRACE [] LBRACE w RBRACE r); auto; reflexivity.
  - apply at_object_open_end, Hw.
  - rewrite strip_token; auto; reflexivity.
Qed.
Lemma by_object b s w k w1 l : G s -> rest s = LBRACE :: w ++ QUOTE :: k ++ QUOTE :: w1 ++ COLON :: l ->
  spaces w -> string_text k -> spaces w1 -> key_ok P k w1 ->
  (b = true -> 0 < jidx s) -> open_ok P b (w ++ QUOTE :: k ++ QUOTE :: w1 ++ COLON :: l) ->
  tried E (next_object_bytes s) (fun s' v => v = Some k /\ rest s' = l /\ G s').
Proof.
  intros HG HR Hw Hk Hw1 Hkey Hb Ho. apply (given_plain G E (j_next_object j_known_bytes)).
  apply (by_open b s (Some k) l (len k + len w1 + 4) (w ++ QUOTE :: k ++ QUOTE :: w1 ++ COLON :: l)); eauto; rewrite ?HR.
  - apply (nff_token LBRACE [] LBRACE w QUOTE); auto; reflexivity.
  - apply at_object_open; auto.
  - rewrite strip_token by (auto; reflexivity).
    change (S (len (QUOTE :: k ++ QUOTE :: w1 ++ COLON :: l)) = len k + len w1 + 4 + len l). rewrite key_length. lia.
Qed.
Lemma by_key_end s w r : G s -> rest s = w ++ RBRACE :: r -> spaces w ->
  tried E (next_key_bytes s) (fun s' v => v = None /\ rest s' = r /\ G s').
Proof.
  intros HG HR Hw. apply (given_plain G E (j_next_key j_known_bytes)).
  apply (by_method _ _ _ _ _ _ _ _ _ 1 m_next_key_bytes); rewrite ?HR; auto 9.
  - apply (token_advancing _ _ _ _ _ m_next_key_bytes).
  - intros H. discriminate.
  - apply nff_other; auto; [reflexivity|discriminate].
  - apply at_next_key_end, Hw.
  - cbn [strip]. rewrite aw_spaces by (auto; reflexivity). reflexivity.
Qed.
Lemma by_key s w w0 k w1 l : G s -> rest s = w ++ COMMA :: w0 ++ QUOTE :: k ++ QUOTE :: w1 ++ COLON :: l ->
  spaces w -> spaces w0 -> string_text k -> spaces w1 -> key_ok P k w1 ->
  tried E (next_key_bytes s) (fun s' v => v = Some k /\ rest s' = l /\ G s').
Proof.
  intros HG HR Hw Hw0 Hk Hw1 Hkey. apply (given_plain G E (j_next_key j_known_bytes)).
  apply (by_method _ _ _ _ _ _ _ _ _ (len k + len w1 + 4) m_next_key_bytes); rewrite ?HR; auto 9.
  - apply (token_advancing _ _ _ _ _ m_next_key_bytes).
  - intros H. discriminate.
  - apply nff_token; auto; reflexivity.
  - apply at_next_key; auto.
  - rewrite strip_spaces by (auto; reflexivity). cbn [N.eqb COMMA Pos.eqb].
    change (S (len (QUOTE :: k ++ QUOTE :: w1 ++ COLON :: l)) = len k + len w1 + 4 + len l). rewrite key_length. lia.
Qed.
Lemma by_literal {A} (f : jop A) op s v t r x q : method Plain true None f op -> advancing f -> G s -> rest s = t ++ r ->
  t = x :: q -> solid x -> len t <= 5 -> parsed f (t ++ r) v r -> tried E (op s) (fun s' v' => v' = v /\ rest s' = r /\ G s').
Proof.
  intros M Ha HG HR Ht Hx Hl Hp. apply (given_plain G E f). subst t.
  apply (by_method _ _ _ _ _ _ _ _ _ (len (x :: q)) M); rewrite ?HR; auto 9.
  - intros _. exact Hx.
  - apply (nff_none [] x); auto.
  - cbn [strip]. pose proof (aw_spaces [] x (q ++ r) spaces_nil Hx) as Hs. cbn [app] in *. rewrite Hs. cbn [List.length]. rewrite app_length. reflexivity.
Qed.
Context (pstart : forall s, G s -> G0 s).
Context (ppeek : forall s w x l, G0 s -> rest s = w ++ x :: l -> spaces w -> solid x ->
    exists s' r, peek s = Done (s', r) /\
      match r with Ok v => v = x /\ rest s' = x :: l /\ G s' | Err e => E = true /\ is_io e = true end).
Context (pend : forall s, G0 s -> spaces (rest s) ->
    exists s' e, peek s = Done (s', Err e) /\
      ((err_type e = JsonError EofWhileParsingValue /\ tried E (finish s') (fun s'' _ => rest s'' = [] /\ G0 s'')) \/
       (err_type e <> JsonError EofWhileParsingValue /\ E = true))).
Context (pnumber : forall s t r, G s -> rest s = t ++ r -> number_text t -> delimited r -> number_ok P t r ->
    tried E (next_number_bytes s) (fun s' v => v = t /\ rest s' = r /\ G s')).
Context (pstring : forall s w t r, G s -> rest s = QUOTE :: t ++ QUOTE :: r -> string_text t -> string_ok P t ->
    exists s' w' res p q, write_long_bytes s w = Done (s', w', res) /\ t = p ++ q /\ spent w p w' /\
      match res with
      | Ok _ => q = [] /\ rest s' = r /\ G s'
      | Err e => E = true \/ exists k, err_type e = IoError k /\ exhausted w' k /\ q <> []
      end).
Lemma all_facts : parser_facts G0 G P E.
Proof.
  constructor; eauto using by_array_empty, by_array, by_step_end, by_step, by_key_end, by_key.
  - intros. eapply by_object_empty; eauto.
  - intros. eapply by_object; eauto.
  - intros s r HG HR. eapply tried_weaken; [|eapply (by_literal j_known_null known_null s tt (bs "null") r)];
      [|exact m_known_null|apply ident_advancing|exact HG|exact HR|reflexivity|reflexivity|cbn; lia|apply at_known_null].
    cbn beta. tauto.
  - intros s r HG HR. eapply (by_literal _ _ s true (bs "true") r); [apply m_known_bool|apply known_bool_advancing|exact HG|exact HR|reflexivity|reflexivity|cbn; lia|apply at_known_true].
  - intros s r HG HR. eapply (by_literal _ _ s false (bs "false") r); [apply m_known_bool|apply known_bool_advancing|exact HG|exact HR|reflexivity|reflexivity|cbn; lia|apply at_known_false].
Qed.
End Facts.

(** ** Valid states: every call gives what is in front or fails *)
Lemma closed_tidy clean : closed (tidy clean).
Proof. apply closed_if, closed_holds_only. Qed.

Lemma known_bytes_json : json_failures j_known_bytes.
Proof.
  intros l e a. unfold j_known_bytes. destruct (scan_string 0 (skipn 1 l)) as [[n d]|[x o]]; [discriminate|]. intros E. injection E as <- <-.
  exists x. reflexivity.
Qed.
Lemma long_bytes_states c J clean s w t r : closed J -> (forall b, J b -> tidy clean b) -> 8 <= c ->
  states c J s -> rest s = QUOTE :: t ++ QUOTE :: r -> string_text t ->
  copied_text clean t \/ (steady_text t /\ (forall b, J b -> fills b)) ->
  exists s' w' res p q, write_long_bytes s w = Done (s', w', res) /\ t = p ++ q /\ spent w p w' /\
    match res with
    | Ok _ => q = [] /\ rest s' = r /\ states c J s'
    | Err e => is_io e = true /\ (rquiet s = true -> exists k, err_type e = IoError k /\ exhausted w' k /\ q <> [])
    end.
Proof.
  intros HJ HT Hc8 (Hv & Hc & Hj) HR Ht Hcp.
  assert (Hcp' : forall s, J (bf s) -> long_text (buf (bf s)) t \/ (fills (bf s) /\ steady_text t)).
  { intros s0 Hj0. destruct Hcp as [[(A & B)|(A & B & C)]|(A & B)]; [left; left; auto|left; right|right; auto]. split; [apply HT; auto|]. auto. }
  destruct (write_long_bytes_spec s w t r Hv) as (s' & w' & res & p & q & Ew & Epq & Hwr & _ & Hres); auto.
  - lia.
  - rewrite HR. apply at_known_bytes, Ht.
  - destruct (handle_long_spent j_known_bytes bytes_segment _ known_bytes_json ltac:(discriminate) _ _ _ _ _ Ew) as (p' & Hsp & Herr).
    assert (p' = p) as -> by (destruct Hsp as (Hsp & _); rewrite Hwr in Hsp; apply app_inv_head in Hsp; auto).
    exists s', w', res, p, q. split; [exact Ew|]. split; [exact Epq|]. split; [exact Hsp|]. destruct res as [u|e].
    + destruct Hres as (-> & Hv' & Hr' & _ & Hc' & _). split; [reflexivity|]. split; [exact Hr'|]. split; [exact Hv'|]. split; [congruence|].
      exact (closed_long J HJ _ _ _ _ _ _ _ _ Ew Hj).
    + split; [apply Hres|]. intros Hq. destruct (Herr e eq_refl (proj1 Hres) Hq) as (k & H1 & H2). exists k. split; [exact H1|]. split; [exact H2|].
      intros ->. rewrite app_nil_r in Epq. subst p.
      destruct (write_long_bytes_spec s (mkWriter [] None) t r Hv) as (s2 & w2 & res2 & p2 & q2 & Ew2 & Epq2 & Hwr2 & _ & Hres2); auto.
      * lia.
      * rewrite HR. apply at_known_bytes, Ht.
      * destruct res2 as [u|e2]; [|destruct Hres2 as (_ & [Hx|Hx]); [congruence|elim Hx; reflexivity]].
        destruct Hres2 as (-> & _). rewrite app_nil_r in Epq2. subst p2. cbn in Hwr2.
        destruct (handle_long_budget j_known_bytes bytes_segment _ _ w (mkWriter [] None) _ _ _ _ _ _ eq_refl Ew Ew2) as (p & Hp & HC).
        cbn in Hp. rewrite Hwr2 in Hp. subst p. destruct HC as [(_ & HC)|(a & b & Hab & Hb & HC)]; [discriminate|].
        rewrite Hwr in HC. apply app_inv_head in HC. subst a. rewrite <- (app_nil_r t) in Hab at 1. apply app_inv_head in Hab. auto.
Qed.
Lemma peek_method_found c J s w x l : 2 <= c -> states c J s -> rest s = w ++ x :: l -> spaces w -> solid x -> found s x (x :: l) (peek s).
Proof.
  intros H2 (Hv & Hc & Hj) HR Hw Hx. apply (op_valid _ _ _ _ _ s x (x :: l) m_peek); rewrite ?HR; auto.
  - lia.
  - intros H; discriminate.
  - apply nff_none; auto.
  - exact I.
  - apply at_peek; auto.
  - discriminate.
Qed.
Lemma peek_refusal c J s w x l s' e : 2 <= c -> states c J s -> rest s = w ++ x :: l -> spaces w -> solid x ->
  peek s = Done (s', Err e) -> is_io e = true.
Proof.
  intros H2 (Hv & Hc & Hj) HR Hw Hx Ep. pose proof (method_facts _ _ _ _ _ m_peek) as F.
  destruct (loop_spec j_peek None false s (f_weak _ _ _ _ _ F) (f_bounded _ _ _ _ _ F) (f_empty _ _ _ _ _ F) Hv) as (s2 & r & El & Hp); [lia|].
  unfold peek in Ep. rewrite Ep in El. injection El as <- <-. unfold op_post in Hp. cbv beta iota zeta in Hp.
  assert (HO : forall m er a, j_peek (x :: m) <> (Err er, a)).
  { intros m er a. destruct (at_peek [] x m spaces_nil Hx) as (n & Hn & _). cbn [app] in Hn. rewrite Hn. discriminate. }
  assert (HSt : strip None (rest s) = x :: l) by (rewrite HR; apply aw_spaces; auto).
  rewrite HSt in Hp. destruct Hp as [(Hp & _)|[(er & a & Hp & _)|[(_ & er & a & Hp & _)|Hp]]].
  - exact Hp.
  - elim (HO _ _ _ Hp).
  - destruct (rcap s) as [|c']; [lia|]. cbn [firstn] in Hp. elim (HO _ _ _ Hp).
  - destruct Hp as (_ & Hs & r0 & a0 & er & a1 & Hf & Ha & Hr0 & _). destruct r0 as [v|e0]; [destruct Hr0; discriminate|].
    pose proof (jview_split s Hv) as Hjs. rewrite <- Hs, HSt in Hjs. destruct (jview s) as [|y m].
    + cbn in Hf. injection Hf as _ <-. lia.
    + injection Hjs as <- _. elim (HO _ _ _ Hf).
Qed.
Lemma end_states E c J s : closed J -> 2 <= c -> states c J s -> (rquiet s = true \/ E = true) -> spaces (rest s) ->
    exists s' e, peek s = Done (s', Err e) /\
      ((err_type e = JsonError EofWhileParsingValue /\ tried E (finish s') (fun s'' _ => rest s'' = [] /\ states c J s'')) \/
       (err_type e <> JsonError EofWhileParsingValue /\ E = true)).
Proof.
  intros HJ H2 (Hv & Hc & Hj) HE Hs. destruct (peek_blank s Hv) as (s' & e & Ep & [(A & B)|(A & B & C & D & F & G)]).
  - lia.
  - apply jw_blank, Hs.
  - exists s', e. split; [exact Ep|]. right. split; [intros H; unfold is_io in A; rewrite H in A; discriminate|]. destruct HE; congruence.
  - exists s', e. split; [exact Ep|]. left. split; [exact A|]. destruct (finish_spec s' B) as (s'' & r & Ef & Hf); [lia|].
    exists s'', r. split; [exact Ef|]. destruct r as [u|e2]; cbn in Hf.
    + destruct u. destruct Hf as (_ & Hv' & Hr' & _ & Hc'). split; [exact Hr'|]. split; [exact Hv'|]. split; [congruence|].
      apply (closed_finish J HJ _ _ _ _ Ef). exact (closed_method J HJ _ _ _ _ _ _ _ _ m_peek Ep Hj).
    + destruct Hf as [(_ & Hq)|(_ & Hn & _)].
      * destruct HE as [HE|HE]; [|exact HE]. rewrite (G HE) in Hq. discriminate.
      * rewrite C in Hn. elim Hn. reflexivity.
Qed.
Lemma loose_facts c clean : 8 <= c -> parser_facts (loose c clean) (loose c clean) (loose_layout c clean) true.
Proof.
  intros H8. apply (all_facts _ _ _ _ (fun _ => True)); auto.
  - intros A k known token f op s v l' n M Hk Had HG Ht Hf Hp _ _. apply (found_given c _ k known token); auto; [apply closed_tidy|].
    destruct HG as (Hv & Hc & Hj). apply (op_valid k known token f op s v l'); auto; [lia| |]; destruct Hk as [-> | ->]; try exact I; discriminate.
  - intros b s v l' n l HG HR _ _ Hf Hp _ _. apply (found_given c _ _ _ _ _ _ _ _ _ (closed_tidy clean) m_next_object_bytes HG).
    destruct HG as (Hv & Hc & Hj). apply next_object_bytes_valid; auto. lia.
  - intros s w x l HG HR Hw Hx.
    assert (H : given (loose c clean) true j_peek peek s x (x :: l)).
    { apply (found_given c _ _ _ _ _ _ _ _ _ (closed_tidy clean) m_peek HG). apply (peek_method_found c (tidy clean) s w); auto. lia. }
    apply given_plain in H. destruct H as (s' & r & E1 & H). exists s', r. split; [exact E1|]. destruct r as [v|e]; [exact H|]. split; [reflexivity|].
    apply (peek_refusal c (tidy clean) s w x l s' e); auto. lia.
  - intros s HG Hs. apply end_states; auto; [apply closed_tidy|lia].
  - intros s t r HG HR Hn Hd Hok. apply (given_plain _ _ j_next_number_bytes).
    apply (found_given c _ _ _ _ _ _ _ _ _ (closed_tidy clean) m_next_number_bytes HG).
    destruct HG as (Hv & Hc & Hj). destruct (number_head t Hn) as (x & q & -> & Hx). destruct (number_solid x Hx) as (Hx1 & _).
    apply (op_valid _ _ _ _ _ s _ r m_next_number_bytes); auto.
    + lia.
    + intros H; discriminate.
    + rewrite HR. apply (nff_none [] x); auto.
    + unfold number_fits. rewrite HR, number_run, Hc by auto. exact Hok.
    + rewrite HR. apply at_number; auto.
    + discriminate.
  - intros s w t r HG HR Ht Hok.
    destruct (long_bytes_states c (tidy clean) clean s w t r (closed_tidy clean)) as (s' & w' & res & p & q & A & B & C & D); auto.
    exists s', w', res, p, q. split; [exact A|]. split; [exact B|]. split; [exact C|]. destruct res; auto.
Qed.

(** ** Input in chunks, a reader that does not fail, tokens that fit in the buffer *)
Lemma closed_chunked clean : closed (fun b => tidy clean b /\ quiet b = true).
Proof. apply closed_and; [apply closed_tidy|apply closed_quiet]. Qed.
Lemma strip_longer t x l : solid t -> space x -> strip (Some t) (t :: x :: l) <> t :: x :: l.
Proof.
  intros Ht Hx H. apply (f_equal (@List.length byte)) in H. revert H. cbn [strip]. unfold skip_aw at 1. cbn [run_length]. rewrite Ht. cbn [skipn].
  rewrite N.eqb_refl. cbn [List.length]. unfold skip_aw. cbn [run_length]. rewrite (space_ascii x Hx). cbn [skipn]. rewrite skipn_length. unfold byte in *. lia.
Qed.
Lemma no_stale_brace s l : rest s = LBRACE :: RBRACE :: l -> valid s ->
  no_stale (j_next_object j_known_bytes) false (Some LBRACE) s.
Proof.
  intros HR Hv _ _ r0 a0 E Ha Hr. pose proof (jview_split s Hv) as Hs. rewrite HR in Hs.
  destruct (jview s) as [|x [|y m]].
  - cbn in E. injection E as <- <-. lia.
  - injection Hs as <- Hs. cbn in E. injection E as <- <-. cbn. eexists _, _. split; reflexivity.
  - injection Hs as <- <- Hs. cbn in E. injection E as <- <-. destruct Hr. discriminate.
Qed.
Lemma chunked_facts c clean : 8 <= c -> parser_facts (chunked c clean) (chunked c clean) (chunk_layout c clean) false.
Proof.
  intros H8. pose proof (closed_chunked clean) as HC. apply (all_facts _ _ _ _ (fun n => n < c)); auto.
  - intros n Hn. lia.
  - intros A k known token f op s v l' n M Hk Had HG Ht Hf Hp Hl Hn. apply (quiet_given c _ k known token); auto.
    destruct HG as (Hv & Hc & Hj & Hq). destruct (op_complete k known token f op s v l') as (s' & HH); auto; try lia.
    { destruct Hk as [-> | ->]; exact I. }
    exists s'. tauto.
  - intros b s v l' n l HG HR Hb Ho Hf Hp Hl Hn. apply (quiet_given c _ _ _ _ _ _ _ _ _ HC m_next_object_bytes HG).
    destruct HG as (Hv & Hc & Hj & Hq).
    destruct (op_complete_gen _ _ _ _ _ s v l' m_next_object_bytes) as (s' & HH); auto; try lia; try discriminate.
    + destruct Ho as [-> | Ho]. { intros H0. specialize (Hb eq_refl). lia. }
      destruct l as [|x l]; [contradiction|]. destruct Ho as [Hx | ->].
      * intros _ H. rewrite HR in H. elim (strip_longer LBRACE x l eq_refl Hx H).
      * exact (no_stale_brace s l HR Hv).
    + exists s'. tauto.
  - intros s w x l HG HR Hw Hx.
    cut (given (chunked c clean) false j_peek peek s x (x :: l)).
    { intros H. apply given_plain in H. destruct H as (s' & r & E1 & H). exists s', r. split; [exact E1|]. destruct r as [v|e]; [exact H|discriminate]. }
    apply (quiet_given c _ _ _ _ _ _ _ _ _ HC m_peek HG).
    destruct HG as (Hv & Hc & Hj & Hq). destruct (op_complete _ _ _ _ _ s x (x :: l) m_peek) as (s' & HH); rewrite ?HR; auto; try lia.
    + intros H; discriminate.
    + apply nff_none; auto.
    + apply at_peek; auto.
    + cbn [strip]. rewrite aw_spaces by auto. lia.
    + exists s'. tauto.
  - intros s HG Hs. apply end_states; auto; [lia|]. left. apply HG.
  - intros s t r HG HR Hn Hd (Hok & Hne). apply (given_plain _ _ j_next_number_bytes).
    apply (quiet_given c _ _ _ _ _ _ _ _ _ HC m_next_number_bytes HG).
    destruct HG as (Hv & Hc & Hj & Hq). destruct (number_head t Hn) as (x & q & -> & Hx). destruct (number_solid x Hx) as (Hx1 & _).
    destruct (op_complete _ _ _ _ _ s (x :: q) r m_next_number_bytes) as (s' & HH); auto; try lia.
    + intros H; discriminate.
    + rewrite HR. apply (nff_none [] x); auto.
    + rewrite HR. apply at_number; auto.
    + rewrite HR. cbn [strip]. pose proof (aw_spaces [] x (q ++ r) spaces_nil Hx1) as Ha. cbn [app] in *. rewrite Ha.
      cbn [List.length] in *. rewrite app_length. unfold bytes, byte in *. lia.
    + exists s'. tauto.
  - intros s w t r HG HR Ht Hok.
    destruct (long_bytes_states c _ clean s w t r HC) as (s' & w' & res & p & q & A & B & C & D); auto; [intros b Hb; apply Hb|].
    exists s', w', res, p, q. split; [exact A|]. split; [exact B|]. split; [exact C|]. destruct res as [u|e]; auto.
    right. apply D, HG.
Qed.

(** ** The whole input in the buffer *)
Lemma closed_buffered : closed (fun b => src (rd b) = [] /\ quiet b = true).
Proof. apply closed_and; [apply closed_drained|apply closed_quiet]. Qed.
Lemma closed_loadable : closed (fun b => at_once b /\ quiet b = true).
Proof. apply closed_and; [apply closed_at_once|apply closed_quiet]. Qed.
Lemma buffered_view c s : buffered c s -> jview s = rest s.
Proof. intros (Hv & _ & H & _). rewrite (jview_split s Hv), H, app_nil_r. reflexivity. Qed.
Lemma buffered_given {A} c k known token (f : jop A) op s v l' : method k known token f op -> buffered c s ->
  parsed f (rest s) v l' -> (eager_of k = true -> l' <> []) -> given (buffered c) false f op s v l'.
Proof.
  intros M HG (a & Hp & Hl) Hk. apply (quiet_given c _ k known token); auto; [apply closed_buffered|].
  pose proof (buffered_view c s HG) as HV. destruct HG as (Hv & Hc & Hj).
  destruct (op_buffered k known token f op s v a M Hv) as (E1 & E2 & E3).
  - rewrite HV. exact Hp.
  - intros Hn. assert (Hk' : l' <> []) by (apply Hk; destruct Hn as [-> | ->]; reflexivity). clear Hk. rename Hk' into Hk. rewrite HV. destruct (Nat.lt_ge_cases a (len (rest s))) as [H|H]; [exact H|].
    elim Hk. rewrite Hl. apply skipn_all2. exact H.
  - eexists. split; [exact E1|]. split; [exact E2|]. split; [rewrite E3; auto|reflexivity].
Qed.
Lemma buffered_facts c : 2 <= c -> parser_facts (loadable c) (buffered c) buffer_layout false.
Proof.
  intros H2. apply (all_facts _ _ _ _ (fun _ => True)); auto.
  - intros A k known token f op s v l' n M Hk Had HG Ht Hf Hp _ _. apply (buffered_given c k known token); auto. destruct Hk as [-> | ->]; discriminate.
  - intros b s v l' n l HG HR _ _ Hf Hp _ _. apply (buffered_given c ObjectOpen false (Some LBRACE)); auto; [constructor|discriminate].
  - intros s (Hv & Hc & Hs & Hq). split; [exact Hv|]. split; [exact Hc|]. split; [left; exact Hs|exact Hq].
  - intros s w x l (Hv & Hc & Hj & Hq) HR Hw Hx.
    destruct (op_complete _ _ _ _ _ s x (x :: l) m_peek) as (s' & E1 & E2 & E3 & E4 & E5 & E6); rewrite ?HR; auto; try lia.
    + intros H; discriminate.
    + apply nff_none; auto.
    + apply at_peek; auto.
    + cbn [strip]. rewrite aw_spaces by auto. lia.
    + exists s', (Ok x). split; [exact E1|]. split; [reflexivity|]. split; [exact E3|]. split; [exact E2|]. split; [congruence|].
      split; [|exact E6]. pose proof (closed_method _ closed_at_once _ _ _ _ _ _ _ _ m_peek E1 Hj) as [H|(_ & H & _)]; [exact H|].
      apply loop_loaded in E1; auto; [lia|]. eexists _, _. reflexivity.
  - intros s HG Hs. apply end_states; auto; [apply closed_loadable|]. left. apply HG.
  - intros s t r HG HR Hn Hd Hne. apply (given_plain _ _ j_next_number_bytes).
    apply (buffered_given c Number false None); auto; [constructor|]. rewrite HR. apply at_number; auto.
  - intros s w t r HG HR Ht _. pose proof (buffered_view c s HG) as HV. rewrite HR in HV. unfold write_long_bytes, fuel_for. cbn [handle_long].
    unfold jcall. rewrite HV, known_bytes_text by auto.
    destruct (write_all_spent w t) as (w1 & r1 & Ew & Hw). rewrite Ew. destruct r1 as [u|k].
    + eexists _, _, _, t, []. split; [reflexivity|]. rewrite app_nil_r. split; [reflexivity|]. split; [exact Hw|]. split; [reflexivity|].
      destruct HG as (Hv & Hc & Hj).
      destruct (op_buffered _ _ _ _ _ s t (S (S (len t))) m_known_bytes Hv) as (_ & E2 & E3); [rewrite HV; apply known_bytes_text; auto|intros [H|H]; discriminate|].
      split. { rewrite E3, HR. apply skip_text. } split; [exact E2|]. split; [exact Hc|exact Hj].
    + destruct Hw as (p & q & -> & Hq & Hw & He). eexists _, _, _, p, q. split; [reflexivity|]. split; [reflexivity|]. split; [exact Hw|].
      right. exists k. auto.
Qed.

(** ** A reader that fills the buffer *)
Lemma closed_filling clean : closed (fun b => tidy clean b /\ sched (rd b) = []).
Proof. apply closed_and; [apply closed_tidy|apply closed_greedy]. Qed.
Lemma indented_suffix pad p l : indented pad (p ++ l) -> indented pad l.
Proof. intros H a w b E Hw. apply (H (p ++ a) w b); [rewrite E, <- app_assoc; reflexivity|exact Hw]. Qed.
Lemma filling_moved c clean pad s s' p : filling c clean pad s -> rest s = p ++ rest s' ->
  states c (fun b => tidy clean b /\ sched (rd b) = []) s' -> 0 < jidx s' -> filling c clean pad s'.
Proof.
  intros (_ & Hi & _) HR HS Hj. split; [exact HS|]. split; [rewrite HR in Hi; apply (indented_suffix pad p), Hi|]. intros _. left. exact Hj.
Qed.
Lemma filling_given {A} c clean pad E (f : jop A) op s v l' p : filling c clean pad s -> rest s = p ++ l' -> advancing f ->
  given (states c (fun b => tidy clean b /\ sched (rd b) = [])) E f op s v l' -> given (filling c clean pad) E f op s v l'.
Proof.
  intros HG HR Ha. apply tried_weaken. intros s' v' (-> & HR' & HS & Hj). split; [reflexivity|]. split; [exact HR'|]. split; [|exact Hj].
  apply (filling_moved c clean pad s s' p); auto. rewrite HR'. exact HR.
Qed.
Lemma parsed_suffix {A} (f : jop A) l v l' : parsed f l v l' -> exists p, l = p ++ l'.
Proof. intros (a & _ & ->). exists (firstn a l). symmetry. apply firstn_skipn. Qed.
Lemma filling_quiet c clean pad s : filling c clean pad s -> rquiet s = true.
Proof. intros ((_ & _ & _ & H) & _). apply greedy_quiet, H. Qed.
Lemma handle_long_advances parser segment : advancing parser -> forall fuel s w s' w' u,
  handle_long fuel parser segment s w = Done (s', w', Ok u) -> 0 < jidx s'.
Proof.
  intros Ha. induction fuel as [|fuel IH]; intros s w s' w' u E; [discriminate|]. cbn [handle_long] in E. unfold jcall in E.
  destruct (parser (jview s)) as [[v|[er o]] a] eqn:Ep.
  - apply Ha in Ep. destruct (write_all w v) as [w1 [u1|k]]; [|discriminate]. injection E as <- _ _. cbn [jidx]. lia.
  - destruct (can_retry (fst (er, jidx s + o))); [|discriminate].
    match type of E with context [find_leading (buf (bf ?x))] => set (s3 := x) in * end. clearbody s3.
    destruct (find_leading (buf (bf s3)) (raw_segment_end (bf s3))) as [seg|]; [|discriminate].
    destruct (1 <? seg).
    + destruct (segment (buf (bf s3)) seg) as [d|x]; [|discriminate]. destruct (write_all w d) as [w1 [u1|k]]; [|discriminate].
      destruct (read_more _) as [b [[|n]|e]]; try discriminate. apply (IH _ _ _ _ _ E).
    + destruct (read_more _) as [b [[|n]|e]]; try discriminate. apply (IH _ _ _ _ _ E).
Qed.
Lemma provided_no_stale c pad s v l' n : valid s -> parsed (j_next_object j_known_bytes) (rest s) v l' ->
  len (strip (Some LBRACE) (rest s)) = n + len l' -> n + pad < c -> provided c pad s ->
  no_stale (j_next_object j_known_bytes) false (Some LBRACE) s.
Proof.
  intros Hv (a & Hf & ->) Hl Hn HP H0 Hst r0 a0 E0 Ha Hr. exfalso. rewrite Hst, skipn_length in Hl.
  pose proof (method_facts _ _ _ _ _ m_next_object_bytes) as F. pose proof (f_bounded _ _ _ _ _ F _ _ _ Hf) as Hb.
  pose proof (jview_split s Hv) as Hsp. pose proof (jview_length s Hv) as HL.
  assert (HK : j_next_object j_known_bytes (jview s) = (Ok v, a) -> False).
  { intros E1. rewrite E1 in E0. injection E0 as <- _. destruct Hr. discriminate. }
  destruct HP as [HP|[HP|[HP|HP]]].
  - lia.
  - apply HK. apply (f_local _ _ _ _ _ F _ (src (rd (bf s)))); [rewrite <- Hsp; exact Hf|lia].
  - apply HK. rewrite HP, app_nil_r in Hsp. rewrite <- Hsp. exact Hf.
  - destruct (jview s) as [|y l]; [|cbn [List.length] in HL; lia]. cbn in E0. injection E0 as _ <-. lia.
Qed.
Lemma filling_facts c clean pad : 8 <= c -> parser_facts (filling c clean pad) (filling c clean pad) (filling_layout c clean pad) false.
Proof.
  intros H8. pose proof (closed_filling clean) as HC. apply (all_facts _ _ _ _ (fun n => n < c)); auto.
  - intros n Hn. lia.
  - intros A k known token f op s v l' n M Hk Had HG Ht Hf Hp Hl Hn. destruct (parsed_suffix _ _ _ _ Hp) as (p & HR).
    apply (filling_given c clean pad _ f op s v l' p); auto. pose proof (filling_quiet _ _ _ _ HG) as Hq. destruct HG as (HS & _).
    apply (quiet_given c _ k known token); auto. destruct HS as (Hv & Hc & Hj).
    destruct (op_complete k known token f op s v l') as (s' & HH); auto; try lia.
    { destruct Hk as [-> | ->]; exact I. }
    exists s'. tauto.
  - intros b s v l' n l HG HR Hb Ho Hf Hp Hl Hn. destruct (parsed_suffix _ _ _ _ Hp) as (p & HP).
    apply (filling_given c clean pad _ _ _ s v l' p); auto; [apply (token_advancing _ _ _ _ _ m_next_object_bytes)|].
    pose proof (filling_quiet _ _ _ _ HG) as Hq. destruct HG as (HS & Hi & Hop).
    apply (quiet_given c _ _ _ _ _ _ _ _ _ HC m_next_object_bytes HS). destruct HS as (Hval & Hc & Hj).
    destruct (op_complete_gen _ _ _ _ _ s v l' m_next_object_bytes) as (s' & HH); auto; try lia; try discriminate.
    2:{ exists s'. tauto. }
    destruct Ho as [-> | [Ho | (k & w1 & r & -> & Ht & Hw1 & Hkey)]]. { intros H0. specialize (Hb eq_refl). lia. }
    + destruct l as [|x l]; [contradiction|]. destruct Ho as [Hx | ->].
      * intros _ H. rewrite HR in H. elim (strip_longer LBRACE x l eq_refl Hx H).
      * exact (no_stale_brace s l HR Hval).
    + apply (provided_no_stale c pad s v l' (len k + len w1 + 4)); auto; [|apply Hop; rewrite HR; reflexivity].
      destruct (at_object_open [] k w1 r spaces_nil Ht Hw1) as (a & Ha & Hr). cbn [app] in Ha, Hr. rewrite <- HR in Ha, Hr.
      destruct Hp as (a' & Ha' & ->). rewrite Ha' in Ha. injection Ha as _ <-. rewrite <- Hr.
      pose proof (strip_token LBRACE [] QUOTE (k ++ QUOTE :: w1 ++ COLON :: r) eq_refl spaces_nil eq_refl) as HS. cbn [app] in HS. rewrite HR, HS.
      change (S (len (QUOTE :: k ++ QUOTE :: w1 ++ COLON :: r)) = len k + len w1 + 4 + len r). rewrite key_length. lia.
  - intros s w x l HG HR Hw Hx. pose proof (filling_quiet _ _ _ _ HG) as Hq. pose proof HG as (HS & Hi & Hop). destruct HS as (Hv & Hc & Hj).
    destruct (op_complete _ _ _ _ _ s x (x :: l) m_peek) as (s' & E1 & E2 & E3 & E4 & E5 & E6); rewrite ?HR; auto; try lia.
    { intros H; discriminate. }
    { apply nff_none; auto. }
    { apply at_peek; auto. }
    { cbn [strip]. rewrite aw_spaces by auto. lia. }
    exists s', (Ok x). split; [exact E1|]. split; [reflexivity|]. split; [exact E3|].
    assert (HS' : states c (fun b => tidy clean b /\ sched (rd b) = []) s').
    { split; [exact E2|]. split; [congruence|]. exact (closed_method _ HC _ _ _ _ _ _ _ _ m_peek E1 Hj). }
    split; [exact HS'|]. rewrite E3. split; [rewrite HR in Hi; apply (indented_suffix pad w), Hi|]. cbn [opening]. intros ->.
    assert (Hpad : len w <= pad) by (apply (Hi [] w l); [exact HR|exact Hw]).
    destruct (peek_refilled s s' LBRACE (len w) l Hv (proj2 Hj) E1 E2 E4) as [(a & H1 & H2 & H3)|H]; auto.
    + rewrite HR, E3, app_length. reflexivity.
    + intros er a Ef. destruct (Nat.le_gt_cases (len (jview s)) (len w)) as [L|L]; [exact L|]. exfalso.
      pose proof (jview_split s Hv) as Hsp. rewrite HR in Hsp. apply (f_equal (firstn (len (jview s)))) in Hsp. rewrite (firstn_app (len (jview s)) (jview s)) in Hsp.
      rewrite Nat.sub_diag, firstn_all in Hsp. cbn [firstn] in Hsp. rewrite app_nil_r in Hsp. rewrite firstn_app in Hsp.
      rewrite (firstn_all2 w) in Hsp by lia. destruct (len (jview s) - len w) as [|j] eqn:Ej; [lia|]. cbn [firstn] in Hsp. rewrite <- Hsp in Ef.
      destruct (at_peek w LBRACE (firstn j l) Hw Hx) as (a' & Ha' & _). rewrite Ha' in Ef. discriminate.
    + destruct (jidx s') as [|j] eqn:Ej; [|left; lia].
      assert (Hlen : len (rest s') = len (rest s)).
      { pose proof (index_rest s Hv) as I1. pose proof (index_rest s' E2) as I2. rewrite E4, <- I1 in I2. unfold current_index in I2. rewrite H2 in I2. lia. }
      rewrite E3, HR, app_length in Hlen. assert (w = []) as -> by (destruct w; [reflexivity|cbn [List.length] in Hlen; lia]).
      destruct Hop as [H|H]; [rewrite HR; reflexivity|lia|]. right. rewrite H2. exact H.
    + unfold provided. destruct H as [H|[H|[H|H]]]; auto. right. left. lia.
  - intros s HG Hs. pose proof HG as (HS & Hi & _). 
    destruct (end_states false c _ s HC ltac:(lia) HS (or_introl (filling_quiet _ _ _ _ HG)) Hs) as (s' & e & E1 & [(E2 & E3)|(_ & E2)]); [|discriminate].
    exists s', e. split; [exact E1|]. left. split; [exact E2|]. revert E3. apply tried_weaken. intros s2 [] (HR & HS2). split; [exact HR|].
    split; [exact HS2|]. rewrite HR. split; [apply (indented_suffix pad (rest s)); rewrite app_nil_r; exact Hi|intros []].
  - intros s t r HG HR Hn Hd (Hok & Hne). apply (given_plain _ _ j_next_number_bytes).
    apply (filling_given c clean pad _ _ _ s t r t); auto; [apply number_advancing|].
    pose proof (filling_quiet _ _ _ _ HG) as Hq. destruct HG as (HS & _).
    apply (quiet_given c _ _ _ _ _ _ _ _ _ HC m_next_number_bytes HS).
    destruct HS as (Hv & Hc & Hj). destruct (number_head t Hn) as (x & q & -> & Hx). destruct (number_solid x Hx) as (Hx1 & _).
    destruct (op_complete _ _ _ _ _ s (x :: q) r m_next_number_bytes) as (s' & HH); auto; try lia.
    + intros H; discriminate.
    + rewrite HR. apply (nff_none [] x); auto.
    + rewrite HR. apply at_number; auto.
    + rewrite HR. cbn [strip]. pose proof (aw_spaces [] x (q ++ r) spaces_nil Hx1) as Ha. cbn [app] in *. rewrite Ha.
      cbn [List.length] in *. rewrite app_length. unfold bytes, byte in *. lia.
    + exists s'. tauto.
  - intros s w t r HG HR Ht Hok. pose proof (filling_quiet _ _ _ _ HG) as Hq. pose proof HG as (HS & _).
    destruct (long_bytes_states c _ clean s w t r HC) as (s' & w' & res & p & q & A & B & C & D); auto; [intros b Hb; apply Hb| |].
    { destruct Hok as [Hok|Hok]; [left; exact Hok|right]. split; [exact Hok|]. intros b Hb. apply Hb. }
    exists s', w', res, p, q. split; [exact A|]. split; [exact B|]. split; [exact C|]. destruct res as [u|e]; [|right; apply D, Hq].
    destruct D as (D1 & D2 & D3). split; [exact D1|]. split; [exact D2|]. apply (filling_moved c clean pad s s' (QUOTE :: t ++ [QUOTE])); auto.
    + rewrite HR, D2. cbn [app]. rewrite <- app_assoc. reflexivity.
    + apply (handle_long_advances j_known_bytes bytes_segment) in A; [exact A|]. intros l v a. unfold j_known_bytes.
      destruct (scan_string 0 (skipn 1 l)) as [[n d]|[y o]]; [|discriminate]. intros X. injection X as _ <-. lia.
Qed.

Lemma setting_facts m : sane m -> parser_facts (start m) (between m) (layout m) (may_fail m).
Proof. destruct m; cbn; [apply chunked_facts|apply buffered_facts|apply loose_facts|apply filling_facts]. Qed.
