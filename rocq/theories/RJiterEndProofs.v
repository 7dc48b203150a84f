(** What every call of the parser leaves behind, successful or not: progress of the successful calls, and a position inside the
    buffer after the failed ones if the reader does not fail. *)
From Verif Require Import Base Buffer BufferSpec BufferProofs Jiter JiterProofs RJiter RJiterSpec.
From Verif Require Import RJiterProofs RJiterOpProofs RJiterLookProofs RJiterLongProofs RJiterIndexProofs RJiterInvProofs ScanParser.

Definition left (s : rj) : nat := len (rest s).
(** The position is inside the buffer; the slice of the parser may be out of date. *)
Definition seated (s : rj) : Prop := wf (bf s) /\ jidx s <= n_bytes (bf s).
Lemma valid_seated s : valid s -> seated s.
Proof. intros (W & _ & H). split; assumption. Qed.

Lemma loop_progress {A} k known token (f : jop A) op s s' v :
  method k known token f op -> valid s -> 2 <= rcap s -> op s = Done (s', Ok v) ->
  valid s' /\ rcap s' = rcap s /\ (rquiet s = true -> rquiet s' = true) /\ left s' <= left s /\ (advancing f -> left s' < left s).
Proof.
  intros M V Hc E. apply method_facts in M as M'. destruct M' as [-> Hw Hb He Hl Hbl Hd].
  destruct (loop_spec f token (eager_of k) s Hw Hb He V Hc) as (s2 & r & E2 & P). rewrite E in E2. injection E2 as <- <-.
  destruct P as (V' & C' & Q' & T' & P). do 3 (split; [assumption|]).
  pose proof (strip_le token (rest s)) as Hst.
  assert (Hone : forall l w a, f l = (Ok w, a) -> advancing f -> 1 <= a) by (intros l w a Hf Ha; eapply Ha; eauto).
  unfold left.
  destruct P as [(a & Hf & ->)|[(a & Hf & ->)|[(_ & H1 & Hf & ->)|(_ & _ & r0 & a0 & a1 & H1 & H2 & H3 & Hf & ->)]]].
  - pose proof (Hb _ _ _ Hf). rewrite skipn_length. split; [lia|]. intros Ha. specialize (Ha _ _ _ Hf). lia.
  - pose proof (Hb _ _ _ Hf). rewrite skipn_length. split; [lia|]. intros Ha. specialize (Ha _ _ _ Hf). lia.
  - rewrite skipn_length. split; [lia|]. lia.
  - rewrite skipn_length. split; [lia|]. intros Ha. specialize (Ha _ _ _ Hf). pose proof (Hb _ _ _ Hf) as Hb1. rewrite skipn_length in Hb1.
    rewrite (jview_split s V). rewrite app_length. lia.
Qed.

(** Failed calls with a reader that does not fail. *)
Definition reined {A} (f : jop A) : Prop := forall l e a, f l = (Err e, a) -> a <= len l.
Lemma inert_reined {A} (f : jop A) : inert f -> reined f.
Proof. intros H l e a E. rewrite (H _ _ _ E). lia. Qed.
Lemma after_ws_reined {A} (f : jop A) : reined f -> reined (after_ws f).
Proof.
  intros H l e a. unfold after_ws, jat. destruct (f (skipn (run_length json_ws l) l)) as [[v|[er o]] b] eqn:E; [discriminate|].
  intros X. injection X as _ <-. apply H in E. rewrite skipn_length in E. pose proof (run_length_le json_ws l). lia.
Qed.
Lemma number_reined : reined j_next_number_bytes.
Proof.
  apply after_ws_reined. apply inert_reined. intros l e a. destruct l as [|x l]; [unfold jfail; intros E; injection E as _ <-; reflexivity|].
  destruct (is_num x).
  - unfold j_number. destruct (num_range (x :: l)) as [n|[er o]]; [discriminate|]. intros E. injection E as _ <-. reflexivity.
  - destruct (wrong_type TFloat x (x :: l)); [discriminate|]. intros E. injection E as _ <-. reflexivity.
Qed.

(** In the retry loop a failure leaves the parser in order, even if it is the reader that fails. *)
Lemma retry_failed {A} (f : jop A) eager : bounded f -> reined f ->
  forall fuel s s' e, valid s -> retry_loop fuel f eager s = Done (s', Err e) ->
  valid s' /\ rcap s' = rcap s /\ (rquiet s = true -> rquiet s' = true) /\ left s' <= len (stream (bf s)).
Proof.
  intros Hb Hr. induction fuel as [|fuel IH]; intros s s' e V E; [discriminate|].
  cbn [retry_loop] in E. unfold jcall in E. pose proof (jview_length s V) as Hvl. pose proof V as (W & J & I').
  destruct (f (jview s)) as [r a] eqn:Ef.
  assert (Ha : jidx s + a <= n_bytes (bf s)).
  { assert (a <= len (jview s)) by (destruct r as [v|[er o]]; [eapply Hb; eauto|eapply Hr; eauto]). lia. }
  set (s1 := mkRj (bf s) (jlen s) (jidx s + a)) in *.
  assert (V1 : valid s1) by (split; [exact W|]; split; [exact J|exact Ha]).
  assert (L1 : left s1 <= len (stream (bf s))) by (unfold left, rest; rewrite skipn_length; cbn [s1 bf jidx]; lia).
  set (r1 := match r with Ok v => Ok v | Err (e, o) => Err (e, jidx s + o) end) in *.
  assert (Hmore : match read_more (bf s1) with
        | (b, Err e) => Done (with_bf s1 b, Err e)
        | (b, Ok 0) => Done (with_bf s1 b, match r1 with Ok v => Ok v | Err e => Err (from_jiter_error (current_index (with_bf s1 b)) e) end)
        | (b, Ok _) => retry_loop fuel f eager (create_new_jiter (with_bf s1 b))
        end = Done (s', Err e) ->
          valid s' /\ rcap s' = rcap s /\ (rquiet s = true -> rquiet s' = true) /\ left s' <= len (stream (bf s))).
  { intros X.
    assert (Hstay : forall b, cut (bf s1) 0 [] b -> (quiet (bf s1) = true -> quiet b = true) -> n_bytes b = n_bytes (bf s1) ->
      valid (with_bf s1 b) /\ rcap (with_bf s1 b) = rcap s /\ (rquiet s = true -> rquiet (with_bf s1 b) = true) /\ left (with_bf s1 b) <= len (stream (bf s))).
    { intros b C Q N'. pose proof (cut_nil_stream _ _ _ C) as Hs.
      split; [split; [apply (cut_wf _ _ _ _ C)|cbn [with_bf bf jidx jlen s1] in *; lia]|]. unfold rcap, rquiet, left, rest in *. cbn [with_bf bf jidx] in *.
      split; [apply (cut_cap _ _ _ _ C)|]. split; [exact Q|]. rewrite Hs. exact L1. }
    destruct (read_more (bf s1)) as [b [[|n]|er]] eqn:Er.
    - destruct (read_more_spec _ _ _ (proj1 V1) Er) as (C & Sh & Q & N' & Ls & _). injection X as <- _. apply Hstay; auto; lia.
    - destruct (read_more_spec _ _ _ (proj1 V1) Er) as (C & Sh & Q & N' & Ls & _). pose proof (cut_nil_stream _ _ _ C) as Hs.
      apply IH in X.
      + unfold rcap, rquiet in *. cbn [create_new_jiter with_bf bf s1] in *. destruct X as (X1 & X2 & X3 & X4).
        split; [exact X1|]. split; [rewrite X2; apply (cut_cap _ _ _ _ C)|]. split; [auto|]. rewrite Hs in X4. exact X4.
      + split; [apply (cut_wf _ _ _ _ C)|]. cbn [create_new_jiter with_bf bf jlen jidx]. split; [reflexivity|lia].
    - destruct (read_more_spec _ _ _ (proj1 V1) Er) as (C & Sh & Q & _ & N' & _). injection X as <- _. apply Hstay; auto. }
  destruct r1 as [v|er] eqn:Er1.
  - destruct (really_ok eager s1); [discriminate|]. apply Hmore. exact E.
  - destruct (can_retry (fst er)); [apply Hmore; exact E|]. injection E as <- _.
    split; [exact V1|]. split; [reflexivity|]. split; [auto|exact L1].
Qed.

(** The parser is at a byte that is no white space. *)
Definition poised (s : rj) : Prop := match jview s with x :: _ => is_ascii_whitespace x = false | [] => False end.
Lemma skip_spaces_none b x l : firstn (n_bytes b) (buf b) = x :: l -> is_ascii_whitespace x = false -> skip_spaces b 0 = Done (b, Ok tt).
Proof.
  intros E Hx. unfold skip_spaces, skip_fuel. cbn [skip_spaces_loop]. unfold collect_while, fuel_for. cbn [collect_while_loop]. rewrite E. cbn [skipn run_length].
  rewrite Hx. destruct (Nat.ltb_spec (0 + 0) (n_bytes b)) as [H|H]; [reflexivity|]. destruct (n_bytes b); [discriminate|lia].
Qed.
Lemma feeding_poised s a : valid s -> poised s -> exists s2, skip_spaces_feeding (mkRj (bf s) (jlen s) (jidx s + a)) (jidx s) None = Done (s2, Ok tt).
Proof.
  intros V H. pose proof V as (W & J & I'). unfold poised in H. destruct (jview s) as [|x l] eqn:Ev; [destruct H|].
  unfold skip_spaces_feeding. cbn [bf].
  set (b1 := if 0 <? jidx s then shift_buffer (bf s) 0 (jidx s) else bf s).
  assert (E1 : firstn (n_bytes b1) (buf b1) = x :: l).
  { unfold b1. destruct (Nat.ltb_spec 0 (jidx s)) as [Hj|Hj].
    - destruct (shift_front (bf s) (jidx s) W I') as (C & N' & L & R & S'). unfold stream at 1 in S'. rewrite R in S'.
      change (skipn (jidx s) (stream (bf s))) with (rest s) in S'. rewrite (jview_split s V), Ev in S'. apply app_inv_tail in S'. exact S'.
    - rewrite <- Ev. unfold jview. replace (jidx s) with 0 by lia. rewrite J. reflexivity. }
  rewrite (skip_spaces_none b1 x l E1 H). eauto.
Qed.

Lemma loop_failed {A} k known token (f : jop A) op s s' e :
  method k known token f op -> reined f -> valid s -> 2 <= rcap s -> op s = Done (s', Err e) ->
  (is_io e = true /\ rquiet s = false /\ (token = None -> ~ poised s)) \/
  (valid s' /\ rcap s' = rcap s /\ (rquiet s = true -> rquiet s' = true) /\ left s' <= left s).
Proof.
  intros M Hr V Hc E. apply method_facts in M as M'. destruct M' as [-> Hw Hb He Hl Hbl Hd].
  unfold loop_until_success, jcall in E. pose proof V as (W & J & I'). pose proof (jview_length s V) as Hvl.
  destruct (f (jview s)) as [r a] eqn:Ef.
  assert (Ha : a <= len (jview s)) by (destruct r as [v|[er o]]; [eapply Hb; eauto|eapply Hr; eauto]).
  set (s1 := mkRj (bf s) (jlen s) (jidx s + a)) in *.
  assert (Hagain : match skip_spaces_feeding s1 (jidx s) token with
    | Done (s2, Ok tt) => retry_loop (fuel_for (bf s2)) f (eager_of k) s2
    | Done (s2, Err e) => Done (s2, Err e)
    | Panic => Panic
    | Diverge => Diverge
    end = Done (s', Err e) -> (is_io e = true /\ rquiet s = false /\ (token = None -> ~ poised s)) \/
      (valid s' /\ rcap s' = rcap s /\ (rquiet s = true -> rquiet s' = true) /\ left s' <= left s)).
  { intros X. destruct (feeding_spec s1 (jidx s) token W I' Hc) as (s2 & r2 & E2 & P2). rewrite E2 in X.
    destruct r2 as [[]|e2].
    2:{ destruct P2 as [P1 P2]. injection X as _ <-. left. split; [exact P2|]. split; [exact P1|]. intros -> Hse.
        destruct (feeding_poised s a V Hse) as (s3 & E3). unfold s1 in E2. rewrite E3 in E2. discriminate. }
    destruct P2 as (W2 & C2 & Q2 & T2 & S2 & P2). change (stream (bf s1)) with (stream (bf s)) in *. fold (rest s) in S2.
    change (rquiet s1) with (rquiet s) in *. change (rcap s1) with (rcap s) in *.
    assert (V2 : valid s2).
    { split; [exact W2|]. destruct P2 as [[P2 P3]|(P2 & P3 & P4 & P5 & P6)].
      - split; [exact P2|lia].
      - rewrite P4, P5, P6. cbn [s1 jlen bf jidx] in *. split; [exact J|]. rewrite Hvl in Ha. lia. }
    apply (retry_failed f (eager_of k) Hb Hr) in X; [|exact V2]. destruct X as (X1 & X2 & X3 & X4). right.
    split; [exact X1|]. split; [congruence|]. split; [auto|].
    rewrite S2 in X4. pose proof (strip_le token (rest s)). unfold left in *. lia. }
  destruct r as [v|[er o]].
  - destruct (really_ok (eager_of k) s1); [discriminate|]. apply Hagain. exact E.
  - apply Hagain. exact E.
Qed.
(** After a successful [peek] the parser is at the byte peeked at. *)
Lemma retry_view {A} (f : jop A) : forall fuel s s' v, retry_loop fuel f false s = Done (s', Ok v) -> exists l a, f l = (Ok v, a) /\ jview s' = skipn a l.
Proof.
  induction fuel as [|fuel IH]; intros s s' v E; [discriminate|]. cbn [retry_loop] in E. unfold jcall in E.
  destruct (f (jview s)) as [[v1|[er o]] a] eqn:Ef.
  - cbn [really_ok negb orb] in E. injection E as <- <-. exists (jview s), a. split; [exact Ef|]. unfold jview. cbn [bf jlen jidx]. rewrite skipn_skipn. f_equal; lia.
  - cbn [fst] in E. destruct (can_retry er); [|discriminate].
    match type of E with match ?x with _ => _ end = _ => destruct x as [b [[|n]|e]] end; [discriminate|eauto|discriminate].
Qed.
Lemma peek_view s s' x : peek s = Done (s', Ok x) -> exists l, jview s' = x :: l.
Proof.
  intros E.
  assert (H : exists l a, j_peek l = (Ok x, a) /\ jview s' = skipn a l).
  { unfold peek, loop_until_success, jcall in E. destruct (j_peek (jview s)) as [[v1|[er o]] a] eqn:Ef.
    - cbn [really_ok negb orb] in E. injection E as <- <-. exists (jview s), a. split; [exact Ef|]. unfold jview. cbn [bf jlen jidx]. rewrite skipn_skipn. f_equal; lia.
    - destruct (skip_spaces_feeding _ _ _) as [[s2 [[]|e]]| |]; try discriminate. eapply retry_view; eauto. }
  destruct H as (l & a & Hf & ->). clear E. unfold j_peek, after_ws in Hf.
  set (n := run_length json_ws l) in *. exists (tl (skipn n l)).
  unfold jat in Hf. destruct (skipn n l) as [|y m] eqn:En; cbn in Hf; [discriminate|]. injection Hf as <- <-.
  cbn [tl]. rewrite <- En. f_equal; lia.
Qed.
Lemma peek_reined : reined j_peek.
Proof.
  apply after_ws_reined. intros l e a. destruct l as [|x l]; [|discriminate]. unfold jfail. intros E. injection E as _ <-. lia.
Qed.

Lemma long_seated parser segment : bounded parser -> inert parser -> (forall l v a, parser l = (Ok v, a) -> 1 <= a) ->
  forall fuel s w s' w' r, wfail w = None -> valid s -> rquiet s = true -> handle_long fuel parser segment s w = Done (s', w', r) ->
  seated s' /\ rcap s' = rcap s /\ rquiet s' = true /\ left s' <= left s.
Proof.
  intros Hbo Hin Hone. induction fuel as [|fuel IH]; intros s w s' w' r Hw V Hq E; [discriminate|].
  cbn [handle_long] in E. unfold jcall in E. pose proof (jview_length s V) as Hvl. pose proof V as (W & J & I').
  destruct (parser (jview s)) as [[v|[er off]] a] eqn:Ep.
  { destruct (write_all_open w v Hw) as (w1 & Ew1 & _ & _). rewrite Ew1 in E. injection E as <- _ _. pose proof (Hbo _ _ _ Ep) as Ha. unfold seated, left, rest, rcap, rquiet. cbn [bf jidx].
    split; [split; [exact W|lia]|]. split; [reflexivity|]. split; [exact Hq|]. rewrite !skipn_length. lia. }
  apply Hin in Ep as Ha. subst a. replace (jidx s + 0) with (jidx s) in E by lia. cbn [fst] in E.
  destruct (can_retry er).
  2:{ injection E as <- _ _. split; [apply valid_seated, V|]. split; [reflexivity|]. split; [exact Hq|]. apply le_n. }
  set (s1 := mkRj (bf s) (jlen s) (jidx s)) in E.
  set (s2 := if 0 <? jidx s1 then create_new_jiter (with_bf s1 (shift_buffer (bf s1) 0 (jidx s1))) else s1) in E.
  assert (H2 : valid s2 /\ rest s2 = rest s /\ jidx s2 = 0 /\ rcap s2 = rcap s /\ rd (bf s2) = rd (bf s)).
  { unfold s2. cbn [s1 jidx bf]. destruct (Nat.ltb_spec 0 (jidx s)) as [Hj|Hj].
    - destruct (shift_front (bf s) (jidx s) W I') as (C & N' & L & R & S').
      cbn [with_bf create_new_jiter bf jlen jidx]. unfold valid, rest, rcap. cbn [with_bf create_new_jiter bf jlen jidx].
      split; [split; [apply (cut_wf _ _ _ _ C)|split; [reflexivity|lia]]|].
      split; [cbn [skipn]; exact S'|]. split; [reflexivity|]. split; [apply (cut_cap _ _ _ _ C)|exact R].
    - assert (jidx s = 0) by lia. subst s1. destruct s as [b jl ji]. cbn [jidx bf jlen] in *. subst ji.
      split; [split; [exact W|split; [exact J|exact I']]|]. repeat split; auto. }
  clearbody s2. clear s1. destruct H2 as (V2 & R2 & J2 & C2 & D2).
  assert (Hstream : stream (bf s2) = rest s) by (rewrite <- R2; unfold rest; rewrite J2; reflexivity).
  assert (Q2 : rquiet s2 = true) by (unfold rquiet; rewrite (quiet_rd (bf s)) by exact D2; exact Hq).
  assert (Hread : forall s3 w3, wf (bf s3) -> rcap s3 = rcap s -> rquiet s3 = true -> jidx s3 = 0 -> wfail w3 = None ->
    len (stream (bf s3)) <= left s ->
    match read_more (bf s3) with
      | (b, Err e) => Done (with_bf s3 b, w3, Err e)
      | (b, Ok 0) => Done (with_bf s3 b, w3, Err (from_jiter_error (current_index (with_bf s3 b)) (er, jidx s + off)))
      | (b, Ok _) => handle_long fuel parser segment (create_new_jiter (with_bf s3 b)) w3
      end = Done (s', w', r) -> seated s' /\ rcap s' = rcap s /\ rquiet s' = true /\ left s' <= left s).
  { intros s3 w3 W3 C3 Q3 J3 Hw3 Hl X.
    destruct (read_more (bf s3)) as [b [[|k]|e]] eqn:Er; destruct (read_more_spec _ _ _ W3 Er) as (C & Sh & Q & N' & Ls).
    - pose proof (cut_nil_stream _ _ _ C) as Hs. injection X as <- _ _. unfold seated, rcap, rquiet, left, rest in *. cbn [with_bf bf jidx] in *.
      split; [split; [apply (cut_wf _ _ _ _ C)|lia]|]. split; [rewrite (cut_cap _ _ _ _ C); exact C3|]. split; [apply Q, Q3|].
      rewrite Hs, J3. exact Hl.
    - pose proof (cut_nil_stream _ _ _ C) as Hs. apply IH in X; [|exact Hw3| |unfold rquiet; cbn [create_new_jiter with_bf bf]; apply Q, Q3].
      2:{ split; [apply (cut_wf _ _ _ _ C)|]. cbn [create_new_jiter with_bf bf jlen jidx]. split; [reflexivity|lia]. }
      destruct X as (X1 & X2 & X3 & X4). unfold rcap, left, rest in *. cbn [create_new_jiter with_bf bf jidx skipn] in *.
      split; [exact X1|]. split; [rewrite X2, (cut_cap _ _ _ _ C); exact C3|]. split; [exact X3|]. rewrite Hs in X4. lia.
    - destruct Ls as (_ & _ & _ & Ls). unfold rquiet in Q3. congruence. }
  destruct (raw_segment_bound (bf s2)) as [Hb1 Hb2]; [apply V2|].
  destruct (find_leading (buf (bf s2)) (raw_segment_end (bf s2))) as [seg|] eqn:Eg; [|discriminate].
  destruct (Nat.ltb_spec 1 seg) as [He1|He1].
  2:{ apply Hread in E; auto; [apply V2|]. rewrite Hstream. apply le_n. }
  destruct (segment (buf (bf s2)) seg) as [x|er2].
  2:{ injection E as <- _ _. split; [apply valid_seated, V2|]. split; [exact C2|]. split; [exact Q2|]. unfold left. rewrite R2. apply le_n. }
  destruct (write_all_open w x Hw) as (w1 & Ew1 & Hw1 & _). rewrite Ew1 in E.
  destruct (shift_spec (bf s2) 1 seg (proj1 V2)) as (C & N' & Ld & Rd').
  apply Hread in E; auto; cbn [with_bf bf].
  - apply (cut_wf _ _ _ _ C).
  - rewrite <- C2. unfold rcap. cbn [with_bf bf]. apply (cut_cap _ _ _ _ C).
  - unfold rquiet. cbn [with_bf bf]. rewrite (quiet_rd (bf s2)) by exact Rd'. exact Q2.
  - rewrite stream_length by apply (cut_wf _ _ _ _ C). rewrite Rd', N'. unfold left. rewrite <- Hstream, (stream_length (bf s2)) by apply V2. lia.
Qed.

(** The slice of the parser does not matter to the lookahead and the skipping. *)
Definition renewed (s : rj) : rj := mkRj (bf s) (n_bytes (bf s)) (jidx s).
Lemma seated_renewed s : seated s -> valid (renewed s).
Proof. intros (W & H). split; [exact W|]. split; [reflexivity|exact H]. Qed.
Lemma lookahead_n_renewed n s : seated s ->
  exists s' r, lookahead_n n s = Done (s', r) /\
    match r with
    | Ok d => d = firstn n (rest s) /\ seated s' /\ rest s' = rest s /\ rcap s' = rcap s /\ (rquiet s = true -> rquiet s' = true)
    | Err _ => rquiet s = true -> rcap s' = rcap s /\ rquiet s' = true /\ seated s' /\ left s' = left s
    end.
Proof.
  intros S. pose proof S as (W & HI).
  destruct (collect_count_spec (bf s) n (jidx s) true W HI) as (b' & r & E & drop & cs & C & Q & Hn & Hsh & P).
  destruct r as [[x e]|er].
  - destruct (lookahead_n_spec n (renewed s) (seated_renewed s S)) as (s2 & r2 & E2 & P2).
    unfold lookahead_n, lookahead in *. cbn [renewed bf jidx] in E2. rewrite E in E2 |- *.
    set (X := if is_changed (bf s) b' then
      if (n_shifted_out (bf s) =? n_shifted_out b') && (0 <? jidx s)
      then (create_new_jiter (with_bf s (shift_buffer b' 0 (jidx s))), 0, e - jidx s)
      else (create_new_jiter (with_bf s b'), x, e) else (with_bf s b', x, e)).
    set (Y := if is_changed (bf s) b' then
      if (n_shifted_out (bf s) =? n_shifted_out b') && (0 <? jidx s)
      then (create_new_jiter (with_bf (renewed s) (shift_buffer b' 0 (jidx s))), 0, e - jidx s)
      else (create_new_jiter (with_bf (renewed s) b'), x, e) else (with_bf (renewed s) b', x, e)) in E2.
    assert (HXY : snd X = snd Y /\ snd (fst X) = snd (fst Y) /\ bf (fst (fst X)) = bf (fst (fst Y)) /\ jidx (fst (fst X)) = jidx (fst (fst Y))).
    { unfold X, Y. destruct (is_changed (bf s) b'); [destruct ((n_shifted_out (bf s) =? n_shifted_out b') && (0 <? jidx s))|]; repeat split. }
    clearbody X Y. destruct X as [[sx ax] ex], Y as [[sy ay] ey]. cbn [fst snd] in HXY. destruct HXY as (-> & -> & Hb & Hi).
    rewrite Hb. destruct (slice (buf (bf sy)) ay ey) as [d|]; [|discriminate]. injection E2 as <- <-.
    destruct P2 as (-> & V2 & R2 & _ & C2 & Q2). do 2 eexists. split; [reflexivity|]. split; [reflexivity|].
    unfold seated, rest, rcap, rquiet in *. rewrite Hb, Hi. split; [split; [apply V2|apply V2]|]. auto.
  - unfold lookahead_n, lookahead. rewrite E. do 2 eexists. split; [reflexivity|]. intros Hq. unfold rquiet in Hq.
    unfold rcap, rquiet, seated, left, rest. cbn [with_bf bf jidx]. destruct (err_type er); try contradiction; [congruence|].
    destruct P as (-> & _ & _). cbn [List.length] in Hn. split; [apply (cut_cap _ _ _ _ C)|]. split; [apply Q, Hq|].
    split; [split; [apply (cut_wf _ _ _ _ C)|lia]|]. rewrite (cut_nil_stream _ _ _ C). reflexivity.
Qed.
Lemma skip_token_seated t s : seated s -> 2 <= rcap s -> rquiet s = true ->
  exists s' r, known_skip_token t s = Done (s', r) /\ rcap s' = rcap s /\ rquiet s' = true /\
    match r with
    | Ok _ => valid s' /\ left s' + len t = left s
    | Err _ => seated s' /\ left s' = left s
    end.
Proof.
  intros S Hc Hq. pose proof S as (W & HI). unfold known_skip_token.
  destruct (lookahead_n_renewed (len t) s S) as (s1 & r1 & E1 & P1). rewrite E1.
  destruct r1 as [d|er].
  2:{ do 2 eexists. split; [reflexivity|]. destruct (P1 Hq) as (P2 & P3 & P4 & P5). auto. }
  destruct P1 as (-> & S1 & R1 & C1 & Q1). specialize (Q1 Hq).
  destruct (beq (firstn (len t) (rest s)) t) eqn:Eb.
  2:{ do 2 eexists. split; [reflexivity|]. unfold left. rewrite R1. auto. }
  apply beq_eq in Eb.
  assert (Hlt : len t <= len (rest s)) by (rewrite <- Eb at 1; rewrite firstn_length; lia).
  assert (Es : skip_n_bytes (len t) s1 = skip_n_bytes (len t) (renewed s1)).
  { unfold skip_n_bytes. cbn [renewed bf jidx].
    destruct (skip_n (bf s1) (len t) (jidx s1)) as [[b [[p k]|er]]| |] eqn:E; try reflexivity.
    exfalso. destruct (skip_n_spec (bf s1) (len t) (jidx s1)) as (b2 & r2 & E2 & drop & _ & _ & P); [unfold rcap in *; lia|apply S1|apply S1|].
    rewrite E in E2. injection E2 as <- <-. destruct P as (_ & P). destruct (err_type er); try contradiction. unfold rquiet in Q1. congruence. }
  rewrite Es.
  destruct (skip_n_bytes_spec (len t) (renewed s1) (seated_renewed _ S1)) as (s2 & r2 & E2 & P2); [change (0 < rcap s1); lia|].
  rewrite E2. change (rest (renewed s1)) with (rest s1) in P2. change (rquiet (renewed s1)) with (rquiet s1) in P2.
  change (rcap (renewed s1)) with (rcap s1) in P2.
  destruct r2 as [k|er]; [|destruct P2; congruence]. destruct P2 as (_ & R2 & V2 & _ & C2 & Q2).
  do 2 eexists. split; [reflexivity|]. split; [congruence|]. split; [apply Q2; exact Q1|]. split; [exact V2|].
  unfold left. rewrite R2, R1, skipn_length. lia.
Qed.

Lemma long_progress parser segment : bounded parser -> inert parser -> (forall l v a, parser l = (Ok v, a) -> 1 <= a) ->
  forall fuel s w s' w' u, valid s -> handle_long fuel parser segment s w = Done (s', w', Ok u) ->
  valid s' /\ rcap s' = rcap s /\ left s' < left s.
Proof.
  intros Hbo Hin Hone. induction fuel as [|fuel IH]; intros s w s' w' r V E; [discriminate|].
  cbn [handle_long] in E. unfold jcall in E. pose proof (jview_length s V) as Hvl. pose proof V as (W & J & I').
  destruct (parser (jview s)) as [[v|[er off]] a] eqn:Ep.
  { destruct (write_all w v) as [w2 [u|e]]; [|discriminate]. injection E as <- _ _.
    pose proof (Hbo _ _ _ Ep) as Ha. pose proof (Hone _ _ _ Ep) as Ha1. unfold valid, left, rest, rcap. cbn [bf jlen jidx].
    split; [split; [exact W|split; [exact J|lia]]|]. split; [reflexivity|]. rewrite !skipn_length, stream_length by exact W. lia. }
  apply Hin in Ep as Ha. subst a. replace (jidx s + 0) with (jidx s) in E by lia. cbn [fst] in E.
  destruct (can_retry er); [|discriminate].
  set (s1 := mkRj (bf s) (jlen s) (jidx s)) in E.
  set (s2 := if 0 <? jidx s1 then create_new_jiter (with_bf s1 (shift_buffer (bf s1) 0 (jidx s1))) else s1) in E.
  assert (H2 : valid s2 /\ rest s2 = rest s /\ jidx s2 = 0 /\ rcap s2 = rcap s).
  { unfold s2. cbn [s1 jidx bf]. destruct (Nat.ltb_spec 0 (jidx s)) as [Hj|Hj].
    - destruct (shift_front (bf s) (jidx s) W I') as (C & N' & L & R & S').
      cbn [with_bf create_new_jiter bf jlen jidx]. unfold valid, rest, rcap. cbn [with_bf create_new_jiter bf jlen jidx].
      split; [split; [apply (cut_wf _ _ _ _ C)|split; [reflexivity|lia]]|].
      split; [cbn [skipn]; exact S'|]. split; [reflexivity|]. apply (cut_cap _ _ _ _ C).
    - assert (jidx s = 0) by lia. subst s1. destruct s as [b jl ji]. cbn [jidx bf jlen] in *. subst ji.
      split; [split; [exact W|split; [exact J|exact I']]|]. repeat split; auto. }
  clearbody s2. clear s1. destruct H2 as (V2 & R2 & J2 & C2).
  assert (Hstream : stream (bf s2) = rest s) by (rewrite <- R2; unfold rest; rewrite J2; reflexivity).
  assert (Hread : forall s3 w3, wf (bf s3) -> rcap s3 = rcap s -> len (stream (bf s3)) <= left s ->
    match read_more (bf s3) with
      | (b, Err e) => Done (with_bf s3 b, w3, Err e)
      | (b, Ok 0) => Done (with_bf s3 b, w3, Err (from_jiter_error (current_index (with_bf s3 b)) (er, jidx s + off)))
      | (b, Ok _) => handle_long fuel parser segment (create_new_jiter (with_bf s3 b)) w3
      end = Done (s', w', Ok r) -> valid s' /\ rcap s' = rcap s /\ left s' < left s).
  { intros s3 w3 W3 C3 Hl X.
    destruct (read_more (bf s3)) as [b [[|k]|e]] eqn:Er; [discriminate| |discriminate]. destruct (read_more_spec _ _ _ W3 Er) as (C & Sh & Q & N' & Ls).
    pose proof (cut_nil_stream _ _ _ C) as Hs. apply IH in X.
    2:{ split; [apply (cut_wf _ _ _ _ C)|]. cbn [create_new_jiter with_bf bf jlen jidx]. split; [reflexivity|lia]. }
    destruct X as (X1 & X2 & X3). unfold rcap, left, rest in *. cbn [create_new_jiter with_bf bf jidx skipn] in *.
    split; [exact X1|]. split; [rewrite X2, (cut_cap _ _ _ _ C); exact C3|]. rewrite Hs in X3. lia. }
  destruct (find_leading (buf (bf s2)) (raw_segment_end (bf s2))) as [seg|] eqn:Eg; [|discriminate].
  destruct (Nat.ltb_spec 1 seg) as [He1|He1].
  2:{ apply Hread in E; auto; [apply V2|]. rewrite Hstream. apply le_n. }
  destruct (segment (buf (bf s2)) seg) as [x|er2]; [|discriminate].
  destruct (write_all w x) as [w2 [u|e]]; [|discriminate].
  destruct (shift_spec (bf s2) 1 seg (proj1 V2)) as (C & N' & Ld & Rd').
  apply Hread in E; auto; cbn [with_bf bf].
  - apply (cut_wf _ _ _ _ C).
  - rewrite <- C2. unfold rcap. cbn [with_bf bf]. apply (cut_cap _ _ _ _ C).
  - rewrite stream_length by apply (cut_wf _ _ _ _ C). rewrite Rd', N'. unfold left. rewrite <- Hstream, (stream_length (bf s2)) by apply V2. lia.
Qed.

(** ** The calls of the scanner, in one form *)
(** Between the calls: a parser in order with a buffer of [c] cells; [q] if the reader does not fail. *)
Definition ready (c : nat) (q : bool) (s : rj) : Prop := valid s /\ rcap s = c /\ (q = true -> rquiet s = true).
(** After a failed call of one of the methods used for skipping a basic value. *)
Definition adrift (c : nat) (s : rj) : Prop := seated s /\ rcap s = c /\ rquiet s = true.

Lemma method_ready {A} c q k known token (f : jop A) op s : method k known token f op -> 2 <= c -> ready c q s ->
  exists s' r, op s = Done (s', r) /\
    match r with Ok _ => ready c q s' /\ left s' <= left s /\ (advancing f -> left s' < left s) | Err _ => True end.
Proof.
  intros M Hc (V & C & Q). destruct (methods_end k known token f op s M V ltac:(lia)) as (s' & r & E). exists s', r. split; [exact E|].
  destruct r as [v|e]; [|exact I]. destruct (loop_progress k known token f op s s' v M V ltac:(lia) E) as (V' & C' & Q' & L & L').
  split; [|split; assumption]. split; [exact V'|]. split; [congruence|]. auto.
Qed.
Lemma finish_ready c q s : 2 <= c -> ready c q s -> exists s' r, finish s = Done (s', r).
Proof. intros Hc (V & C & Q). destruct (finish_spec s V ltac:(lia)) as (s' & r & E & _). eauto. Qed.
Lemma long_ready c q s w : 8 <= c -> ready c q s ->
  exists s' w' r, write_long_bytes s w = Done (s', w', r) /\ match r with Ok _ => ready c q s' /\ left s' < left s | Err _ => True end.
Proof.
  intros Hc (V & C & Q). destruct (proj1 (write_long_any s w V)) as [[H _]|(s' & w' & r & E & _)]; [lia|].
  exists s', w', r. split; [exact E|]. destruct r as [u|e]; [|exact I].
  destruct (long_progress j_known_bytes bytes_segment known_bytes_bounded known_bytes_inert known_bytes_one _ _ _ _ _ _ V E) as (V' & C' & L').
  split; [|exact L']. split; [exact V'|]. split; [congruence|]. intros Hq.
  unfold rquiet. refine (closed_long (fun b => quiet b = true) closed_quiet _ _ _ _ _ _ _ _ E _). apply Q, Hq.
Qed.
Lemma method_failed {A} c q k known token (f : jop A) op s s' e : method k known token f op -> reined f -> 2 <= c -> ready c q s ->
  op s = Done (s', Err e) -> q = true \/ is_io e = false \/ (token = None /\ poised s) -> ready c q s' /\ left s' <= left s.
Proof.
  intros M Hr Hc (V & C & Q) E Hq. destruct (loop_failed k known token f op s s' e M Hr V ltac:(lia) E) as [(H1 & H2 & H5)|(H1 & H2 & H3 & H4)].
  - exfalso. destruct Hq as [Hq|[Hq|(Hq & Hs)]]; [rewrite (Q Hq) in H2; congruence|congruence|exact (H5 Hq Hs)].
  - split; [|exact H4]. split; [exact H1|]. split; [congruence|]. auto.
Qed.
Lemma ready_adrift c s : ready c true s -> adrift c s.
Proof. intros (V & C & Q). split; [apply valid_seated, V|]. split; [exact C|apply Q; reflexivity]. Qed.
Lemma long_adrift c s s' w' r : ready c true s -> write_long_bytes s (mkWriter [] None) = Done (s', w', r) -> adrift c s' /\ left s' <= left s.
Proof.
  intros (V & C & Q) E.
  destruct (long_seated j_known_bytes bytes_segment known_bytes_bounded known_bytes_inert known_bytes_one _ _ _ _ _ _ (eq_refl : wfail (mkWriter [] None) = None) V (Q eq_refl) E) as (H1 & H2 & H3 & H4).
  split; [|exact H4]. split; [exact H1|]. split; [congruence|exact H3].
Qed.
Lemma token_adrift c t s : 2 <= c -> adrift c s ->
  exists s' r, known_skip_token t s = Done (s', r) /\
    match r with Ok _ => ready c true s' /\ left s' + len t = left s | Err _ => adrift c s' /\ left s' = left s end.
Proof.
  intros Hc (S & C & Q). destruct (skip_token_seated t s S ltac:(lia) Q) as (s' & r & E & C' & Q' & P). exists s', r. split; [exact E|].
  destruct r as [u|e]; destruct P as (P & L); (split; [|exact L]).
  - split; [exact P|]. split; [congruence|]. intros _. exact Q'.
  - split; [exact P|]. split; [congruence|]. exact Q'.
Qed.
