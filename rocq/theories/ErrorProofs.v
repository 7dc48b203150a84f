(** Proofs about the index of reported errors. *)
From Verif Require Import Base Buffer BufferSpec BufferProofs Jiter JiterProofs JiterValue RJiter RJiterSpec ReadsSpec RJiterProofs RJiterOpProofs
  RJiterLookProofs RJiterIndexProofs RJiterInvProofs RJiterWitness ScanParser ErrorSpec.

(** ** Errors of the buffer *)
Definition broke (b b' : buffer) (e : rerror) : Prop :=
  (exists k, e = mkErr (IoError k) (n_bytes b') /\ quiet b = false) \/ e = mkErr BufferFull (n_shifted_out b').
Lemma broke_back b b1 b' e : (quiet b = true -> quiet b1 = true) -> broke b1 b' e -> broke b b' e.
Proof.
  intros H [(k & E & Q)|E]; [left|right; exact E]. exists k. split; [exact E|]. destruct (quiet b); [rewrite H in Q by reflexivity; discriminate|reflexivity].
Qed.
Lemma broke_read b b' e : read_more b = (b', Err e) -> broke b b' e.
Proof.
  intros E. left. destruct (quiet b) eqn:Q; [destruct (read_more_quiet _ _ _ E Q) as (_ & n & H); discriminate|].
  unfold read_more in E. destruct (reader_read (rd b) (len (buf b) - n_bytes b)) as [[d|k] r]; injection E as <- H; [discriminate|].
  exists k. split; [symmetry; exact H|reflexivity].
Qed.
Lemma quiet_shift b t f : quiet b = true -> quiet (shift_buffer b t f) = true.
Proof. apply closed_quiet. Qed.
Lemma quiet_read b b' r : read_more b = (b', r) -> quiet b = true -> quiet b' = true.
Proof. intros E H. apply (read_more_quiet _ _ _ E H). Qed.

Lemma collect_while_broke fuel : forall b pred p a i c sh b' e, collect_while_loop fuel b pred p a i c sh = Done (b', Err e) -> broke b b' e.
Proof.
  induction fuel as [|fuel IH]; intros b pred p a i c sh b' e E; [discriminate|]. cbn [collect_while_loop] in E. cbv zeta in E.
  destruct (_ <? n_bytes b) in E; [discriminate|].
  assert (Hgo : forall b1 j1 c1 s1, (quiet b = true -> quiet b1 = true) ->
    match read_more b1 with
    | (b', Err e) => Done (b', Err e)
    | (b', Ok 0) => Done (b', Ok (c1, n_bytes b'))
    | (b', Ok (S _)) => collect_while_loop fuel b' pred p a j1 c1 s1
    end = Done (b', Err e) -> broke b b' e).
  { intros b1 j1 c1 s1 H1 E1. apply (broke_back b b1 b' e H1). destruct (read_more b1) as [b2 [[|k]|er]] eqn:E2; [discriminate| |].
    - apply IH in E1. eapply broke_back; [|exact E1]. apply (quiet_read _ _ _ E2).
    - injection E1 as <- <-. apply broke_read. exact E2. }
  destruct (len (buf b) <=? n_bytes b).
  - destruct (negb a || sh || (p =? 0)); [injection E as <- <-; right; reflexivity|].
    eapply Hgo; [|exact E]. apply quiet_shift.
  - eapply Hgo; [|exact E]. auto.
Qed.
Lemma skip_spaces_broke fuel : forall b p b' e, skip_spaces_loop fuel b p = Done (b', Err e) -> broke b b' e.
Proof.
  induction fuel as [|fuel IH]; intros b p b' e E; [discriminate|]. cbn [skip_spaces_loop] in E.
  destruct (collect_while b is_ascii_whitespace p false) as [[b1 [[x en]|e1]]| |] eqn:E1; try discriminate.
  pose proof (closed_collect_while _ closed_quiet _ _ _ _ _ _ _ _ _ _ E1) as Hq. apply collect_while_broke in E1.
  destruct (err_type e1); try (injection E as <- <-; exact E1). apply IH in E. eapply broke_back; [|exact E]. intros H. apply quiet_shift, Hq, H.
Qed.
Lemma collect_count_broke fuel : forall b n a t c sh b' e, collect_count_loop fuel b n a t c sh = Done (b', Err e) -> broke b b' e.
Proof.
  induction fuel as [|fuel IH]; intros b n a t c sh b' e E; [discriminate|]. cbn [collect_count_loop] in E. cbv zeta in E.
  destruct (t <=? n_bytes b); [discriminate|].
  assert (Hgo : forall b1 t1 c1 s1, (quiet b = true -> quiet b1 = true) ->
    match read_more b1 with
    | (b', Err e) => Done (b', Err e)
    | (b', Ok 0) => Done (b', Ok (c1, n_bytes b'))
    | (b', Ok (S _)) => collect_count_loop fuel b' n a t1 c1 s1
    end = Done (b', Err e) -> broke b b' e).
  { intros b1 t1 c1 s1 H1 E1. apply (broke_back b b1 b' e H1). destruct (read_more b1) as [b2 [[|k]|er]] eqn:E2; [discriminate| |].
    - apply IH in E1. eapply broke_back; [|exact E1]. apply (quiet_read _ _ _ E2).
    - injection E1 as <- <-. apply broke_read. exact E2. }
  destruct (len (buf b) <=? n_bytes b).
  - destruct (negb a || sh || (c =? 0)); [injection E as <- <-; right; reflexivity|].
    destruct (len (buf b) <? n); [injection E as <- <-; right; reflexivity|].
    eapply Hgo; [|exact E]. apply quiet_shift.
  - eapply Hgo; [|exact E]. auto.
Qed.
Lemma skip_n_broke fuel : forall b n p t b' e, skip_n_loop fuel b n p t = Done (b', Err e) -> broke b b' e.
Proof.
  induction fuel as [|fuel IH]; intros b n p t b' e E; [discriminate|]. cbn [skip_n_loop] in E. cbv zeta in E.
  destruct (n =? 0); [discriminate|]. destruct (n <=? n_bytes b - p); [discriminate|].
  set (b1 := if n_bytes b =? len (buf b) then _ else _) in E.
  assert (H1 : quiet b = true -> quiet (fst b1) = true) by (unfold b1; destruct (n_bytes b =? len (buf b)); cbn [fst]; auto using quiet_shift).
  destruct b1 as [b1 p1]. cbn [fst] in H1. apply (broke_back b b1 b' e H1). destruct (read_more b1) as [b2 [[|k]|er]] eqn:E2; [discriminate| |].
  - apply IH in E. eapply broke_back; [|exact E]. apply (quiet_read _ _ _ E2).
  - injection E as <- <-. apply broke_read. exact E2.
Qed.
Lemma feeding_broke s p t s' e : skip_spaces_feeding s p t = Done (s', Err e) -> broke (bf s) (bf s') e.
Proof.
  unfold skip_spaces_feeding. intros E.
  set (b1 := if 0 <? p then shift_buffer (bf s) 0 p else bf s) in E.
  assert (H1 : quiet (bf s) = true -> quiet b1 = true) by (unfold b1; destruct (0 <? p); auto using quiet_shift).
  apply (broke_back _ b1 _ _ H1).
  destruct (skip_spaces b1 0) as [[b2 [[]|e2]]| |] eqn:E2; try discriminate; [|injection E as <- <-; apply skip_spaces_broke in E2; exact E2].
  pose proof (closed_skip_spaces _ closed_quiet _ _ _ _ _ E2) as Hq. cbn beta in Hq. apply (broke_back _ b2 _ _ Hq).
  destruct t as [t|]; [|discriminate].
  set (x := if n_bytes b2 =? 0 then read_more b2 else (b2, Ok 0)) in E.
  assert (H3 : quiet b2 = true -> quiet (fst x) = true).
  { unfold x. destruct (n_bytes b2 =? 0); [|auto]. destruct (read_more b2) eqn:E3. apply (quiet_read _ _ _ E3). }
  assert (H4 : forall b3 er, x = (b3, Err er) -> broke b2 b3 er).
  { unfold x. intros b3 er. destruct (n_bytes b2 =? 0); [apply broke_read|discriminate]. }
  destruct x as [b3 [n|er]]; cbn [fst] in H3; [|injection E as <- <-; apply H4; reflexivity].
  apply (broke_back _ b3 _ _ H3). destruct (firstn (n_bytes b3) (buf b3)) as [|y l]; [discriminate|].
  destruct (N.eqb y t); [|discriminate].
  destruct (skip_spaces b3 1) as [[b4 [[]|e4]]| |] eqn:E4; try discriminate. injection E as <- <-. apply skip_spaces_broke in E4. exact E4.
Qed.

(** ** Errors of the parser *)
Definition blamed (s s' : rj) (e : rerror) : Prop :=
  broke (bf s) (bf s') e \/ (exists k, e = mkErr (IoError k) (current_index s')) \/
  (exists o, err_index e = current_index s' + o /\ current_index s <= current_index s').
Lemma closed_dropped m : closed (fun b => m <= n_shifted_out b).
Proof.
  split.
  - intros b t f H. unfold shift_buffer. destruct (if t <? Nat.min f (n_bytes b) then _ else _) as [l c]. destruct ((t <? f) && (t <? n_bytes b)); cbn [n_shifted_out]; lia.
  - intros b H. unfold read_more. destruct (reader_read (rd b) (len (buf b) - n_bytes b)) as [[d|k] r]; exact H.
Qed.
Lemma shift_dropped b p : p <= n_bytes b -> n_shifted_out (shift_buffer b 0 p) = n_shifted_out b + p.
Proof.
  intros H. unfold shift_buffer. destruct (if 0 <? Nat.min p (n_bytes b) then _ else _) as [l c].
  destruct (Nat.ltb_spec 0 p); destruct (Nat.ltb_spec 0 (n_bytes b)); cbn [andb n_shifted_out]; lia.
Qed.
Lemma read_dropped b b' r : read_more b = (b', r) -> n_shifted_out b' = n_shifted_out b.
Proof. unfold read_more. destruct (reader_read (rd b) (len (buf b) - n_bytes b)) as [[d|k] rr]; intros E; injection E as <- _; reflexivity. Qed.
Lemma feeding_dropped s p t s' r : skip_spaces_feeding s p t = Done (s', r) -> p <= n_bytes (bf s) -> n_shifted_out (bf s) + p <= n_shifted_out (bf s').
Proof.
  unfold skip_spaces_feeding. intros E Hp. set (m := n_shifted_out (bf s) + p). pose proof (closed_dropped m) as HC.
  set (b1 := if 0 <? p then shift_buffer (bf s) 0 p else bf s) in E.
  assert (H1 : m <= n_shifted_out b1).
  { unfold b1. destruct (Nat.ltb_spec 0 p) as [H|H]; [rewrite shift_dropped by exact Hp|]; unfold m; lia. }
  destruct (skip_spaces b1 0) as [[b2 [[]|e2]]| |] eqn:E2; try discriminate; apply (closed_skip_spaces _ HC) in E2; auto; [|injection E as <- _; exact E2].
  assert (Hfin : forall b, m <= n_shifted_out b -> m <= n_shifted_out (bf (if is_changed (bf s) b then create_new_jiter (with_bf s b) else with_bf s b))).
  { intros b Hb. destruct (is_changed (bf s) b); exact Hb. }
  destruct t as [t|]; [|injection E as <- _; auto].
  set (x := if n_bytes b2 =? 0 then read_more b2 else (b2, Ok 0)) in E.
  assert (H3 : m <= n_shifted_out (fst x)).
  { unfold x. destruct (n_bytes b2 =? 0); [|exact E2]. destruct (read_more b2) as [b3 r3] eqn:E3. cbn [fst]. rewrite (read_dropped _ _ _ E3). exact E2. }
  destruct x as [b3 [n|e]]; cbn [fst] in H3; [|injection E as <- _; exact H3].
  destruct (firstn (n_bytes b3) (buf b3)) as [|y l]; [injection E as <- _; auto|].
  destruct (N.eqb y t); [|injection E as <- _; auto].
  destruct (skip_spaces b3 1) as [[b4 [[]|e]]| |] eqn:E4; try discriminate; apply (closed_skip_spaces _ HC) in E4; auto; injection E as <- _; auto.
Qed.
Lemma retry_blamed {A} (f : jop A) eager fuel : forall s s' e, retry_loop fuel f eager s = Done (s', Err e) ->
  broke (bf s) (bf s') e \/ (exists o, err_index e = current_index s' + o /\ n_shifted_out (bf s) <= n_shifted_out (bf s')).
Proof.
  induction fuel as [|fuel IH]; intros s s' e E; [discriminate|]. cbn [retry_loop] in E. unfold jcall in E.
  destruct (f (jview s)) as [r0 a]. cbn [bf] in E.
  set (s1 := mkRj (bf s) (jlen s) (jidx s + a)) in E.
  assert (Hgo : forall r1 : jres A, match read_more (bf s) with
    | (b, Err e) => Done (with_bf s1 b, Err e)
    | (b, Ok 0) => let s2 := with_bf s1 b in
        Done (s2, match r1 with Ok v => Ok v | Err e => Err (from_jiter_error (current_index s2) e) end)
    | (b, Ok (S _)) => retry_loop fuel f eager (create_new_jiter (with_bf s1 b))
    end = Done (s', Err e) -> broke (bf s) (bf s') e \/ (exists o, err_index e = current_index s' + o /\ n_shifted_out (bf s) <= n_shifted_out (bf s'))).
  { intros r1 E1. destruct (read_more (bf s)) as [b [[|k]|e1]] eqn:E2; cbn zeta in E1; pose proof (read_dropped _ _ _ E2) as Hd.
    - destruct r1 as [v|er]; [discriminate|]. injection E1 as <- <-. right. exists (snd er). cbn [err_index from_jiter_error with_bf bf]. lia.
    - apply IH in E1. cbn [create_new_jiter with_bf bf] in E1. rewrite Hd in E1. destruct E1 as [E1|E1]; [left|right; exact E1].
      eapply broke_back; [|exact E1]. apply (quiet_read _ _ _ E2).
    - injection E1 as <- <-. left. apply broke_read. exact E2. }
  destruct r0 as [v|[ty o]].
  - destruct (really_ok eager s1); [discriminate|]. exact (Hgo (Ok v) E).
  - destruct (can_retry (fst (ty, jidx s + o))); [exact (Hgo (Err (ty, jidx s + o)) E)|].
    injection E as <- <-. right. exists (jidx s + o). cbn [err_index from_jiter_error snd s1 bf]. lia.
Qed.
Lemma loop_blamed {A} (f : jop A) token eager s s' e : loop_until_success f token eager s = Done (s', Err e) -> jidx s <= n_bytes (bf s) -> blamed s s' e.
Proof.
  unfold loop_until_success, jcall. destruct (f (jview s)) as [r0 a]. intros E Hj.
  set (s1 := mkRj (bf s) (jlen s) (jidx s + a)) in E.
  assert (Hgo : match skip_spaces_feeding s1 (jidx s) token with
    | Done (s2, Ok tt) => retry_loop (fuel_for (bf s2)) f eager s2
    | Done (s2, Err e) => Done (s2, Err e)
    | Panic => Panic
    | Diverge => Diverge
    end = Done (s', Err e) -> blamed s s' e).
  { intros E1. destruct (skip_spaces_feeding s1 (jidx s) token) as [[s2 [[]|e2]]| |] eqn:E2; try discriminate.
    - pose proof (feeding_dropped _ _ _ _ _ E2 Hj) as Hd. pose proof (closed_feeding _ closed_quiet _ _ _ _ _ E2) as Hq. cbn [s1 bf] in Hd, Hq.
      apply retry_blamed in E1. destruct E1 as [E1|(o & E1 & E3)]; [left; eapply broke_back; eauto|].
      right. right. exists o. split; [exact E1|]. unfold current_index in *. lia.
    - injection E1 as <- <-. left. apply feeding_broke in E2. exact E2. }
  destruct r0 as [v|[er o]]; [|apply Hgo, E]. destruct (really_ok eager s1); [discriminate|apply Hgo, E].
Qed.
Lemma blamed_back s s1 s' e : (quiet (bf s) = true -> quiet (bf s1) = true) -> current_index s <= current_index s1 -> blamed s1 s' e -> blamed s s' e.
Proof.
  intros Hq Hc [H|[H|(o & H & H')]]; [left; eapply broke_back; eauto|right; left; exact H|]. right. right. exists o. split; [exact H|lia].
Qed.
Lemma finish_blamed fuel : forall s s' e, finish_loop fuel s = Done (s', Err e) -> jidx s <= n_bytes (bf s) -> blamed s s' e.
Proof.
  induction fuel as [|fuel IH]; intros s s' e E Hj; [discriminate|]. cbn [finish_loop] in E. unfold jcall in E.
  destruct (j_finish (jview s)) as [[v|[ty o]] a]; cbn [bf jidx] in E.
  2:{ injection E as <- <-. right. right. exists (jidx s + o). unfold current_index. cbn [err_index from_jiter_error snd bf jidx]. lia. }
  assert (Hgo : forall b, n_shifted_out b = n_shifted_out (bf s) -> n_bytes (bf s) <= n_bytes b -> (quiet (bf s) = true -> quiet b = true) ->
    finish_loop fuel (create_new_jiter (with_bf (mkRj (bf s) (jlen s) (jidx s + a)) (shift_buffer b 0 (jidx s + a)))) = Done (s', Err e) -> blamed s s' e).
  { intros b Hd Hn Hq E1. apply IH in E1; [|cbn [create_new_jiter jidx]; lia]. eapply blamed_back; [| |exact E1]; cbn [create_new_jiter with_bf bf].
    - intros H. apply quiet_shift, Hq, H.
    - unfold current_index. cbn [create_new_jiter with_bf bf jidx].
      destruct (Nat.le_gt_cases (jidx s + a) (n_bytes b)) as [H|H]; [rewrite shift_dropped by exact H; lia|].
      unfold shift_buffer. destruct (if 0 <? Nat.min (jidx s + a) (n_bytes b) then _ else _) as [l c].
      destruct (Nat.ltb_spec 0 (jidx s + a)); destruct (Nat.ltb_spec 0 (n_bytes b)); cbn [andb n_shifted_out]; lia. }
  destruct (_ <? _) in E; [|apply (Hgo (bf s)); auto].
  destruct (read_more (bf s)) as [b [[|k]|e1]] eqn:E2; [discriminate| |].
  - apply (Hgo b); auto; [apply (read_dropped _ _ _ E2)| |apply (quiet_read _ _ _ E2)].
    unfold read_more in E2. destruct (reader_read (rd (bf s)) (len (buf (bf s)) - n_bytes (bf s))) as [[d|k1] r1]; [|discriminate]. injection E2 as <- _. cbn [n_bytes]. lia.
  - injection E as <- <-. left. apply broke_read. exact E2.
Qed.
Lemma long_blamed parser segment fuel : forall s w s' w' e, handle_long fuel parser segment s w = Done (s', w', Err e) -> jidx s <= n_bytes (bf s) -> blamed s s' e.
Proof.
  induction fuel as [|fuel IH]; intros s w s' w' e E Hj; [discriminate|]. cbn [handle_long] in E. unfold jcall in E.
  destruct (parser (jview s)) as [r0 a]. set (s1 := mkRj (bf s) (jlen s) (jidx s + a)) in E. cbn zeta in E.
  destruct r0 as [v|[ty o]].
  - destruct (write_all w v) as [w1 [u|e1]]; [discriminate|]. injection E as <- _ <-. right. left. eauto.
  - destruct (can_retry (fst (ty, jidx s + o))).
    2:{ injection E as <- _ <-. right. right. exists (jidx s + o). unfold current_index. cbn [err_index from_jiter_error snd bf jidx s1]. lia. }
    set (s2 := if 0 <? jidx s1 then _ else s1) in E.
    assert (H2 : current_index s <= n_shifted_out (bf s2)).
    { unfold s2, current_index. destruct (Nat.ltb_spec 0 (jidx s1)) as [H|H]; cbn [create_new_jiter with_bf bf s1 jidx] in *; [|lia].
      destruct (Nat.le_gt_cases (jidx s + a) (n_bytes (bf s))) as [H'|H']; [rewrite shift_dropped by exact H'; lia|].
      unfold shift_buffer. destruct (if 0 <? Nat.min (jidx s + a) (n_bytes (bf s)) then _ else _) as [l c].
      destruct (Nat.ltb_spec 0 (jidx s + a)); destruct (Nat.ltb_spec 0 (n_bytes (bf s))); cbn [andb n_shifted_out]; lia. }
    assert (Q2 : quiet (bf s) = true -> quiet (bf s2) = true) by (unfold s2; destruct (0 <? jidx s1); [apply quiet_shift|auto]).
    clearbody s2. destruct (find_leading (buf (bf s2)) (raw_segment_end (bf s2))) as [se|]; [|discriminate].
    assert (Hgo : forall s3 w3 (err : jerr), current_index s <= n_shifted_out (bf s3) -> (quiet (bf s) = true -> quiet (bf s3) = true) ->
      match read_more (bf s3) with
      | (b, Err e) => Done (with_bf s3 b, w3, Err e)
      | (b, Ok 0) => let s4 := with_bf s3 b in Done (s4, w3, Err (from_jiter_error (current_index s4) err))
      | (b, Ok (S _)) => handle_long fuel parser segment (create_new_jiter (with_bf s3 b)) w3
      end = Done (s', w', Err e) -> blamed s s' e).
    { intros s3 w3 err H3 Q3 E3. destruct (read_more (bf s3)) as [b [[|k]|e3]] eqn:E4; cbn zeta in E3; pose proof (read_dropped _ _ _ E4) as Hd.
      - injection E3 as <- _ <-. right. right. exists (snd err). cbn [err_index from_jiter_error]. set (c := current_index s) in *. unfold current_index. cbn [with_bf bf jidx]. lia.
      - apply IH in E3; [|cbn [create_new_jiter jidx]; lia]. eapply blamed_back; [| |exact E3]; cbn [create_new_jiter with_bf bf].
        + intros H. apply (quiet_read _ _ _ E4), Q3, H.
        + set (c := current_index s) in *. unfold current_index. cbn [create_new_jiter with_bf bf jidx]. lia.
      - injection E3 as <- _ <-. left. cbn [with_bf bf]. eapply broke_back; [exact Q3|]. apply broke_read. exact E4. }
    destruct (1 <? se).
    + destruct (segment (buf (bf s2)) se) as [d|e2].
      2:{ injection E as <- _ <-. right. right. exists (snd e2). cbn [err_index from_jiter_error]. set (c := current_index s) in *. unfold current_index. lia. }
      destruct (write_all w d) as [w1 [u|e1]].
      2:{ injection E as <- _ <-. right. left. eauto. }
      refine (Hgo _ _ (ty, jidx s + o) _ _ E); cbn [with_bf bf].
      * apply (closed_dropped (current_index s)). exact H2.
      * intros H. apply quiet_shift, Q2, H.
    + exact (Hgo _ _ (ty, jidx s + o) H2 Q2 E).
Qed.
Lemma failed_blamed s s' e : failed s s' e -> valid s -> blamed s s' e.
Proof.
  intros F V. pose proof V as (W & _ & Hj). destruct F as [A op P E|pred E|n E|n E|t E|w w' E|w w' E].
  - destruct P; try (apply (loop_blamed _ _ _ _ _ _ E Hj)). apply (finish_blamed _ _ _ _ E Hj).
  - left. unfold lookahead_while, lookahead in E. destruct (collect_while (bf s) pred (jidx s) true) as [[b1 [[x en]|e1]]| |] eqn:E1; try discriminate.
    + destruct (if is_changed (bf s) b1 then _ else _) as [[s2 x2] en2]. destruct (slice (buf (bf s2)) x2 en2); discriminate.
    + injection E as <- <-. apply collect_while_broke in E1. exact E1.
  - left. unfold lookahead_n, lookahead in E. destruct (collect_count (bf s) n (jidx s) true) as [[b1 [[x en]|e1]]| |] eqn:E1; try discriminate.
    + destruct (if is_changed (bf s) b1 then _ else _) as [[s2 x2] en2]. destruct (slice (buf (bf s2)) x2 en2); discriminate.
    + injection E as <- <-. apply collect_count_broke in E1. exact E1.
  - left. unfold skip_n_bytes in E. destruct (skip_n (bf s) n (jidx s)) as [[b [[x k]|e1]]| |] eqn:E1; try discriminate.
    injection E as <- <-. apply skip_n_broke in E1. exact E1.
  - unfold known_skip_token in E. destruct (lookahead_n (len t) s) as [[s1 [d|e1]]| |] eqn:E1; try discriminate.
    + destruct (lookahead_keeps s s1 d V) as (V1 & R1 & I1 & _); [right; eauto|].
      destruct (beq d t).
      * pose proof (closed_lookahead_n _ closed_quiet _ _ _ _ E1) as Hq.
        destruct (skip_n_bytes (len t) s1) as [[s2 [k|e2]]| |] eqn:E2; try discriminate. injection E as <- <-.
        unfold skip_n_bytes in E2. destruct (skip_n (bf s1) (len t) (jidx s1)) as [[b [[x k]|e3]]| |] eqn:E3; try discriminate.
        injection E2 as <- <-. apply skip_n_broke in E3. left. eapply broke_back; [exact Hq|exact E3].
      * injection E as <- <-. right. right. exists 0. cbn [err_index from_json_error]. lia.
    + injection E as <- <-. left. unfold lookahead_n, lookahead in E1. destruct (collect_count (bf s) (len t) (jidx s) true) as [[b1 [[x en]|e2]]| |] eqn:E2; try discriminate.
      * destruct (if is_changed (bf s) b1 then _ else _) as [[s2 x2] en2]. destruct (slice (buf (bf s2)) x2 en2); discriminate.
      * injection E1 as <- <-. apply collect_count_broke in E2. exact E2.
  - apply (long_blamed _ _ _ _ _ _ _ _ E Hj).
  - apply (long_blamed _ _ _ _ _ _ _ _ E Hj).
Qed.

(** ** Results *)
Lemma described s s' e : failed s s' e -> valid s -> is_io e = false \/ rquiet s = true -> exists p, error_position s' (err_index e) = Done p.
Proof.
  intros F V H. apply failed_blamed in F; [|exact V].
  assert (Hi : n_shifted_out (bf s') <= err_index e).
  { destruct F as [[(k & -> & Q)| ->]|[(k & ->)|(o & -> & _)]]; cbn [err_index].
    - destruct H as [H|H]; [discriminate|]. unfold rquiet in H. congruence.
    - lia.
    - unfold current_index. lia.
    - unfold current_index. lia. }
  unfold error_position. destruct (Nat.ltb_spec (err_index e) (n_shifted_out (bf s'))) as [H'|H']; [lia|].
  destruct (j_error_position _ _) as [l c]. eauto.
Qed.
Lemma not_before s s' e : failed s s' e -> valid s -> about_document e -> current_index s <= err_index e.
Proof.
  intros F V H. apply failed_blamed in F; [|exact V]. destruct F as [[(k & -> & Q)| ->]|[(k & ->)|(o & -> & Hc)]]; try contradiction. lia.
Qed.
Lemma full_index s s' e : failed s s' e -> valid s -> err_type e = BufferFull -> err_index e = n_shifted_out (bf s') \/ current_index s <= err_index e.
Proof.
  intros F V H. apply failed_blamed in F; [|exact V]. destruct F as [[(k & -> & Q)| ->]|[(k & ->)|(o & -> & Hc)]]; try discriminate; [left; reflexivity|right; lia].
Qed.

(** ** The index as a function of what the plain parser says *)
Lemma retry_exact {A} (f : jop A) eager fuel : forall s s' e, wf (bf s) -> jlen s = n_bytes (bf s) -> jidx s = 0 -> retry_loop fuel f eager s = Done (s', Err e) ->
  (is_io e = true /\ rquiet s = false) \/
  exists n ty o a, f (firstn n (stream (bf s))) = (Err (ty, o), a) /\ e = mkErr ty (n_shifted_out (bf s) + o + a) /\
    (len (stream (bf s)) <= n \/ n = rcap s \/ can_retry ty = false).
Proof.
  induction fuel as [|fuel IH]; intros s s' e W J I' E; [discriminate|]. cbn [retry_loop] in E. unfold jcall in E.
  assert (V : valid s) by (split; [exact W|]; split; [exact J|lia]).
  assert (Hv : jview s = firstn (n_bytes (bf s)) (stream (bf s))) by (rewrite jview_rest by exact V; unfold rest; rewrite I', Nat.sub_0_r; reflexivity).
  rewrite Hv in E. destruct (f (firstn (n_bytes (bf s)) (stream (bf s)))) as [r0 a] eqn:Ef. cbn [bf] in E.
  set (s1 := mkRj (bf s) (jlen s) (jidx s + a)) in E.
  assert (Hgo : forall r1 : jres A, (forall ty o, r1 = Err (ty, o) -> r0 = Err (ty, o)) -> match read_more (bf s) with
    | (b, Err e) => Done (with_bf s1 b, Err e)
    | (b, Ok 0) => let s2 := with_bf s1 b in
        Done (s2, match r1 with Ok v => Ok v | Err e => Err (from_jiter_error (current_index s2) e) end)
    | (b, Ok (S _)) => retry_loop fuel f eager (create_new_jiter (with_bf s1 b))
    end = Done (s', Err e) -> (is_io e = true /\ rquiet s = false) \/
      exists n ty o a, f (firstn n (stream (bf s))) = (Err (ty, o), a) /\ e = mkErr ty (n_shifted_out (bf s) + o + a) /\
        (len (stream (bf s)) <= n \/ n = rcap s \/ can_retry ty = false)).
  { intros r1 H1 E1. destruct (read_more (bf s)) as [b [[|k]|e1]] eqn:E2; cbn zeta in E1;
      destruct (read_more_spec _ _ _ W E2) as (C & Sh & Q & P); pose proof (cut_nil_stream _ _ _ C) as Hs.
    - destruct r1 as [v|[ty o]]; [discriminate|]. injection E1 as <- <-. right. specialize (H1 _ _ eq_refl). subst r0.
      exists (n_bytes (bf s)), ty, o, a. split; [exact Ef|]. split.
      { unfold from_jiter_error, current_index. cbn [fst snd with_bf bf jidx s1]. rewrite Sh, I'. f_equal. lia. }
      destruct P as (_ & _ & P). destruct (P eq_refl) as [P'|P']; [right; left; exact P'|]. left. pose proof (rest_length s V) as R. unfold rest in R. rewrite I' in R.
      cbn [skipn] in R. rewrite R, P'. cbn [List.length]. lia.
    - apply IH in E1; cbn [create_new_jiter with_bf bf jlen jidx] in *; [|apply (cut_wf _ _ _ _ C)|reflexivity|reflexivity]. unfold rquiet, rcap in *. cbn [with_bf create_new_jiter bf] in *.
      rewrite Hs, Sh, (cut_cap _ _ _ _ C) in E1. destruct E1 as [[X Y]|E1]; [left|right; exact E1]. split; [exact X|]. destruct (quiet (bf s)); [rewrite Q in Y by reflexivity; discriminate|reflexivity].
    - injection E1 as _ <-. left. destruct P as ((kind & ->) & _ & _ & _ & P). split; [reflexivity|exact P]. }
  destruct r0 as [v|[ty o]].
  - destruct (really_ok eager s1); [discriminate|]. apply (Hgo (Ok v)); [discriminate|exact E].
  - rewrite I' in E. change (0 + o) with o in E. destruct (can_retry (fst (ty, o))) eqn:Er; [apply (Hgo (Err (ty, o))); [auto|exact E]|].
    injection E as <- <-. right. exists (n_bytes (bf s)), ty, o, a. split; [exact Ef|]. split; [|right; right; exact Er].
    unfold from_jiter_error, current_index. cbn [fst snd bf jidx s1]. rewrite I'. f_equal. lia.
Qed.
Lemma error_exact {A} k known token (f : jop A) op s s' e :
  method k known token f op -> valid s -> 2 <= rcap s -> 0 < jidx s \/ strip token (rest s) <> rest s -> op s = Done (s', Err e) ->
  (is_io e = true /\ rquiet s = false) \/
  exists n ty o a, f (firstn n (strip token (rest s))) = (Err (ty, o), a) /\
    e = mkErr ty (total s - len (strip token (rest s)) + o + a) /\
    (len (strip token (rest s)) <= n \/ n = rcap s \/ can_retry ty = false).
Proof.
  intros M V Hc Hn E. apply method_facts in M as [-> _ _ _ _ _ _]. pose proof V as (W & J & I').
  unfold loop_until_success, jcall in E. destruct (f (jview s)) as [r0 a].
  set (s1 := mkRj (bf s) (jlen s) (jidx s + a)) in E.
  assert (Hgo : match skip_spaces_feeding s1 (jidx s) token with
    | Done (s2, Ok tt) => retry_loop (fuel_for (bf s2)) f (eager_of k) s2
    | Done (s2, Err e) => Done (s2, Err e)
    | Panic => Panic
    | Diverge => Diverge
    end = Done (s', Err e) -> (is_io e = true /\ rquiet s = false) \/
      exists n ty o a, f (firstn n (strip token (rest s))) = (Err (ty, o), a) /\
        e = mkErr ty (total s - len (strip token (rest s)) + o + a) /\
        (len (strip token (rest s)) <= n \/ n = rcap s \/ can_retry ty = false)).
  { intros X. destruct (feeding_spec s1 (jidx s) token W I' Hc) as (s2 & r2 & E2 & P2). rewrite E2 in X. destruct r2 as [[]|e2].
    2:{ injection X as _ <-. left. split; apply P2. }
    destruct P2 as (W2 & C2 & Q2 & T2 & S2 & P2). change (stream (bf s1)) with (stream (bf s)) in *. fold (rest s) in S2.
    change (rquiet s1) with (rquiet s) in *. change (rcap s1) with (rcap s) in *. change (total s1) with (total s) in T2.
    destruct P2 as [[P2 P3]|(P2 & P3 & _)].
    2:{ exfalso. destruct Hn as [Hn|Hn]; [lia|]. apply Hn. rewrite <- S2, P3. unfold rest. rewrite P2. reflexivity. }
    apply retry_exact in X; auto. rewrite C2, S2 in X. destruct X as [[X Y]|X]; [left|right].
    - split; [exact X|]. destruct (rquiet s); [rewrite Q2 in Y by reflexivity; discriminate|reflexivity].
    - replace (total s - len (strip token (rest s))) with (n_shifted_out (bf s2)); [exact X|]. rewrite <- T2, <- S2. unfold total. lia. }
  destruct r0 as [v|[er o]]; [|apply Hgo, E]. destruct (really_ok (eager_of k) s1); [discriminate|apply Hgo, E].
Qed.
Lemma error_exact_named {A} k known token (f : jop A) op s s' e :
  method k known token f op -> valid s -> 2 <= rcap s -> 0 < jidx s \/ strip token (rest s) <> rest s -> op s = Done (s', Err e) ->
  (is_io e = true /\ rquiet s = false) \/
  exists n ty o a, f (firstn n (strip token (rest s))) = (Err (ty, o), a) /\
    e = mkErr ty (total s - len (strip token (rest s)) + o + a) /\
    (len (strip token (rest s)) <= n \/ n = rcap s \/ ~ seems_unfinished ty).
Proof.
  intros M V Hc Hn E. destruct (error_exact k known token f op s s' e M V Hc Hn E) as [H|(n & ty & o & a & H1 & H2 & H3)]; [left; exact H|right].
  exists n, ty, o, a. split; [exact H1|]. split; [exact H2|]. destruct H3 as [H3|[H3|H3]]; [left; exact H3|right; left; exact H3|right; right].
  unfold seems_unfinished. cbn [map In]. intros [<- |[<- |[<- |[<- |[<- |[<- |[]]]]]]]; discriminate H3.
Qed.
