(** Proofs about how often the reader is asked. *)
From Verif Require Import Base Buffer BufferSpec BufferProofs Jiter JiterValue RJiter RJiterSpec JiterProofs RJiterProofs RJiterOpProofs RJiterEndProofs ReadsSpec.

(** Part one: the number of requests. *)
Definition spent (n : nat) (b b' : buffer) : Prop :=
  List.length (sched (rd b)) + len (src (rd b')) <= List.length (sched (rd b')) + len (src (rd b)) + n.
Lemma spent_refl b : spent 0 b b. Proof. unfold spent. lia. Qed.
Lemma spent_trans n m b b' b'' : spent n b b' -> spent m b' b'' -> spent (n + m) b b''. Proof. unfold spent. lia. Qed.
Lemma spent_more n m b b' : spent n b b' -> n <= m -> spent m b b'. Proof. unfold spent. lia. Qed.
Lemma shift_rd b t f : rd (shift_buffer b t f) = rd b. Proof. unfold shift_buffer. cbv zeta. destruct (if _ <? Nat.min _ _ then _ else _). destruct (_ && _); reflexivity. Qed.
Lemma spent_shift n b b' t f : spent n (shift_buffer b t f) b' <-> spent n b b'. Proof. unfold spent. rewrite shift_rd. reflexivity. Qed.
Lemma spent_shifted n b b' t f : spent n b (shift_buffer b' t f) <-> spent n b b'. Proof. unfold spent. rewrite shift_rd. reflexivity. Qed.
Lemma spent_read b b' r : read_more b = (b', r) -> match r with Ok (S _) => spent 0 b b' | _ => spent 1 b b' end.
Proof.
  unfold read_more, reader_read, spent. destruct (sched (rd b)) as [|[k|e] q]; intros E; injection E as <- <-; cbn [rd src sched List.length].
  - destruct (firstn (len (buf b) - n_bytes b) (src (rd b))) eqn:F; cbn [List.length]; rewrite skipn_length; lia.
  - destruct (firstn (Nat.min (len (buf b) - n_bytes b) (S k)) (src (rd b))) as [|x l] eqn:F; cbn [List.length]; rewrite skipn_length; [lia|].
    assert (L : len (firstn (Nat.min (len (buf b) - n_bytes b) (S k)) (src (rd b))) = S (len l)) by (rewrite F; reflexivity). rewrite firstn_length in L. lia.
  - lia.
Qed.
Lemma read_0 b b' : read_more b = (b', Ok 0) -> n_bytes b' = n_bytes b.
Proof. unfold read_more. destruct (reader_read _ _) as [[d|e] r]; intros E; [|discriminate]. injection E as <- E. cbn [n_bytes]. lia. Qed.
Lemma spent_while pred p shift fuel : forall b i c q b' r, collect_while_loop fuel b pred p shift i c q = Done (b', r) ->
  match r with Err er => if match err_type er with BufferFull => true | _ => false end then spent 0 b b' else spent 1 b b' | _ => spent 1 b b' end.
Proof.
  induction fuel as [|fuel IH]; intros b i c q b' r E; [discriminate|]. cbn [collect_while_loop] in E.
  destruct (_ <? n_bytes b). { injection E as <- <-. unfold spent. lia. }
  assert (K : forall b0 i0 c0 q0, (match read_more b0 with
          | (b', Err e) => Done (b', Err e)
          | (b', Ok 0) => Done (b', Ok (c0, n_bytes b'))
          | (b', Ok (S _)) => collect_while_loop fuel b' pred p shift i0 c0 q0
          end) = Done (b', r) ->
    match r with Err er => if match err_type er with BufferFull => true | _ => false end then spent 0 b0 b' else spent 1 b0 b' | _ => spent 1 b0 b' end).
  { intros b0 i0 c0 q0. pose proof (spent_read b0) as R.
    assert (T : forall b1 e, read_more b0 = (b1, Err e) -> exists k n, e = mkErr (IoError k) n).
    { intros b1 e. unfold read_more. destruct (reader_read _ _) as [[x|x] y]; intros Z; [discriminate|]. injection Z as _ <-. do 2 eexists. reflexivity. }
    destruct (read_more b0) as [b1 [[|n]|e]]; specialize (R _ _ eq_refl); intros Z.
    - injection Z as <- <-. exact R.
    - apply IH in Z. destruct r as [v|er]; [|destruct (match err_type er with BufferFull => true | _ => false end)]; exact (spent_trans 0 _ _ _ _ R Z).
    - injection Z as <- <-. destruct (T _ _ eq_refl) as (k & m & ->). exact R. }
  destruct (_ <=? n_bytes b).
  - destruct (_ || _).
    + injection E as <- <-. cbn [err_type]. apply spent_refl.
    + apply K in E. destruct r as [v|er]; [|destruct (match err_type er with BufferFull => true | _ => false end)]; rewrite spent_shift in E; exact E.
  - apply K in E. exact E.
Qed.
Lemma spent_count count shift fuel : forall b t c q b' r, collect_count_loop fuel b count shift t c q = Done (b', r) -> spent 1 b b'.
Proof.
  induction fuel as [|fuel IH]; intros b t c q b' r E; [discriminate|]. cbn [collect_count_loop] in E.
  destruct (t <=? n_bytes b). { injection E as <- <-. unfold spent. lia. }
  assert (K : forall b0 t0 c0 q0, (match read_more b0 with
          | (b', Err e) => Done (b', Err e)
          | (b', Ok 0) => Done (b', Ok (c0, n_bytes b'))
          | (b', Ok (S _)) => collect_count_loop fuel b' count shift t0 c0 q0
          end) = Done (b', r) -> spent 1 b0 b').
  { intros b0 t0 c0 q0. pose proof (spent_read b0) as R.
    destruct (read_more b0) as [b1 [[|n]|e]]; specialize (R _ _ eq_refl); intros Z.
    - injection Z as <- <-. exact R.
    - apply IH in Z. exact (spent_trans 0 _ _ _ _ R Z).
    - injection Z as <- <-. exact R. }
  destruct (_ <=? n_bytes b).
  - destruct (_ || _); [injection E as <- <-; unfold spent; lia|]. destruct (_ <? count); [injection E as <- <-; unfold spent; lia|].
    apply K in E. rewrite spent_shift in E. exact E.
  - apply K in E. exact E.
Qed.
Lemma spent_skip_n fuel : forall b m p t b' r, skip_n_loop fuel b m p t = Done (b', r) -> spent 1 b b'.
Proof.
  induction fuel as [|fuel IH]; intros b m p t b' r E; [discriminate|]. cbn [skip_n_loop] in E.
  destruct (m =? 0); [injection E as <- <-; unfold spent; lia|].
  destruct (m <=? _); [injection E as <- <-; unfold spent; lia|]. cbv zeta in E.
  assert (K : forall b0 p0, (match read_more b0 with
          | (b', Err e) => Done (b', Err e)
          | (b', Ok 0) => Done (b', Ok (p0, t + (n_bytes b - p)))
          | (b', Ok (S _)) => skip_n_loop fuel b' (m - (n_bytes b - p)) p0 (t + (n_bytes b - p))
          end) = Done (b', r) -> spent 1 b0 b').
  { intros b0 p0. pose proof (spent_read b0) as R.
    destruct (read_more b0) as [b1 [[|n]|e]]; specialize (R _ _ eq_refl); intros Z.
    - injection Z as <- <-. exact R.
    - apply IH in Z. exact (spent_trans 0 _ _ _ _ R Z).
    - injection Z as <- <-. exact R. }
  destruct (n_bytes b =? len (buf b)); cbv zeta in E; apply K in E; [rewrite spent_shift in E|]; exact E.
Qed.
Lemma spent_spaces_loop fuel : forall b p b' r, skip_spaces_loop fuel b p = Done (b', r) -> spent 1 b b'.
Proof.
  induction fuel as [|fuel IH]; intros b p b' r E; [discriminate|]. cbn [skip_spaces_loop] in E.
  destruct (collect_while b is_ascii_whitespace p false) as [[b1 [[c e]|er]]| |] eqn:C; try discriminate; apply spent_while in C; cbn beta iota in C.
  - destruct (p <? e); injection E as <- <-; [rewrite spent_shifted|]; exact C.
  - destruct (err_type er); try (injection E as <- <-; exact C).
    apply IH in E. rewrite spent_shift in E. exact (spent_trans 0 _ _ _ _ C E).
Qed.
Lemma spent_spaces b p b' r : skip_spaces b p = Done (b', r) -> spent 1 b b'. Proof. apply spent_spaces_loop. Qed.
(** White space is skipped without a request if something else stands behind it. *)
Lemma spaces_seen b p x l : wf b -> p <= n_bytes b -> skipn (run_length is_ascii_whitespace (skipn p (firstn (n_bytes b) (buf b)))) (skipn p (firstn (n_bytes b) (buf b))) = x :: l ->
  skip_spaces b p = Done ((if 0 <? run_length is_ascii_whitespace (skipn p (firstn (n_bytes b) (buf b)))
     then shift_buffer b p (p + run_length is_ascii_whitespace (skipn p (firstn (n_bytes b) (buf b)))) else b), Ok tt).
Proof.
  intros W P E. unfold skip_spaces, skip_fuel. cbn [skip_spaces_loop]. unfold collect_while, fuel_for. cbn [collect_while_loop].
  set (k := run_length is_ascii_whitespace (skipn p (firstn (n_bytes b) (buf b)))) in *.
  assert (L : len (skipn k (skipn p (firstn (n_bytes b) (buf b)))) = S (len l)) by (rewrite E; reflexivity).
  rewrite !skipn_length, firstn_length in L. destruct (Nat.ltb_spec (p + k) (n_bytes b)); [|lia].
  cbn [obind]. destruct (Nat.ltb_spec p (p + k)), (Nat.ltb_spec 0 k); reflexivity || lia.
Qed.
Lemma spent_feeding s p t s' r : skip_spaces_feeding s p t = Done (s', r) -> spent 2 (bf s) (bf s').
Proof.
  unfold skip_spaces_feeding. cbv zeta.
  set (b1 := if 0 <? p then shift_buffer (bf s) 0 p else bf s).
  assert (R1 : rd b1 = rd (bf s)) by (unfold b1; destruct (0 <? p); [apply shift_rd|reflexivity]).
  assert (Q : forall n b, spent n b1 b <-> spent n (bf s) b) by (intros n b; unfold spent; rewrite R1; reflexivity).
  assert (F : forall b s' r, Done (if is_changed (bf s) b then create_new_jiter (with_bf s b) else with_bf s b, @Ok unit rerror tt) = Done (s', r) -> bf s' = b).
  { intros b u v. destruct (is_changed _ _); intros Z; injection Z as <- _; reflexivity. }
  pose proof (spent_spaces b1 0) as S1. destruct (skip_spaces b1 0) as [[b2 [[]|e]]| |]; try discriminate; specialize (S1 _ _ eq_refl); rewrite Q in S1.
  2:{ intros Z. injection Z as <- _. cbn [bf with_bf]. eapply spent_more; [exact S1|lia]. }
  destruct t as [t|]; [|intros Z; apply F in Z; rewrite Z; eapply spent_more; [exact S1|lia]].
  destruct (n_bytes b2 =? 0) eqn:N0.
  - pose proof (spent_read b2) as R. pose proof (read_0 b2) as R2. destruct (read_more b2) as [b3 [n|e]]; specialize (R _ _ eq_refl).
    2:{ intros Z. injection Z as <- _. exact (spent_trans _ _ _ _ _ S1 R). }
    assert (R' : spent 1 b2 b3) by (destruct n; [exact R|eapply spent_more; [exact R|lia]]).
    destruct (firstn (n_bytes b3) (buf b3)) as [|x l] eqn:F3; [intros Z; apply F in Z; rewrite Z; exact (spent_trans _ _ _ _ _ S1 R')|].
    destruct (N.eqb x t); [|intros Z; apply F in Z; rewrite Z; exact (spent_trans _ _ _ _ _ S1 R')].
    assert (R0 : spent 0 b2 b3).
    { destruct n; [|exact R]. exfalso. apply Nat.eqb_eq in N0. rewrite (R2 _ eq_refl), N0 in F3. discriminate F3. }
    pose proof (spent_spaces b3 1) as S3. destruct (skip_spaces b3 1) as [[b4 [[]|e]]| |]; try discriminate; specialize (S3 _ _ eq_refl).
    + intros Z; apply F in Z; rewrite Z. exact (spent_trans 1 1 _ _ _ S1 (spent_trans 0 1 _ _ _ R0 S3)).
    + intros Z. injection Z as <- _. exact (spent_trans 1 1 _ _ _ S1 (spent_trans 0 1 _ _ _ R0 S3)).
  - destruct (firstn (n_bytes b2) (buf b2)) as [|x l] eqn:F3; [intros Z; apply F in Z; rewrite Z; eapply spent_more; [exact S1|lia]|].
    destruct (N.eqb x t); [|intros Z; apply F in Z; rewrite Z; eapply spent_more; [exact S1|lia]].
    pose proof (spent_spaces b2 1) as S3. destruct (skip_spaces b2 1) as [[b4 [[]|e]]| |]; try discriminate; specialize (S3 _ _ eq_refl).
    + intros Z; apply F in Z; rewrite Z. exact (spent_trans 1 1 _ _ _ S1 S3).
    + intros Z. injection Z as <- _. exact (spent_trans 1 1 _ _ _ S1 S3).
Qed.

Lemma spent_retry {A} (f : jop A) eager fuel : forall s s' r, retry_loop fuel f eager s = Done (s', r) -> spent 1 (bf s) (bf s').
Proof.
  induction fuel as [|fuel IH]; intros s s' r; [discriminate|]. cbn [retry_loop]. unfold jcall. destruct (f (jview s)) as [r0 a].
  set (s1 := mkRj (bf s) (jlen s) (jidx s + a)). cbv zeta.
  assert (K : forall x, (match read_more (bf s1) with
        | (b, Err e) => Done (with_bf s1 b, Err e)
        | (b, Ok 0) => Done (with_bf s1 b, x (with_bf s1 b))
        | (b, Ok (S _)) => retry_loop fuel f eager (create_new_jiter (with_bf s1 b))
        end) = Done (s', r) -> spent 1 (bf s) (bf s')).
  { intros x. pose proof (spent_read (bf s1)) as R. destruct (read_more (bf s1)) as [b [[|n]|e]]; specialize (R _ _ eq_refl); intros Z.
    - injection Z as <- _. exact R.
    - apply IH in Z. exact (spent_trans 0 1 _ _ _ R Z).
    - injection Z as <- _. exact R. }
  destruct r0 as [v|[e o]].
  - destruct (really_ok eager s1); [intros Z; injection Z as <- _; eapply spent_more; [apply spent_refl|lia]|]. exact (K (fun _ => Ok v)).
  - cbn [fst]. destruct (can_retry e); [|intros Z; injection Z as <- _; eapply spent_more; [apply spent_refl|lia]].
    exact (K (fun z => Err (from_jiter_error (current_index z) (e, jidx s + o)))).
Qed.
Lemma spent_feeding_none s p s' r : skip_spaces_feeding s p None = Done (s', r) -> spent 1 (bf s) (bf s').
Proof.
  unfold skip_spaces_feeding. cbv zeta.
  set (b1 := if 0 <? p then shift_buffer (bf s) 0 p else bf s).
  assert (R1 : rd b1 = rd (bf s)) by (unfold b1; destruct (0 <? p); [apply shift_rd|reflexivity]).
  assert (Q : forall n b, spent n b1 b <-> spent n (bf s) b) by (intros n b; unfold spent; rewrite R1; reflexivity).
  pose proof (spent_spaces b1 0) as S1. destruct (skip_spaces b1 0) as [[b2 [[]|e]]| |]; try discriminate; specialize (S1 _ _ eq_refl); rewrite Q in S1; intros Z.
  - destruct (is_changed _ _); injection Z as <- _; exact S1.
  - injection Z as <- _. exact S1.
Qed.
Definition in_vain (token : option byte) : nat := match token with None => 2 | Some _ => 3 end.
Lemma spent_loop {A} (f : jop A) token eager s s' r : loop_until_success f token eager s = Done (s', r) -> spent (in_vain token) (bf s) (bf s').
Proof.
  unfold loop_until_success, jcall. destruct (f (jview s)) as [r0 a]. set (s1 := mkRj (bf s) (jlen s) (jidx s + a)). cbv zeta.
  assert (K : match skip_spaces_feeding s1 (jidx s) token with
     | Done (s2, Ok tt) => retry_loop (fuel_for (bf s2)) f eager s2
     | Done (s2, Err e) => Done (s2, Err e)
     | Panic => Panic
     | Diverge => Diverge
     end = Done (s', r) -> spent (in_vain token) (bf s) (bf s')).
  { assert (F : forall s2 v, skip_spaces_feeding s1 (jidx s) token = Done (s2, v) -> spent (match token with None => 1 | Some _ => 2 end) (bf s) (bf s2)).
    { destruct token as [t|]; [exact (spent_feeding s1 (jidx s) (Some t))|exact (spent_feeding_none s1 (jidx s))]. }
    destruct (skip_spaces_feeding _ _ _) as [[s2 [[]|e]]| |]; try discriminate; specialize (F _ _ eq_refl); intros Z.
    - apply spent_retry in Z. pose proof (spent_trans _ 1 _ _ _ F Z) as Y. destruct token; exact Y.
    - injection Z as <- _. eapply spent_more; [exact F|]. destruct token; cbn [in_vain]; lia. }
  destruct r0 as [v|[e o]]; [|exact K].
  destruct (really_ok eager s1); [intros Z; injection Z as <- _; eapply spent_more; [apply spent_refl|lia]|exact K].
Qed.
Lemma spent_finish fuel : forall s s' r, finish_loop fuel s = Done (s', r) -> spent 1 (bf s) (bf s').
Proof.
  induction fuel as [|fuel IH]; intros s s' r; [discriminate|]. cbn [finish_loop]. unfold jcall. destruct (j_finish (jview s)) as [r0 a].
  set (s1 := mkRj (bf s) (jlen s) (jidx s + a)). cbv zeta.
  destruct r0 as [v|[e o]]; [|intros Z; injection Z as <- _; eapply spent_more; [apply spent_refl|lia]].
  destruct (_ <? _).
  - pose proof (spent_read (bf s1)) as R. destruct (read_more (bf s1)) as [b [[|n]|e]]; specialize (R _ _ eq_refl); intros Z.
    + injection Z as <- _. exact R.
    + apply IH in Z. cbn [bf create_new_jiter with_bf] in Z. rewrite spent_shift in Z. exact (spent_trans 0 1 _ _ _ R Z).
    + injection Z as <- _. exact R.
  - intros Z. apply IH in Z. cbn [bf create_new_jiter with_bf] in Z. rewrite spent_shift in Z. exact Z.
Qed.
Lemma spent_long pr sg fuel : forall s w s' w' r, handle_long fuel pr sg s w = Done (s', w', r) -> spent 1 (bf s) (bf s').
Proof.
  induction fuel as [|fuel IH]; intros s w s' w' r; [discriminate|]. cbn [handle_long]. unfold jcall. destruct (pr (jview s)) as [r0 a].
  set (s1 := mkRj (bf s) (jlen s) (jidx s + a)). cbv zeta.
  assert (T : spent 1 (bf s) (bf s)) by (eapply spent_more; [apply spent_refl|lia]).
  destruct r0 as [v|[e o]].
  - destruct (write_all w v) as [w1 [[]|e]]; intros Z; injection Z as <- _ _; exact T.
  - cbn [fst]. destruct (can_retry e); [|intros Z; injection Z as <- _ _; exact T].
    set (s2 := if 0 <? jidx s1 then _ else s1).
    assert (R2 : rd (bf s2) = rd (bf s)) by (unfold s2; destruct (0 <? jidx s1); cbn [bf create_new_jiter with_bf]; [apply shift_rd|reflexivity]).
    assert (T2 : spent 1 (bf s) (bf s2)) by (unfold spent; rewrite R2; lia).
    destruct (find_leading _ _) as [seg|]; [|discriminate].
    assert (K : forall s3 w3, rd (bf s3) = rd (bf s) -> match read_more (bf s3) with
                  | (b, Err e) => Done (with_bf s3 b, w3, Err e)
                  | (b, Ok 0) => Done (with_bf s3 b, w3, Err (from_jiter_error (current_index (with_bf s3 b)) (e, jidx s + o)))
                  | (b, Ok (S _)) => handle_long fuel pr sg (create_new_jiter (with_bf s3 b)) w3
                  end = Done (s', w', r) -> spent 1 (bf s) (bf s')).
    { intros s3 w3 R3. pose proof (spent_read (bf s3)) as R.
      assert (Q : forall n b, spent n (bf s3) b <-> spent n (bf s) b) by (intros n b; unfold spent; rewrite R3; reflexivity).
      destruct (read_more (bf s3)) as [b [[|n]|er]]; specialize (R _ _ eq_refl); cbv beta iota in R; rewrite Q in R; intros Z.
      - injection Z as <- _ _. exact R.
      - apply IH in Z. exact (spent_trans 0 1 _ _ _ R Z).
      - injection Z as <- _ _. exact R. }
    destruct (1 <? seg); [|apply K; exact R2].
    destruct (sg _ _) as [d|er]; [|intros Z; injection Z as <- _ _; exact T2].
    destruct (write_all w d) as [w1 [[]|er]]; [|intros Z; injection Z as <- _ _; exact T2].
    apply K. cbn [bf with_bf]. rewrite shift_rd. exact R2.
Qed.
Lemma spent_look c s s' r : (forall b p b' v, c b p = Done (b', v) -> spent 1 b b') -> lookahead c s = Done (s', r) -> spent 1 (bf s) (bf s').
Proof.
  intros C. unfold lookahead. cbv zeta. pose proof (C (bf s) (jidx s)) as D. destruct (c (bf s) (jidx s)) as [[b1 [[x y]|e]]| |]; try discriminate; specialize (D _ _ eq_refl).
  - destruct (is_changed _ _); [destruct (_ && _)|]; (destruct (slice _ _ _); [|discriminate]); intros Z; injection Z as <- _; cbn [bf create_new_jiter with_bf];
      unfold spent in *; rewrite ?shift_rd; exact D.
  - intros Z. injection Z as <- _. exact D.
Qed.
Lemma spent_lookahead_n n s s' r : lookahead_n n s = Done (s', r) -> spent 1 (bf s) (bf s').
Proof. apply spent_look. intros b p b' v. apply spent_count. Qed.
Lemma spent_lookahead_while p s s' r : lookahead_while p s = Done (s', r) -> spent 1 (bf s) (bf s').
Proof.
  apply spent_look. intros b q b' v E. apply spent_while in E. destruct v as [v|er]; [exact E|].
  destruct (match err_type er with BufferFull => true | _ => false end); [eapply spent_more; [exact E|lia]|exact E].
Qed.
Lemma spent_skip n s s' r : skip_n_bytes n s = Done (s', r) -> spent 1 (bf s) (bf s').
Proof.
  unfold skip_n_bytes. pose proof (spent_skip_n (fuel_for (bf s)) (bf s) n (jidx s) 0) as D. unfold skip_n.
  destruct (skip_n_loop _ _ _ _ _) as [[b [[x y]|e]]| |]; try discriminate; specialize (D _ _ eq_refl); intros Z; injection Z as <- _; cbn [bf create_new_jiter with_bf]; unfold spent in *; rewrite ?shift_rd; exact D.
Qed.
Lemma method_spent {A} k known token (f : jop A) op s s' r : method k known token f op -> op s = Done (s', r) -> asked_beyond (match token with None => 2 | Some _ => 3 end) s s'.
Proof. intros M E. pose proof (method_facts _ _ _ _ _ M) as [-> _ _ _ _ _ _]. apply spent_loop in E. exact E. Qed.
Lemma other_spent s s' n : other_call s s' n -> asked_beyond n s s'.
Proof.
  intros [r E|w w' r E|w w' r E|m r E|p r E|m r E|t r E].
  - exact (spent_finish _ _ _ _ E).
  - exact (spent_long _ _ _ _ _ _ _ _ E).
  - exact (spent_long _ _ _ _ _ _ _ _ E).
  - exact (spent_lookahead_n _ _ _ _ E).
  - exact (spent_lookahead_while _ _ _ _ E).
  - exact (spent_skip _ _ _ _ E).
  - unfold known_skip_token in E. pose proof (spent_lookahead_n (len t) s) as L. destruct (lookahead_n (len t) s) as [[s1 [d|e]]| |]; try discriminate; specialize (L _ _ eq_refl).
    + destruct (beq d t); [|injection E as <- _; exact (spent_more 1 2 _ _ L ltac:(lia))].
      pose proof (spent_skip (len t) s1) as K. destruct (skip_n_bytes (len t) s1) as [[s2 [v|e]]| |]; try discriminate; specialize (K _ _ eq_refl);
        injection E as <- _; exact (spent_trans 1 1 _ _ _ L K).
    + injection E as <- _. exact (spent_more 1 2 _ _ L ltac:(lia)).
Qed.
