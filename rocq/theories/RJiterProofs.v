(** Proofs about the streaming parser: the retry loop, lookahead, skipping, finish. *)
From Verif Require Import Base Buffer BufferSpec BufferProofs Jiter JiterProofs RJiter RJiterSpec.

Lemma rest_length s : valid s -> len (rest s) = n_bytes (bf s) - jidx s + len (src (rd (bf s))).
Proof. intros (W & _ & H). unfold rest. rewrite skipn_length, stream_length by exact W. lia. Qed.

Lemma index_rest s : valid s -> current_index s + len (rest s) = total s.
Proof.
  intros (W & _ & H). unfold current_index, total, rest. rewrite skipn_length, stream_length by exact W. lia.
Qed.

Lemma jview_rest s : valid s -> jview s = firstn (n_bytes (bf s) - jidx s) (rest s).
Proof.
  intros (W & E & H). unfold jview, rest. rewrite E, <- stream_firstn by exact W. apply skipn_firstn.
Qed.
Lemma jview_split s : valid s -> rest s = jview s ++ src (rd (bf s)).
Proof.
  intros V. rewrite jview_rest by exact V. destruct V as (W & E & H). unfold rest.
  rewrite <- (firstn_skipn (n_bytes (bf s) - jidx s) (skipn (jidx s) (stream (bf s)))) at 1. f_equal.
  rewrite skipn_skipn. replace (jidx s + (n_bytes (bf s) - jidx s)) with (n_bytes (bf s)) by lia.
  apply stream_skipn. exact W.
Qed.
Lemma jview_length s : valid s -> len (jview s) = n_bytes (bf s) - jidx s.
Proof. intros (W & E & H). unfold jview. rewrite skipn_length, firstn_length, E. unfold wf in W. lia. Qed.

Lemma cut_total b p d b' : cut b p d b' -> n_shifted_out b' + len (stream b') = n_shifted_out b + len (stream b).
Proof.
  intros (_ & _ & S & _ & a & c & E & F & _). rewrite E, F, S, !app_length. lia.
Qed.

(** ** skip_spaces in terms of lists *)
Lemma run_length_nil p l : run_length p l = 0 -> skipn (run_length p l) l = l.
Proof. intros ->. reflexivity. Qed.

Lemma skip_spaces_0 b : wf b -> 0 < cap b ->
  exists b' r, skip_spaces b 0 = Done (b', r) /\
    wf b' /\ cap b' = cap b /\ (quiet b = true -> quiet b' = true) /\
    n_shifted_out b' + len (stream b') = n_shifted_out b + len (stream b) /\
    match r with
    | Ok tt => stream b' = skip_aw (stream b) /\ (n_bytes b' = 0 -> src (rd b') = [])
    | Err e => quiet b = false /\ is_io e = true
    end.
Proof.
  intros W C. destruct (skip_spaces_spec b 0 W ltac:(lia) C) as (b' & r & d & E & CT & Q & N & P).
  exists b', r. split; [exact E|]. split; [eapply cut_wf; eauto|]. split; [eapply cut_cap; eauto|].
  split; [exact Q|]. split; [eapply cut_total; eauto|].
  destruct r as [[]|e].
  - destruct P as [L P]. split; [|exact P]. unfold skip_aw. unfold ws_run in L. cbn [skipn] in L. rewrite <- L.
    rewrite (cut_front _ _ _ CT). rewrite skipn_app_all. reflexivity.
  - destruct P as (A & B & C'). split; [exact A|]. unfold is_io. destruct (err_type e); try contradiction. reflexivity.
Qed.

Lemma skip_spaces_1 b x l : wf b -> 1 < cap b -> stream b = x :: l -> 0 < n_bytes b ->
  exists b' r, skip_spaces b 1 = Done (b', r) /\
    wf b' /\ cap b' = cap b /\ (quiet b = true -> quiet b' = true) /\
    n_shifted_out b' + len (stream b') = n_shifted_out b + len (stream b) /\
    match r with
    | Ok tt => stream b' = x :: skip_aw l /\ 1 <= n_bytes b' /\ (n_bytes b' = 1 -> src (rd b') = [])
    | Err e => quiet b = false /\ is_io e = true
    end.
Proof.
  intros W C S H. destruct (skip_spaces_spec b 1 W ltac:(lia) C) as (b' & r & d & E & CT & Q & N & P).
  exists b', r. split; [exact E|]. split; [eapply cut_wf; eauto|]. split; [eapply cut_cap; eauto|].
  split; [exact Q|]. split; [eapply cut_total; eauto|].
  destruct r as [[]|e].
  - destruct P as [L P]. split; [|split; [exact N|exact P]]. unfold skip_aw. unfold ws_run in L. rewrite S in L. cbn [skipn] in L.
    rewrite <- L. destruct d as [|y d].
    + rewrite (cut_nil_stream _ _ _ CT), S. reflexivity.
    + destruct (cut_at _ _ _ _ CT) as [A _]; [discriminate|]. rewrite A, S. reflexivity.
  - destruct P as (A & B & C'). split; [exact A|]. unfold is_io. destruct (err_type e); try contradiction. reflexivity.
Qed.

Lemma is_changed_false b0 b : is_changed b0 b = false -> n_shifted_out b0 = n_shifted_out b /\ n_bytes b0 = n_bytes b.
Proof. unfold is_changed. destruct (Nat.eqb_spec (n_shifted_out b0) (n_shifted_out b)), (Nat.eqb_spec (n_bytes b0) (n_bytes b)); cbn; auto; discriminate. Qed.

(** ** skip_spaces_feeding *)
Definition fed (s s2 : rj) (pos : nat) (token : option byte) : Prop :=
  wf (bf s2) /\ rcap s2 = rcap s /\ (rquiet s = true -> rquiet s2 = true) /\ total s2 = total s /\
  stream (bf s2) = strip token (skipn pos (stream (bf s))) /\
  ((jlen s2 = n_bytes (bf s2) /\ jidx s2 = 0) \/
   (pos = 0 /\ stream (bf s2) = stream (bf s) /\ n_bytes (bf s2) = n_bytes (bf s) /\
    jlen s2 = jlen s /\ jidx s2 = jidx s)).

Lemma feeding_spec s pos token :
  wf (bf s) -> pos <= n_bytes (bf s) -> 2 <= rcap s ->
  exists s2 r, skip_spaces_feeding s pos token = Done (s2, r) /\
    match r with
    | Ok tt => fed s s2 pos token
    | Err e => rquiet s = false /\ is_io e = true
    end.
Proof.
  intros W Hp Hc. unfold skip_spaces_feeding, rcap in *.
  set (b0 := bf s) in *. set (b1 := if 0 <? pos then shift_buffer b0 0 pos else b0).
  assert (H1 : wf b1 /\ cap b1 = cap b0 /\ quiet b1 = quiet b0 /\
               n_shifted_out b1 + len (stream b1) = n_shifted_out b0 + len (stream b0) /\
               stream b1 = skipn pos (stream b0)).
  { unfold b1. destruct (Nat.ltb_spec 0 pos) as [H|H].
    - destruct (shift_front b0 pos W Hp) as (C & N & L & R & E).
      split; [eapply cut_wf; eauto|]. split; [eapply cut_cap; eauto|].
      split; [apply quiet_rd; exact R|]. split; [eapply cut_total; eauto|exact E].
    - replace pos with 0 by lia. repeat split; auto. }
  destruct H1 as (W1 & C1 & Q1 & T1 & S1).
  destruct (skip_spaces_0 b1 W1 ltac:(lia)) as (b2 & r2 & E2 & W2 & C2 & Q2 & T2 & P2). rewrite E2.
  destruct r2 as [[]|e2].
  2:{ eexists _, _. split; [reflexivity|]. cbn. unfold rquiet. fold b0. rewrite <- Q1. exact P2. }
  destruct P2 as [P2 Z2].
  assert (Hfin : forall b, wf b -> cap b = cap b0 -> (quiet b0 = true -> quiet b = true) ->
      n_shifted_out b + len (stream b) = n_shifted_out b0 + len (stream b0) ->
      stream b = strip token (skipn pos (stream b0)) ->
      fed s (if is_changed b0 b then create_new_jiter (with_bf s b) else with_bf s b) pos token).
  { intros b Wb Cb Qb Tb Sb. unfold fed, rcap, rquiet, total. fold b0.
    destruct (is_changed b0 b) eqn:Ech; cbn [create_new_jiter with_bf bf jlen jidx].
    - repeat split; auto.
    - apply is_changed_false in Ech as [A B].
      assert (Hlen : len (stream b) = len (stream b0)) by lia.
      repeat split; auto. right.
      assert (Hpos : pos = 0).
      { destruct (Nat.eq_dec pos 0); [assumption|exfalso].
        assert (len (stream b) <= len (skipn pos (stream b0))).
        { rewrite Sb. unfold strip, skip_aw. destruct token as [t|].
          - pose proof (skipn_length (run_length is_ascii_whitespace (skipn pos (stream b0))) (skipn pos (stream b0))) as HH.
            destruct (skipn _ (skipn pos (stream b0))) as [|x l]; cbn [List.length] in *; [lia|].
            destruct (N.eqb x t); cbn [List.length]; [|lia]. rewrite skipn_length. lia.
          - rewrite skipn_length. lia. }
        rewrite skipn_length in H. pose proof (stream_length b0 W). pose proof (stream_length b Wb). lia. }
      split; [exact Hpos|]. split; [|auto]. subst pos. cbn [skipn] in Sb.
      (* same length and obtained by removing: equal *)
      rewrite Sb. unfold strip, skip_aw in *. rewrite Sb in Hlen.
      assert (HA : forall l, len (skipn (run_length is_ascii_whitespace l) l) <= len l) by (intros; rewrite skipn_length; lia).
      assert (HB : forall l, len (skipn (run_length is_ascii_whitespace l) l) = len l -> skipn (run_length is_ascii_whitespace l) l = l).
      { intros l Hl. pose proof (run_length_le is_ascii_whitespace l) as HH. rewrite skipn_length in Hl.
        destruct l as [|y l]; [reflexivity|].
        replace (run_length is_ascii_whitespace (y :: l)) with 0; [reflexivity|].
        cbn [List.length] in *. lia. }
      destruct token as [t|]; [|apply HB; exact Hlen].
      specialize (HA (stream b0)) as HA0. specialize (HB (stream b0)) as HB0.
      destruct (skipn (run_length is_ascii_whitespace (stream b0)) (stream b0)) as [|x l] eqn:E.
      + apply HB0. cbn in Hlen |- *. lia.
      + destruct (N.eqb x t).
        * specialize (HA l) as HAl. cbn [List.length] in Hlen, HA0.
          rewrite <- HB0 by (cbn [List.length]; lia). rewrite (HB l) by (rewrite <- HB0 in Hlen by (cbn [List.length]; lia); cbn [List.length] in Hlen; lia). reflexivity.
        * apply HB0. exact Hlen. }
  destruct token as [t|].
  2:{ eexists _, _. split; [reflexivity|]. apply Hfin; auto; try congruence.
      - intros. apply Q2. congruence.
      - rewrite P2, S1. reflexivity. }
  assert (H3 : exists b3 r3, (if n_bytes b2 =? 0 then read_more b2 else (b2, Ok 0)) = (b3, r3) /\
     match r3 with
     | Err e => quiet b0 = false /\ is_io e = true
     | Ok _ => wf b3 /\ cap b3 = cap b0 /\ (quiet b0 = true -> quiet b3 = true) /\
               n_shifted_out b3 + len (stream b3) = n_shifted_out b0 + len (stream b0) /\
               stream b3 = skip_aw (skipn pos (stream b0)) /\ (n_bytes b3 = 0 -> stream b3 = [])
     end).
  { destruct (Nat.eqb_spec (n_bytes b2) 0) as [Hz|Hz].
    - destruct (read_more b2) as [b3 r3] eqn:E3. exists b3, r3. split; [reflexivity|].
      destruct (read_more_spec b2 b3 r3 W2 E3) as (C3 & N3 & Q3 & P3).
      destruct r3 as [k|e].
      + destruct P3 as (A & B & _). split; [eapply cut_wf; eauto|]. split; [rewrite (cut_cap _ _ _ _ C3); congruence|].
        split; [intros; apply Q3, Q2; congruence|]. split; [rewrite (cut_total _ _ _ _ C3), T2, T1; reflexivity|].
        split; [rewrite (cut_nil_stream _ _ _ C3), P2, S1; reflexivity|].
        intros _. rewrite (cut_nil_stream _ _ _ C3). unfold stream. rewrite Hz, (Z2 Hz). reflexivity.
      + destruct P3 as ((kind & ->) & _ & _ & _ & Hnq). split; [|reflexivity].
        destruct (quiet b0) eqn:Eq; [|reflexivity]. rewrite Q2 in Hnq by congruence. discriminate.
    - exists b2, (Ok 0). split; [reflexivity|]. split; [exact W2|]. split; [congruence|].
      split; [intros; apply Q2; congruence|]. split; [rewrite T2, T1; reflexivity|].
      split; [rewrite P2, S1; reflexivity|]. lia. }
  destruct H3 as (b3 & r3 & -> & P3). destruct r3 as [k|e].
  2:{ eexists _, _. split; [reflexivity|]. unfold rquiet. fold b0. exact P3. }
  destruct P3 as (W3 & C3 & Q3 & T3 & S3 & Z3).
  rewrite <- (stream_firstn b3 W3).
  destruct (firstn (n_bytes b3) (stream b3)) as [|x l] eqn:Ef.
  - eexists _, _. split; [reflexivity|]. apply Hfin; auto.
    assert (stream b3 = []).
    { destruct (n_bytes b3) eqn:En; [apply Z3; reflexivity|].
      destruct (stream b3); [reflexivity|discriminate]. }
    unfold strip. rewrite <- S3, H. reflexivity.
  - assert (Hx : exists l', stream b3 = x :: l').
    { destruct (stream b3) as [|y l']; [rewrite firstn_nil in Ef; discriminate|].
      destruct (n_bytes b3); [discriminate|]. injection Ef as -> _. eauto. }
    destruct Hx as [l' Hl'].
    assert (Hn3 : 0 < n_bytes b3) by (destruct (n_bytes b3); [discriminate|lia]).
    destruct (N.eqb x t) eqn:Et.
    + destruct (skip_spaces_1 b3 x l' W3 ltac:(lia) Hl' Hn3) as (b4 & r4 & E4 & W4 & C4 & Q4 & T4 & P4).
      rewrite E4. destruct r4 as [[]|e4].
      * eexists _, _. split; [reflexivity|]. apply Hfin; auto; try congruence.
        destruct P4 as [P4 _]. rewrite P4. unfold strip. rewrite <- S3, Hl', Et. reflexivity.
      * eexists _, _. split; [reflexivity|]. unfold rquiet. fold b0.
        destruct P4 as [A B]. split; [|exact B].
        destruct (quiet b0); [rewrite Q3 in A by reflexivity; discriminate|reflexivity].
    + eexists _, _. split; [reflexivity|]. apply Hfin; auto.
      unfold strip. rewrite <- S3, Hl', Et. reflexivity.
Qed.

(** ** The retry loop on an up-to-date view *)
(** The plain parser fails on all of [l]; a reported error [e] is the plain one, moved by [base] and by how
    far the index went. *)
Definition rejected {A} (eager : bool) (f : jop A) (l : bytes) (base : nat) (e : rerror) : Prop :=
  exists er a, f l = (Err er, a) /\ (stable eager f -> e = from_jiter_error (a + base) er).

Definition loop_post {A} (f : jop A) (eager : bool) (s : rj) (s' : rj) (r : result A rerror) : Prop :=
  let S := stream (bf s) in
  wf (bf s') /\ rcap s' = rcap s /\ (rquiet s = true -> rquiet s' = true) /\ total s' = total s /\
  stream (bf s') = S /\ n_shifted_out (bf s') = n_shifted_out (bf s) /\ jlen s' = n_bytes (bf s') /\
  match r with
  | Ok v => valid s' /\
            (parsed f S v (rest s') \/
             (eager = true /\ rcap s < len S /\ f (firstn (rcap s) S) = (Ok v, rcap s) /\ rest s' = skipn (rcap s) S))
  | Err e => (is_io e = true /\ rquiet s = false) \/
             rejected eager f S (n_shifted_out (bf s)) e \/
             (rcap s < len S /\ exists er a, f (firstn (rcap s) S) = (Err er, a) /\ can_retry (fst er) = true)
  end.

Lemma with_bf_bf s b : bf (with_bf s b) = b. Proof. reflexivity. Qed.

Lemma firstn_all_stream b : wf b -> src (rd b) = [] -> firstn (n_bytes b) (stream b) = stream b.
Proof. intros W H. apply firstn_all2. rewrite stream_length, H by exact W. cbn. lia. Qed.

Lemma retry_fresh {A} (f : jop A) eager fuel : forall s,
  weakly_stable eager f -> bounded f ->
  wf (bf s) -> jlen s = n_bytes (bf s) -> jidx s = 0 -> len (src (rd (bf s))) < fuel ->
  exists s' r, retry_loop fuel f eager s = Done (s', r) /\ loop_post f eager s s' r.
Proof.
  induction fuel as [|fuel IH]; intros s Hst Hbd W HL HI Hf; [lia|].
  assert (V : valid s) by (unfold valid; repeat split; auto; lia).
  cbn [retry_loop]. unfold jcall.
  assert (Hview : jview s = firstn (n_bytes (bf s)) (stream (bf s))).
  { rewrite jview_rest by exact V. unfold rest. rewrite HI, Nat.sub_0_r. reflexivity. }
  assert (Hsplit : stream (bf s) = jview s ++ src (rd (bf s))).
  { rewrite <- jview_split by exact V. unfold rest. rewrite HI. reflexivity. }
  assert (Hvl : len (jview s) = n_bytes (bf s)) by (rewrite jview_length by exact V; lia).
  rewrite HI. cbn [Nat.add].
  destruct (f (jview s)) as [r a] eqn:Ef.
  set (s1 := mkRj (bf s) (jlen s) a).
  set (r' := match r with Ok v => Ok v | Err (e, o) => Err (e, o) end).
  assert (Hr' : r' = r) by (unfold r'; destruct r as [v|[e o]]; reflexivity). rewrite Hr'. clear r' Hr'.
  (* the case "read more" *)
  assert (Hmore :
    (exists er, r = Err er /\ can_retry (fst er) = true) \/
    (exists v, r = Ok v /\ eager = true /\ a = n_bytes (bf s)) ->
    exists s' r',
      match read_more (bf s1) with
      | (b, Err e) => Done (with_bf s1 b, Err e)
      | (b, Ok 0) =>
          let s2 := with_bf s1 b in
          Done (s2, match r with Ok v => Ok v | Err e => Err (from_jiter_error (current_index s2) e) end)
      | (b, Ok (S _)) => retry_loop fuel f eager (create_new_jiter (with_bf s1 b))
      end = Done (s', r') /\ loop_post f eager s s' r').
  { intros Hcase. change (bf s1) with (bf s). destruct (read_more (bf s)) as [b2 r2] eqn:Er.
    destruct (read_more_spec _ _ _ W Er) as (C2 & N2 & Q2 & P2).
    assert (St : stream b2 = stream (bf s)) by (eapply cut_nil_stream; eauto).
    assert (W2 : wf b2) by (eapply cut_wf; eauto).
    assert (Cp : cap b2 = cap (bf s)) by (eapply cut_cap; eauto).
    assert (T2 : n_shifted_out b2 + len (stream b2) = n_shifted_out (bf s) + len (stream (bf s))) by (eapply cut_total; eauto).
    destruct r2 as [[|k]|e].
    - destruct P2 as (A1 & A2 & A3). eexists _, _. split; [reflexivity|].
      unfold loop_post, rcap, rquiet, total. cbn [with_bf bf s1 jlen].
      split; [exact W2|]. split; [exact Cp|]. split; [exact Q2|]. split; [exact T2|].
      split; [exact St|]. split; [exact N2|]. split; [lia|].
      specialize (A3 eq_refl).
      destruct (src (rd (bf s))) as [|y t] eqn:Esrc.
      + (* end of input: the view is everything *)
        assert (Hall : jview s = stream (bf s)) by (rewrite Hsplit, app_nil_r; reflexivity).
        rewrite Hall in Ef. destruct Hcase as [(er & -> & Hre)|(v & -> & He & Ha)].
        * right. left. exists er, a. split; [exact Ef|]. intros _. unfold current_index. cbn [with_bf bf s1 jidx]. rewrite N2. reflexivity.
        * split; [unfold valid; cbn [with_bf bf s1 jlen jidx]; repeat split; auto; lia|].
          left. exists a. split; [exact Ef|]. unfold rest. cbn [with_bf bf s1 jidx]. rewrite St. reflexivity.
      + assert (Hfull : n_bytes (bf s) = cap (bf s)) by (destruct A3; [assumption|congruence]).
        assert (Hlt : cap (bf s) < len (stream (bf s))).
        { rewrite stream_length by exact W. rewrite Esrc. cbn. lia. }
        rewrite Hview, Hfull in Ef. destruct Hcase as [(er & -> & Hre)|(v & -> & He & Ha)].
        * right. right. split; [exact Hlt|]. exists er, a. auto.
        * split; [unfold valid; cbn [with_bf bf s1 jlen jidx]; repeat split; auto; lia|].
          right. rewrite Ha, Hfull in Ef. repeat split; auto.
          unfold rest. cbn [with_bf bf s1 jidx]. rewrite St, Ha, Hfull. reflexivity.
    - destruct P2 as (A1 & A2 & _).
      destruct (IH (create_new_jiter (with_bf s1 b2)) Hst Hbd) as (s' & r' & E & P); try reflexivity.
      { exact W2. } { cbn. lia. }
      exists s', r'. split; [exact E|].
      unfold loop_post, rcap, rquiet, total in *. cbn [create_new_jiter with_bf bf s1] in P.
      rewrite St in P. rewrite Cp in P. rewrite N2 in P.
      destruct P as (P1 & P2' & P3 & P4 & P5 & P6 & P6' & P7).
      repeat (split; [now auto|]). destruct r' as [v|e]; [exact P7|].
      destruct P7 as [(PA & B)|P7]; [|right; exact P7]. left. split; [exact PA|].
      destruct (quiet (bf s)); [rewrite Q2 in B by reflexivity; discriminate|reflexivity].
    - destruct P2 as ((kind & ->) & A1 & A2 & A3 & Hnq). eexists _, _. split; [reflexivity|].
      unfold loop_post, rcap, rquiet, total. cbn [with_bf bf s1 jlen].
      repeat (split; [now (auto || lia)|]). left. auto. }
  destruct r as [v|er].
  - destruct (really_ok eager s1) eqn:Erk.
    + eexists _, _. split; [reflexivity|]. unfold loop_post, rcap, rquiet, total. cbn [s1 bf jlen].
      assert (Ha : a <= n_bytes (bf s)) by (rewrite <- Hvl; eapply Hbd; eauto).
      do 7 (split; [now auto|]).
      split; [unfold valid; cbn [s1 bf jlen jidx]; repeat split; auto|].
      left. exists a. split; [|reflexivity].
      rewrite Hsplit. destruct (Hst (jview s) (src (rd (bf s)))) as [(e & o & a' & Hx & _)|[(He & v' & Hx)|[Hx|(( e & a' & Hx) & _)]]].
      * rewrite Ef in Hx. discriminate.
      * rewrite Ef in Hx. injection Hx as _ Hx. unfold really_ok in Erk. rewrite He in Erk. cbn [negb orb s1 jidx bf] in Erk.
        apply Nat.ltb_lt in Erk. lia.
      * rewrite Hx. exact Ef.
      * rewrite Ef in Hx. discriminate.
    + apply Hmore. right. exists v. unfold really_ok in Erk. cbn [s1 jidx bf] in Erk.
      apply orb_false_iff in Erk as [E1 E2]. apply Nat.ltb_ge in E2.
      assert (Ha : a <= n_bytes (bf s)) by (rewrite <- Hvl; eapply Hbd; eauto).
      destruct eager; [|discriminate]. repeat split. lia.
  - destruct (can_retry (fst er)) eqn:Ecr; [apply Hmore; left; eauto|].
    eexists _, _. split; [reflexivity|]. unfold loop_post, rcap, rquiet, total. cbn [s1 bf jlen].
    do 7 (split; [now auto|]). right. left. unfold rejected. rewrite Hsplit.
    assert (Hne : eof_kind (fst er) = false).
    { destruct er as [[[]| | |] o]; try reflexivity; discriminate. }
    assert (Hx : exists e' a', f (jview s ++ src (rd (bf s))) = (Err e', a') /\
                  (stable eager f -> f (jview s ++ src (rd (bf s))) = (Err er, a))).
    { destruct (Hst (jview s) (src (rd (bf s)))) as [(e & o & a' & Hx & He)|[(He & v' & Hx)|[Hx|(_ & e' & a' & Hx)]]].
      - rewrite Ef in Hx. injection Hx as -> _. cbn in Hne. congruence.
      - rewrite Ef in Hx. discriminate.
      - rewrite Hx, Ef. eauto.
      - exists e', a'. split; [exact Hx|]. intros Hs.
        destruct (Hs (jview s) (src (rd (bf s)))) as [(e & o & a2 & Hy & He)|[(He & v' & Hy)|Hy]].
        + rewrite Ef in Hy. injection Hy as -> _. cbn in Hne. congruence.
        + rewrite Ef in Hy. discriminate.
        + rewrite Hy. exact Ef. }
    destruct Hx as (e' & a' & Hx & Hs). exists e', a'. split; [exact Hx|]. intros Hst'.
    rewrite Hs in Hx by exact Hst'. injection Hx as <- <-. reflexivity.
Qed.

(** ** The retry loop on a view that was not renewed *)
(** [f] fails on an empty input. *)
Definition no_empty {A} (f : jop A) : Prop := exists e a, f [] = (Err e, a).

(** Second attempt of a call whose first attempt moved the index by [a0] and whose buffer did not change. *)
Definition stale_ok {A} (f : jop A) (eager : bool) (token : option byte) (s : rj) (v : A) (l' : bytes) : Prop :=
  jidx s = 0 /\ strip token (rest s) = rest s /\
  exists r0 a0 a1, f (jview s) = (r0, a0) /\ 0 < a0 /\
    match r0 with Ok _ => eager = true /\ a0 = len (jview s) | Err _ => True end /\
    f (skipn a0 (jview s)) = (Ok v, a1) /\ l' = skipn (a0 + a1) (rest s).
Definition stale_err {A} (f : jop A) (eager : bool) (token : option byte) (s : rj) : Prop :=
  jidx s = 0 /\ strip token (rest s) = rest s /\
  exists r0 a0 er a1, f (jview s) = (r0, a0) /\ 0 < a0 /\
    match r0 with Ok _ => eager = true /\ a0 = len (jview s) | Err _ => True end /\
    f (skipn a0 (jview s)) = (Err er, a1) /\
    (can_retry (fst er) = false \/ src (rd (bf s)) = [] \/ n_bytes (bf s) = rcap s).

Definition op_post {A} (f : jop A) (eager : bool) (token : option byte) (s s' : rj) (r : result A rerror) : Prop :=
  let R := rest s in
  let S := strip token R in
  match r with
  | Ok v =>
      valid s' /\ rcap s' = rcap s /\ (rquiet s = true -> rquiet s' = true) /\ total s' = total s /\
      (parsed f R v (rest s') \/ parsed f S v (rest s') \/
       (eager = true /\ rcap s < len S /\ f (firstn (rcap s) S) = (Ok v, rcap s) /\ rest s' = skipn (rcap s) S) \/
       stale_ok f eager token s v (rest s'))
  | Err e =>
      (is_io e = true /\ rquiet s = false) \/
      rejected eager f S (total s - len S) e \/
      (rcap s < len S /\ exists er a, f (firstn (rcap s) S) = (Err er, a) /\ can_retry (fst er) = true) \/
      stale_err f eager token s
  end.

Lemma strip_le token l : len (strip token l) <= len l.
Proof.
  unfold strip, skip_aw. destruct token as [t|].
  - pose proof (skipn_length (run_length is_ascii_whitespace l) l) as HH.
    destruct (skipn _ l) as [|x m]; cbn [List.length] in *; [lia|].
    destruct (N.eqb x t); cbn [List.length]; [|lia]. rewrite skipn_length. lia.
  - rewrite skipn_length. lia.
Qed.

Lemma loop_spec {A} (f : jop A) token eager s :
  weakly_stable eager f -> bounded f -> no_empty f ->
  valid s -> 2 <= rcap s ->
  exists s' r, loop_until_success f token eager s = Done (s', r) /\ op_post f eager token s s' r.
Proof.
  intros Hst Hbd Hne V Hc. pose proof V as (W & HL & HI).
  unfold loop_until_success, jcall.
  destruct (f (jview s)) as [r0 a0] eqn:Ef.
  set (s1 := mkRj (bf s) (jlen s) (jidx s + a0)).
  (* the second part *)
  assert (Hagain : match r0 with Ok _ => eager = true /\ a0 = len (jview s) | Err _ => True end ->
    exists s' r, match skip_spaces_feeding s1 (jidx s) token with
    | Done (s2, Ok tt) => retry_loop (fuel_for (bf s2)) f eager s2
    | Done (s2, Err e) => Done (s2, Err e)
    | Panic => Panic
    | Diverge => Diverge
    end = Done (s', r) /\ op_post f eager token s s' r).
  { intros Hr0.
    destruct (feeding_spec s1 (jidx s) token W HI Hc) as (s2 & r2 & E2 & P2). rewrite E2.
    destruct r2 as [[]|e2].
    2:{ eexists _, _. split; [reflexivity|]. left. destruct P2 as (P2 & P2'). split; [exact P2'|exact P2]. }
    destruct P2 as (W2 & C2 & Q2 & T2 & S2 & P2).
    change (stream (bf s1)) with (stream (bf s)) in *. change (n_bytes (bf s1)) with (n_bytes (bf s)) in *.
    change (rcap s1) with (rcap s) in *. change (rquiet s1) with (rquiet s) in *. change (total s1) with (total s) in *.
    fold (rest s) in S2.
    assert (Fresh : forall s3 fuel, wf (bf s3) -> rcap s3 = rcap s -> (rquiet s = true -> rquiet s3 = true) ->
        total s3 = total s -> stream (bf s3) = strip token (rest s) -> jlen s3 = n_bytes (bf s3) -> jidx s3 = 0 ->
        len (src (rd (bf s3))) < fuel ->
        exists s' r, retry_loop fuel f eager s3 = Done (s', r) /\ op_post f eager token s s' r).
    { intros s3 fuel W3 C3 Q3 T3 S3 L3 I3 F3.
      destruct (retry_fresh f eager fuel s3 Hst Hbd W3 L3 I3 F3) as (s' & r & E & P).
      exists s', r. split; [exact E|]. unfold loop_post in P. rewrite S3, C3 in P.
      destruct P as (P1 & P3 & P4 & P5 & P6 & P7 & P8 & P9). unfold op_post.
      destruct r as [v|e].
      - destruct P9 as (P9 & P10). split; [exact P9|]. split; [congruence|]. split; [auto|]. split; [congruence|].
        destruct P10 as [P10|P10]; auto.
      - destruct P9 as [(Pio & Pq)|[P9|P9]].
        + left. split; [exact Pio|]. destruct (rquiet s); [rewrite Q3 in Pq by reflexivity; discriminate|reflexivity].
        + right. left. replace (total s - len (strip token (rest s))) with (n_shifted_out (bf s3)); [exact P9|].
          rewrite <- T3. unfold total. rewrite S3. lia.
        + right. right. left. exact P9. }
    destruct P2 as [(L2 & I2)|(Hz & Hs & Hn & Hl & Hi)].
    { apply Fresh; auto. }
    assert (HR : rest s = stream (bf s)) by (unfold rest; rewrite Hz; reflexivity).
    assert (HSR : strip token (rest s) = rest s) by congruence.
    change (jlen s1) with (jlen s) in *. change (jidx s1) with (jidx s + a0) in *.
    destruct (Nat.eq_dec a0 0) as [Ha|Ha].
    { apply Fresh; auto; try lia. }
    (* stale *)
    assert (Hview : jview s2 = skipn a0 (jview s)).
    { unfold jview. rewrite Hl, Hi, Hz. cbn [Nat.add skipn]. rewrite HL.
      rewrite <- (stream_firstn (bf s)) by exact W. rewrite <- Hs, <- Hn.
      rewrite stream_firstn by exact W2. reflexivity. }
    unfold fuel_for. remember (len (src (rd (bf s2)))) as fu eqn:Efu.
    cbn [retry_loop]. unfold jcall. rewrite Hview.
    destruct (f (skipn a0 (jview s))) as [r1 a1] eqn:E1.
    set (s3 := mkRj (bf s2) (jlen s2) (jidx s2 + a1)).
    assert (Hl3 : len (src (rd (bf s2))) = len (src (rd (bf s)))).
    { pose proof (stream_length (bf s2) W2). pose proof (stream_length (bf s) W). rewrite Hs in *. lia. }
    assert (Hok : forall v b, r1 = Ok v -> wf b -> cap b = rcap s -> (rquiet s = true -> quiet b = true) ->
        n_shifted_out b + len (stream b) = total s -> stream b = rest s -> n_bytes b = n_bytes (bf s) ->
        op_post f eager token s (with_bf s3 b) (Ok v)).
    { intros v b -> Wb Cb Qb Tb Sb Nb.
      assert (Hlt : a0 < len (jview s)).
      { destruct (Nat.lt_ge_cases a0 (len (jview s))) as [?|Hge]; [assumption|].
        rewrite skipn_all2 in E1 by exact Hge. destruct Hne as (e & a & Hne). congruence. }
      pose proof (Hbd _ _ _ E1) as Hb1. rewrite skipn_length in Hb1.
      rewrite jview_length in Hlt, Hb1 by exact V.
      assert (Hidx : jidx s2 + a1 = a0 + a1) by lia.
      split.
      { unfold valid. cbn [with_bf s3 bf jlen jidx]. rewrite Hidx. repeat split; auto; try lia. }
      split; [exact Cb|]. split; [exact Qb|]. split; [exact Tb|].
      right. right. right. split; [exact Hz|]. split; [exact HSR|].
      exists r0, a0, a1. rewrite Ef, E1. repeat split; auto; try lia.
      change (skipn (jidx s2 + a1) (stream b) = skipn (a0 + a1) (rest s)). rewrite Sb, Hidx. reflexivity. }
    destruct (read_more (bf s3)) as [b4 r4] eqn:Erm.
    pose proof (read_more_spec (bf s3) b4 r4 W2 Erm) as (C4 & N4 & Q4 & P4). cbn [s3 bf] in C4, N4, Q4, P4.
    assert (W4 : wf b4) by (eapply cut_wf; eauto).
    assert (St4 : stream b4 = stream (bf s2)) by (eapply cut_nil_stream; eauto).
    assert (Cp4 : cap b4 = rcap s) by (rewrite <- C2; eapply cut_cap; eauto).
    assert (T4 : n_shifted_out b4 + len (stream b4) = total s) by (rewrite <- T2; eapply cut_total; eauto).
    assert (Q4' : rquiet s = true -> quiet b4 = true) by (intros; apply Q4, Q2; assumption).
    assert (Hmore : (match r1 with Ok v => eager = true | Err er => can_retry (fst er) = true end) ->
      exists s' r,
        match r4 with
        | Ok 0 => Done (with_bf s3 b4, match r1 with Ok v => Ok v | Err (e, o) => Err (from_jiter_error (current_index (with_bf s3 b4)) (e, jidx s2 + o)) end)
        | Ok (S _) => retry_loop fu f eager (create_new_jiter (with_bf s3 b4))
        | Err e => Done (with_bf s3 b4, Err e)
        end = Done (s', r) /\ op_post f eager token s s' r).
    { intros Hr1. destruct r4 as [[|k]|e].
      - destruct P4 as (A1 & A2 & A3). eexists _, _. split; [reflexivity|]. specialize (A3 eq_refl).
        destruct r1 as [v|[e o]].
        + apply Hok; auto; try congruence; try lia.
        + right. right. right. split; [exact Hz|]. split; [exact HSR|].
          exists r0, a0, (e, o), a1. rewrite Ef, E1. repeat split; auto; try lia.
          right. destruct A3 as [A3|A3].
          * right. rewrite <- Hn, A3. unfold rcap in *. congruence.
          * left. rewrite A3 in Hl3. destruct (src (rd (bf s))); [reflexivity|discriminate].
      - destruct P4 as (A1 & A2 & _). apply Fresh; cbn [create_new_jiter with_bf s3 bf jlen jidx]; auto; try congruence. lia.
      - destruct P4 as ((kind & ->) & A1 & A2 & A3 & Hnq). eexists _, _. split; [reflexivity|].
        left. split; [reflexivity|]. destruct (rquiet s); [unfold rquiet in Q2; rewrite Q2 in Hnq by reflexivity; discriminate|reflexivity]. }
    destruct r1 as [v|[e o]].
    - destruct (really_ok eager s3) eqn:Erk.
      + eexists _, _. split; [reflexivity|].
        apply (Hok v (bf s2)); auto; try congruence.
      + destruct r4 as [[|k]|e4]; apply Hmore; unfold really_ok in Erk; destruct eager; auto; discriminate.
    - cbn [fst] in *. destruct (can_retry e) eqn:Ecr.
      + destruct r4 as [[|k]|e4]; apply Hmore; reflexivity.
      + eexists _, _. split; [reflexivity|]. right. right. right. split; [exact Hz|]. split; [exact HSR|].
        exists r0, a0, (e, o), a1. rewrite Ef, E1. repeat split; auto; lia. }
  destruct r0 as [v|[e o]].
  - destruct (really_ok eager s1) eqn:Erk.
    + eexists _, _. split; [reflexivity|].
      pose proof (Hbd _ _ _ Ef) as Hb. rewrite jview_length in Hb by exact V.
      split; [unfold valid; cbn [s1 bf jlen jidx]; repeat split; auto; lia|].
      split; [reflexivity|]. split; [auto|]. split; [reflexivity|]. left. exists a0. split.
      2:{ unfold rest. cbn [s1 bf jidx]. rewrite skipn_skipn. f_equal; lia. }
      rewrite (jview_split s V).
      destruct (Hst (jview s) (src (rd (bf s)))) as [(e & o & a' & Hx & _)|[(He & v' & Hx)|[Hx|((e & a' & Hx) & _)]]].
      * rewrite Ef in Hx. discriminate.
      * rewrite Ef in Hx. injection Hx as _ Hx. unfold really_ok in Erk. rewrite He in Erk. cbn [negb orb s1 jidx bf] in Erk.
        apply Nat.ltb_lt in Erk. rewrite jview_length in Hx by exact V. lia.
      * rewrite Hx. exact Ef.
      * rewrite Ef in Hx. discriminate.
    + apply Hagain. unfold really_ok in Erk. cbn [s1 jidx bf] in Erk. apply orb_false_iff in Erk as [E1 E2].
      apply Nat.ltb_ge in E2. pose proof (Hbd _ _ _ Ef) as Hb. rewrite jview_length in * by exact V.
      destruct eager; [|discriminate]. split; [reflexivity|lia].
  - apply Hagain. exact I.
Qed.
