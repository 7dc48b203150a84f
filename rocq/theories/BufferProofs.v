(** Proofs about the stream buffer. *)
From Verif Require Import Base Buffer BufferSpec.

(** ** Lists *)
Lemma firstn_app_le {A} (l m : list A) n : n <= List.length l -> firstn n (l ++ m) = firstn n l.
Proof. intros H. rewrite firstn_app. replace (n - List.length l) with 0 by lia. apply app_nil_r. Qed.
Lemma firstn_app_all {A} (l m : list A) : firstn (List.length l) (l ++ m) = l.
Proof. rewrite firstn_app_le by lia. apply firstn_all. Qed.
Lemma skipn_app_all {A} (l m : list A) : skipn (List.length l) (l ++ m) = m.
Proof. rewrite skipn_app, skipn_all, Nat.sub_diag. reflexivity. Qed.
Lemma skipn_skipn {A} (l : list A) i j : skipn i (skipn j l) = skipn (j + i) l.
Proof.
  revert l. induction j as [|j IH]; intros l; [reflexivity|].
  destruct l; [rewrite !skipn_nil; reflexivity|]. apply IH.
Qed.
Lemma skipn_firstn {A} (l : list A) i n : skipn i (firstn n l) = firstn (n - i) (skipn i l).
Proof.
  revert n l. induction i as [|i IH]; intros n l; [rewrite Nat.sub_0_r; reflexivity|].
  destruct l; [rewrite firstn_nil, !skipn_nil, firstn_nil; reflexivity|].
  destruct n; [reflexivity|]. cbn [firstn skipn Nat.sub]. apply IH.
Qed.
Lemma app_same_length {A} (a b c d : list A) :
  a ++ b = c ++ d -> List.length a = List.length c -> a = c /\ b = d.
Proof.
  revert c. induction a as [|x a IH]; intros [|y c] H L; cbn in *; try discriminate; auto.
  injection H as -> H. destruct (IH c H) as [-> ->]; auto.
Qed.
Lemma firstn_length_le' {A} (l : list A) n : n <= List.length l -> List.length (firstn n l) = n.
Proof. intros. rewrite firstn_length. lia. Qed.

(** ** The stream *)
Lemma stream_firstn b : wf b -> firstn (n_bytes b) (stream b) = firstn (n_bytes b) (buf b).
Proof.
  intros H. unfold stream. rewrite firstn_app_le by (rewrite firstn_length_le' by exact H; lia).
  rewrite firstn_firstn, Nat.min_id. reflexivity.
Qed.
Lemma stream_skipn b : wf b -> skipn (n_bytes b) (stream b) = src (rd b).
Proof.
  intros H. unfold stream. rewrite skipn_app, firstn_length_le' by exact H.
  rewrite Nat.sub_diag, skipn_all2 by (rewrite firstn_length_le' by exact H; lia). reflexivity.
Qed.
Lemma stream_length b : wf b -> len (stream b) = n_bytes b + len (src (rd b)).
Proof. intros H. unfold stream. rewrite app_length, firstn_length_le' by exact H. reflexivity. Qed.

Lemma write_at_firstn l a d : a + len d <= len l -> firstn (a + len d) (write_at l a d) = firstn a l ++ d.
Proof.
  intros H. unfold write_at. rewrite app_assoc.
  rewrite firstn_app_le by (rewrite app_length, firstn_length; lia).
  apply firstn_all2. rewrite app_length, firstn_length. lia.
Qed.
Lemma write_at_length l a d : a + len d <= len l -> len (write_at l a d) = len l.
Proof. intros H. unfold write_at. rewrite !app_length, firstn_length, skipn_length. lia. Qed.

Lemma cut_refl b p : wf b -> cut b p [] b.
Proof.
  intros H. unfold cut. cbn [advance_pos len List.length]. repeat split; auto.
  exists [], (stream b). auto.
Qed.

Lemma advance_pos_app l c d e :
  advance_pos l c (d ++ e) = let '(l', c') := advance_pos l c d in advance_pos l' c' e.
Proof.
  revert l c. induction d as [|x d IH]; intros l c; [reflexivity|].
  cbn [app advance_pos]. destruct (N.eqb x newline); apply IH.
Qed.

Lemma cut_trans b p d1 b1 d2 b2 : cut b p d1 b1 -> cut b1 p d2 b2 -> cut b p (d1 ++ d2) b2.
Proof.
  intros (W1 & C1 & S1 & P1 & a1 & c1 & E1 & F1 & L1) (W2 & C2 & S2 & P2 & a2 & c2 & E2 & F2 & L2).
  unfold cut. split; [exact W2|]. split; [congruence|]. split; [rewrite app_length; lia|].
  split.
  { rewrite advance_pos_app. destruct (advance_pos _ _ d1) as [l c]. injection P1 as <- <-. exact P2. }
  destruct L1 as [->|L1].
  - exists a2, c2. cbn [app] in *. rewrite E1, <- F1, E2. auto.
  - destruct L2 as [->|L2].
    + exists a1, c1. rewrite app_nil_r. cbn [app] in *. rewrite F2, <- E2, F1. auto.
    + rewrite F1 in E2. destruct (app_same_length _ _ _ _ E2 ltac:(congruence)) as [-> ->].
      exists a2, c2. rewrite E1, <- !app_assoc. auto.
Qed.

Lemma cut_wf b p d b' : cut b p d b' -> wf b'. Proof. intros H. apply H. Qed.
Lemma cut_cap b p d b' : cut b p d b' -> cap b' = cap b. Proof. intros H. apply H. Qed.
Lemma cut_nil_stream b p b' : cut b p [] b' -> stream b' = stream b.
Proof. intros (_ & _ & _ & _ & a & c & E & F & _). cbn [app] in E. congruence. Qed.
Lemma cut_nil_any b p q b' : cut b p [] b' -> cut b q [] b'.
Proof. intros (W & C & S & P & a & c & E & F & _). unfold cut. repeat split; auto. exists a, c. auto. Qed.
Lemma cut_front b d b' : cut b 0 d b' -> stream b = d ++ stream b'.
Proof.
  intros (_ & _ & _ & _ & a & c & E & F & [->|L]).
  - cbn [app] in *. congruence.
  - destruct a; [|discriminate]. cbn [app] in *. congruence.
Qed.
Lemma front_cut b d b' :
  wf b' -> cap b' = cap b -> n_shifted_out b' = n_shifted_out b + len d ->
  (pos_line b', pos_col b') = advance_pos (pos_line b) (pos_col b) d ->
  stream b = d ++ stream b' -> cut b 0 d b'.
Proof. intros. unfold cut. repeat split; auto. exists [], (stream b'). auto. Qed.

(** ** read_more *)
Lemma read_more_spec b b' r :
  wf b -> read_more b = (b', r) ->
  cut b 0 [] b' /\ n_shifted_out b' = n_shifted_out b /\
  (quiet b = true -> quiet b' = true) /\
  match r with
  | Ok k => n_bytes b' = n_bytes b + k /\ len (src (rd b)) = k + len (src (rd b')) /\
            (k = 0 -> n_bytes b = cap b \/ src (rd b) = [])
  | Err e => (exists kind, e = mkErr (IoError kind) (n_bytes b)) /\
             n_bytes b' = n_bytes b /\ src (rd b') = src (rd b) /\ buf b' = buf b /\ quiet b = false
  end.
Proof.
  intros Hw. unfold read_more, reader_read, quiet.
  assert (Hok : forall m s, m <= cap b - n_bytes b ->
            (m = 0 -> n_bytes b = cap b \/ src (rd b) = []) ->
            let d := firstn m (src (rd b)) in
            let b'' := mkBuf (write_at (buf b) (n_bytes b) d) (n_bytes b + len d) (n_shifted_out b)
                         (pos_line b) (pos_col b) (mkReader (skipn m (src (rd b))) s) in
            cut b 0 [] b'' /\ len (src (rd b)) = len d + len (src (rd b'')) /\
            (len d = 0 -> n_bytes b = cap b \/ src (rd b) = [])).
  { intros m s Hm H0 d b''. unfold wf, cap in *.
    assert (Hd : n_bytes b + len d <= len (buf b)) by (unfold d; rewrite firstn_length; lia).
    split; [|split].
    - apply front_cut; unfold wf, cap; cbn [b'' buf n_bytes n_shifted_out pos_line pos_col].
      + rewrite write_at_length by exact Hd. exact Hd.
      + apply write_at_length. exact Hd.
      + cbn. lia.
      + reflexivity.
      + unfold stream. cbn [b'' buf n_bytes rd src app]. rewrite write_at_firstn by exact Hd.
        rewrite <- app_assoc. unfold d. rewrite firstn_skipn. reflexivity.
    - cbn [b'' rd src]. unfold d. rewrite firstn_length, skipn_length. lia.
    - intros Hz. destruct m; [auto|]. right.
      unfold d in Hz. destruct (src (rd b)); [reflexivity|discriminate]. }
  destruct (sched (rd b)) as [|[k|e] s] eqn:Es; cbn [forallb]; intros H; injection H as <- <-.
  - destruct (Hok (len (buf b) - n_bytes b) []) as (H1 & H2 & H3); [unfold cap; lia| |].
    { unfold cap. intros; left. unfold wf in Hw. lia. }
    cbn [n_bytes n_shifted_out rd sched]. repeat split; auto; apply H1.
  - destruct (Hok (Nat.min (len (buf b) - n_bytes b) (S k)) s) as (H1 & H2 & H3); [unfold cap; lia| |].
    { unfold cap. intros; left. unfold wf in Hw. lia. }
    cbn [n_bytes n_shifted_out rd sched]. repeat split; auto; apply H1.
  - split; [|split; [reflexivity|split; [discriminate|]]].
    + apply front_cut; auto; try (cbn; lia).
    + cbn. repeat split; eauto.
Qed.

(** ** shift_buffer *)
Lemma shift_spec b t f :
  wf b ->
  let e := Nat.min f (n_bytes b) in
  let drop := firstn (e - t) (skipn t (stream b)) in
  cut b t drop (shift_buffer b t f) /\
  n_bytes (shift_buffer b t f) = n_bytes b - (e - t) /\
  len drop = e - t /\
  rd (shift_buffer b t f) = rd b.
Proof.
  intros Hw e drop.
  assert (Hlen : len drop = e - t).
  { unfold drop. rewrite firstn_length, skipn_length, stream_length by exact Hw. lia. }
  assert (Hdrop : drop = firstn (e - t) (skipn t (buf b))).
  { unfold drop, stream. rewrite skipn_app, firstn_length_le' by exact Hw.
    rewrite skipn_firstn, firstn_app, firstn_firstn.
    rewrite firstn_length, skipn_length.
    unfold wf in Hw.
    replace (Nat.min (e - t) (n_bytes b - t)) with (e - t) by lia.
    replace (e - t - Nat.min (n_bytes b - t) (len (buf b) - t)) with 0 by lia.
    rewrite firstn_O. apply app_nil_r. }
  unfold shift_buffer. fold e.
  destruct (Nat.ltb_spec t e) as [Hte|Hte].
  - rewrite <- Hdrop.
    destruct (advance_pos (pos_line b) (pos_col b) drop) as [l c] eqn:Hp.
    destruct (Nat.ltb_spec t f) as [H1|H1]; [|lia].
    destruct (Nat.ltb_spec t (n_bytes b)) as [H2|H2]; [|lia]. cbn [andb].
    set (buf' := if f <? n_bytes b then _ else _).
    assert (Hb' : len buf' = len (buf b) /\
                  firstn (n_bytes b - (e - t)) buf' = firstn t (buf b) ++ firstn (n_bytes b - e) (skipn e (buf b))).
    { unfold buf'. unfold wf in Hw. destruct (Nat.ltb_spec f (n_bytes b)) as [H3|H3].
      - assert (e = f) by lia. rewrite H in *.
        assert (Hl : len (firstn (n_bytes b - f) (skipn f (buf b))) = n_bytes b - f)
          by (rewrite firstn_length, skipn_length; lia).
        split; [apply write_at_length; lia|].
        replace (n_bytes b - (f - t)) with (t + len (firstn (n_bytes b - f) (skipn f (buf b)))) by lia.
        apply write_at_firstn. lia.
      - split; [reflexivity|].
        replace (n_bytes b - (e - t)) with t by lia.
        replace (n_bytes b - e) with 0 by lia. rewrite firstn_O, app_nil_r. reflexivity. }
    destruct Hb' as [HL HF].
    assert (Hst : stream b = firstn t (buf b) ++ drop ++ firstn (n_bytes b - e) (skipn e (buf b)) ++ src (rd b)).
    { unfold stream. rewrite !app_assoc. f_equal. rewrite Hdrop.
      rewrite <- (firstn_skipn e (firstn (n_bytes b) (buf b))).
      f_equal.
      - rewrite firstn_firstn. replace (Nat.min e (n_bytes b)) with e by lia.
        rewrite <- (firstn_skipn t (firstn e (buf b))). f_equal.
        + rewrite firstn_firstn. f_equal. lia.
        + apply skipn_firstn.
      - apply skipn_firstn. }
    split; [|split; [reflexivity|split; [exact Hlen|reflexivity]]].
    unfold cut, wf, cap. cbn [buf n_bytes n_shifted_out pos_line pos_col].
    unfold wf in Hw. split; [lia|]. split; [exact HL|]. split; [lia|]. split; [auto|].
    exists (firstn t (buf b)), (firstn (n_bytes b - e) (skipn e (buf b)) ++ src (rd b)).
    split; [exact Hst|]. split.
    + unfold stream. cbn [buf n_bytes rd]. rewrite HF, <- app_assoc. reflexivity.
    + right. apply firstn_length_le'. lia.
  - assert (Hnil : drop = []) by (destruct drop; [reflexivity|cbn in Hlen; lia]).
    rewrite Hnil.
    replace (e - t) with 0 by lia.
    match goal with |- context [if ?B then _ else _] => replace (if B then _ else _)
      with (mkBuf (buf b) (n_bytes b) (n_shifted_out b) (pos_line b) (pos_col b) (rd b)) end.
    2:{ destruct (Nat.ltb_spec t f); destruct (Nat.ltb_spec t (n_bytes b)); cbn [andb]; try reflexivity. lia. }
    replace (mkBuf (buf b) (n_bytes b) (n_shifted_out b) (pos_line b) (pos_col b) (rd b)) with b
      by (destruct b; reflexivity).
    split; [apply cut_refl; exact Hw|]. repeat split; lia.
Qed.

Lemma shift_front b f :
  wf b -> f <= n_bytes b ->
  cut b 0 (firstn f (stream b)) (shift_buffer b 0 f) /\
  n_bytes (shift_buffer b 0 f) = n_bytes b - f /\ len (firstn f (stream b)) = f /\
  rd (shift_buffer b 0 f) = rd b /\ stream (shift_buffer b 0 f) = skipn f (stream b).
Proof.
  intros Hw Hf. destruct (shift_spec b 0 f Hw) as (H1 & H2 & H3 & H4).
  rewrite Nat.sub_0_r, Nat.min_l in H1, H2, H3 by lia. cbn [skipn] in *.
  repeat split; auto; try apply H1.
  apply cut_front in H1. apply (app_inv_head (firstn f (stream b))).
  rewrite <- H1. symmetry. apply firstn_skipn.
Qed.

(** ** Runs *)
Lemma run_length_le p l : run_length p l <= List.length l.
Proof. induction l as [|x l IH]; cbn; [lia|]. destruct (p x); lia. Qed.
Lemma run_length_firstn p l n : run_length p (firstn n l) = Nat.min n (run_length p l).
Proof.
  revert n. induction l as [|x l IH]; intros n.
  - rewrite firstn_nil. cbn. lia.
  - destruct n; [reflexivity|]. cbn [firstn run_length]. destruct (p x); [rewrite IH; lia|lia].
Qed.
Lemma run_length_skipn p l n : n <= run_length p l -> run_length p (skipn n l) = run_length p l - n.
Proof.
  revert n. induction l as [|x l IH]; intros n H; cbn [run_length] in *.
  - rewrite skipn_nil. cbn. lia.
  - destruct n; [cbn [skipn run_length]; lia|]. cbn [skipn].
    destruct (p x); [rewrite IH; lia|lia].
Qed.
Lemma run_length_all p l : Forall (fun x => p x = true) (firstn (run_length p l) l).
Proof. induction l as [|x l IH]; cbn; [constructor|]. destruct (p x) eqn:E; cbn; auto. Qed.
Lemma run_length_next p l x : nth_error l (run_length p l) = Some x -> p x = false.
Proof.
  induction l as [|y l IH]; cbn; [discriminate|]. destruct (p y) eqn:E; cbn; auto.
  intros H. congruence.
Qed.

(** The inner loop. *)
Lemma inner_scan b pred cs i :
  wf b -> cs <= i -> i <= n_bytes b -> i <= cs + run_length pred (skipn cs (stream b)) ->
  i + run_length pred (skipn i (firstn (n_bytes b) (buf b))) =
  Nat.min (n_bytes b) (cs + run_length pred (skipn cs (stream b))).
Proof.
  intros Hw H1 H2 H3. rewrite <- (stream_firstn b Hw).
  rewrite skipn_firstn, run_length_firstn.
  replace (skipn i (stream b)) with (skipn (i - cs) (skipn cs (stream b)))
    by (rewrite skipn_skipn; f_equal; lia).
  rewrite run_length_skipn by lia. lia.
Qed.

Definition while_post (b : buffer) (pred : byte -> bool) (start : nat) (allow : bool)
  (b' : buffer) (r : result (nat * nat) rerror) : Prop :=
  exists drop cs,
    cut b 0 drop b' /\ (quiet b = true -> quiet b' = true) /\
    n_bytes b <= n_bytes b' + len drop /\
    (drop = [] /\ cs = start \/
     allow = true /\ 0 < start /\ drop = firstn start (stream b) /\ len drop = start /\ cs = 0) /\
    let run := run_length pred (skipn start (stream b)) in
    match r with
    | Ok (s, e) => s = cs /\ e = cs + run /\ e <= n_bytes b' /\ (e = n_bytes b' -> src (rd b') = [])
    | Err er =>
        match err_type er with
        | BufferFull => n_bytes b' = cap b /\ cap b <= cs + run /\
                        (allow = true -> cs = 0) /\ err_index er = n_shifted_out b'
        | IoError _ => quiet b = false
        | _ => False
        end
    end.

Lemma cut_quiet_trans (b b1 b2 : buffer) :
  (quiet b = true -> quiet b1 = true) -> (quiet b1 = true -> quiet b2 = true) ->
  quiet b = true -> quiet b2 = true.
Proof. auto. Qed.

Lemma quiet_rd b b' : rd b' = rd b -> quiet b' = quiet b.
Proof. unfold quiet. intros ->. reflexivity. Qed.

(** Loop invariant of [collect_while]. *)
Lemma collect_while_loop_spec fuel : forall b0 pred start allow b drop i cs shifted,
  wf b -> start <= n_bytes b0 ->
  cut b0 0 drop b -> (quiet b0 = true -> quiet b = true) -> n_bytes b0 <= n_bytes b + len drop ->
  ((shifted = false /\ drop = [] /\ cs = start) \/
   (shifted = true /\ allow = true /\ 0 < start /\ drop = firstn start (stream b0) /\ len drop = start /\ cs = 0)) ->
  cs <= i -> i <= n_bytes b -> i <= cs + run_length pred (skipn cs (stream b)) ->
  len (src (rd b)) < fuel ->
  exists b' r, collect_while_loop fuel b pred start allow i cs shifted = Done (b', r) /\
    while_post b0 pred start allow b' r.
Proof.
  induction fuel as [|fuel IH]; intros b0 pred start allow b drop i cs shifted Hw Hst Hc Hq Hmono Hsh H1 H2 H3 Hf; [lia|].
  cbn [collect_while_loop].
  rewrite (inner_scan b pred cs i Hw H1 H2 H3).
  set (R := run_length pred (skipn cs (stream b))) in *.
  assert (HR : R = run_length pred (skipn start (stream b0))).
  { destruct Hsh as [(_ & -> & ->)|(_ & _ & _ & Hd & HL & ->)].
    - unfold R. rewrite (cut_nil_stream _ _ _ Hc). reflexivity.
    - unfold R. cbn [skipn]. rewrite (cut_front _ _ _ Hc), <- HL, skipn_app_all. reflexivity. }
  assert (Hsh' : drop = [] /\ cs = start \/
     allow = true /\ 0 < start /\ drop = firstn start (stream b0) /\ len drop = start /\ cs = 0)
    by tauto.
  assert (HRs : cs + R <= len (stream b)).
  { unfold R. pose proof (run_length_le pred (skipn cs (stream b))). rewrite skipn_length in *.
    rewrite stream_length by exact Hw. rewrite stream_length in H by exact Hw. lia. }
  rewrite stream_length in HRs by exact Hw.
  destruct (Nat.ltb_spec (Nat.min (n_bytes b) (cs + R)) (n_bytes b)) as [Hlt|Hge].
  { eexists b, _. split; [reflexivity|]. exists drop, cs. split; [exact Hc|]. split; [exact Hq|].
    split; [exact Hmono|]. split; [exact Hsh'|]. cbn zeta. rewrite <- HR. repeat split; lia. }
  assert (Hfull : n_bytes b <= cs + R) by lia.
  replace (Nat.min (n_bytes b) (cs + R)) with (n_bytes b) by lia.
  assert (Hcont : forall b1 drop1 i1 cs1 sh1,
    wf b1 -> cut b0 0 drop1 b1 -> (quiet b0 = true -> quiet b1 = true) -> n_bytes b0 <= n_bytes b1 + len drop1 ->
    ((sh1 = false /\ drop1 = [] /\ cs1 = start) \/
     (sh1 = true /\ allow = true /\ 0 < start /\ drop1 = firstn start (stream b0) /\ len drop1 = start /\ cs1 = 0)) ->
    cs1 <= i1 -> i1 = n_bytes b1 -> n_bytes b1 < cap b1 ->
    i1 <= cs1 + run_length pred (skipn cs1 (stream b1)) ->
    run_length pred (skipn cs1 (stream b1)) = R ->
    len (src (rd b1)) < S fuel ->
    exists b' r,
      match read_more b1 with
      | (b', Err e) => Done (b', Err e)
      | (b', Ok 0) => Done (b', Ok (cs1, n_bytes b'))
      | (b', Ok (S _)) => collect_while_loop fuel b' pred start allow i1 cs1 sh1
      end = Done (b', r) /\ while_post b0 pred start allow b' r).
  { intros b1 drop1 i1 cs1 sh1 W1 C1 Q1 M1 S1 A1 A2 A3 A4 A5 F1.
    assert (S1' : drop1 = [] /\ cs1 = start \/
     allow = true /\ 0 < start /\ drop1 = firstn start (stream b0) /\ len drop1 = start /\ cs1 = 0)
    by tauto.
    destruct (read_more b1) as [b2 r2] eqn:Er.
    destruct (read_more_spec b1 b2 r2 W1 Er) as (C2 & S2 & Q2 & P2).
    assert (C12 := cut_trans _ _ _ _ _ _ C1 C2). rewrite app_nil_r in C12.
    assert (Est : stream b2 = stream b1) by (eapply cut_nil_stream; eauto).
    destruct r2 as [[|k]|e].
    - destruct P2 as (N2 & L2 & Z2). specialize (Z2 eq_refl).
      assert (Hsrc : src (rd b1) = []) by (destruct Z2; [lia|assumption]).
      eexists b2, _. split; [reflexivity|]. exists drop1, cs1.
      split; [exact C12|]. split; [auto|]. split; [lia|]. split; [exact S1'|].
      cbn zeta. rewrite <- HR.
      assert (Hsrc2 : src (rd b2) = []) by (destruct (src (rd b2)); [reflexivity|rewrite Hsrc in L2; cbn in L2; lia]).
      assert (HRle : cs1 + R <= n_bytes b1).
      { pose proof (run_length_le pred (skipn cs1 (stream b1))) as HH.
        rewrite A5, skipn_length, stream_length, Hsrc in HH by exact W1. cbn in HH. lia. }
      repeat split; lia || auto.
    - destruct P2 as (N2 & L2 & _).
      apply (IH b0 pred start allow b2 drop1 i1 cs1 sh1); auto.
      + eapply cut_wf; eauto.
      + lia.
      + lia.
      + rewrite Est. exact A4.
      + lia.
    - destruct P2 as ((kind & ->) & N2 & L2 & B2 & Hnq).
      eexists b2, _. split; [reflexivity|]. exists drop1, cs1.
      split; [exact C12|]. split; [auto|]. split; [lia|]. split; [exact S1'|]. cbn.
      destruct (quiet b0) eqn:E0; [|reflexivity]. rewrite (Q1 eq_refl) in Hnq. discriminate. }
  destruct (Nat.leb_spec (len (buf b)) (n_bytes b)) as [Hcap|Hcap].
  - assert (n_bytes b = cap b) by (unfold wf, cap in *; lia).
    assert (Hcb : cap b = cap b0) by (eapply cut_cap; eauto).
    destruct (negb allow || shifted || (start =? 0)) eqn:Ecase.
    + eexists b, _. split; [reflexivity|]. exists drop, cs.
      split; [exact Hc|]. split; [exact Hq|]. split; [exact Hmono|]. split; [exact Hsh'|]. cbn zeta. rewrite <- HR.
      cbn [err_type err_index]. repeat split; try lia.
    + destruct allow; [|discriminate]. destruct shifted; [discriminate|]. cbn [negb orb] in Ecase.
      apply Nat.eqb_neq in Ecase.
      destruct Hsh as [(_ & -> & ->)|(Habs & _)]; [|discriminate].
      destruct (shift_front b start Hw ltac:(lia)) as (C1 & N1 & L1 & R1 & E1).
      assert (Est : stream b = stream b0) by (eapply cut_nil_stream; eauto).
      assert (C01 := cut_trans _ _ _ _ _ _ Hc C1). cbn [app] in C01.
      apply (Hcont (shift_buffer b 0 start) (firstn start (stream b)) (n_bytes b - start) 0 true).
      * eapply cut_wf; eauto.
      * exact C01.
      * rewrite (quiet_rd _ _ R1). exact Hq.
      * cbn in Hmono. lia.
      * right. rewrite Est in *. repeat split; auto; lia.
      * lia.
      * lia.
      * rewrite N1, (cut_cap _ _ _ _ C1). lia.
      * rewrite E1. cbn [skipn]. fold R. lia.
      * rewrite E1. reflexivity.
      * rewrite R1. exact Hf.
  - apply (Hcont b drop (n_bytes b) cs shifted); auto; fold R; lia.
Qed.

Lemma collect_while_spec b pred start allow :
  wf b -> start <= n_bytes b ->
  exists b' r, collect_while b pred start allow = Done (b', r) /\ while_post b pred start allow b' r.
Proof.
  intros Hw Hs. unfold collect_while, fuel_for.
  apply (collect_while_loop_spec _ b pred start allow b [] start start false); auto; try lia.
  apply cut_refl. exact Hw.
Qed.

(** ** skip_spaces *)
Definition ws_run (b : buffer) (pos : nat) : nat := run_length is_ascii_whitespace (skipn pos (stream b)).

Lemma cut_at b p d b' : cut b p d b' -> d <> [] -> 
  stream b' = firstn p (stream b) ++ skipn (p + len d) (stream b) /\
  d = firstn (len d) (skipn p (stream b)).
Proof.
  intros (_ & _ & _ & _ & a & c & E & F & [->|L]) Hd; [congruence|].
  rewrite E, F. subst p. split.
  - rewrite firstn_app_all. rewrite <- skipn_skipn, !skipn_app_all. reflexivity.
  - rewrite skipn_app_all, firstn_app_all. reflexivity.
Qed.

Lemma skip_spaces_loop_spec fuel : forall b pos,
  wf b -> pos <= n_bytes b -> pos < cap b -> n_bytes b + len (src (rd b)) - pos < fuel ->
  exists b' r drop, skip_spaces_loop fuel b pos = Done (b', r) /\
    cut b pos drop b' /\ (quiet b = true -> quiet b' = true) /\ pos <= n_bytes b' /\
    match r with
    | Ok tt => len drop = ws_run b pos /\ (n_bytes b' = pos -> src (rd b') = [])
    | Err e => quiet b = false /\ len drop <= ws_run b pos /\
               match err_type e with IoError _ => True | _ => False end
    end.
Proof.
  induction fuel as [|fuel IH]; intros b pos Hw Hp Hc Hf; [lia|].
  cbn [skip_spaces_loop].
  destruct (collect_while_spec b is_ascii_whitespace pos false Hw Hp) as (b1 & r1 & E1 & drop & cs & C1 & Q1 & M1 & D1 & P1).
  rewrite E1. destruct D1 as [(-> & ->)|(Habs & _)]; [|discriminate].
  assert (St1 : stream b1 = stream b) by (eapply cut_nil_stream; eauto).
  assert (W1 : wf b1) by (eapply cut_wf; eauto).
  assert (Cp1 : cap b1 = cap b) by (eapply cut_cap; eauto).
  cbn zeta in P1. fold (ws_run b pos) in P1.
  destruct r1 as [[s e]|er].
  - destruct P1 as (-> & -> & He & Hend).
    destruct (Nat.ltb_spec pos (pos + ws_run b pos)) as [H|H].
    + destruct (shift_spec b1 pos (pos + ws_run b pos) W1) as (C2 & N2 & L2 & R2).
      rewrite Nat.min_l in C2, N2, L2 by lia.
      replace (pos + ws_run b pos - pos) with (ws_run b pos) in * by lia.
      exists (shift_buffer b1 pos (pos + ws_run b pos)), (Ok tt), (firstn (ws_run b pos) (skipn pos (stream b1))).
      split; [reflexivity|]. split.
      { apply (cut_trans b pos [] b1 _ _ (cut_nil_any _ _ _ _ C1) C2). }
      rewrite (quiet_rd _ _ R2), N2, R2. repeat split; auto; try lia.
      intros Hz. apply Hend. lia.
    + exists b1, (Ok tt), []. split; [reflexivity|]. split; [eapply cut_nil_any; eauto|].
      repeat split; auto; cbn; try lia. intros; apply Hend; lia.
  - destruct (err_type er) eqn:Et; try contradiction.
    + exists b1, (Err er), []. split; [reflexivity|]. split; [eapply cut_nil_any; eauto|].
      split; [exact Q1|]. split; [cbn in M1; lia|].
      rewrite Et. cbn. repeat split; auto; lia.
    + destruct P1 as (N1 & Hfull & _ & _).
      destruct (shift_spec b1 pos (n_bytes b1) W1) as (C2 & N2 & L2 & R2).
      rewrite Nat.min_id in C2, N2, L2.
      set (b2 := shift_buffer b1 pos (n_bytes b1)) in *.
      assert (W2 : wf b2) by (eapply cut_wf; eauto).
      destruct (IH b2 pos W2) as (b' & r & d & E & C3 & Q3 & N3 & P3).
      { lia. } { rewrite (cut_cap _ _ _ _ C2). lia. }
      { pose proof (stream_length b1 W1). pose proof (stream_length b Hw).
        rewrite St1 in H. rewrite R2. lia. }
      rewrite E. exists b', r, (firstn (n_bytes b1 - pos) (skipn pos (stream b1)) ++ d).
      split; [reflexivity|]. split.
      { apply (cut_trans b pos _ b2 _ _); [|exact C3].
        apply (cut_trans b pos [] b1 _ _ (cut_nil_any _ _ _ _ C1) C2). }
      assert (Hrun : ws_run b pos = (n_bytes b1 - pos) + ws_run b2 pos).
      { unfold ws_run. rewrite <- St1.
        assert (St2 : stream b2 = firstn pos (stream b1) ++ skipn (pos + (n_bytes b1 - pos)) (stream b1)).
        { destruct (cut_at _ _ _ _ C2) as [A _]; [intros Hnil; rewrite Hnil in L2; cbn in L2; lia|].
          rewrite L2 in A. exact A. }
        rewrite St2, skipn_app.
        replace (skipn pos (firstn pos (stream b1))) with (@nil byte) by (rewrite skipn_firstn, Nat.sub_diag; reflexivity).
        rewrite firstn_length, stream_length by exact W1.
        replace (pos - Nat.min pos (n_bytes b1 + len (src (rd b1)))) with 0 by lia. cbn [app skipn].
        rewrite <- skipn_skipn, (run_length_skipn _ (skipn pos (stream b1))).
        - rewrite St1. fold (ws_run b pos). lia.
        - rewrite St1. fold (ws_run b pos). lia. }
      rewrite (quiet_rd _ _ R2) in Q3. split; [auto|]. split; [exact N3|].
      destruct r as [[]|er'].
      * destruct P3 as [A B]. split; [rewrite app_length; lia|exact B].
      * destruct P3 as (A & B & C). split; [|split; [rewrite app_length; lia|exact C]].
        rewrite (quiet_rd _ _ R2) in A. destruct (quiet b); [rewrite Q1 in A by reflexivity; discriminate|reflexivity].
Qed.

Lemma skip_spaces_spec b pos :
  wf b -> pos <= n_bytes b -> pos < cap b ->
  exists b' r drop, skip_spaces b pos = Done (b', r) /\
    cut b pos drop b' /\ (quiet b = true -> quiet b' = true) /\ pos <= n_bytes b' /\
    match r with
    | Ok tt => len drop = ws_run b pos /\ (n_bytes b' = pos -> src (rd b') = [])
    | Err e => quiet b = false /\ len drop <= ws_run b pos /\
               match err_type e with IoError _ => True | _ => False end
    end.
Proof. intros. apply skip_spaces_loop_spec; auto. unfold skip_fuel. lia. Qed.

(** The endless case. *)
Lemma skip_spaces_diverges fuel b pos :
  wf b -> n_bytes b = cap b -> cap b <= pos -> skip_spaces_loop fuel b pos = Diverge.
Proof.
  intros Hw Hn Hp. induction fuel as [|fuel IH]; [reflexivity|].
  cbn [skip_spaces_loop]. unfold collect_while, fuel_for, cap in *. cbn [collect_while_loop].
  rewrite skipn_all2 by (rewrite firstn_length; lia). cbn [run_length].
  destruct (Nat.ltb_spec (pos + 0) (n_bytes b)); [lia|].
  destruct (Nat.leb_spec (len (buf b)) (n_bytes b)); [|lia]. cbn [negb orb err_type].
  replace (shift_buffer b pos (n_bytes b)) with b; [exact IH|].
  unfold shift_buffer. rewrite Nat.min_id.
  destruct (Nat.ltb_spec pos (n_bytes b)); [lia|]. destruct b; reflexivity.
Qed.

(** ** collect_count *)
Definition count_post (b : buffer) (count start : nat) (allow : bool)
  (b' : buffer) (r : result (nat * nat) rerror) : Prop :=
  exists drop cs,
    cut b 0 drop b' /\ (quiet b = true -> quiet b' = true) /\
    n_bytes b <= n_bytes b' + len drop /\
    (drop = [] /\ cs = start \/
     allow = true /\ 0 < start /\ drop = firstn start (stream b) /\ len drop = start /\ cs = 0) /\
    match r with
    | Ok (s, e) => s = cs /\ e = cs + Nat.min count (len (skipn start (stream b))) /\ e <= n_bytes b'
    | Err er =>
        match err_type er with
        | BufferFull => drop = [] /\ (if allow then cap b < count else cap b < start + count) /\
                        err_index er = n_shifted_out b'
        | IoError _ => quiet b = false
        | _ => False
        end
    end.

Lemma collect_count_loop_spec fuel : forall b0 count start allow b drop target cs shifted,
  wf b -> start <= n_bytes b0 ->
  cut b0 0 drop b -> (quiet b0 = true -> quiet b = true) -> n_bytes b0 <= n_bytes b + len drop ->
  ((shifted = false /\ drop = [] /\ cs = start) \/
   (shifted = true /\ allow = true /\ 0 < start /\ drop = firstn start (stream b0) /\ len drop = start /\ cs = 0 /\
    count <= cap b0)) ->
  target = cs + count -> cs <= n_bytes b ->
  len (src (rd b)) < fuel ->
  exists b' r, collect_count_loop fuel b count allow target cs shifted = Done (b', r) /\
    count_post b0 count start allow b' r.
Proof.
  induction fuel as [|fuel IH]; intros b0 count start allow b drop target cs shifted Hw Hst Hc Hq Hmono Hsh Ht H2 Hf; [lia|].
  cbn [collect_count_loop].
  assert (HL : len (skipn start (stream b0)) = n_bytes b + len (src (rd b)) - cs).
  { destruct Hsh as [(_ & -> & ->)|(_ & _ & _ & Hd & HL & -> & _)].
    - rewrite <- (cut_nil_stream _ _ _ Hc), skipn_length, stream_length by exact Hw. reflexivity.
    - rewrite (cut_front _ _ _ Hc), <- HL, skipn_app_all, stream_length by exact Hw. lia. }
  assert (Hsh' : drop = [] /\ cs = start \/
     allow = true /\ 0 < start /\ drop = firstn start (stream b0) /\ len drop = start /\ cs = 0)
    by tauto.
  assert (Hcb : cap b = cap b0) by (eapply cut_cap; eauto).
  destruct (Nat.leb_spec target (n_bytes b)) as [Hlt|Hge].
  { eexists b, _. split; [reflexivity|]. exists drop, cs. split; [exact Hc|]. split; [exact Hq|].
    split; [exact Hmono|]. split; [exact Hsh'|]. rewrite HL. repeat split; lia. }
  assert (Hcont : forall b1 drop1 target1 cs1 sh1,
    wf b1 -> cut b0 0 drop1 b1 -> (quiet b0 = true -> quiet b1 = true) -> n_bytes b0 <= n_bytes b1 + len drop1 ->
    ((sh1 = false /\ drop1 = [] /\ cs1 = start) \/
     (sh1 = true /\ allow = true /\ 0 < start /\ drop1 = firstn start (stream b0) /\ len drop1 = start /\ cs1 = 0 /\
      count <= cap b0)) ->
    target1 = cs1 + count -> cs1 <= n_bytes b1 -> n_bytes b1 < cap b1 -> n_bytes b1 < target1 ->
    len (skipn start (stream b0)) = n_bytes b1 + len (src (rd b1)) - cs1 ->
    len (src (rd b1)) < S fuel ->
    exists b' r,
      match read_more b1 with
      | (b', Err e) => Done (b', Err e)
      | (b', Ok 0) => Done (b', Ok (cs1, n_bytes b'))
      | (b', Ok (S _)) => collect_count_loop fuel b' count allow target1 cs1 sh1
      end = Done (b', r) /\ count_post b0 count start allow b' r).
  { intros b1 drop1 t1 cs1 sh1 W1 C1 Q1 M1 S1 A1 A2 A3 A4 A5 F1.
    assert (S1' : drop1 = [] /\ cs1 = start \/
     allow = true /\ 0 < start /\ drop1 = firstn start (stream b0) /\ len drop1 = start /\ cs1 = 0)
    by tauto.
    destruct (read_more b1) as [b2 r2] eqn:Er.
    destruct (read_more_spec b1 b2 r2 W1 Er) as (C2 & S2 & Q2 & P2).
    assert (C12 := cut_trans _ _ _ _ _ _ C1 C2). rewrite app_nil_r in C12.
    destruct r2 as [[|k]|e].
    - destruct P2 as (N2 & L2 & Z2). specialize (Z2 eq_refl).
      assert (Hsrc : src (rd b1) = []) by (destruct Z2; [lia|assumption]).
      rewrite Hsrc in *. cbn in *.
      eexists b2, _. split; [reflexivity|]. exists drop1, cs1.
      split; [exact C12|]. split; [auto|]. split; [lia|]. split; [exact S1'|].
      rewrite A5. repeat split; lia.
    - destruct P2 as (N2 & L2 & _).
      apply (IH b0 count start allow b2 drop1 t1 cs1 sh1); auto; try lia.
      eapply cut_wf; eauto.
    - destruct P2 as ((kind & ->) & N2 & L2 & B2 & Hnq).
      eexists b2, _. split; [reflexivity|]. exists drop1, cs1.
      split; [exact C12|]. split; [auto|]. split; [lia|]. split; [exact S1'|]. cbn.
      destruct (quiet b0) eqn:E0; [|reflexivity]. rewrite (Q1 eq_refl) in Hnq. discriminate. }
  destruct (Nat.leb_spec (len (buf b)) (n_bytes b)) as [Hcap|Hcap].
  - assert (Hnc : n_bytes b = cap b) by (unfold wf, cap in *; lia).
    assert (Hdd : shifted = false /\ drop = [] /\ cs = start).
    { destruct Hsh as [A|(_ & _ & _ & _ & _ & A & B)]; [exact A|lia]. }
    destruct Hdd as (-> & -> & ->). rewrite orb_false_r.
    destruct (negb allow || (start =? 0)) eqn:Ecase; [|destruct (Nat.ltb_spec (len (buf b)) count) as [Hbig|Hbig]].
    + eexists b, _. split; [reflexivity|]. exists [], start.
      split; [exact Hc|]. split; [exact Hq|]. split; [exact Hmono|]. split; [exact Hsh'|].
      cbn [err_type err_index]. repeat split; auto. destruct allow; [|lia].
      cbn in Ecase. apply Nat.eqb_eq in Ecase. lia.
    + eexists b, _. split; [reflexivity|]. exists [], start.
      split; [exact Hc|]. split; [exact Hq|]. split; [exact Hmono|]. split; [exact Hsh'|].
      cbn [err_type err_index]. repeat split; auto. destruct allow; unfold cap in *; lia.
    + destruct allow; [|discriminate]. cbn [negb orb] in Ecase.
      apply Nat.eqb_neq in Ecase.
      destruct (shift_front b start Hw ltac:(lia)) as (C1 & N1 & L1 & R1 & E1).
      assert (Est : stream b = stream b0) by (eapply cut_nil_stream; eauto).
      assert (C01 := cut_trans _ _ _ _ _ _ Hc C1). cbn [app] in C01.
      apply (Hcont (shift_buffer b 0 start) (firstn start (stream b)) (target - start) 0 true); auto; try lia.
      * eapply cut_wf; eauto.
      * rewrite (quiet_rd _ _ R1). exact Hq.
      * cbn in Hmono. lia.
      * right. rewrite Est in *. unfold cap in *. repeat split; auto; lia.
      * rewrite N1, (cut_cap _ _ _ _ C1). lia.
      * rewrite R1, HL, N1. lia.
      * rewrite R1. exact Hf.
  - apply (Hcont b drop target cs shifted); auto; unfold cap; lia.
Qed.

Lemma collect_count_spec b count start allow :
  wf b -> start <= n_bytes b ->
  exists b' r, collect_count b count start allow = Done (b', r) /\ count_post b count start allow b' r.
Proof.
  intros Hw Hs. unfold collect_count, fuel_for.
  apply (collect_count_loop_spec _ b count start allow b [] (start + count) start false); auto; try lia.
  apply cut_refl. exact Hw.
Qed.

(** ** skip_n *)
Definition skip_n_post (b : buffer) (count start : nat) (b' : buffer) (r : result (nat * nat) rerror) : Prop :=
  exists drop,
    cut b 0 drop b' /\ (quiet b = true -> quiet b' = true) /\
    match r with
    | Ok (p, t) => p <= n_bytes b' /\ t = Nat.min count (len (skipn start (stream b))) /\
                   len drop + p = start + t
    | Err er =>
        len drop <= start + count /\
        match err_type er with IoError _ => quiet b = false | _ => False end
    end.

Lemma skip_n_loop_spec fuel : forall b0 count start b drop remaining cur total,
  0 < cap b -> wf b -> start <= n_bytes b0 ->
  cut b0 0 drop b -> (quiet b0 = true -> quiet b = true) ->
  total + remaining = count -> len drop + cur = start + total -> cur <= n_bytes b ->
  len (src (rd b)) < fuel -> wf b0 ->
  exists b' r, skip_n_loop fuel b remaining cur total = Done (b', r) /\ skip_n_post b0 count start b' r.
Proof.
  induction fuel as [|fuel IH]; intros b0 count start b drop remaining cur total H0 Hw Hst Hc Hq Ht Hd H2 Hf Hw0; [lia|].
  cbn [skip_n_loop].
  assert (HL : len (skipn start (stream b0)) + start = n_bytes b + len (src (rd b)) + len drop).
  { rewrite skipn_length. pose proof (stream_length b0 Hw0). pose proof (stream_length b Hw).
    pose proof (f_equal (@List.length byte) (cut_front _ _ _ Hc)) as HH. rewrite app_length in HH.
    lia. }
  destruct (Nat.eqb_spec remaining 0) as [->|Hr].
  { eexists b, _. split; [reflexivity|]. exists drop. repeat split; auto; try apply Hc; lia. }
  destruct (Nat.leb_spec remaining (n_bytes b - cur)) as [Hle|Hgt].
  { eexists b, _. split; [reflexivity|]. exists drop. repeat split; auto; try apply Hc; lia. }
  replace (cur + (n_bytes b - cur)) with (n_bytes b) by lia.
  assert (Hcont : forall b1 drop1 cur1,
    wf b1 -> cut b0 0 drop1 b1 -> (quiet b0 = true -> quiet b1 = true) ->
    n_bytes b1 < cap b1 -> cur1 = n_bytes b1 -> len drop1 + cur1 = start + (total + (n_bytes b - cur)) ->
    rd b1 = rd b ->
    exists b' r,
      match read_more b1 with
      | (b', Err e) => Done (b', Err e)
      | (b', Ok 0) => Done (b', Ok (cur1, total + (n_bytes b - cur)))
      | (b', Ok (S _)) => skip_n_loop fuel b' (remaining - (n_bytes b - cur)) cur1 (total + (n_bytes b - cur))
      end = Done (b', r) /\ skip_n_post b0 count start b' r).
  { intros b1 drop1 cur1 W1 C1 Q1 A3 A4 A5 R1.
    assert (Hcap1 : cap b1 = cap b) by (rewrite (cut_cap _ _ _ _ C1), (cut_cap _ _ _ _ Hc); reflexivity).
    destruct (read_more b1) as [b2 r2] eqn:Er.
    destruct (read_more_spec b1 b2 r2 W1 Er) as (C2 & S2 & Q2 & P2).
    assert (C12 := cut_trans _ _ _ _ _ _ C1 C2). rewrite app_nil_r in C12.
    destruct r2 as [[|k]|e].
    - destruct P2 as (N2 & L2 & Z2). specialize (Z2 eq_refl).
      assert (Hsrc : src (rd b1) = []) by (destruct Z2; [lia|assumption]).
      rewrite R1 in Hsrc. rewrite Hsrc in *. cbn in HL.
      eexists b2, _. split; [reflexivity|]. exists drop1.
      split; [exact C12|]. split; [auto|]. split; [lia|]. split; [|lia]. lia.
    - destruct P2 as (N2 & L2 & _).
      apply (IH b0 count start b2 drop1); auto; try lia.
      + rewrite (cut_cap _ _ _ _ C2). lia.
      + eapply cut_wf; eauto.
      + rewrite R1 in L2. lia.
    - destruct P2 as ((kind & ->) & N2 & L2 & B2 & Hnq).
      eexists b2, _. split; [reflexivity|]. exists drop1.
      split; [exact C12|]. split; [auto|]. split; [lia|]. cbn.
      destruct (quiet b0) eqn:E0; [|reflexivity]. rewrite (Q1 eq_refl) in Hnq. discriminate. }
  destruct (Nat.eqb_spec (n_bytes b) (len (buf b))) as [Hcap|Hcap].
  - destruct (shift_front b (n_bytes b) Hw ltac:(lia)) as (C1 & N1 & L1 & R1 & E1).
    apply (Hcont _ (drop ++ firstn (n_bytes b) (stream b))); auto.
    + eapply cut_wf; eauto.
    + eapply cut_trans; eauto.
    + rewrite (quiet_rd _ _ R1). exact Hq.
    + rewrite (cut_cap _ _ _ _ C1). lia.
    + lia.
    + rewrite app_length. lia.
  - apply (Hcont b drop); auto.
    + unfold wf, cap in *. lia.
    + lia.
Qed.

Lemma skip_n_spec b count start :
  0 < cap b -> wf b -> start <= n_bytes b ->
  exists b' r, skip_n b count start = Done (b', r) /\ skip_n_post b count start b' r.
Proof.
  intros H0 Hw Hs. unfold skip_n, fuel_for.
  apply (skip_n_loop_spec _ b count start b [] count start 0); auto; try lia.
  - apply cut_refl. exact Hw.
Qed.

(** ** Histories *)
(** [moves T b b']: a sequence of reads and of shifts to positions satisfying [T]. *)
Inductive moves (T : nat -> Prop) : buffer -> buffer -> Prop :=
| mv_refl b : moves T b b
| mv_read b b' : moves T b b' -> moves T b (fst (read_more b'))
| mv_shift b b' t f : moves T b b' -> T t -> moves T b (shift_buffer b' t f).

Lemma moves_trans T b b1 b2 : moves T b b1 -> moves T b1 b2 -> moves T b b2.
Proof. intros H1 H2. induction H2; auto; [apply mv_read|apply mv_shift]; auto. Qed.

Lemma moves_impl (T U : nat -> Prop) b b' : (forall t, T t -> U t) -> moves T b b' -> moves U b b'.
Proof. intros H M. induction M; [apply mv_refl|apply mv_read|apply mv_shift]; auto. Qed.

Lemma collect_while_loop_moves fuel : forall b pred start allow i cs sh b' r,
  collect_while_loop fuel b pred start allow i cs sh = Done (b', r) -> moves (eq 0) b b'.
Proof.
  induction fuel as [|fuel IH]; intros b pred start allow i cs sh b' r H; [discriminate|].
  cbn [collect_while_loop] in H.
  destruct (_ <? _); [injection H as <- <-; apply mv_refl|].
  destruct (_ <=? _); [destruct (_ || _); [injection H as <- <-; apply mv_refl|]|].
  - assert (M : moves (eq 0) b (fst (read_more (shift_buffer b 0 start))))
      by (apply mv_read, mv_shift; [apply mv_refl|reflexivity]).
    destruct (read_more (shift_buffer b 0 start)) as [b2 [[|k]|e]]; cbn [fst] in M;
      try (injection H as <- <-; exact M).
    apply IH in H. eapply moves_trans; eauto.
  - assert (M : moves (eq 0) b (fst (read_more b))) by (apply mv_read, mv_refl).
    destruct (read_more b) as [b2 [[|k]|e]]; cbn [fst] in M; try (injection H as <- <-; exact M).
    apply IH in H. eapply moves_trans; eauto.
Qed.
Lemma collect_count_loop_moves fuel : forall b count allow target cs sh b' r,
  collect_count_loop fuel b count allow target cs sh = Done (b', r) -> moves (eq 0) b b'.
Proof.
  induction fuel as [|fuel IH]; intros b count allow target cs sh b' r H; [discriminate|].
  cbn [collect_count_loop] in H.
  destruct (_ <=? _); [injection H as <- <-; apply mv_refl|].
  destruct (_ <=? _); [destruct (_ || _); [injection H as <- <-; apply mv_refl|];
                       destruct (_ <? _); [injection H as <- <-; apply mv_refl|]|].
  - assert (M : moves (eq 0) b (fst (read_more (shift_buffer b 0 cs))))
      by (apply mv_read, mv_shift; [apply mv_refl|reflexivity]).
    destruct (read_more (shift_buffer b 0 cs)) as [b2 [[|k]|e]]; cbn [fst] in M;
      try (injection H as <- <-; exact M).
    apply IH in H. eapply moves_trans; eauto.
  - assert (M : moves (eq 0) b (fst (read_more b))) by (apply mv_read, mv_refl).
    destruct (read_more b) as [b2 [[|k]|e]]; cbn [fst] in M; try (injection H as <- <-; exact M).
    apply IH in H. eapply moves_trans; eauto.
Qed.
Lemma skip_n_loop_moves fuel : forall b remaining cur total b' r,
  skip_n_loop fuel b remaining cur total = Done (b', r) -> moves (eq 0) b b'.
Proof.
  induction fuel as [|fuel IH]; intros b remaining cur total b' r H; [discriminate|].
  cbn [skip_n_loop] in H.
  destruct (_ =? _); [injection H as <- <-; apply mv_refl|].
  destruct (_ <=? _); [injection H as <- <-; apply mv_refl|].
  destruct (_ =? _).
  - assert (M : moves (eq 0) b (fst (read_more (shift_buffer b 0 (cur + (n_bytes b - cur))))))
      by (apply mv_read, mv_shift; [apply mv_refl|reflexivity]).
    destruct (read_more (shift_buffer b 0 _)) as [b2 [[|k]|e]]; cbn [fst] in M;
      try (injection H as <- <-; exact M).
    apply IH in H. eapply moves_trans; eauto.
  - assert (M : moves (eq 0) b (fst (read_more b))) by (apply mv_read, mv_refl).
    destruct (read_more b) as [b2 [[|k]|e]]; cbn [fst] in M; try (injection H as <- <-; exact M).
    apply IH in H. eapply moves_trans; eauto.
Qed.
Lemma skip_spaces_loop_moves fuel : forall b pos b' r,
  skip_spaces_loop fuel b pos = Done (b', r) -> moves (fun t => t = 0 \/ t = pos) b b'.
Proof.
  induction fuel as [|fuel IH]; intros b pos b' r H; [discriminate|].
  cbn [skip_spaces_loop] in H.
  destruct (collect_while b is_ascii_whitespace pos false) as [[b1 [[s e]|er]]| |] eqn:E; try discriminate;
    apply collect_while_loop_moves in E;
    apply (moves_impl _ (fun t => t = 0 \/ t = pos)) in E; auto.
  - injection H as <- <-. destruct (pos <? e); [apply mv_shift; auto|exact E].
  - destruct (err_type er); try (injection H as <- <-; exact E).
    apply IH in H. eapply moves_trans; [|exact H]. apply mv_shift; auto.
Qed.

Lemma bstep_moves b o b' : bstep b o = Done b' ->
  moves (fun t => if front_op o then t = 0 else True) b b'.
Proof.
  destruct o; cbn [bstep front_op]; intros H.
  - injection H as <-. apply mv_read, mv_refl.
  - injection H as <-. apply mv_shift; [apply mv_refl|].
    destruct (Nat.eqb_spec to_pos 0); auto.
  - destruct (skip_spaces b pos) as [[b1 r]| |] eqn:E; try discriminate. injection H as <-.
    apply skip_spaces_loop_moves in E. eapply moves_impl; [|exact E]. cbn.
    destruct (Nat.eqb_spec pos 0); intuition lia.
  - destruct (collect_while _ _ _ _) as [[b1 r]| |] eqn:E; try discriminate. injection H as <-.
    apply collect_while_loop_moves in E. eapply moves_impl; [|exact E]. auto.
  - destruct (collect_count _ _ _ _) as [[b1 r]| |] eqn:E; try discriminate. injection H as <-.
    apply collect_count_loop_moves in E. eapply moves_impl; [|exact E]. auto.
  - destruct (skip_n _ _ _) as [[b1 r]| |] eqn:E; try discriminate. injection H as <-.
    apply skip_n_loop_moves in E. eapply moves_impl; [|exact E]. auto.
Qed.

Lemma brun_moves (T : nat -> Prop) ops : forall b b',
  (forall t o, In o ops -> (if front_op o then t = 0 else True) -> T t) ->
  brun b ops = Done b' -> moves T b b'.
Proof.
  induction ops as [|o ops IH]; intros b b' HT H; cbn [brun] in H.
  - injection H as <-. apply mv_refl.
  - destruct (bstep b o) as [b1| |] eqn:E; try discriminate. cbn [obind] in H.
    apply bstep_moves in E. eapply moves_trans.
    + eapply moves_impl; [|exact E]. intros t Ht. apply (HT t o); cbn; auto.
    + apply IH; auto. intros t o' Hin. apply HT. cbn. auto.
Qed.

Lemma deleted_trans l d m e n : deleted l d m -> deleted m e n -> deleted l (d ++ e) n.
Proof.
  intros H1 H2. induction H2 as [|m d2 n a x c H2 IH E].
  - rewrite app_nil_r. exact H1.
  - rewrite app_assoc. econstructor; eauto.
Qed.

Lemma moves_deleted T b b' : wf b -> moves T b b' ->
  wf b' /\ cap b' = cap b /\
  exists d, deleted (stream b) d (stream b') /\ n_shifted_out b' = n_shifted_out b + len d.
Proof.
  intros Hw M.
  assert (Hcut : forall b0 b1 p d b2, wf b1 /\ cap b1 = cap b0 /\
      (exists d, deleted (stream b0) d (stream b1) /\ n_shifted_out b1 = n_shifted_out b0 + len d) ->
      cut b1 p d b2 -> wf b2 /\ cap b2 = cap b0 /\
      (exists d, deleted (stream b0) d (stream b2) /\ n_shifted_out b2 = n_shifted_out b0 + len d)).
  { intros b0 b1 p d b2 (W & C & e & D & S) (W2 & C2 & S2 & _ & a & c & E & F & _).
    split; [exact W2|]. split; [congruence|]. exists (e ++ d). split.
    - rewrite F. econstructor; eauto.
    - rewrite app_length. lia. }
  induction M as [b|b b' M IH|b b' t f M IH Ht].
  - repeat split; auto. exists []. split; [constructor|cbn; lia].
  - specialize (IH Hw). destruct (read_more b') as [b2 r] eqn:E.
    destruct (read_more_spec b' b2 r (proj1 IH) E) as (C & _). eapply Hcut; eauto.
  - specialize (IH Hw). destruct (shift_spec b' t f (proj1 IH)) as (C & _). eapply Hcut; eauto.
Qed.

Lemma moves_front b b' : wf b -> moves (eq 0) b b' -> exists d, cut b 0 d b'.
Proof.
  intros Hw M. induction M as [b|b b' M IH|b b' t f M IH Ht].
  - exists []. apply cut_refl. exact Hw.
  - destruct (IH Hw) as [d C]. destruct (read_more b') as [b2 r] eqn:E.
    destruct (read_more_spec b' b2 r (cut_wf _ _ _ _ C) E) as (C2 & _).
    exists (d ++ []). eapply cut_trans; eauto.
  - destruct (IH Hw) as [d C]. subst t.
    destruct (shift_spec b' 0 f (cut_wf _ _ _ _ C)) as (C2 & _).
    eexists. eapply cut_trans; eauto.
Qed.

(** ** Lines and columns *)
Lemma advance_pos_spec d : forall l c,
  advance_pos l c d =
  (l + count_newlines d, if existsb (N.eqb newline) d then tail_length d else c + len d).
Proof.
  induction d as [|x d IH]; intros l c; cbn [advance_pos existsb tail_length].
  - unfold count_newlines. cbn. f_equal; lia.
  - unfold count_newlines in *. cbn [filter]. rewrite (N.eqb_sym x newline).
    destruct (N.eqb newline x) eqn:E; cbn [orb]; rewrite IH.
    + cbn [List.length]. destruct (existsb (N.eqb newline) d); f_equal; lia.
    + destruct (existsb (N.eqb newline) d); cbn [List.length]; f_equal; lia.
Qed.
Lemma tail_length_no_newline d : existsb (N.eqb newline) d = false -> tail_length d = len d.
Proof.
  destruct d as [|x d]; [reflexivity|]. cbn [existsb tail_length]. intros H.
  apply orb_false_iff in H as [-> ->]. reflexivity.
Qed.
Lemma advance_pos_0 d : advance_pos 0 0 d = (count_newlines d, tail_length d).
Proof.
  rewrite advance_pos_spec. cbn [Nat.add]. f_equal.
  destruct (existsb (N.eqb newline) d) eqn:E; [reflexivity|]. symmetry. apply tail_length_no_newline. exact E.
Qed.

(** ** The properties *)
Lemma no_byte_lost input schedule cells ops b' :
  brun (buffer_new (mkReader input schedule) cells) ops = Done b' ->
  n_bytes b' <= len (buf b') /\ len (buf b') = len cells /\
  exists d, deleted input d (stream b') /\ n_shifted_out b' = len d.
Proof.
  intros H. apply (brun_moves (fun _ => True)) in H; [|auto].
  apply moves_deleted in H; [|unfold wf; cbn; lia]. exact H.
Qed.

Lemma shift_drops_exactly b to from :
  wf b ->
  let e := Nat.min from (n_bytes b) in
  stream (shift_buffer b to from) =
    firstn to (stream b) ++ skipn (Nat.max to e) (stream b) /\
  n_shifted_out (shift_buffer b to from) = n_shifted_out b + (e - to) /\
  n_bytes (shift_buffer b to from) = n_bytes b - (e - to).
Proof.
  intros Hw e. destruct (shift_spec b to from Hw) as (C & N & L & R). fold e in C, N, L.
  split; [|split; [|exact N]].
  - destruct (firstn (e - to) (skipn to (stream b))) as [|x d] eqn:E.
    + rewrite (cut_nil_stream _ _ _ C). cbn in L. rewrite Nat.max_l by lia.
      symmetry. apply firstn_skipn.
    + rewrite <- E in *. destruct (cut_at _ _ _ _ C) as [A _]; [rewrite E; discriminate|].
      rewrite A, L. f_equal. f_equal. rewrite E in L. cbn in L. lia.
  - rewrite (proj1 (proj2 (proj2 C))), L. reflexivity.
Qed.

Lemma front_counters input schedule cells ops b' :
  forallb front_op ops = true ->
  brun (buffer_new (mkReader input schedule) cells) ops = Done b' ->
  exists d, dropped_front input b' d.
Proof.
  intros Hf H. apply (brun_moves (eq 0)) in H.
  - apply moves_front in H; [|unfold wf; cbn; lia]. destruct H as [d C].
    exists d. unfold dropped_front. split; [apply (cut_front _ _ _ C)|].
    destruct C as (_ & _ & S & P & _). split; [exact S|].
    cbn [buffer_new pos_line pos_col] in P. rewrite advance_pos_0 in P. injection P as -> ->. auto.
  - intros t o Hin Ht. rewrite forallb_forall in Hf. rewrite (Hf o Hin) in Ht. auto.
Qed.

Lemma longest_run_length pred l : longest_run pred l (firstn (run_length pred l) l).
Proof.
  exists (skipn (run_length pred l) l). split; [symmetry; apply firstn_skipn|].
  split; [apply run_length_all|].
  destruct (skipn (run_length pred l) l) as [|x r] eqn:E; [exact I|].
  apply (run_length_next pred l).
  pose proof (firstn_skipn (run_length pred l) l) as H. rewrite E in H.
  rewrite <- H at 1. rewrite nth_error_app2 by (rewrite firstn_length; lia).
  rewrite firstn_length, Nat.min_l by apply run_length_le. rewrite Nat.sub_diag. reflexivity.
Qed.

Lemma slice_stream b s e :
  wf b -> s <= e -> e <= n_bytes b ->
  slice (firstn (n_bytes b) (buf b)) s e = Some (firstn (e - s) (skipn s (stream b))).
Proof.
  intros Hw H1 H2. rewrite <- stream_firstn by exact Hw. unfold slice.
  rewrite firstn_length, stream_length by exact Hw.
  destruct (Nat.leb_spec s e); [|lia].
  destruct (Nat.leb_spec e (Nat.min (n_bytes b) (n_bytes b + len (src (rd b))))); [|lia].
  cbn [andb]. f_equal. rewrite skipn_firstn, firstn_firstn. f_equal. lia.
Qed.

Lemma collect_keeps b drop b' cs start (allow : bool) :
  cut b 0 drop b' ->
  (drop = [] /\ cs = start \/
   allow = true /\ 0 < start /\ drop = firstn start (stream b) /\ len drop = start /\ cs = 0) ->
  skipn cs (stream b') = skipn start (stream b) /\ (allow = false -> stream b' = stream b /\ cs = start) /\
  (stream b = stream b' /\ cs = start \/ stream b = firstn start (stream b) ++ stream b' /\ cs = 0).
Proof.
  intros C [(-> & ->)|(Ha & Hp & Hd & Hl & ->)].
  - rewrite (cut_nil_stream _ _ _ C). auto.
  - split; [|split].
    + cbn [skipn]. rewrite (cut_front _ _ _ C) at 1. rewrite <- Hl, skipn_app_all. reflexivity.
    + congruence.
    + right. split; [|reflexivity]. rewrite <- Hd. apply (cut_front _ _ _ C).
Qed.

Lemma collect_while_longest b pred start allow :
  wf b -> start <= n_bytes b ->
  exists b' r, collect_while b pred start allow = Done (b', r) /\ wf b' /\
    (allow = false -> stream b' = stream b) /\
    match r with
    | Ok (s, e) =>
        (s = start /\ stream b' = stream b \/ s = 0 /\ firstn start (stream b) ++ stream b' = stream b) /\
        exists run, longest_run pred (skipn start (stream b)) run /\ collected b' (s, e) run
    | Err er =>
        match err_type er with
        | BufferFull => exists run, longest_run pred (skipn start (stream b)) run /\
                        cap b <= len run + (if allow then 0 else start)
        | IoError _ => quiet b = false
        | _ => False
        end
    end.
Proof.
  intros Hw Hs. destruct (collect_while_spec b pred start allow Hw Hs) as (b' & r & E & drop & cs & C & Q & M & D & P).
  exists b', r. split; [exact E|]. assert (W' : wf b') by (eapply cut_wf; eauto).
  split; [exact W'|]. destruct (collect_keeps _ _ _ _ _ _ C D) as (K1 & K2 & K3).
  split; [intros Ha; apply K2; exact Ha|]. cbn zeta in P.
  destruct r as [[s e]|er].
  - destruct P as (-> & -> & H1 & H2). split; [intuition auto|].
    eexists. split; [apply longest_run_length|].
    unfold collected. cbn [fst snd]. rewrite slice_stream by (auto; lia).
    rewrite K1. f_equal. f_equal. lia.
  - destruct (err_type er); auto. destruct P as (H1 & H2 & H3 & _).
    eexists. split; [apply longest_run_length|].
    rewrite firstn_length, Nat.min_l by apply run_length_le.
    destruct allow; [rewrite (H3 eq_refl) in H2; lia|].
    destruct K2 as [_ ->]; [reflexivity|]. lia.
Qed.

Lemma collect_count_exact b count start allow :
  wf b -> start <= n_bytes b ->
  exists b' r, collect_count b count start allow = Done (b', r) /\ wf b' /\
    (allow = false -> stream b' = stream b) /\
    match r with
    | Ok (s, e) =>
        (s = start /\ stream b' = stream b \/ s = 0 /\ firstn start (stream b) ++ stream b' = stream b) /\
        collected b' (s, e) (firstn count (skipn start (stream b)))
    | Err er =>
        match err_type er with
        | BufferFull => stream b' = stream b /\ cap b < count + (if allow then 0 else start)
        | IoError _ => quiet b = false
        | _ => False
        end
    end.
Proof.
  intros Hw Hs. destruct (collect_count_spec b count start allow Hw Hs) as (b' & r & E & drop & cs & C & Q & M & D & P).
  exists b', r. split; [exact E|]. assert (W' : wf b') by (eapply cut_wf; eauto).
  split; [exact W'|]. destruct (collect_keeps _ _ _ _ _ _ C D) as (K1 & K2 & K3).
  split; [intros Ha; apply K2; exact Ha|].
  destruct r as [[s e]|er].
  - destruct P as (-> & -> & H1). split; [intuition auto|].
    unfold collected. cbn [fst snd]. rewrite slice_stream by (auto; lia). rewrite K1. f_equal.
    set (l := skipn start (stream b)). replace (cs + Nat.min count (len l) - cs) with (Nat.min count (len l)) by lia.
    destruct (Nat.le_gt_cases count (len l)); [rewrite Nat.min_l by lia; reflexivity|].
    rewrite Nat.min_r by lia. rewrite firstn_all, firstn_all2 by lia. reflexivity.
  - destruct (err_type er); auto. destruct P as (-> & H2 & _).
    split; [eapply cut_nil_stream; eauto|]. destruct allow; lia.
Qed.

Lemma skip_spaces_exact b pos :
  wf b -> pos <= n_bytes b -> pos < cap b ->
  exists b' r, skip_spaces b pos = Done (b', r) /\ wf b' /\
    match r with
    | Ok tt => exists run, longest_run is_ascii_whitespace (skipn pos (stream b)) run /\
                 stream b = firstn pos (stream b) ++ run ++ skipn pos (stream b') /\
                 firstn pos (stream b') = firstn pos (stream b) /\
                 n_shifted_out b' = n_shifted_out b + len run
    | Err er => quiet b = false /\ exists k, err_type er = IoError k
    end.
Proof.
  intros Hw Hp Hc. destruct (skip_spaces_spec b pos Hw Hp Hc) as (b' & r & drop & E & C & Q & N & P).
  exists b', r. split; [exact E|]. split; [eapply cut_wf; eauto|].
  destruct r as [[]|er].
  - destruct P as [L _].
    exists (firstn (ws_run b pos) (skipn pos (stream b))). split; [apply longest_run_length|].
    assert (Hpl : pos <= len (stream b)) by (rewrite stream_length by exact Hw; lia).
    destruct drop as [|x drop].
    + rewrite (cut_nil_stream _ _ _ C), <- L. cbn [List.length firstn app].
      rewrite firstn_skipn. repeat split. destruct C as (_ & _ & S & _). exact S.
    + destruct (cut_at _ _ _ _ C) as [A B]; [discriminate|]. rewrite L in A.
      assert (Hf : len (firstn pos (stream b)) = pos) by (apply firstn_length_le'; exact Hpl).
      split; [|split].
      * rewrite A, skipn_app, Hf, Nat.sub_diag.
        replace (skipn pos (firstn pos (stream b))) with (@nil byte)
          by (rewrite skipn_firstn, Nat.sub_diag; reflexivity).
        cbn [app skipn]. rewrite <- skipn_skipn, firstn_skipn, firstn_skipn. reflexivity.
      * rewrite A. rewrite <- Hf at 1. apply firstn_app_all.
      * destruct C as (_ & _ & S & _). rewrite S. f_equal. rewrite L.
        rewrite firstn_length, Nat.min_l by apply run_length_le. reflexivity.
  - destruct P as (A & B & C'). split; [exact A|]. destruct (err_type er); try contradiction. eauto.
Qed.

Lemma skip_n_exact b count start :
  0 < cap b -> wf b -> start <= n_bytes b ->
  exists b' r, skip_n b count start = Done (b', r) /\ wf b' /\
    match r with
    | Ok (p, t) => t = Nat.min count (len (skipn start (stream b))) /\ p <= n_bytes b' /\
                   skipn p (stream b') = skipn count (skipn start (stream b)) /\
                   n_shifted_out b' + p = n_shifted_out b + start + t
    | Err er => quiet b = false /\ exists k, err_type er = IoError k
    end.
Proof.
  intros H0 Hw Hs. destruct (skip_n_spec b count start H0 Hw Hs) as (b' & r & E & drop & C & Q & P).
  exists b', r. split; [exact E|]. split; [eapply cut_wf; eauto|].
  destruct r as [[p t]|er].
  - destruct P as (P1 & P2 & P3). split; [exact P2|]. split; [exact P1|]. split.
    + assert (Hst := cut_front _ _ _ C).
      transitivity (skipn t (skipn start (stream b))).
      * rewrite skipn_skipn, <- P3, <- skipn_skipn. rewrite Hst, skipn_app_all. reflexivity.
      * rewrite P2. set (l := skipn start (stream b)).
        destruct (Nat.le_gt_cases count (len l)); [rewrite Nat.min_l by lia; reflexivity|].
        rewrite Nat.min_r by lia. rewrite !skipn_all2 by lia. reflexivity.
    + destruct C as (_ & _ & S & _). lia.
  - destruct P as (A & B). destruct (err_type er); try contradiction. eauto.
Qed.

Lemma skip_spaces_endless : exists b pos,
  wf b /\ pos <= n_bytes b /\ forall fuel, skip_spaces_loop fuel b pos = Diverge.
Proof.
  exists (fst (read_more (buffer_new (mkReader (bs ",1") []) [0%N]))), 1.
  split; [unfold wf; vm_compute; auto|]. split; [vm_compute; auto|].
  intros fuel. apply skip_spaces_diverges; [unfold wf; vm_compute; auto|reflexivity|vm_compute; auto].
Qed.
