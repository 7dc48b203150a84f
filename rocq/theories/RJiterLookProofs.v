(** Proofs about lookahead, skipping, finish and positions of the streaming parser. *)
From Verif Require Import Base Buffer BufferSpec BufferProofs Jiter JiterProofs RJiter RJiterSpec RJiterProofs.

Lemma slice_buf b s e :
  wf b -> s <= e -> e <= n_bytes b -> slice (buf b) s e = Some (firstn (e - s) (skipn s (stream b))).
Proof.
  intros W H1 H2. rewrite <- (slice_stream b s e W H1 H2). unfold slice. unfold wf in W.
  rewrite firstn_length. destruct (Nat.leb_spec s e); [|lia].
  destruct (Nat.leb_spec e (List.length (buf b))); [|unfold bytes, byte in *; lia].
  destruct (Nat.leb_spec e (Nat.min (n_bytes b) (List.length (buf b)))); [|unfold bytes, byte in *; lia].
  cbn [andb]. f_equal. rewrite skipn_firstn, firstn_firstn. f_equal. lia.
Qed.

(** What a collecting function guarantees; [k] is the number of bytes it finds. *)
Definition collects (collect : buffer -> nat -> outcome (buffer * result (nat * nat) rerror)) (s : rj) (k : nat)
  (err : rerror -> bytes -> Prop) : Prop :=
  exists b' r drop cs, collect (bf s) (jidx s) = Done (b', r) /\
    cut (bf s) 0 drop b' /\ (quiet (bf s) = true -> quiet b' = true) /\ n_bytes (bf s) <= n_bytes b' + len drop /\
    (drop = [] /\ cs = jidx s \/
     0 < jidx s /\ drop = firstn (jidx s) (stream (bf s)) /\ len drop = jidx s /\ cs = 0) /\
    match r with
    | Ok (x, e) => x = cs /\ e = cs + k /\ e <= n_bytes b'
    | Err er => err er drop
    end.

Definition keeps (s s' : rj) : Prop :=
  valid s' /\ rest s' = rest s /\ total s' = total s /\ rcap s' = rcap s /\ (rquiet s = true -> rquiet s' = true).

Lemma is_changed_or b0 b : is_changed b0 b = true \/ (n_shifted_out b0 = n_shifted_out b /\ n_bytes b0 = n_bytes b).
Proof. destruct (is_changed b0 b) eqn:E; [left; reflexivity|right; apply is_changed_false; exact E]. Qed.

Lemma lookahead_spec collect s k err :
  valid s -> collects collect s k err ->
  exists s' r, lookahead collect s = Done (s', r) /\
    match r with
    | Ok d => d = firstn k (rest s) /\ keeps s s'
    | Err er => wf (bf s') /\ jlen s' = jlen s /\ jidx s' = jidx s /\ rcap s' = rcap s /\ total s' = total s /\
                exists drop, err er drop /\ cut (bf s) 0 drop (bf s')
    end.
Proof.
  intros V (b' & r & drop & cs & E & C & Q & Hn & Hsh & P). pose proof V as (W & HL & HI).
  unfold lookahead. rewrite E.
  assert (W' : wf b') by (eapply cut_wf; eauto).
  assert (T' := cut_total _ _ _ _ C). assert (K' := cut_cap _ _ _ _ C).
  destruct r as [[x e]|er].
  2:{ eexists _, _. split; [reflexivity|]. cbn [with_bf bf jlen jidx]. unfold rcap, total. cbn [with_bf bf].
      repeat split; auto. exists drop. auto. }
  destruct P as (-> & -> & He).
  assert (HS : skipn cs (stream b') = rest s).
  { unfold rest. destruct Hsh as [(-> & ->)|(H0 & _ & HLd & ->)].
    - rewrite (cut_nil_stream _ _ _ C). reflexivity.
    - cbn [skipn]. rewrite (cut_front _ _ _ C), <- HLd, skipn_app_all. reflexivity. }
  assert (Hd : forall x l, firstn (x + k - x) l = firstn k l :> bytes) by (intros; f_equal; lia).
  destruct (is_changed_or (bf s) b') as [Ech|(Ech1 & Ech2)].
  - rewrite Ech. assert (HSO := C). destruct HSO as (_ & _ & HSO & _).
    destruct (Nat.eqb_spec (n_shifted_out (bf s)) (n_shifted_out b')) as [Hso|Hso]; cbn [andb].
    + destruct (Nat.ltb_spec 0 (jidx s)) as [H0|H0].
      * assert (drop = [] /\ cs = jidx s) as [-> ->].
        { destruct Hsh as [?|(Hpos & _ & HLd & _)]; [assumption|lia]. }
        cbn [List.length] in Hn.
        destruct (shift_front b' (jidx s) W' ltac:(lia)) as (C2 & N2 & L2 & R2 & S2).
        assert (W2 := cut_wf _ _ _ _ C2).
        rewrite slice_buf; [|exact W2|lia|cbn [create_new_jiter with_bf bf]; lia].
        eexists _, _. split; [reflexivity|]. cbn [create_new_jiter with_bf bf skipn]. rewrite S2, HS.
        split; [f_equal; lia|].
        split; [|split; [|split; [|split]]].
        -- unfold valid. cbn [create_new_jiter with_bf bf jlen jidx]. repeat split; auto. lia.
        -- unfold rest at 1. cbn [create_new_jiter with_bf bf jidx skipn]. rewrite S2. exact HS.
        -- unfold total. cbn [create_new_jiter with_bf bf]. rewrite (cut_total _ _ _ _ C2). exact T'.
        -- unfold rcap. cbn [create_new_jiter with_bf bf]. rewrite (cut_cap _ _ _ _ C2). exact K'.
        -- unfold rquiet. cbn [create_new_jiter with_bf bf]. rewrite (quiet_rd _ _ R2). exact Q.
      * assert (drop = [] /\ cs = jidx s) as [-> ->].
        { destruct Hsh as [?|(? & _)]; [assumption|lia]. }
        rewrite slice_buf; [|exact W'|lia|cbn [create_new_jiter with_bf bf]; lia].
        eexists _, _. split; [reflexivity|]. cbn [create_new_jiter with_bf bf]. rewrite HS.
        split; [f_equal; lia|].
        repeat split; auto; unfold valid; cbn [create_new_jiter with_bf bf jlen jidx]; try lia.
        unfold rest at 1. cbn [create_new_jiter with_bf bf jidx]. rewrite <- HS. f_equal. lia.
    + destruct Hsh as [(-> & ->)|(H0 & Hdr & HLd & ->)]; [cbn [List.length] in HSO; lia|].
      rewrite slice_buf; [|exact W'|lia|cbn [create_new_jiter with_bf bf]; lia].
      eexists _, _. split; [reflexivity|]. cbn [create_new_jiter with_bf bf]. rewrite HS.
      split; [f_equal; lia|].
      repeat split; auto; unfold valid; cbn [create_new_jiter with_bf bf jlen jidx]; try lia.
  - assert (Ech : is_changed (bf s) b' = false).
    { unfold is_changed. rewrite Ech1, Ech2, !Nat.eqb_refl. reflexivity. }
    rewrite Ech. assert (HSO := C). destruct HSO as (_ & _ & HSO & _).
    assert (drop = [] /\ cs = jidx s) as [-> ->].
    { destruct Hsh as [?|(Hpos & _ & HLd & _)]; [assumption|lia]. }
    rewrite slice_buf; [|exact W'|lia|cbn [with_bf bf]; lia].
    eexists _, _. split; [reflexivity|]. cbn [with_bf bf]. rewrite HS.
    split; [f_equal; lia|].
    repeat split; auto; unfold valid; cbn [with_bf bf jlen jidx]; try lia.
Qed.

(** ** lookahead_while, lookahead_n *)
Lemma lookahead_while_spec pred s :
  valid s ->
  exists s' r, lookahead_while pred s = Done (s', r) /\
    match r with
    | Ok d => longest_run pred (rest s) d /\ keeps s s'
    | Err er => match err_type er with
                | BufferFull => exists run, longest_run pred (rest s) run /\ rcap s <= len run
                | IoError _ => rquiet s = false
                | _ => False
                end
    end.
Proof.
  intros V. pose proof V as (W & HL & HI).
  destruct (lookahead_spec (fun b p => collect_while b pred p true) s (run_length pred (rest s))
    (fun er _ => match err_type er with BufferFull => rcap s <= run_length pred (rest s) | IoError _ => rquiet s = false | _ => False end) V)
    as (s' & r & E & P).
  { destruct (collect_while_spec (bf s) pred (jidx s) true W HI) as (b' & r & E & drop & cs & C & Q & Hn & Hsh & P).
    exists b', r, drop, cs. repeat (split; [assumption|]). split; [tauto|].
    destruct r as [[x e]|er]; cbn zeta in P.
    - destruct P as (P1 & P2 & P3 & _). auto.
    - destruct (err_type er); auto. destruct P as (P1 & P2 & P3 & _). rewrite (P3 eq_refl) in P2. exact P2. }
  exists s', r. split; [exact E|]. destruct r as [d|er].
  - destruct P as (-> & K). split; [apply longest_run_length|exact K].
  - destruct P as (_ & _ & _ & _ & _ & drop & P & _). destruct (err_type er); auto.
    exists (firstn (run_length pred (rest s)) (rest s)). split; [apply longest_run_length|].
    rewrite firstn_length_le' by apply run_length_le. exact P.
Qed.

Lemma lookahead_n_spec count s :
  valid s ->
  exists s' r, lookahead_n count s = Done (s', r) /\
    match r with
    | Ok d => d = firstn count (rest s) /\ keeps s s'
    | Err er => match err_type er with
                | BufferFull => rcap s < count /\ rest s' = rest s /\ current_index s' = current_index s
                | IoError _ => rquiet s = false
                | _ => False
                end
    end.
Proof.
  intros V. pose proof V as (W & HL & HI).
  destruct (lookahead_spec (fun b p => collect_count b count p true) s (Nat.min count (len (rest s)))
    (fun er drop => match err_type er with BufferFull => rcap s < count /\ drop = [] | IoError _ => rquiet s = false | _ => False end) V)
    as (s' & r & E & P).
  { destruct (collect_count_spec (bf s) count (jidx s) true W HI) as (b' & r & E & drop & cs & C & Q & Hn & Hsh & P).
    exists b', r, drop, cs. repeat (split; [assumption|]). split; [tauto|].
    destruct r as [[x e]|er]; [exact P|]. destruct (err_type er); auto. destruct P as (P1 & P2 & _). auto. }
  exists s', r. split; [exact E|]. destruct r as [d|er].
  - destruct P as (-> & K). split; [|exact K]. destruct (Nat.le_gt_cases count (len (rest s))) as [H|H].
    + rewrite Nat.min_l by exact H. reflexivity.
    + rewrite Nat.min_r by lia. rewrite !firstn_all2 by lia. reflexivity.
  - destruct P as (W' & _ & Hi & _ & _ & drop & P & C). destruct (err_type er); auto.
    destruct P as (P & ->). split; [exact P|]. unfold rest, current_index. rewrite Hi, (cut_nil_stream _ _ _ C).
    split; [reflexivity|]. destruct C as (_ & _ & C & _). rewrite C. cbn. lia.
Qed.

(** ** skip_n_bytes *)
Lemma skip_n_bytes_spec count s :
  valid s -> 0 < rcap s ->
  exists s' r, skip_n_bytes count s = Done (s', r) /\
    match r with
    | Ok t => t = Nat.min count (len (rest s)) /\ rest s' = skipn count (rest s) /\
              valid s' /\ total s' = total s /\ rcap s' = rcap s /\ (rquiet s = true -> rquiet s' = true)
    | Err er => is_io er = true /\ rquiet s = false
    end.
Proof.
  intros V H0. pose proof V as (W & HL & HI). unfold skip_n_bytes.
  destruct (skip_n_spec (bf s) count (jidx s) H0 W HI) as (b' & r & E & drop & C & Q & P). rewrite E.
  destruct r as [[p t]|er].
  - destruct P as (Hp & Ht & Hd). assert (W' := cut_wf _ _ _ _ C).
    destruct (shift_front b' p W' Hp) as (C2 & N2 & L2 & R2 & S2).
    eexists _, _. split; [reflexivity|]. fold (rest s) in Ht. split; [exact Ht|].
    assert (HS : stream (bf s) = drop ++ stream b') by (apply cut_front; exact C).
    split; [|split; [|split; [|split]]].
    + unfold rest at 1. cbn [create_new_jiter with_bf bf jidx skipn]. rewrite S2.
      assert (HR : skipn p (stream b') = skipn (len drop + p) (stream (bf s))).
      { rewrite HS. rewrite <- skipn_skipn, skipn_app_all. reflexivity. }
      rewrite HR, Hd. unfold rest. rewrite <- skipn_skipn. rewrite Ht.
      destruct (Nat.le_gt_cases count (len (skipn (jidx s) (stream (bf s))))) as [H|H].
      * fold (rest s) in *. rewrite Nat.min_l by exact H. reflexivity.
      * fold (rest s) in *. rewrite Nat.min_r by lia. rewrite !skipn_all2 by lia. reflexivity.
    + unfold valid. cbn [create_new_jiter with_bf bf jlen jidx]. repeat split; [apply (cut_wf _ _ _ _ C2)|lia].
    + unfold total. cbn [create_new_jiter with_bf bf]. rewrite (cut_total _ _ _ _ C2). apply (cut_total _ _ _ _ C).
    + unfold rcap. cbn [create_new_jiter with_bf bf]. rewrite (cut_cap _ _ _ _ C2). apply (cut_cap _ _ _ _ C).
    + unfold rquiet. cbn [create_new_jiter with_bf bf]. rewrite (quiet_rd _ _ R2). exact Q.
  - eexists _, _. split; [reflexivity|]. destruct P as (_ & P). unfold is_io, rquiet. destruct (err_type er); try contradiction. auto.
Qed.

(** ** known_skip_token *)
Lemma beq_eq a : forall b, beq a b = true <-> a = b.
Proof.
  induction a as [|x a IH]; intros [|y b]; cbn [beq]; try (split; [discriminate|discriminate]); [split; reflexivity|].
  rewrite andb_true_iff, N.eqb_eq, IH. split; [intros [-> ->]; reflexivity|intros [= -> ->]; auto].
Qed.

Lemma known_skip_token_spec token s :
  valid s -> 0 < rcap s -> len token <= rcap s -> rquiet s = true ->
  exists s' r, known_skip_token token s = Done (s', r) /\ valid s' /\ total s' = total s /\ rcap s' = rcap s /\ rquiet s' = true /\
    ((r = Ok tt /\ rest s = token ++ rest s') \/
     (r = Err (mkErr (JsonError ExpectedSomeIdent) (current_index s)) /\ rest s' = rest s /\
      forall l, rest s <> token ++ l)).
Proof.
  intros V H0 Hl Hq. unfold known_skip_token.
  destruct (lookahead_n_spec (len token) s V) as (s1 & r1 & E1 & P1). rewrite E1.
  destruct r1 as [d|er].
  2:{ exfalso. destruct (err_type er); auto; [congruence|lia]. }
  destruct P1 as (-> & V1 & R1 & T1 & C1 & Q1).
  destruct (beq (firstn (len token) (rest s)) token) eqn:Eb.
  - apply beq_eq in Eb.
    destruct (skip_n_bytes_spec (len token) s1 V1 ltac:(lia)) as (s2 & r2 & E2 & P2). rewrite E2.
    destruct r2 as [t|er].
    2:{ exfalso. destruct P2 as (_ & P2). rewrite Q1 in P2 by exact Hq. discriminate. }
    destruct P2 as (Ht & R2 & V2 & T2 & C2 & Q2).
    exists s2, (Ok tt). split; [reflexivity|]. split; [exact V2|]. split; [congruence|]. split; [congruence|]. split; [auto|].
    left. split; [reflexivity|]. rewrite R2, R1. rewrite <- Eb at 1. symmetry. apply firstn_skipn.
  - exists s1, (Err (from_json_error (current_index s1) ExpectedSomeIdent)). split; [reflexivity|].
    split; [exact V1|]. split; [congruence|]. split; [congruence|]. split; [auto|].
    right. split; [|split; [exact R1|]].
    + unfold from_json_error. f_equal. f_equal. pose proof (index_rest s V). pose proof (index_rest s1 V1). rewrite R1, T1 in *. lia.
    + intros l Hcon. rewrite Hcon, firstn_app_all in Eb. assert (Htok : beq token token = true) by (apply beq_eq; reflexivity). congruence.
Qed.

(** ** finish *)
Lemma jfinish_nil l : skip_jw l = [] -> j_finish l = (Ok tt, len l).
Proof.
  unfold skip_jw, j_finish, after_ws, jat. intros H. rewrite H. unfold jok. rewrite Nat.add_0_r. f_equal.
  pose proof (skipn_length (run_length json_ws l) l) as HL. rewrite H in HL. pose proof (run_length_le json_ws l). cbn in HL. lia.
Qed.
Lemma jfinish_cons l x m : skip_jw l = x :: m ->
  j_finish l = (Err (JsonError TrailingCharacters, run_length json_ws l), run_length json_ws l).
Proof. unfold skip_jw, j_finish, after_ws, jat. intros ->. cbn. rewrite !Nat.add_0_r. reflexivity. Qed.

Definition finish_post (s s' : rj) (r : result unit rerror) : Prop :=
  match r with
  | Ok tt => skip_jw (rest s) = [] /\ valid s' /\ rest s' = [] /\ total s' = total s /\ rcap s' = rcap s
  | Err e => (is_io e = true /\ rquiet s = false) \/
             (err_type e = JsonError TrailingCharacters /\ skip_jw (rest s) <> [] /\
              valid s' /\ rest s' = skip_jw (rest s) /\ total s' = total s)
  end.

Lemma skip_jw_app l m : skip_jw l = [] -> skip_jw (l ++ m) = skip_jw m.
Proof.
  induction l as [|x l IH]; intros H; [reflexivity|]. unfold skip_jw in *. cbn [app run_length] in *.
  destruct (json_ws x); [apply IH; exact H|discriminate].
Qed.
Lemma skip_jw_app_cons l m x k : skip_jw l = x :: k -> skip_jw (l ++ m) = x :: k ++ m.
Proof.
  induction l as [|y l IH]; intros H; [discriminate|]. unfold skip_jw in *. cbn [app run_length] in *.
  destruct (json_ws y); [apply IH; exact H|]. cbn [skipn] in *. injection H as -> ->. reflexivity.
Qed.

Lemma finish_loop_spec fuel : forall s,
  valid s -> 0 < rcap s -> 2 * len (src (rd (bf s))) + (if jidx s <? rcap s then 1 else 2) + (if n_bytes (bf s) <? rcap s then 0 else 1) <= fuel ->
  exists s' r, finish_loop fuel s = Done (s', r) /\ finish_post s s' r.
Proof.
  induction fuel as [|fuel IH]; intros s V H0 Hf; [destruct (jidx s <? rcap s); lia|].
  pose proof V as (W & HL & HI). cbn [finish_loop]. unfold jcall.
  pose proof (jview_split s V) as Hsp. pose proof (jview_length s V) as Hvl.
  destruct (skip_jw (jview s)) as [|x m] eqn:Ews.
  - rewrite (jfinish_nil _ Ews). cbn [jidx bf jlen].
    replace (jidx s + len (jview s)) with (n_bytes (bf s)) by lia.
    change (len (buf (bf s))) with (rcap s).
    assert (Hrest : skip_jw (rest s) = skip_jw (src (rd (bf s)))) by (rewrite Hsp; apply skip_jw_app; exact Ews).
    (* continuing after a shift *)
    assert (Hcont : forall b, wf b -> cap b = rcap s -> (rquiet s = true -> quiet b = true) ->
       n_shifted_out b + len (stream b) = total s -> n_bytes (bf s) <= n_bytes b ->
       stream b = stream (bf s) ->
       (2 * len (src (rd b)) + 2 <= fuel \/ (n_bytes (bf s) = n_bytes b /\ 2 * len (src (rd b)) + 1 <= fuel)) ->
       exists s' r, finish_loop fuel (create_new_jiter (with_bf (mkRj (bf s) (jlen s) (n_bytes (bf s))) (shift_buffer b 0 (n_bytes (bf s))))) = Done (s', r) /\
         finish_post s s' r).
    { intros b Wb Cb Qb Tb Nb Sb Fb.
      destruct (shift_front b (n_bytes (bf s)) Wb Nb) as (C2 & N2 & L2 & R2 & S2).
      assert (W2 := cut_wf _ _ _ _ C2).
      set (s2 := create_new_jiter (with_bf (mkRj (bf s) (jlen s) (n_bytes (bf s))) (shift_buffer b 0 (n_bytes (bf s))))).
      assert (V2 : valid s2).
      { unfold valid, s2. cbn [create_new_jiter with_bf bf jlen jidx]. repeat split; [exact W2|lia]. }
      assert (HR2 : rest s2 = src (rd (bf s))).
      { unfold rest, s2. cbn [create_new_jiter with_bf bf jidx skipn]. rewrite S2, Sb. apply stream_skipn. exact W. }
      assert (HC2 : rcap s2 = rcap s).
      { unfold rcap, s2. cbn [create_new_jiter with_bf bf]. rewrite (cut_cap _ _ _ _ C2). exact Cb. }
      assert (HT2 : total s2 = total s).
      { unfold total, s2. cbn [create_new_jiter with_bf bf]. rewrite (cut_total _ _ _ _ C2). exact Tb. }
      destruct (IH s2 V2 ltac:(lia)) as (s' & r & E & P).
      { rewrite HC2. unfold s2 at 1 2 3. cbn [create_new_jiter with_bf bf jidx]. rewrite R2, N2.
        destruct (Nat.ltb_spec 0 (rcap s)); [|lia].
        destruct (Nat.ltb_spec (n_bytes b - n_bytes (bf s)) (rcap s)); [lia|].
        destruct Fb as [Fb|(Fb1 & Fb2)]; lia. }
      exists s', r. split; [exact E|]. unfold finish_post in *. rewrite HR2, HT2, HC2 in P. rewrite Hrest.
      destruct r as [[]|e]; [exact P|]. destruct P as [(Pi & Pq)|P]; [|right; exact P].
      left. split; [exact Pi|]. unfold rquiet in *. destruct (quiet (bf s)); [|reflexivity].
      unfold s2 in Pq. cbn [create_new_jiter with_bf bf] in Pq. rewrite (quiet_rd _ _ R2), Qb in Pq by reflexivity. discriminate. }
    destruct (Nat.ltb_spec (n_bytes (bf s)) (rcap s)) as [Hlt|Hge].
    + destruct (read_more (bf s)) as [b r] eqn:Er.
      destruct (read_more_spec _ _ _ W Er) as (C2 & N2 & Q2 & P2).
      assert (W2 := cut_wf _ _ _ _ C2). assert (St := cut_nil_stream _ _ _ C2). assert (T2 := cut_total _ _ _ _ C2).
      destruct r as [[|k]|e].
      * destruct P2 as (A1 & A2 & A3). specialize (A3 eq_refl).
        assert (Hsrc : src (rd (bf s)) = []) by (destruct A3; [unfold rcap in Hlt; lia|assumption]).
        eexists _, _. split; [reflexivity|]. unfold finish_post. split; [rewrite Hrest, Hsrc; reflexivity|].
        split; [unfold valid; cbn [with_bf bf jlen jidx]; repeat split; auto; lia|].
        split; [|split; [exact T2|apply (cut_cap _ _ _ _ C2)]]. unfold rest. cbn [with_bf bf jidx]. rewrite St, stream_skipn by exact W. exact Hsrc.
      * destruct P2 as (A1 & A2 & _). apply Hcont; auto.
        -- apply (cut_cap _ _ _ _ C2).
        -- lia.
        -- left. destruct (Nat.ltb_spec (jidx s) (rcap s)); lia.
      * destruct P2 as ((kind & ->) & A1 & A2 & A3 & Hnq). eexists _, _. split; [reflexivity|]. left. split; [reflexivity|exact Hnq].
    + apply Hcont; auto.
      right. split; [reflexivity|]. destruct (Nat.ltb_spec (jidx s) (rcap s)); lia.
  - rewrite (jfinish_cons _ _ _ Ews). eexists _, _. split; [reflexivity|]. right.
    assert (HW : skip_jw (rest s) = x :: m ++ src (rd (bf s))) by (rewrite Hsp; apply skip_jw_app_cons; exact Ews).
    pose proof (run_length_le json_ws (jview s)) as Hr.
    split; [reflexivity|]. split; [rewrite HW; discriminate|].
    split; [unfold valid; cbn [bf jlen jidx]; repeat split; auto; lia|].
    split; [|reflexivity]. unfold rest. cbn [bf jidx]. rewrite <- skipn_skipn. fold (rest s).
    unfold skip_jw. f_equal. rewrite Hsp. symmetry. apply run_length_app_lt.
    destruct (Nat.eq_dec (run_length json_ws (jview s)) (List.length (jview s))) as [Heq|]; [|lia].
    unfold skip_jw in Ews. rewrite Heq, skipn_all in Ews. discriminate.
Qed.

Lemma finish_spec s : valid s -> 0 < rcap s -> exists s' r, finish s = Done (s', r) /\ finish_post s s' r.
Proof.
  intros V H0. apply finish_loop_spec; auto. unfold finish_fuel. destruct (_ <? _), (_ <? _); lia.
Qed.
