(** Proofs about the position in the stream: current_index, error indices, line and column; termination. *)
From Verif Require Import Base Buffer BufferSpec BufferProofs Jiter JiterProofs RJiter RJiterSpec RJiterProofs
  RJiterOpProofs RJiterLookProofs RJiterLongProofs.

Definition suffix (l m : bytes) : Prop := exists k, l = skipn k m.
Lemma suffix_refl l : suffix l l. Proof. exists 0. reflexivity. Qed.
Lemma suffix_trans a b c : suffix a b -> suffix b c -> suffix a c.
Proof. intros (i & ->) (j & ->). exists (j + i). apply skipn_skipn. Qed.
Lemma suffix_skipn n l : suffix (skipn n l) l. Proof. exists n. reflexivity. Qed.
Lemma suffix_1 a l : 1 <= a -> suffix (skipn a l) (skipn 1 l).
Proof. intros H. exists (a - 1). rewrite skipn_skipn. f_equal. lia. Qed.
Lemma suffix_cons x a l : suffix a l -> suffix a (x :: l).
Proof. intros (k & ->). exists (S k). reflexivity. Qed.
Lemma suffix_length a l : suffix a l -> a = skipn (len l - len a) l.
Proof.
  intros (k & ->). rewrite skipn_length. destruct (Nat.le_gt_cases k (len l)) as [H|H].
  - f_equal. lia.
  - rewrite skipn_all2 by lia. rewrite skipn_all2 by lia. reflexivity.
Qed.

(** ** handle_long on any input *)
Lemma raw_segment_bound b : wf b -> (8 <= cap b -> raw_segment_end b < cap b) /\ raw_segment_end b <= n_bytes b.
Proof.
  unfold wf, cap, raw_segment_end. intros W.
  pose proof (run_length_le (fun x => negb (N.eqb x BACKSLASH)) (firstn (n_bytes b) (buf b))) as Hr. rewrite firstn_length in Hr.
  set (r := run_length _ _) in *. clearbody r.
  destruct (Nat.ltb_spec r (n_bytes b)); [|lia]. destruct (Nat.ltb_spec 1 r); [lia|].
  destruct (Nat.ltb_spec (n_bytes b) 3); [lia|]. destruct (_ && _)%bool; [lia|].
  destruct (Nat.ltb_spec (n_bytes b) 7); lia.
Qed.

Lemma handle_long_any (parser : jop bytes) segment :
  bounded parser -> inert parser -> (forall l v a, parser l = (Ok v, a) -> 1 <= a) ->
  forall fuel s w, valid s -> len (src (rd (bf s))) < fuel ->
  (rcap s < 8 /\ handle_long fuel parser segment s w = Panic) \/
  exists s' w' r, handle_long fuel parser segment s w = Done (s', w', r) /\
    match r with
    | Ok _ => valid s' /\ total s' = total s /\ rcap s' = rcap s /\ suffix (rest s') (skipn 1 (rest s))
    | Err _ => True
    end.
Proof.
  intros Hbo Hin Hone. induction fuel as [|fuel IH]; intros s w V Hfu; [lia|].
  cbn [handle_long]. unfold jcall. pose proof (jview_length s V) as Hvl.
  destruct (parser (jview s)) as [[v|[er off]] a] eqn:Ep.
  { destruct (write_all_spec w v) as (w' & r & Ew & _). rewrite Ew.
    destruct r as [u|e]; [|right; do 3 eexists; split; [reflexivity|exact I]].
    right. do 3 eexists. split; [reflexivity|]. pose proof (Hbo _ _ _ Ep) as Ha. rewrite Hvl in Ha.
    destruct V as (W & J & I'). split; [|split; [reflexivity|split; [reflexivity|]]].
    - unfold valid. cbn [bf jlen jidx]. split; [exact W|]. split; [exact J|]. lia.
    - unfold rest. cbn [bf jidx]. rewrite <- skipn_skipn. apply suffix_1. eapply Hone; eauto. }
  apply Hin in Ep as Ha. subst a. replace (jidx s + 0) with (jidx s) by lia. cbn [fst].
  destruct (can_retry er); [|right; do 3 eexists; split; [reflexivity|exact I]].
  set (s1 := mkRj (bf s) (jlen s) (jidx s)).
  set (s2 := if 0 <? jidx s1 then create_new_jiter (with_bf s1 (shift_buffer (bf s1) 0 (jidx s1))) else s1).
  assert (H2 : valid s2 /\ rest s2 = rest s /\ jidx s2 = 0 /\ total s2 = total s /\ rcap s2 = rcap s /\ rd (bf s2) = rd (bf s)).
  { destruct V as (W & J & I). unfold s2. cbn [s1 jidx bf]. destruct (Nat.ltb_spec 0 (jidx s)) as [Hj|Hj].
    - destruct (shift_front (bf s) (jidx s) W I) as (C & N' & L & R & S').
      cbn [with_bf create_new_jiter bf jlen jidx]. unfold valid, rest, total, rcap. cbn [with_bf create_new_jiter bf jlen jidx].
      split; [split; [apply (cut_wf _ _ _ _ C)|split; [reflexivity|lia]]|].
      split; [cbn [skipn]; exact S'|]. split; [reflexivity|].
      split; [apply (cut_total _ _ _ _ C)|]. split; [apply (cut_cap _ _ _ _ C)|exact R].
    - assert (jidx s = 0) by lia. subst s1. destruct s as [b jl ji]. cbn [jidx bf jlen] in *. subst ji.
      split; [split; [exact W|split; [exact J|exact I]]|]. repeat split; auto. }
  clearbody s2. clear s1. destruct H2 as (V2 & R2 & J2 & T2 & C2 & D2).
  assert (Hstream : stream (bf s2) = rest s) by (rewrite <- R2; unfold rest; rewrite J2; reflexivity).
  assert (Hread : forall s3 w3, wf (bf s3) -> total s3 = total s -> rcap s3 = rcap s -> rd (bf s3) = rd (bf s) ->
    suffix (skipn 1 (stream (bf s3))) (skipn 1 (rest s)) ->
    let X := match read_more (bf s3) with
      | (b, Err e) => Done (with_bf s3 b, w3, Err e)
      | (b, Ok 0) => Done (with_bf s3 b, w3, Err (from_jiter_error (current_index (with_bf s3 b)) (er, jidx s + off)))
      | (b, Ok _) => handle_long fuel parser segment (create_new_jiter (with_bf s3 b)) w3
      end in
    (rcap s < 8 /\ X = Panic) \/ exists s' w' r, X = Done (s', w', r) /\
      match r with
      | Ok _ => valid s' /\ total s' = total s /\ rcap s' = rcap s /\ suffix (rest s') (skipn 1 (rest s))
      | Err _ => True
      end).
  { intros s3 w3 W3 T3 C3 D3 Hsuf. cbn zeta.
    destruct (read_more (bf s3)) as [b [[|k]|e]] eqn:Er; try (right; do 3 eexists; split; [reflexivity|exact I]).
    destruct (read_more_spec _ _ _ W3 Er) as (C & Sh & _ & N' & Ls & _).
    pose proof (cut_nil_stream _ _ _ C) as Hs.
    destruct (IH (create_new_jiter (with_bf s3 b)) w3) as [[Hs8 E]|(s' & w' & r & E & Hr)].
    - unfold valid. cbn [create_new_jiter with_bf bf jlen jidx]. split; [apply (cut_wf _ _ _ _ C)|]. split; [reflexivity|lia].
    - cbn [create_new_jiter with_bf bf]. rewrite D3 in Ls. lia.
    - left. split; [|exact E]. unfold rcap in *. cbn [create_new_jiter with_bf bf] in Hs8. rewrite (cut_cap _ _ _ _ C) in Hs8. lia.
    - right. exists s', w', r. split; [exact E|]. destruct r as [u|e]; [|exact I]. destruct Hr as (H1 & H2 & H3 & H4).
      split; [exact H1|]. split; [|split].
      + rewrite H2, <- T3. unfold total. cbn [create_new_jiter with_bf bf]. rewrite Hs, Sh. reflexivity.
      + rewrite H3. unfold rcap in *. cbn [create_new_jiter with_bf bf]. rewrite (cut_cap _ _ _ _ C). exact C3.
      + eapply suffix_trans; [exact H4|]. unfold rest. cbn [create_new_jiter with_bf bf jidx]. rewrite Hs. exact Hsuf. }
  destruct (raw_segment_bound (bf s2)) as [Hb1 Hb2]; [apply V2|].
  destruct (Nat.le_gt_cases (cap (bf s2)) (raw_segment_end (bf s2))) as [Hout|Hin'].
  { left. split; [unfold rcap in *; lia|].
    assert (Hn : nth_error (buf (bf s2)) (raw_segment_end (bf s2)) = None) by (apply nth_error_None; exact Hout).
    destruct (raw_segment_end (bf s2)); cbn [find_leading]; rewrite Hn; reflexivity. }
  destruct (find_leading_spec (buf (bf s2)) (raw_segment_end (bf s2))) as (e & He & Hle & _); [exact Hin'|]. rewrite He.
  destruct (Nat.ltb_spec 1 e) as [He1|He1].
  2:{ apply Hread; auto; [apply V2|]. rewrite Hstream. apply suffix_refl. }
  destruct (segment (buf (bf s2)) e) as [x|er2]; [|right; do 3 eexists; split; [reflexivity|exact I]].
  destruct (write_all_spec w x) as (w' & r & Ew & _). rewrite Ew.
  destruct r as [u|e2]; [|right; do 3 eexists; split; [reflexivity|exact I]].
  destruct (shift_spec (bf s2) 1 e (proj1 V2)) as (C & N' & Ld & Rd').
  replace (Nat.min e (n_bytes (bf s2))) with e in * by lia.
  apply Hread; cbn [with_bf bf].
  - apply (cut_wf _ _ _ _ C).
  - rewrite <- T2. unfold total. cbn [with_bf bf]. apply (cut_total _ _ _ _ C).
  - rewrite <- C2. unfold rcap. cbn [with_bf bf]. apply (cut_cap _ _ _ _ C).
  - rewrite Rd'. exact D2.
  - rewrite <- Hstream. destruct C as (_ & _ & _ & _ & a' & c & E1 & E2 & Ha). rewrite E2, E1.
    destruct Ha as [Ha|Ha]; [rewrite Ha in Ld; cbn in Ld; lia|].
    destruct a' as [|y [|z a']]; [cbn in Ha; lia| |cbn in Ha; lia]. cbn [app skipn].
    eexists. symmetry. apply skipn_app_all.
Qed.

Lemma known_bytes_one l v a : j_known_bytes l = (Ok v, a) -> 1 <= a.
Proof. unfold j_known_bytes. destruct (scan_string _ _) as [[? ?]|[? ?]]; intros H; [|discriminate]. injection H as _ <-. lia. Qed.
Lemma known_str_one l v a : j_known_str l = (Ok v, a) -> 1 <= a.
Proof. unfold j_known_str. destruct (scan_string _ _) as [[? ?]|[? ?]]; intros H; [|discriminate]. destruct (utf8_invalid _ _); [discriminate|]. injection H as _ <-. lia. Qed.

Definition ends {A} (s : rj) (x : outcome (rj * writer * result A rerror)) : Prop :=
  (rcap s < 8 /\ x = Panic) \/
  exists s' w' r, x = Done (s', w', r) /\
    match r with
    | Ok _ => valid s' /\ total s' = total s /\ rcap s' = rcap s /\ suffix (rest s') (rest s)
    | Err _ => True
    end.
Lemma write_long_any s w : valid s -> ends s (write_long_bytes s w) /\ ends s (write_long_str s w).
Proof.
  intros V. split.
  - destruct (handle_long_any j_known_bytes bytes_segment known_bytes_bounded known_bytes_inert known_bytes_one (fuel_for (bf s)) s w V)
      as [H|(s' & w' & r & E & H)]; [unfold fuel_for; lia|left; exact H|].
    right. exists s', w', r. split; [exact E|]. destruct r; [|exact I]. destruct H as (H1 & H2 & H3 & H4).
    do 3 (split; [assumption|]). eapply suffix_trans; [exact H4|apply suffix_skipn].
  - destruct (handle_long_any j_known_str str_segment known_str_bounded known_str_inert known_str_one (fuel_for (bf s)) s w V)
      as [H|(s' & w' & r & E & H)]; [unfold fuel_for; lia|left; exact H|].
    right. exists s', w', r. split; [exact E|]. destruct r; [|exact I]. destruct H as (H1 & H2 & H3 & H4).
    do 3 (split; [assumption|]). eapply suffix_trans; [exact H4|apply suffix_skipn].
Qed.

(** ** The position in the stream *)
Lemma jat_one {A} n (f : jop A) l v a : jat n f l = (Ok v, a) -> n <= a.
Proof. intros H. apply jat_ok in H as (b & _ & ->). lia. Qed.
Lemma after_ws_one {A} (f : jop A) l v a : (forall l v a, f l = (Ok v, a) -> 1 <= a) -> after_ws f l = (Ok v, a) -> 1 <= a.
Proof. intros Hf H. apply jat_ok in H as (b & H & ->). apply Hf in H. lia. Qed.
Lemma next_as_one {A} t ok (f : byte -> jop A) : (forall x l v a, f x l = (Ok v, a) -> 1 <= a) ->
  forall l v a, next_as t ok f l = (Ok v, a) -> 1 <= a.
Proof.
  intros Hf l v a. apply after_ws_one. clear l v a. intros [|x l] v a H; [discriminate|].
  destruct (ok x); [eapply Hf; eauto|]. destruct (wrong_type_err (A:=A) t x (x :: l)) as (e & E). rewrite E in H. discriminate.
Qed.
Lemma token_one {A} k known t (f : jop A) op : method k known (Some t) f op -> forall l v a, f l = (Ok v, a) -> 1 <= a.
Proof.
  intros M. remember (Some t) as token eqn:Et. destruct M; try discriminate; clear Et.
  - intros l v a H. eapply jat_one; exact H.
  - intros l v a H. eapply jat_one; exact H.
  - apply next_as_one. intros x l v a H. eapply jat_one; exact H.
  - intros l v a. apply after_ws_one. clear l v a. intros [|x l] v a H; [discriminate|].
    destruct (N.eqb x COMMA); [eapply jat_one; exact H|]. destruct (N.eqb x RBRACK); [injection H as _ <-; lia|discriminate].
  - intros l v a. apply after_ws_one. clear l v a. intros [|x l] v a H; [discriminate|].
    destruct (N.eqb x COMMA); [eapply jat_one; exact H|]. destruct (N.eqb x RBRACE); [injection H as _ <-; lia|discriminate].
  - intros l v a. apply after_ws_one. clear l v a. intros [|x l] v a H; [discriminate|].
    destruct (N.eqb x COMMA); [eapply jat_one; exact H|]. destruct (N.eqb x RBRACE); [injection H as _ <-; lia|discriminate].
  - apply next_as_one. intros x l v a H. eapply jat_one; exact H.
  - apply next_as_one. intros x l v a H. eapply jat_one; exact H.
Qed.
Lemma strip_suffix token l a : (token <> None -> 1 <= a) -> suffix (skipn a (strip token l)) l.
Proof.
  intros Ha. unfold strip, skip_aw. destruct token as [t|].
  2:{ eapply suffix_trans; [apply suffix_skipn|apply suffix_skipn]. }
  assert (H1 : 1 <= a) by (apply Ha; discriminate).
  destruct (skipn (run_length is_ascii_whitespace l) l) as [|x m] eqn:E.
  - exists (len l). rewrite skipn_all, skipn_nil. reflexivity.
  - assert (Hm : suffix (x :: m) l) by (rewrite <- E; apply suffix_skipn).
    destruct (N.eqb x t); [|eapply suffix_trans; [apply suffix_skipn|exact Hm]].
    destruct a as [|a]; [lia|]. cbn [skipn]. eapply suffix_trans; [apply suffix_skipn|]. eapply suffix_trans; [apply suffix_skipn|].
    eapply suffix_trans; [|exact Hm]. apply suffix_cons, suffix_refl.
Qed.

Lemma rstep_spec s s' : valid s -> 2 <= rcap s -> rstep s s' ->
  valid s' /\ total s' = total s /\ rcap s' = rcap s /\ suffix (rest s') (rest s).
Proof.
  intros V Hc H. destruct H as [A k known token f op v M E|pred d E|n d E|n k E|t u E|u E|w w' u E|w w' u E].
  - pose proof M as M'. apply method_facts in M' as [-> Hw Hb He Hl Hbl Hd].
    destruct (loop_spec f token (eager_of k) s Hw Hb He V Hc) as (s2 & r & E2 & P). rewrite E in E2. injection E2 as <- <-.
    destruct P as (V' & C' & _ & T' & P). do 3 (split; [assumption|]).
    assert (Hone : forall l v a, f l = (Ok v, a) -> token <> None -> 1 <= a).
    { intros l v0 a Hf Ht. destruct token as [t|]; [|congruence]. eapply token_one; eauto. }
    destruct P as [(a & Hf & ->)|[(a & Hf & ->)|[(_ & _ & Hf & ->)|(_ & _ & r0 & a0 & a1 & _ & _ & _ & _ & ->)]]].
    + apply suffix_skipn.
    + apply strip_suffix. intros Ht. eapply Hone; eauto.
    + apply strip_suffix. intros _. lia.
    + apply suffix_skipn.
  - destruct (lookahead_while_spec pred s V) as (s2 & r & E2 & P). rewrite E in E2. injection E2 as <- <-.
    destruct P as (_ & V' & R' & T' & C' & _). rewrite R'. do 3 (split; [assumption|]). apply suffix_refl.
  - destruct (lookahead_n_spec n s V) as (s2 & r & E2 & P). rewrite E in E2. injection E2 as <- <-.
    destruct P as (_ & V' & R' & T' & C' & _). rewrite R'. do 3 (split; [assumption|]). apply suffix_refl.
  - destruct (skip_n_bytes_spec n s V ltac:(lia)) as (s2 & r & E2 & P). rewrite E in E2. injection E2 as <- <-.
    destruct P as (_ & R' & V' & T' & C' & _). rewrite R'. do 3 (split; [assumption|]). apply suffix_skipn.
  - unfold known_skip_token in E.
    destruct (lookahead_n_spec (len t) s V) as (s1 & r1 & E1 & P1). rewrite E1 in E.
    destruct r1 as [d|er]; [|discriminate]. destruct P1 as (_ & V1 & R1 & T1 & C1 & _).
    destruct (beq d t); [|discriminate].
    destruct (skip_n_bytes_spec (len t) s1 V1 ltac:(lia)) as (s2 & r & E2 & P). rewrite E2 in E.
    destruct r as [x|er]; [|discriminate]. injection E as <- _.
    destruct P as (_ & R' & V' & T' & C' & _). rewrite R', R1. split; [exact V'|]. split; [congruence|]. split; [congruence|]. apply suffix_skipn.
  - destruct (finish_spec s V ltac:(lia)) as (s2 & r & E2 & P). rewrite E in E2. injection E2 as <- <-. destruct u.
    destruct P as (_ & V' & R' & T' & C'). do 3 (split; [assumption|]). rewrite R'. exists (len (rest s)). symmetry. apply skipn_all.
  - destruct (proj1 (write_long_any s w V)) as [[_ E2]|(s2 & w2 & r & E2 & P)]; rewrite E in E2; [discriminate|].
    injection E2 as <- <- <-. exact P.
  - destruct (proj2 (write_long_any s w V)) as [[_ E2]|(s2 & w2 & r & E2 & P)]; rewrite E in E2; [discriminate|].
    injection E2 as <- <- <-. exact P.
Qed.

Lemma valid_new r cells : valid (rj_new r cells).
Proof. unfold valid, rj_new, wf. cbn. lia. Qed.
Lemma rsteps_spec s s' : valid s -> 2 <= rcap s -> rsteps s s' ->
  valid s' /\ total s' = total s /\ rcap s' = rcap s /\ suffix (rest s') (rest s).
Proof.
  intros V Hc H. induction H as [|s1 s2 H IH H1].
  - split; [exact V|]. repeat split. apply suffix_refl.
  - destruct IH as (V1 & T1 & C1 & S1). destruct (rstep_spec s1 s2 V1 ltac:(lia) H1) as (V2 & T2 & C2 & S2).
    split; [exact V2|]. split; [congruence|]. split; [congruence|]. eapply suffix_trans; eauto.
Qed.
Lemma index_absolute input schedule cells s :
  2 <= len cells -> rsteps (rj_new (mkReader input schedule) cells) s ->
  current_index s <= len input /\ rest s = skipn (current_index s) input.
Proof.
  intros Hc H. destruct (rsteps_spec _ _ (valid_new _ _) Hc H) as (V & T & C & S).
  pose proof (index_rest s V) as Hi. change (rest (rj_new _ _)) with input in S.
  assert (HT : total s = len input) by (rewrite T; reflexivity).
  split; [lia|]. rewrite (suffix_length _ _ S). f_equal. lia.
Qed.
Lemma index_grows s s' : valid s -> 2 <= rcap s -> rsteps s s' -> current_index s <= current_index s'.
Proof.
  intros V Hc H. destruct (rsteps_spec _ _ V Hc H) as (V' & T & C & (k & S)).
  pose proof (index_rest s V). pose proof (index_rest s' V'). rewrite S, skipn_length in *. lia.
Qed.

(** ** Error indices *)
Lemma scalar_facts {A} (f : jop A) op : scalar f op -> stable false f /\ inert f /\ method Plain true None f op.
Proof.
  intros [p Hp| | |]; (split; [|split; [|constructor]]).
  - apply known_bool_stable. destruct Hp as [-> | ->]; reflexivity.
  - apply known_bool_inert.
  - apply ident_stable; discriminate.
  - apply ident_inert.
  - apply known_bytes_stable.
  - apply known_bytes_inert.
  - apply known_str_stable.
  - apply known_str_inert.
Qed.
Lemma scalar_error {A} (f : jop A) op s s' e :
  scalar f op -> valid s -> 2 <= rcap s -> on_token true (rest s) -> op s = Done (s', Err e) ->
  (is_io e = true /\ rquiet s = false) \/
  (exists ty off, fst (f (rest s)) = Err (ty, off) /\ e = mkErr ty (current_index s + off)) \/
  rcap s < len (rest s).
Proof.
  intros Hsc V Hc Hon E. destruct (scalar_facts f op Hsc) as (Hst & Hin & M). pose proof M as M'.
  apply method_facts in M' as [-> Hw Hb He Hl Hbl Hd].
  destruct (loop_spec f None (eager_of Plain) s Hw Hb He V Hc) as (s2 & r & E2 & P). rewrite E in E2. injection E2 as <- <-.
  assert (HS : strip None (rest s) = rest s).
  { unfold strip, skip_aw. destruct (rest s) as [|x l] eqn:ER; [reflexivity|]. specialize (Hon eq_refl). rewrite ?ER in Hon.
    cbn [run_length]. rewrite Hon. reflexivity. }
  unfold op_post in P. rewrite HS in P.
  destruct P as [P|[(er & a & Hf & Hr)|[(Hlt & _)|(_ & _ & r0 & a0 & er & a1 & Ef & Ha & Hr & _)]]].
  - left. exact P.
  - right. left. apply Hin in Hf as Ha. subst a. rewrite Hr by exact Hst. destruct er as [ty off].
    exists ty, off. split; [rewrite Hf; reflexivity|]. unfold from_jiter_error. cbn [fst snd]. f_equal.
    pose proof (index_rest s V). lia.
  - right. right. exact Hlt.
  - exfalso. destruct r0 as [v|er0]; [destruct Hr; discriminate|]. apply Hin in Ef. lia.
Qed.

(** ** Line and column *)
Lemma tail_length_app d e : tail_length (d ++ e) = if existsb (N.eqb newline) e then tail_length e else tail_length d + len e.
Proof.
  unfold bytes, byte in *. induction d as [|x d IH]; cbn [app tail_length].
  - destruct (existsb (N.eqb newline) e) eqn:E; [reflexivity|]. apply tail_length_no_newline. exact E.
  - rewrite existsb_app, IH. destruct (existsb (N.eqb newline) e) eqn:E.
    { destruct (existsb (N.eqb newline) d); reflexivity. }
    destruct (existsb (N.eqb newline) d); [reflexivity|]. cbn [orb]. rewrite app_length. destruct (N.eqb newline x); (cbn [List.length]; unfold byte in *; lia).
Qed.
Lemma line_find_spec l : forall index start line find,
  index <= find -> find < index + len l -> start <= index ->
  line_find l index start line find =
    let p := firstn (S (find - index)) l in
    (line + count_newlines p, if existsb (N.eqb newline) p then tail_length p else S find - start).
Proof.
  induction l as [|x l IH]; intros index start line find H1 H2 H3; cbn [List.length] in H2; [lia|].
  cbn [line_find]. rewrite (N.eqb_sym x newline).
  destruct (Nat.eqb_spec index find) as [<-|Hne].
  - rewrite Nat.sub_diag. cbn [firstn]. unfold count_newlines. cbn [filter existsb tail_length].
    destruct (N.eqb newline x); cbn [List.length orb]; f_equal; lia.
  - assert (HS : S (find - index) = S (S (find - S index))) by lia. rewrite HS.
    set (k := S (find - S index)) in *. cbn [firstn]. 
    destruct (N.eqb newline x) eqn:Ex.
    + rewrite IH by lia. fold k. cbn zeta. unfold count_newlines. cbn [filter existsb tail_length]. rewrite Ex. cbn [List.length orb].
      f_equal; [lia|]. destruct (existsb (N.eqb newline) (firstn k l)) eqn:En; [reflexivity|].
      rewrite firstn_length. unfold k. lia.
    + rewrite IH by lia. fold k. cbn zeta. unfold count_newlines. cbn [filter existsb tail_length]. rewrite Ex. cbn [List.length orb].
      destruct (existsb (N.eqb newline) (firstn k l)) eqn:En; reflexivity.
Qed.
Lemma plain_position data index : index < len data ->
  j_error_position data index = (line_of data index, column_of data index).
Proof.
  intros H. unfold j_error_position. rewrite line_find_spec by lia. cbn zeta. rewrite !Nat.sub_0_r. unfold line_of, column_of.
  f_equal. destruct (existsb _ _) eqn:E; [reflexivity|]. rewrite tail_length_no_newline by exact E.
  rewrite firstn_length. lia.
Qed.
Lemma count_newlines_app d e : count_newlines (d ++ e) = count_newlines d + count_newlines e.
Proof. unfold count_newlines. rewrite filter_app, app_length. reflexivity. Qed.
Lemma error_position_spec input s d index :
  dropped_front input (bf s) d -> valid s ->
  n_shifted_out (bf s) <= index < n_shifted_out (bf s) + n_bytes (bf s) ->
  error_position s index =
    Done (line_of input index,
          if existsb (N.eqb newline) (firstn (S index - len d) (skipn (len d) input))
          then column_of input index + tail_length d else column_of input index).
Proof.
  intros (Hin & Hs & Hl & Hcol) (W & J & I) Hi. unfold error_position.
  destruct (Nat.ltb_spec index (n_shifted_out (bf s))); [lia|].
  rewrite J. unfold wf in W.
  rewrite plain_position by (rewrite firstn_length; lia). rewrite Hl, Hcol. rewrite Hs in *.
  set (k := index - len d) in *. rewrite Hin. rewrite skipn_app_all.
  assert (HS : S index - len d = S k) by (unfold k; lia). rewrite HS.
  assert (Hf : firstn (S index) (d ++ stream (bf s)) = d ++ firstn (S k) (stream (bf s))).
  { rewrite firstn_app, firstn_all2 by lia. f_equal. f_equal. lia. }
  unfold line_of, column_of. rewrite Hf.
  rewrite firstn_firstn. replace (Nat.min (S k) (n_bytes (bf s))) with (S k) by lia.
  assert (Hst : firstn (S k) (buf (bf s)) = firstn (S k) (stream (bf s))).
  { unfold stream. rewrite firstn_app_le by (rewrite firstn_length; lia). rewrite firstn_firstn. f_equal. lia. }
  rewrite Hst. rewrite count_newlines_app, tail_length_app. f_equal. f_equal; [lia|].
  destruct (existsb (N.eqb newline) (firstn (S k) (stream (bf s)))) eqn:E; [reflexivity|].
  rewrite tail_length_no_newline by exact E. lia.
Qed.

(** ** Termination *)
Lemma methods_end {A} k known token (f : jop A) op s : method k known token f op -> valid s -> 2 <= rcap s ->
  exists s' r, op s = Done (s', r).
Proof.
  intros M V Hc. apply method_facts in M as [-> Hw Hb He Hl Hbl Hd].
  destruct (loop_spec f token (eager_of k) s Hw Hb He V Hc) as (s2 & r & E2 & P). eauto.
Qed.
Lemma known_skip_token_ends token s : valid s -> 0 < rcap s -> exists s' r, known_skip_token token s = Done (s', r).
Proof.
  intros V Hc. unfold known_skip_token.
  destruct (lookahead_n_spec (len token) s V) as (s1 & r1 & E1 & P1). rewrite E1.
  destruct r1 as [d|er]; [|eauto]. destruct P1 as (_ & V1 & R1 & T1 & C1 & _).
  destruct (beq d token); [|eauto].
  destruct (skip_n_bytes_spec (len token) s1 V1 ltac:(lia)) as (s2 & r & E2 & P). rewrite E2. destruct r; eauto.
Qed.
Lemma finish_endless fuel : forall s, rcap s = 0 -> valid s -> finish_loop fuel s = Diverge.
Proof.
  induction fuel as [|fuel IH]; intros s Hc V; [reflexivity|]. pose proof V as (W & J & I). unfold rcap, cap, wf in *.
  cbn [finish_loop]. unfold jcall, jview.
  assert (Hb : buf (bf s) = []) by (destruct (buf (bf s)); [reflexivity|cbn in Hc; lia]).
  rewrite Hb, firstn_nil, skipn_nil. cbn [j_finish after_ws jat run_length skipn jok bf jidx List.length].
  replace (jidx s + _) with 0 by lia. rewrite Hc. cbn [Nat.ltb Nat.leb].
  apply IH.
  - cbn [create_new_jiter with_bf bf]. unfold shift_buffer. cbn [Nat.min Nat.ltb Nat.leb andb]. cbn [buf]. rewrite Hb. reflexivity.
  - unfold valid. cbn [create_new_jiter with_bf bf jlen jidx]. unfold shift_buffer, wf. cbn [Nat.min Nat.ltb Nat.leb andb buf n_bytes].
    rewrite Hb in *. cbn [List.length] in *. lia.
Qed.
