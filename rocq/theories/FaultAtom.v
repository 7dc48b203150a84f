(** Proofs about [copy_atom] in front of something that is wrong. *)
From Verif Require Import Base Buffer BufferSpec U8Pool Jiter JiterValue RJiter RJiterSpec Scan ScanSpec IdTransform ValueSpec SoundSpec TypeSpec UnicodeSpec FaultSpec FaultWordSpec FaultNumberSpec FaultAtomSpec.
From Verif Require Import BufferProofs JiterProofs RJiterProofs ScanTokens TypeProofs FaultProofs FaultWord FaultNumber FaultLong RJiterLongProofs.

Lemma index_of s : valid s -> current_index s = total s - len (rest s).
Proof.
  intros (W & HL & HI). unfold current_index, total, rest. rewrite skipn_length.
  assert (n_bytes (bf s) <= len (stream (bf s))); [|lia].
  unfold stream. rewrite app_length, firstn_length_le; [lia|]. apply W.
Qed.
Lemma literal_atom s w x t l e k : literal x t -> valid s -> 5 <= rcap s -> rest s = x :: l -> word_wrong t l e k ->
  exists s' r, copy_atom x s w = Done (s', w, Err (RJiterError r)) /\
    ((is_io r = true /\ rquiet s = false) \/ (r = mkErr (JsonError e) (total s - len (x :: l) + (1 + k)) /\ valid s' /\ rest s' = x :: l)).
Proof.
  intros Hlit V Hc HR Hx.
  assert (H : forall A (op : rj -> outcome (rj * result A rerror)), word_method true x op ->
    exists s' r, op s = Done (s', Err r) /\ ((is_io r = true /\ rquiet s = false) \/ (r = mkErr (JsonError e) (total s - len (x :: l) + (1 + k)) /\ valid s' /\ rest s' = x :: l))).
  { intros A op Hm. destruct (word_named true x op s [] t l e k Hm) as (s' & r & E & P); auto; [constructor|]. exists s', r. split; [exact E|].
    destruct P as [P|(P1 & P2 & P3 & P4 & _)]; [left; exact P|right]. split; [|auto]. destruct r as [er ix]. cbn [err_type err_index] in P1, P2. congruence. }
  unfold copy_atom. destruct Hlit as [E|[E|E]]; injection E as -> ->; cbn [N.eqb Pos.eqb QUOTE PeekNull PeekTrue PeekFalse].
  - destruct (H _ known_null wm_known_null) as (s' & r & -> & P). cbn [obind]. eauto.
  - destruct (H _ (known_bool 116%N) wm_known_true) as (s' & r & -> & P). cbn [obind]. eauto.
  - destruct (H _ (known_bool 102%N) wm_known_false) as (s' & r & -> & P). cbn [obind]. eauto.
Qed.
Lemma other_refused s x r : ~ blank x -> ~ digit x -> x <> 45%N -> x <> 34%N -> x <> 110%N -> x <> 116%N -> x <> 102%N ->
  valid s -> 2 <= rcap s -> rest s = x :: r -> exists e, refused_at s (x :: r) e 0 (next_number_bytes s).
Proof.
  intros Hb Hd H1 H2 H3 H4 H5 V Hc HR.
  assert (Hxw : is_ascii_whitespace x = false /\ json_ws x = false).
  { clear - Hb. unfold is_ascii_whitespace, json_ws.
    assert (x <> 32 /\ x <> 9 /\ x <> 10 /\ x <> 13 /\ x <> 12)%N as (A1 & A2 & A3 & A4 & A5) by (repeat split; intros ->; apply Hb; unfold blank, space; auto 10).
    apply N.eqb_neq in A1, A2, A3, A4, A5. rewrite A1, A2, A3, A4, A5. auto. }
  destruct Hxw as (Xa & Xj). pose proof (looks_next TFloat is_num (fun _ => j_number)) as L. fold j_next_number_bytes in L.
  assert (Hf : exists e, can_retry e = false /\ forall p, (if is_num x then j_number (x :: p) else (wrong_type TFloat x (x :: p), 0)) = (Err (e, 0), 0)).
  { pose proof (digit_not x Hd) as Nd. apply N.eqb_neq in H1, H3, H4, H5. pose proof H2 as H2'. apply N.eqb_neq in H2'.
    unfold is_num. rewrite Nd, H1. cbn [orb].
    destruct (N.eqb x 73 || N.eqb x 78)%bool eqn:Ei.
    - exists (JsonError ExpectedSomeValue). split; [reflexivity|]. intros p. unfold j_number. cbn [num_range]. rewrite H1. unfold is_inf_nan. rewrite Ei. reflexivity.
    - unfold wrong_type, QUOTE. rewrite H2', H3, H4, H5. cbn [orb]. unfold is_num. rewrite Nd, H1, Ei || (rewrite Nd, H1; apply Bool.orb_false_iff in Ei as [Ei1 Ei2]; rewrite Ei1, Ei2). cbn [orb].
      destruct (N.eqb x LBRACK); [exists (WrongType TFloat TArray); auto|]. destruct (N.eqb x LBRACE); [exists (WrongType TFloat TObject)|exists (JsonError ExpectedSomeValue)]; auto. }
  destruct Hf as (e & Re & Hf). exists e.
  assert (Hn : forall p, j_next_number_bytes (x :: p) = (Err (e, 0), 0)) by (intros p; rewrite (looks_head _ _ x p L Xa Xj); apply Hf).
  assert (Hs : settles_at j_next_number_bytes (x :: r) 1 e 0).
  { intros [|y p] q E.
    - exists (JsonError EofWhileParsingValue), 0. split; [reflexivity|]. cbn [can_retry List.length]. auto.
    - assert (y = x) by (cbn [app] in E; congruence). subst y. exists e, 0. rewrite Hn, Re. auto. }
  apply (loop_settles_at j_next_number_bytes true s [] x r 1); auto; [constructor| |lia|lia].
  rewrite HR. intros p q E. destruct (Hs p q E) as (e' & o' & -> & _). eauto.
Qed.
Lemma no_number_head l K : no_number l K -> forall x m, l = x :: m -> x <> 34%N /\ x <> 110%N /\ x <> 116%N /\ x <> 102%N.
Proof.
  intros Hk x m El.
  assert (Hnum : is_num x = true -> x <> 34%N /\ x <> 110%N /\ x <> 116%N /\ x <> 102%N) by (intros Hx; repeat split; intros ->; discriminate Hx).
  destruct Hk as [a e o r Ha|a b Ha|y r Hb Hd H1 H2 H3 H4 H5].
  - destruct (wrong_head _ _ _ Ha) as (y & a' & -> & Hy). cbn [app] in El. injection El as -> _. auto.
  - destruct (awaits_head _ _ Ha) as (y & a' & -> & Hy). injection El as -> _. auto.
  - injection El as -> _. auto.
Qed.
Lemma number_refused s x l K : no_number (x :: l) K -> valid s -> 2 <= rcap s -> K <= rcap s -> rest s = x :: l ->
  exists e o, refused_at s (x :: l) e o (next_number_bytes s).
Proof.
  intros Hk V Hc HK HR. remember (x :: l) as m eqn:Em. destruct Hk as [a e o r Ha|a b Ha|y r Hb Hd G1 G2 G3 G4 G5].
  - do 2 eexists. apply (number_named s [] a r e o); auto. constructor.
  - do 2 eexists. apply (number_cut s [] a b); auto. constructor.
  - destruct (other_refused s y r) as (e & H); auto. eauto.
Qed.
Lemma number_atom s w x l K : no_number (x :: l) K -> valid s -> 2 <= rcap s -> K <= rcap s -> rest s = x :: l ->
  exists s' i, copy_atom x s w = Done (s', w, Err (UnhandledPeek x i)) /\
    (rquiet s = true -> i = total s - len (x :: l) /\ valid s' /\ rest s' = x :: l).
Proof.
  intros Hk V Hc HK HR. destruct (no_number_head _ _ Hk x l eq_refl) as (H1 & H2 & H3 & H4).
  pose proof (number_refused s x l K Hk V Hc HK HR) as H.
  destruct H as (e & o & s' & r & E & P).
  unfold copy_atom, QUOTE, PeekNull, PeekTrue, PeekFalse. apply N.eqb_neq in H1, H2, H3, H4. rewrite H1, H2, H3, H4, E. cbn [obind].
  do 2 eexists. split; [reflexivity|]. intros Q. destruct P as [(_ & P)|(P1 & P2 & P3 & P4 & P5 & P6 & _)]; [congruence|].
  split; [|auto]. rewrite (index_of s' P3), P4, P6. reflexivity.
Qed.
Lemma string_atom s w T f e o after : valid s -> 8 <= rcap s -> wfail w = None -> rest s = QUOTE :: T ++ f ++ after -> fault f e o -> len f <= 6 -> faultless T ->
  long_text (buf (bf s)) T \/ (fills (bf s) /\ steady_text T) ->
  exists s' w' r p q, copy_atom QUOTE s w = Done (s', w', Err (RJiterError r)) /\ T = p ++ q /\ RJiter.written w' = RJiter.written w ++ QUOTE :: p /\ wfail w' = None /\
    ((is_io r = true /\ rquiet s = false) \/
     r = mkErr (JsonError e) (total s - len (f ++ after) + o + (if len T + len f <? len (jview s) then jidx s else 0))).
Proof.
  intros V Hc Hw HR Hf H6 HT Hl. unfold copy_atom. rewrite N.eqb_refl.
  destruct (write_all_open w [QUOTE] Hw) as (w1 & -> & Hw1 & Ew1).
  destruct (fault_bytes s w1 T f e o after V Hc HR Hf H6 HT Hl) as (s' & w' & r & p & q & -> & Ep & Ew & Hw' & P). cbn [obind].
  exists s', w', r, p, q. split; [reflexivity|]. split; [exact Ep|]. split; [rewrite Ew, Ew1, <- app_assoc; reflexivity|]. split; [auto|].
  destruct P as [(P1 & [P2|P2])|P]; [left; auto|contradiction|right; exact P].
Qed.
