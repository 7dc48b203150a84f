(** Tokens between top-level values, and bytes that are out of place. *)
From Verif Require Import Base U8Pool Buffer BufferSpec Jiter JiterProofs RJiter RJiterSpec RJiterProofs RJiterOpProofs RJiterLookProofs RJiterInvProofs RJiterGreedy
  Scan ScanSpec ScanTokens ScanParser ScanStack ScanProofs ScanTop.

Lemma foreign_facts x : foreign x -> solid x /\ is_num x = false /\
  forall y : byte, In y (bs """[{ntf") -> N.eqb x y = false.
Proof.
  intros (Hs & H). split; [exact Hs|]. rewrite Forall_forall in H.
  assert (HN : forall y : byte, In y (bs """[{ntf-0123456789IN") -> N.eqb x y = false) by (intros y Hy; apply N.eqb_neq, H, Hy).
  split; [|intros y Hy; apply HN; cbn in *; tauto].
  unfold is_num, is_digit. rewrite !HN by (cbn; tauto). rewrite !orb_false_r.
  destruct ((48 <=? x)%N && (x <=? 57)%N)%bool eqn:E; [|reflexivity]. apply andb_true_iff in E as (E1 & E2). apply N.leb_le in E1, E2. exfalso.
  assert (HX : x = 48%N \/ x = 49%N \/ x = 50%N \/ x = 51%N \/ x = 52%N \/ x = 53%N \/ x = 54%N \/ x = 55%N \/ x = 56%N \/ x = 57%N) by (unfold byte in *; lia).
  apply (H x); [|reflexivity]. cbn. intuition.
Qed.
Lemma number_refuses x : foreign x -> refuses j_next_number_bytes x.
Proof.
  intros Hx. destruct (foreign_facts x Hx) as (Hs & Hn & Hy). split.
  - eexists. split; reflexivity.
  - intros l. unfold j_next_number_bytes, next_as, after_ws. cbn [run_length]. rewrite (solid_json x Hs). unfold jat. cbn [skipn]. rewrite Hn.
    unfold wrong_type. rewrite Hn, !Hy by (cbn; tauto). eexists. split; reflexivity.
Qed.

Section Sse.
Context (c : nat) (J : buffer -> Prop) (HC : closed J) (HQ : forall b, J b -> quiet b = true) (Hc2 : 2 <= c).
Notation G := (states c J).
Lemma number_refused s x l : G s -> rest s = x :: l -> foreign x ->
  exists s' e, next_number_bytes s = Done (s', Err e) /\ G s' /\ rest s' = x :: l.
Proof.
  intros (Hv & Hc & Hj) HR Hx.
  destruct (loop_refuses j_next_number_bytes true x l s (number_refuses x Hx) Hv ltac:(lia) HR (proj1 Hx)) as (s' & e & E & [(_ & H)|(H1 & H2 & H3 & _)]).
  - unfold rquiet in H. rewrite (HQ _ Hj) in H. discriminate.
  - exists s', e. split; [exact E|]. split; [|exact H2]. split; [exact H1|]. split; [congruence|].
    apply (closed_method _ HC _ _ _ _ _ _ _ _ m_next_number_bytes E Hj).
Qed.
Lemma token_tried s t : G s -> len t <= c ->
  exists s' r, known_skip_token t s = Done (s', r) /\ G s' /\
    match r with Ok _ => starts_with t (rest s) = true /\ rest s = t ++ rest s' | Err _ => starts_with t (rest s) = false /\ rest s' = rest s end.
Proof.
  intros (Hv & Hc & Hj) Ht.
  destruct (known_skip_token_spec t s Hv ltac:(lia) ltac:(lia) (HQ _ Hj)) as (s' & r & E & H1 & _ & H3 & _ & H).
  exists s', r. split; [exact E|]. split; [split; [exact H1|]; split; [congruence|]; apply (closed_skip_token _ HC _ _ _ _ E Hj)|].
  destruct H as [(-> & H)|(-> & H & K)]; (split; [|exact H]).
  - rewrite H. unfold starts_with. rewrite firstn_app, Nat.sub_diag, firstn_all. cbn [firstn]. rewrite app_nil_r. apply beq_eq. reflexivity.
  - unfold starts_with. destruct (beq (firstn (len t) (rest s)) t) eqn:Eb; [|reflexivity]. apply beq_eq in Eb. exfalso.
    apply (K (skipn (len t) (rest s))). rewrite <- Eb at 1. symmetry. apply firstn_skipn.
Qed.
Lemma tokens_tried {B} tokens : forall (s : sstate B), G (parser s) -> Forall (fun t => len t <= c) tokens ->
  exists s' b, skip_tokens tokens s = Done (s', b) /\ G (parser s') /\ user s' = user s /\ stack s' = stack s /\
    match first_token tokens (rest (parser s)) with
    | Some t => b = true /\ rest (parser s) = t ++ rest (parser s')
    | None => b = false /\ rest (parser s') = rest (parser s)
    end.
Proof.
  induction tokens as [|t ts IH]; intros s HG Ht.
  - exists s, false. cbn [first_token]. repeat split; try reflexivity; apply HG.
  - inversion Ht as [|? ? Ht1 Ht2]; subst. cbn [skip_tokens first_token].
    destruct (token_tried (parser s) t HG Ht1) as (s1 & r & E & HG1 & H). rewrite E. cbn [obind]. destruct r as [u|e].
    + destruct H as (-> & H). eexists _, true. split; [reflexivity|]. auto 10.
    + destruct H as (-> & H). destruct (IH (mkS s1 (user s) (stack s)) HG1 Ht2) as (s2 & b & E2 & K1 & K2 & K3 & K4). exists s2, b.
      split; [exact E2|]. split; [exact K1|]. split; [exact K2|]. split; [exact K3|]. cbn [parser] in K4. rewrite H in K4. exact K4.
Qed.
End Sse.

Section Sequence.
Context {B : Type} (cb : callbacks B) (o : options) (beh : behaviour B) (m : setting) (d : dims) (es0 : list entry).
Context (HM : sane m) (HR : respects (between m) (layout m) cb beh) (HF : may_fail m = false) (Hse : stop_early o = false).
Context (HA : forall u, find_action cb PAtom (mkCtx (bs "#top" :: path_of es0) (S (List.length es0))) u = (u, None)).
Context (HT : Forall (fun t => len t <= size_of m) (sse_tokens o)).
Notation es := (top_entry :: es0).

Context (marks : bool) (HK : marks = true -> es0 = [] /\ marks_pass cb d).

(** The states between calls when the tokens are skipped, and after it. *)
Lemma quiet_states : exists J, closed J /\ (forall b, J b -> quiet b = true) /\ (forall s, between m s -> states (size_of m) J s) /\
  (forall s p s', between m s -> rest s = p ++ rest s' -> states (size_of m) J s' -> behind_token (layout m) (rest s') -> between m s') /\
  (forall x l, x <> LBRACE -> behind_token (layout m) (x :: l)).
Proof.
  destruct m as [c clean|c|c clean|c clean pad]; try discriminate; cbn [between size_of layout behind_token chunk_layout buffer_layout filling_layout].
  - eexists. split; [apply closed_chunked|]. split; [intros b (_ & H); exact H|]. split; [intros s H; exact H|]. split; [intros s p s' _ _ H _; exact H|intros; exact I].
  - eexists. split; [apply closed_buffered|]. split; [intros b (_ & H); exact H|]. split; [intros s H; exact H|]. split; [intros s p s' _ _ H _; exact H|intros; exact I].
  - exists (fun b => tidy clean b /\ sched (rd b) = []). split; [apply closed_filling|]. split; [intros b (_ & H); apply greedy_quiet, H|].
    split; [intros s H; apply H|]. split; [|intros x l Hx; exact Hx].
    intros s p s' (_ & Hi & _) Hr HS Hb. split; [exact HS|]. split; [rewrite Hr in Hi; apply (indented_suffix pad p), Hi|]. intros H. elim (Hb H).
Qed.
Lemma foreign_skipped (s : sstate B) w l x l0 : between m (parser s) -> rest (parser s) = w ++ l -> l = x :: l0 -> foreign x -> w = [] ->
  exists s1 e, skip_basic_values x s = Done (s1, Err e) /\ user s1 = user s /\ stack s1 = stack s /\
  exists s2 b, skip_tokens (sse_tokens o) s1 = Done (s2, b) /\ user s2 = user s /\ stack s2 = stack s /\
    match first_token (sse_tokens o) l with
    | Some t => b = true /\ l = t ++ rest (parser s2) /\ (behind_token (layout m) (rest (parser s2)) -> between m (parser s2))
    | None => b = false
    end.
Proof.
  intros HG Hr -> Hx ->. cbn [app] in Hr. destruct (foreign_facts x Hx) as (Hs & Hn & Hy). destruct quiet_states as (J & HC & HQ & EB & EA & _).
  assert (Hm2 : 2 <= size_of m) by (destruct m; cbn in *; lia).
  destruct (number_refused _ J HC HQ Hm2 (parser s) x l0 (EB _ HG) Hr Hx) as (s2 & e & En & HG2 & Hr2).
  unfold skip_basic_values. cbn [parser user stack]. rewrite !Hy by (cbn; tauto). unfold parse. rewrite En. cbn [obind sbind].
  eexists _, _. split; [reflexivity|]. split; [reflexivity|]. split; [reflexivity|].
  destruct (tokens_tried _ J HC HQ Hm2 (sse_tokens o) (mkS s2 (user s) (stack s)) HG2 HT) as (s3 & b & E3 & K1 & K2 & K3 & K4).
  exists s3, b. split; [exact E3|]. split; [exact K2|]. split; [exact K3|]. cbn [parser] in K4. rewrite Hr2 in K4.
  destruct (first_token (sse_tokens o) (x :: l0)) as [t|]; destruct K4 as (-> & K4); [|reflexivity]. split; [reflexivity|]. split; [exact K4|].
  intros Hb. apply (EA (parser s) t); auto. rewrite Hr. exact K4.
Qed.
Lemma top_foreign s u w x l : start m (parser s) -> rest (parser s) = w ++ x :: l -> spaces w -> foreign x -> on_stack d es u s ->
  match first_token (sse_tokens o) (x :: l) with
  | Some t => exists s', scan_iter cb o Top s = Done (s', Continue Top) /\ (behind_token (layout m) (rest (parser s')) -> between m (parser s')) /\ x :: l = t ++ rest (parser s') /\ on_stack d es u s'
  | None => exists s' i, scan_iter cb o Top s = Done (s', Return (Err (UnhandledPeek x i))) /\ user s' = u
  end.
Proof.
  intros HG Hr Hw Hx (Hu & Hst). destruct (foreign_facts x Hx) as (Hs & Hn & Hy).
  destruct (pf_peek _ _ _ _ (setting_facts m HM) (parser s) w x l HG Hr Hw Hs) as (s1 & res & Ep & H). rewrite HF in H.
  destruct res as [y|e]; [|destruct H; discriminate]. destruct H as (-> & H1 & H2). cbn [scan_iter]. rewrite Ep. cbn [obind].
  unfold scan_value. rewrite !Hy by (cbn; tauto). unfold run_begin. cbn [stack parser user].
  rewrite (stack_context _ _ _ Hst). cbn [obind]. change (path_of es) with (bs "#top" :: path_of es0). change (List.length es) with (S (List.length es0)).
  rewrite HA. cbn [vbind parser user stack].
  destruct (foreign_skipped (mkS s1 (user s) (stack s)) [] (x :: l) x l H2 H1 eq_refl Hx eq_refl) as (s2 & e & E2 & U2 & S2 & s3 & b & E3 & U3 & S3 & K).
  rewrite E2. cbn [obind]. change (pos_eqb Top Top) with true. cbn [orb]. rewrite E3. cbn [obind]. cbn [user stack] in *.
  destruct (first_token (sse_tokens o) (x :: l)) as [t|].
  - destruct K as (-> & K1 & K2). exists s3. split; [reflexivity|]. split; [exact K2|]. split; [exact K1|]. split; [congruence|]. rewrite S3. exact Hst.
  - subst b. eexists s3, _. split; [reflexivity|]. congruence.
Qed.
(** A token in brackets. *)
Lemma top_mark s u w w1 x t w2 r progressed : marks = true -> start m (parser s) ->
  rest (parser s) = w ++ LBRACK :: w1 ++ (x :: t) ++ w2 ++ RBRACK :: r -> spaces w -> spaces w1 -> foreign x -> x <> RBRACK -> spaces w2 ->
  first_token (sse_tokens o) ((x :: t) ++ w2 ++ RBRACK :: r) = Some (x :: t) -> on_stack d es u s ->
  exists s', leads (top_run cb o progressed s) (top_run cb o true s') /\ between m (parser s') /\ rest (parser s') = r /\ on_stack d es u s'.
Proof.
  intros Hm HG Hr Hw Hw1 Hx Hxr Hw2 Hf (Hu & Hst). destruct (HK Hm) as (He0 & Had & HP). pose proof (setting_facts m HM) as PF.
  destruct (foreign_facts x Hx) as (Hs & Hn & Hy).
  destruct (pf_peek _ _ _ _ PF (parser s) w LBRACK _ HG Hr Hw eq_refl) as (s1 & res & Ep & H). rewrite HF in H.
  destruct res as [y|e]; [|destruct H; discriminate]. destruct H as (-> & H1 & H2).
  destruct (stack_push d (stack s) es (pos_code ArrayMiddle) (bs "#array") Hst) as (q & res & Eq & Hq). rewrite He0 in Hq. cbn [path_of map snd top_entry] in Hq.
  rewrite Had in Hq. destruct Hq as (-> & Hq).
  cbn [app] in H1. destruct (pf_array _ _ _ _ PF s1 w1 x _ H2 H1 Hw1 Hs Hxr) as (s2 & res & E2 & H). rewrite HF in H. destruct res as [v|e]; [|discriminate].
  destruct H as (-> & Hr2 & _ & HG2).
  destruct (foreign_skipped (mkS s2 (user s) q) [] (x :: t ++ w2 ++ RBRACK :: r) x _ HG2 Hr2 eq_refl Hx eq_refl) as (s3 & e & E3 & U3 & S3 & s4 & b & E4 & U4 & S4 & K).
  cbn [app] in Hf. rewrite Hf in K. destruct K as (-> & K1 & K2). cbn [user stack] in *. cbn [app] in K1. injection K1 as K1. apply app_inv_head in K1.
  assert (HG4 : between m (parser s4)).
  { apply K2. destruct quiet_states as (_ & _ & _ & _ & _ & Hb). rewrite <- K1. destruct w2 as [|y w2]; cbn [app]; apply Hb; [discriminate|].
    intros ->. inversion Hw2 as [|? ? Hsp _]. revert Hsp. clear. unfold space. cbn. intuition discriminate. }
  destruct (pf_step_end _ _ _ _ PF (parser s4) w2 r HG4 (eq_sym K1) Hw2) as (s5 & res & E5 & H). rewrite HF in H. destruct res as [v|e5]; [|discriminate].
  destruct H as (-> & Hr5 & HG5).
  destruct (stack_pop _ _ _ _ _ Hq) as (q' & Eq' & Hq').
  exists (mkS s5 (user s) q'). split; [|split; [exact HG5|]; split; [exact Hr5|]; split; [exact Hu|]; rewrite He0; exact Hq'].
  eapply leads_trans; [apply top_step; rewrite Hse; apply andb_false_r|]. cbn [scan_iter]. rewrite Ep. cbn [obind]. rewrite scan_value_array.
  eapply leads_trans; [apply leads_eq; intros k; cbn [finish_iter]; reflexivity|].
  eapply leads_trans; [apply (loop_step cb o ArrayBegin); discriminate|].
  cbn [scan_iter]. unfold handle_array. change (pos_eqb ArrayBegin ArrayBegin) with true. cbv beta zeta iota.
  unfold run_begin at 1. cbn [stack user parser]. rewrite (stack_context _ _ _ Hst). cbn [obind]. rewrite He0. cbn [path_of map snd top_entry List.length].
  rewrite (proj1 (HP _)). cbn [sbind obind stack user parser]. rewrite Eq. cbn [obind].
  unfold parse. cbn [parser user stack]. rewrite E2. cbn [obind sbind vbind].
  unfold scan_value. rewrite !Hy by (cbn; tauto). unfold run_begin. cbn [stack parser user].
  rewrite (stack_context _ _ _ Hq). cbn [obind]. cbn [path_of map snd top_entry List.length]. rewrite (proj2 (proj2 (HP _))). cbn [vbind parser user stack].
  rewrite E3. cbn [obind]. change (pos_eqb ArrayMiddle Top) with false. change (pos_eqb ArrayMiddle ArrayBegin || pos_eqb ArrayMiddle ArrayMiddle)%bool with true.
  rewrite S3, (stack_len _ _ _ Hq). cbn [List.length Nat.eqb orb andb]. rewrite E4. cbn [obind].
  eapply leads_trans; [apply leads_eq; intros k; cbn [finish_iter]; reflexivity|].
  eapply leads_trans; [apply (loop_step cb o ArrayMiddle); discriminate|].
  cbn [scan_iter]. unfold handle_array. change (pos_eqb ArrayMiddle ArrayBegin) with false. cbv beta zeta iota.
  unfold parse. rewrite E5. cbn [obind sbind stack user parser]. rewrite S4, Eq'. cbn [obind].
  unfold run_end, look_up_end. cbn [stack user parser]. rewrite (stack_context _ _ _ Hq'). cbn [obind]. cbn [path_of map snd top_entry List.length].
  rewrite (proj1 (proj2 (HP _))). cbn [obind run_end_action sbind]. rewrite U4.
  assert (H3 : on_stack d es u (mkS s5 (user s) q')) by (split; [exact Hu|rewrite He0; exact Hq']).
  rewrite (top_home d _ _ _ _ _ H3 (home_top es0)). cbn [sbind vbind]. apply leads_refl.
Qed.
Definition sequence_end (F : run_of) (bad : option byte) (u : B) (st : status) : Prop :=
  match st, bad with
  | Through, Some x => exists n s i, (forall k, F (n + k) = Done (s, Err (UnhandledPeek x i))) /\ user s = u
  | _, _ => top_post d (start m) F es u st
  end.
Lemma sequence_leads F F' bad u st : leads F F' -> sequence_end F' bad u st -> sequence_end F bad u st.
Proof.
  intros H. destruct st as [|why], bad as [x|]; cbn [sequence_end]; try apply top_post_leads, H.
  intros (n & s & i & K & L). destruct H as (n0 & H). exists (n0 + n), s, i. split; [|exact L]. intros k. rewrite <- Nat.add_assoc, H, K. reflexivity.
Qed.
Lemma top_sequence vs bad l : sequence (sse_tokens o) (layout m) marks vs bad l ->
  forall u s progressed, start m (parser s) -> rest (parser s) = l -> on_stack d es u s ->
  exists u' st, walk_items beh d false (path_of es) vs u u' st /\ sequence_end (top_run cb o progressed s) bad u' st.
Proof.
  assert (HS : may_fail m = true -> sse_tokens o = []) by congruence. pose proof (setting_facts m HM) as PF.
  assert (HL : forall progressed s, leads (top_run cb o progressed s) (fun k => finish_iter cb o k (scan_iter cb o Top s)))
    by (intros; apply top_step; rewrite Hse; apply andb_false_r).
  induction 1 as [l Hl|w x l Hw Hx Hf|v vs bad l r (w & l' & -> & Hw & Hv) _ IH|w x t vs bad r Hw Hx Hf Hb _ IH|w w1 x t w2 vs bad r Hm Hw Hw1 Hx Hxr Hw2 Hf _ IH]; intros u s progressed HG Hr Hst.
  - destruct (top_end cb o beh d _ _ _ _ PF es u s l Hl (home_top es0) HG Hr Hst) as (st & A & C). rewrite HF in A. exists u, st. split; [exact A|].
    eapply sequence_leads; [apply HL|]. destruct st; exact C.
  - exists u, Through. split; [constructor|]. pose proof (top_foreign s u w x l HG Hr Hw Hx Hst) as H. rewrite Hf in H. destruct H as (s' & i & E & Hu).
    eapply sequence_leads; [apply HL|]. exists 0, s', i. split; [|exact Hu]. intros k. rewrite E. reflexivity.
  - destruct (peeked_value cb o beh d _ _ _ _ PF v w l' r es Top Top u s) as (u1 & st & A & C); auto.
    { apply (proj1 (simulation cb o beh d _ _ _ _ PF HR HS)), Hv. }
    { apply home_top. }
    rewrite HF in A. destruct st as [|why].
    + destruct C as (s1 & HL1 & HG1 & Hr1 & Hst1). destruct (IH u1 s1 true (pf_start _ _ _ _ PF _ HG1) Hr1 Hst1) as (u2 & st2 & A2 & C2).
      exists u2, st2. split; [eapply w_items; eauto|]. eapply sequence_leads; [eapply leads_trans; [apply HL|exact HL1]|exact C2].
    + exists u1, (Stopped why). split; [apply w_items_stopped, A|]. eapply sequence_leads; [apply HL|]. destruct bad; exact C.
  - pose proof (top_foreign s u w x (t ++ r) HG Hr Hw Hx Hst) as H. cbn [app] in Hf. rewrite Hf in H. destruct H as (s' & E & HG' & Hr' & Hst').
    cbn [app] in Hr'. injection Hr' as Hr'. apply app_inv_head in Hr'.
    rewrite <- Hr' in HG'.
    destruct (IH u s' true (pf_start _ _ _ _ PF _ (HG' Hb)) (eq_sym Hr') Hst') as (u2 & st2 & A2 & C2). exists u2, st2. split; [exact A2|].
    eapply sequence_leads; [|exact C2]. eapply leads_trans; [apply HL|]. apply leads_eq. intros k. rewrite E. reflexivity.
  - destruct (top_mark s u w w1 x t w2 r progressed Hm HG Hr Hw Hw1 Hx Hxr Hw2 Hf Hst) as (s' & L & HG' & Hr' & Hst').
    destruct (IH u s' true (pf_start _ _ _ _ PF _ HG') Hr' Hst') as (u2 & st2 & A2 & C2). exists u2, st2. split; [exact A2|].
    eapply sequence_leads; [exact L|exact C2].
Qed.
Lemma scan_tokens s vs bad : start m (parser s) -> sequence (sse_tokens o) (layout m) marks vs bad (rest (parser s)) -> stack_of d (stack s) es0 ->
  admit_name d (path_of es0) (bs "#top") = None ->
  exists u' st, walk_items beh d false (bs "#top" :: path_of es0) vs (user s) u' st /\
    sequence_outcome (fun fuel => scan cb o fuel s) bad u' st
      (fun s' => start m (parser s') /\ rest (parser s') = [] /\ stack_of d (stack s') es).
Proof.
  intros HG Hd Hst Had. destruct (scan_enters cb o d s es0 Hst) as (p & K). rewrite Had in K. destruct K as (Hp & K).
  destruct (top_sequence vs bad _ Hd (user s) (mkS (parser s) (user s) p) false HG eq_refl (conj eq_refl Hp)) as (u' & st & A & C).
  exists u', st. split; [exact A|].
  assert (HE : forall v, (exists n, forall k, top_run cb o false (mkS (parser s) (user s) p) (n + k) = v) -> eventually (fun fuel => scan cb o fuel s) v).
  { intros v H. apply eventually_add in H as (n & Hn). exists n. intros fuel Hf. rewrite K. apply (Hn fuel Hf). }
  destruct st as [|why].
  - destruct bad as [x|]; cbn [sequence_outcome].
    + destruct C as (n & s' & i & C & D). exists s', i. split; [apply HE; exists n; exact C|exact D].
    + destruct C as (n & s' & C & (D1 & D2) & D3 & D4). exists s'. split; [apply HE; exists n; exact C|]. auto.
  - replace (sequence_outcome (fun fuel => scan cb o fuel s) bad u' (Stopped why)) with (outcome_is (fun fuel => scan cb o fuel s) u' (Stopped why)) by (destruct bad; reflexivity).
    assert (C' : stops (top_run cb o false (mkS (parser s) (user s) p)) u' why) by (destruct bad; exact C).
    destruct why as [mm| |xx|]; cbn in C' |- *; try (destruct C' as (n & s' & e & C1 & C2); exists s', e; split; [apply HE; exists n; exact C1|exact C2]).
    destruct C' as (n & C'). apply HE. exists n. exact C'.
Qed.
End Sequence.

(** ** The observer of everything but atoms *)
Definition struct_behaviour : behaviour (list note) := mkBehaviour
  (fun name path v u u' op => u' = u ++ (match name with PAtom => [] | _ => [Begin name path] end) /\ op = Some OpNone)
  (fun name path u u' e => u' = u ++ [End name path] /\ e = Some (Ok tt)).
Definition struct_observer : callbacks (list note) := mkCallbacks
  (fun name c u => (u, match name with PAtom => None | _ => Some (fun r u => Done (r, u ++ [Begin name (names c)], OpNone)) end))
  (fun name c u => (u, Some (fun u => Done (u ++ [End name (names c)], Ok tt)))).
Lemma struct_respects G P : respects G P struct_observer struct_behaviour.
Proof.
  split; cbn.
  - intros name b v l r path s u Ha HG Hl Hv Hb. destruct name; cbn; [right; eexists _, _, OpNone; auto 10..| |contradiction].
    split; [rewrite app_nil_r; reflexivity|reflexivity].
  - intros v w l r path s u HG Hl Hw Hv. right. eexists _, _, OpNone. split; [reflexivity|]. split; [auto|]. eauto.
  - intros name path u Hn. right. eexists _, _. split; [reflexivity|]. auto.
Qed.

(** ** The observer of the names *)
Definition name_behaviour : behaviour (list note) := mkBehaviour
  (fun name path v u u' op => u' = u ++ (match name with PNone => [Begin name path] | _ => [] end) /\ op = Some OpNone)
  (fun name path u u' e => u' = u /\ e = Some (Ok tt)).
Definition name_observer : callbacks (list note) := mkCallbacks
  (fun name c u => (u, match name with PNone => Some (fun r u => Done (r, u ++ [Begin name (names c)], OpNone)) | _ => None end))
  (fun name c u => (u, None)).
Lemma name_respects G P : respects G P name_observer name_behaviour.
Proof.
  split; cbn.
  - intros name b v l r path s u Ha HG Hl Hv Hb. destruct name; cbn; try contradiction; (split; [rewrite app_nil_r; reflexivity|reflexivity]).
  - intros v w l r path s u HG Hl Hw Hv. right. eexists _, _, OpNone. split; [reflexivity|]. split; [auto|]. eauto.
  - intros name path u Hn. auto.
Qed.

(** ** Statements for new working buffers *)
Lemma outcome_weaken {B} (F : nat -> sres B unit) u st (Q R : sstate B -> Prop) : (forall s, Q s -> R s) -> outcome_is F u st Q -> outcome_is F u st R.
Proof. intros H. destruct st as [|why]; cbn; [intros (s & A & C & D); exists s; auto|]. destruct why; auto. Qed.
Lemma prop_sequence {B} (cb : callbacks B) beh m d o s vs :
  sane m -> respects (between m) (layout m) cb beh -> (may_fail m = true -> sse_tokens o = []) -> stop_early o = false ->
  start m (parser s) -> documents (layout m) vs (rest (parser s)) -> fresh d (stack s) ->
  exists u st, walk_top d (fun path => walk_items beh d (may_fail m) path vs) [] (user s) u st /\
    outcome_is (fun fuel => scan cb o fuel s) u st (fun s' => start m (parser s') /\ rest (parser s') = []).
Proof.
  intros HM HR HS Hse HG Hd Hf. destruct (scan_sequence cb o beh m d HM HR HS s [] vs Hse HG Hd (stack_fresh _ _ Hf)) as (u & st & A & C).
  exists u, st. split; [exact A|]. eapply outcome_weaken; [|exact C]. cbn. tauto.
Qed.
Lemma prop_observe m d o s vs :
  sane m -> may_fail m = false -> stop_early o = false ->
  start m (parser s) -> documents (layout m) vs (rest (parser s)) -> fresh d (stack s) ->
  let t := room d [] (bs "#top") (trace_values d [bs "#top"] vs) in
  outcome_is (fun fuel => scan observer o fuel s) (user s ++ fst t) (end_of t)
    (fun s' => start m (parser s') /\ rest (parser s') = []).
Proof.
  intros HM HF Hse HG Hd Hf t. eapply outcome_weaken; [|exact (observe_sequence m d o s vs HM HF Hse HG Hd (stack_fresh _ _ Hf))]. cbn. tauto.
Qed.
Lemma prop_single {B} (cb : callbacks B) beh m d o s v r :
  sane m -> respects (between m) (layout m) cb beh -> (may_fail m = true -> sse_tokens o = []) -> stop_early o = true ->
  start m (parser s) -> document (layout m) v (rest (parser s)) r -> fresh d (stack s) ->
  exists u st, walk_top d (fun path => walk_value beh d (may_fail m) path v) [] (user s) u st /\
    outcome_is (fun fuel => scan cb o fuel s) u st (fun s' => between m (parser s') /\ rest (parser s') = r).
Proof.
  intros HM HR HS Hse HG Hd Hf. destruct (scan_single cb o beh m d HM HR HS s [] v r Hse HG Hd (stack_fresh _ _ Hf)) as (u & st & A & C).
  exists u, st. split; [exact A|]. eapply outcome_weaken; [|exact C]. cbn. tauto.
Qed.
Lemma prop_observe_single m d o s v r :
  sane m -> may_fail m = false -> stop_early o = true ->
  start m (parser s) -> document (layout m) v (rest (parser s)) r -> fresh d (stack s) ->
  let t := room d [] (bs "#top") (trace_value d [bs "#top"] v) in
  outcome_is (fun fuel => scan observer o fuel s) (user s ++ fst t) (end_of t)
    (fun s' => between m (parser s') /\ rest (parser s') = r).
Proof.
  intros HM HF Hse HG Hd Hf t. eapply outcome_weaken; [|exact (observe_single m d o s v r HM HF Hse HG Hd (stack_fresh _ _ Hf))]. cbn. tauto.
Qed.
Lemma prop_tokens {B} (cb : callbacks B) beh m d o marks s vs bad :
  sane m -> respects (between m) (layout m) cb beh -> may_fail m = false -> stop_early o = false ->
  (forall u, find_action cb PAtom (mkCtx [bs "#top"] 1) u = (u, None)) ->
  Forall (fun t => len t <= size_of m) (sse_tokens o) -> (marks = true -> marks_pass cb d) ->
  start m (parser s) -> sequence (sse_tokens o) (layout m) marks vs bad (rest (parser s)) -> fresh d (stack s) ->
  admit_name d [] (bs "#top") = None ->
  exists u st, walk_items beh d false [bs "#top"] vs (user s) u st /\
    sequence_outcome (fun fuel => scan cb o fuel s) bad u st (fun s' => start m (parser s') /\ rest (parser s') = []).
Proof.
  intros HM HR HF Hse HA HT HK HG Hd Hf Had.
  destruct (scan_tokens cb o beh m d [] HM HR HF Hse HA HT marks (fun E => conj eq_refl (HK E)) s vs bad HG Hd (stack_fresh _ _ Hf) Had) as (u & st & A & C).
  exists u, st. split; [exact A|]. destruct st, bad; cbn [sequence_outcome] in *; try exact C; (eapply outcome_weaken; [|exact C]; cbn; tauto).
Qed.
Lemma prop_all_or_fail {B} (cb : callbacks B) beh m d o s vs bad :
  sane m -> respects (between m) (layout m) cb beh -> may_fail m = false -> stop_early o = false -> sse_tokens o = [] ->
  (forall u, find_action cb PAtom (mkCtx [bs "#top"] 1) u = (u, None)) ->
  start m (parser s) -> sequence [] (layout m) false vs bad (rest (parser s)) -> fresh d (stack s) ->
  admit_name d [] (bs "#top") = None ->
  exists u st, walk_items beh d false [bs "#top"] vs (user s) u st /\
    sequence_outcome (fun fuel => scan cb o fuel s) bad u st (fun s' => start m (parser s') /\ rest (parser s') = []).
Proof.
  intros HM HR HF Hse Ht HA HG Hd Hf Had. apply (prop_tokens cb beh m d o false s vs bad); auto; rewrite ?Ht; [constructor|discriminate|exact Hd].
Qed.
Lemma prop_limits m d o s vs :
  sane m -> may_fail m = false -> stop_early o = false ->
  start m (parser s) -> documents (layout m) vs (rest (parser s)) -> fresh d (stack s) ->
  (1 <= slices d)%N ->
  let n := 5 + list_max (map mass vs) in n <= space_for d -> (N.of_nat n <= 65535)%N ->
  let t := trace_values d [bs "#top"] vs in
  exists s', user s' = user s ++ fst t /\
    if (N.of_nat (1 + list_max (map depth vs)) <=? slices d)%N
    then snd t = None /\ eventually (fun fuel => scan observer o fuel s) (Done (s', Ok tt))
    else snd t = Some (TooDeep (slices d)) /\
      eventually (fun fuel => scan observer o fuel s) (Done (s', Err (MaxNestingExceeded (current_index (parser s')) (slices d)))).
Proof.
  intros HM HF Hse HG Hd Hf Hs n H1 H2 t. pose proof (prop_observe m d o s vs HM HF Hse HG Hd Hf) as H. cbv zeta in H.
  assert (HA : admit_name d [] (bs "#top") = None).
  { unfold admit_name. cbn [List.length]. rewrite (proj2 (N.leb_gt _ _)) by lia. change (weight [] + S (len (bs "#top"))) with 5.
    rewrite (proj2 (Nat.ltb_ge _ _)) by lia. reflexivity. }
  unfold room in H. rewrite HA in H. fold t in H.
  assert (HD : snd t = too_deep d (1 + list_max (map depth vs))).
  { apply traces_deep; [split; change (weight [bs "#top"]) with 5; [lia|exact H2]|cbn; lia]. }
  unfold end_of in H. rewrite HD in *. unfold too_deep in *. 
  destruct (N.leb_spec (N.of_nat (1 + list_max (map depth vs))) (slices d)) as [Hle|Hlt].
  - rewrite (proj2 (N.ltb_ge _ _)) in * by exact Hle. destruct H as (s' & A & C & _). exists s'. auto.
  - rewrite (proj2 (N.ltb_lt _ _)) in * by exact Hlt. destruct H as (s' & e & A & C & K). cbn in K. subst e. exists s'. split; [exact C|]. split; [reflexivity|]. eauto.
Qed.
Lemma empty_token_diverges : exists s : sstate (list note), rest (parser s) = bs "x" /\
  forall fuel, scan struct_observer (mkOptions [[]] false) fuel s = Diverge.
Proof.
  exists (mkS (rj_new (mkReader (bs "x") []) (repeat 0%N 8)) [] (match pool_new true (repeat 0%N 60) 5 with Done (Ok p) => p | _ => mkPool 0 0 [] [] end)).
  split; [reflexivity|]. intros fuel.
  set (o := mkOptions [[]] false).
  assert (H : exists s1, scan_iter struct_observer o Top s1 = Done (s1, Continue Top) /\
    forall fuel, scan struct_observer o fuel (mkS (rj_new (mkReader (bs "x") []) (repeat 0%N 8)) [] (match pool_new true (repeat 0%N 60) 5 with Done (Ok p) => p | _ => mkPool 0 0 [] [] end)) =
      match fuel with 0 => Diverge | S f => scan_loop struct_observer o f true Top s1 end).
  { eexists. split; [|intros [|f]; [vm_compute; reflexivity|]].
    2:{ unfold scan. match goal with |- obind ?p _ = _ => let q := eval vm_compute in p in change p with q end. cbn [obind].
        cbn [scan_loop]. change (false && _ && _)%bool with false. cbv iota.
        match goal with |- match ?p with _ => _ end = _ => let q := eval vm_compute in p in change p with q end. reflexivity. }
    vm_compute. reflexivity. }
  destruct H as (s1 & H1 & H2). rewrite H2. destruct fuel as [|f]; [reflexivity|].
  induction f as [|f IH]; [reflexivity|]. cbn [scan_loop]. change (stop_early o) with false. cbn [andb]. rewrite H1. exact IH.
Qed.
