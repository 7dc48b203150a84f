(** The scanner follows the tree walk. *)
From Verif Require Import Base U8Pool Buffer Jiter RJiter RJiterSpec RJiterLongProofs Scan ScanSpec ScanTokens ScanParser ScanStack.

Scheme value_ind := Minimality for value_at Sort Prop
  with items_ind := Minimality for items_at Sort Prop
  with members_ind := Minimality for members_at Sort Prop.
Combined Scheme grammar_ind from value_ind, items_ind, members_ind.

(** ** The first byte of a value *)
Lemma value_head P b v l r : value_at P b v l r -> exists x l0, l = x :: l0 /\ solid x /\ x <> RBRACK /\
  (N.eqb x LBRACK = true <-> exists vs, v = JArray vs) /\ (N.eqb x LBRACE = true <-> exists ms, v = JObject ms).
Proof.
  assert (HN : forall P : Prop, ~ P -> (false = true <-> P)) by (intuition discriminate).
  assert (HT : forall P : Prop, P -> (true = true <-> P)) by tauto.
  destruct 1; cbn [bs list_ascii_of_string]; try (eexists _, _; split; [reflexivity|]).
  - repeat split; try discriminate; intros (? & ?); discriminate.
  - repeat split; try discriminate; intros (? & ?); discriminate.
  - repeat split; try discriminate; intros (? & ?); discriminate.
  - destruct (number_head t H) as (x & q & -> & Hx). exists x, (q ++ r). split; [reflexivity|]. destruct (number_solid x Hx) as (Hs & _).
    split; [exact Hs|]. assert (Hne : forall y : byte, y = RBRACK \/ y = LBRACK \/ y = LBRACE -> x <> y).
    { intros y [-> | [-> | ->]] ->; destruct Hx as [Hx|Hx]; try discriminate; destruct Hx as (A & B); vm_compute in A, B; congruence. }
    split; [apply Hne; auto|]. split; (destruct (N.eqb_spec x LBRACK) as [E|_]; [elim (Hne LBRACK); auto|]);
      (destruct (N.eqb_spec x LBRACE) as [E|_]; [elim (Hne LBRACE); auto|]); apply HN; intros (? & ?); discriminate.
  - repeat split; try discriminate; intros (? & ?); discriminate.
  - split; [reflexivity|]. split; [discriminate|]. split; [apply HT; eauto|apply HN; intros (? & ?); discriminate].
  - split; [reflexivity|]. split; [discriminate|]. split; [apply HT; eauto|apply HN; intros (? & ?); discriminate].
  - split; [reflexivity|]. split; [discriminate|]. split; [apply HN; intros (? & ?); discriminate|apply HT; eauto].
  - split; [reflexivity|]. split; [discriminate|]. split; [apply HN; intros (? & ?); discriminate|apply HT; eauto].
Qed.

Section Simulation.
Context {B : Type} (cb : callbacks B) (o : options) (beh : behaviour B) (d : dims).
Context (G0 G : rj -> Prop) (P : profile) (E : bool).
Context (PF : parser_facts G0 G P E) (HR : respects G P cb beh) (HS : E = true -> sse_tokens o = []).
Notation path := path_of.

Definition on_stack (es : list entry) (u : B) (s : sstate B) : Prop := user s = u /\ stack_of d (stack s) es.
(** The machine between two steps. *)
Definition at_ (es : list entry) (u : B) (l : bytes) (s : sstate B) : Prop :=
  G (parser s) /\ rest (parser s) = l /\ on_stack es u s.
Definition home (es : list entry) (p : position) : Prop := exists c k es', es = (c, k) :: es' /\ pos_of [c] = Some p.

(** ** Runs *)
Definition run_of := nat -> sres B unit.
Definition finish_iter (k : nat) (v : sverdict B) : sres B unit :=
  match v with
  | Done (s', Continue p) => scan_loop cb o k true p s'
  | Done (s', Return r) => Done (s', r)
  | Panic => Panic
  | Diverge => Diverge
  end.
Definition leads (F F' : run_of) : Prop := exists n, forall k, F (n + k) = F' k.
Definition loop_at (p : position) (s : sstate B) : run_of := fun k => scan_loop cb o k true p s.
Definition stops (F : run_of) (u : B) (why : stop) : Prop :=
  match why with
  | Crashed => exists n, forall k, F (n + k) = Panic
  | _ => exists n s' e, (forall k, F (n + k) = Done (s', Err e)) /\ user s' = u /\ reports why (current_index (parser s')) e
  end.
Definition reaches (F : run_of) (es : list entry) (p : position) (u : B) (l : bytes) : Prop :=
  exists s', leads F (loop_at p s') /\ at_ es u l s'.
Definition ends_as (F : run_of) (es : list entry) (p : position) (u : B) (l : bytes) (st : status) : Prop :=
  match st with Through => reaches F es p u l | Stopped why => stops F u why end.

Lemma leads_refl F : leads F F.
Proof. exists 0. reflexivity. Qed.
Lemma leads_trans F F1 F2 : leads F F1 -> leads F1 F2 -> leads F F2.
Proof. intros (n & H) (m & K). exists (n + m). intros k. rewrite <- Nat.add_assoc, H, K. reflexivity. Qed.
Lemma leads_eq F F' : (forall k, F k = F' k) -> leads F F'.
Proof. intros H. exists 0. exact H. Qed.
Lemma leads_stops F F' u why : leads F F' -> stops F' u why -> stops F u why.
Proof.
  intros (n & H). destruct why as [mm| |xx|]; cbn; [intros (m & s' & e & K & L)|intros (m & K)|intros (m & s' & e & K & L)|intros (m & s' & e & K & L)];
    exists (n + m); try exists s', e; try split; auto; intros k; rewrite <- Nat.add_assoc, H, K; reflexivity.
Qed.
Lemma leads_ends F F' es p u l st : leads F F' -> ends_as F' es p u l st -> ends_as F es p u l st.
Proof.
  intros H. destruct st as [|why]; cbn; [|apply leads_stops, H]. intros (s' & K & L). exists s'. split; [eapply leads_trans; eauto|exact L].
Qed.
Lemma stops_now F s e why : (forall k, F k = Done (s, Err e)) -> reports why (current_index (parser s)) e -> stops F (user s) why.
Proof. intros H K. destruct why; try contradiction; exists 0, s, e; auto. Qed.
Lemma crashes_now F u : (forall k, F k = Panic) -> stops F u Crashed.
Proof. intros H. exists 0. exact H. Qed.
Lemma loop_step p s : p <> Top -> leads (loop_at p s) (fun k => finish_iter k (scan_iter cb o p s)).
Proof.
  intros H. exists 1. intros k. unfold loop_at. cbn [Nat.add scan_loop].
  replace (true && stop_early o && pos_eqb p Top) with false; [reflexivity|]. destruct p; try congruence; rewrite andb_false_r; reflexivity.
Qed.

(** ** Callbacks *)
Definition begin_result (op : stream_op) (s : sstate B) : result bool scan_error :=
  match op with
  | OpNone => Ok false
  | ValueIsConsumed => Ok true
  | OpError message => Err (ActionError message (current_index (parser s)))
  end.
Lemma begin_value name b v l r es u s :
  announces name v -> at_ es u l s -> value_at P b v l r -> (b = true -> 0 < jidx (parser s)) ->
  (run_begin cb name s = Panic /\ exists u', on_begin beh name (path es) v u u' None) \/
  exists s' u' op, run_begin cb name s = Done (s', begin_result op s') /\ on_begin beh name (path es) v u u' (Some op) /\ on_stack es u' s' /\
    match op with
    | OpNone => at_ es u' l s' /\ (b = true -> 0 < jidx (parser s'))
    | ValueIsConsumed => at_ es u' r s'
    | OpError _ => True
    end.
Proof.
  intros Ha (HG & Hl & <- & Hst) Hv Hb. pose proof (r_value _ _ _ _ HR name b v l r (path es) (parser s) (user s) Ha HG Hl Hv Hb) as H.
  unfold run_begin. rewrite (stack_context _ _ _ Hst). cbn [obind]. rewrite path_length in H.
  destruct (find_action cb name (mkCtx (path es) (List.length es)) (user s)) as [u1 a]. destruct a as [act|].
  - destruct H as [(H & u' & K)|(s' & u' & op & H & K & L)].
    + left. rewrite H. split; [reflexivity|]. eauto.
    + right. rewrite H. cbn [obind]. exists (mkS s' u' (stack s)), u', op. split; [destruct op; reflexivity|]. split; [exact K|].
      split; [split; [reflexivity|exact Hst]|]. destruct op; cbn; [destruct L as (L1 & L2 & L3)|destruct L as (L1 & L2)|exact I].
      * split; [repeat split; auto|exact L3].
      * repeat split; auto.
  - right. exists (mkS (parser s) u1 (stack s)), u1, OpNone. split; [reflexivity|]. split; [exact H|]. split; [split; [reflexivity|exact Hst]|].
    split; [repeat split; auto|exact Hb].
Qed.
Lemma begin_key v w l r es u s :
  at_ es u (w ++ l) s -> spaces w -> value_at P false v l r ->
  (run_begin cb PNone s = Panic /\ exists u', on_begin beh PNone (path es) v u u' None) \/
  exists s' u' op, run_begin cb PNone s = Done (s', begin_result op s') /\ on_begin beh PNone (path es) v u u' (Some op) /\ on_stack es u' s' /\
    match op with
    | OpNone => exists w', at_ es u' (w' ++ l) s' /\ spaces w'
    | ValueIsConsumed => at_ es u' r s'
    | OpError _ => True
    end.
Proof.
  intros (HG & Hl & <- & Hst) Hw Hv. pose proof (r_key _ _ _ _ HR v w l r (path es) (parser s) (user s) HG Hl Hw Hv) as H.
  unfold run_begin. rewrite (stack_context _ _ _ Hst). cbn [obind]. rewrite path_length in H.
  destruct (find_action cb PNone (mkCtx (path es) (List.length es)) (user s)) as [u1 a]. destruct a as [act|].
  - destruct H as [(H & u' & K)|(s' & u' & op & H & K & L)].
    + left. rewrite H. split; [reflexivity|]. eauto.
    + right. rewrite H. cbn [obind]. exists (mkS s' u' (stack s)), u', op. split; [destruct op; reflexivity|]. split; [exact K|].
      split; [split; [reflexivity|exact Hst]|]. destruct op; cbn; [destruct L as (L1 & w' & L2 & L3)|destruct L as (L1 & L2)|exact I].
      * exists w'. split; [repeat split; auto|exact L3].
      * repeat split; auto.
  - right. exists (mkS (parser s) u1 (stack s)), u1, OpNone. split; [reflexivity|]. split; [exact H|]. split; [split; [reflexivity|exact Hst]|].
    exists w. split; [repeat split; auto|exact Hw].
Qed.
Definition end_result (e : result unit string) (s : sstate B) : result unit scan_error :=
  match e with Ok tt => Ok tt | Err m => Err (ActionError m (current_index (parser s))) end.
Lemma end_found name es u s : name <> PAtom -> on_stack es u s ->
  exists s1 a, look_up_end cb name s = Done (s1, a) /\ parser s1 = parser s /\ stack s1 = stack s /\
  forall p,
  (run_end_action a (mkS (parser s1) (user s1) p) = Panic /\ exists u', on_end beh name (path es) u u' None) \/
  exists u' e, run_end_action a (mkS (parser s1) (user s1) p) = Done (mkS (parser s) u' p, end_result e s) /\
    on_end beh name (path es) u u' (Some e).
Proof.
  intros Hn (<- & Hst). pose proof (r_end _ _ _ _ HR name (path es) (user s) Hn) as H. unfold look_up_end.
  rewrite (stack_context _ _ _ Hst). cbn [obind]. rewrite path_length in H.
  destruct (find_end_action cb name (mkCtx (path es) (List.length es)) (user s)) as [u1 a]. eexists _, _. split; [reflexivity|].
  split; [reflexivity|]. split; [reflexivity|]. intros p. destruct a as [act|].
  - cbn [run_end_action user parser]. destruct H as [(H & u' & K)|(u' & e & H & K)]; rewrite H; cbn [obind].
    + left. split; [reflexivity|]. eauto.
    + right. exists u', e. split; [destruct e as [[]|]; reflexivity|exact K].
  - right. exists u1, (Ok tt). split; [reflexivity|exact H].
Qed.
Lemma end_run name es u s : name <> PAtom -> on_stack es u s ->
  (run_end cb name s = Panic /\ exists u', on_end beh name (path es) u u' None) \/
  exists u' e, run_end cb name s = Done (mkS (parser s) u' (stack s), end_result e s) /\ on_end beh name (path es) u u' (Some e).
Proof.
  intros Hn Hs. destruct (end_found name es u s Hn Hs) as (s1 & a & E1 & E2 & E3 & H). unfold run_end. rewrite E1. cbn [obind].
  specialize (H (stack s)). destruct s1 as [p1 u1 st1]. cbn in E2, E3, H. subst. exact H.
Qed.
Lemma top_home m es u s p : on_stack es u s -> home es p -> top_position m s = Done (s, Ok p).
Proof.
  intros (_ & Hst) (c & k & es' & -> & Hp). unfold top_position. rewrite (stack_top _ _ _ Hst). cbn [obind]. rewrite Hp. reflexivity.
Qed.

(** ** Atoms *)
Lemma atom_skipped b v l r es u s x l0 : atom v -> at_ es u l s -> value_at P b v l r -> l = x :: l0 ->
  exists s' res, skip_basic_values x s = Done (s', res) /\ on_stack es u s' /\
    match res with Ok _ => at_ es u r s' | Err _ => E = true end.
Proof.
  intros Ha (HG & Hl & Hst) Hv El. unfold skip_basic_values.
  assert (KEEP : forall X (op : rj -> outcome (rj * result X rerror)) (Q : X -> Prop),
    tried E (op (parser s)) (fun s' v => Q v /\ rest s' = r /\ G s') ->
    exists s' res, sbind (parse op s) (fun s _ => Done (s, Ok tt)) = Done (s', res) /\ on_stack es u s' /\
      match res with Ok _ => at_ es u r s' | Err _ => E = true end).
  { intros X op Q (s' & res & E1 & H). unfold parse. rewrite E1. cbn [obind]. destruct res as [y|e]; cbn [sbind]; eexists _, _;
      (split; [reflexivity|]); (split; [exact Hst|]); [|exact H]. destruct H as (_ & H1 & H2). repeat split; auto; apply Hst. }
  destruct Hv; try contradiction.
  - injection El as <- _. cbn [N.eqb PeekNull PeekTrue PeekFalse QUOTE Pos.eqb]. apply (KEEP _ _ (fun _ => True)).
    eapply tried_weaken; [|apply (pf_null _ _ _ _ PF); eauto]. cbn. auto.
  - injection El as <- _. cbn [N.eqb PeekNull PeekTrue PeekFalse QUOTE Pos.eqb]. apply (KEEP _ _ (fun v => v = true)). apply (pf_true _ _ _ _ PF); eauto.
  - injection El as <- _. cbn [N.eqb PeekNull PeekTrue PeekFalse QUOTE Pos.eqb]. apply (KEEP _ _ (fun v => v = false)). apply (pf_false _ _ _ _ PF); eauto.
  - destruct (number_head t H) as (y & q & Et & Hy). assert (x = y) as -> by (rewrite Et in El; injection El as -> _; reflexivity).
    assert (Hne : forall z : byte, z = QUOTE \/ z = PeekNull \/ z = PeekTrue \/ z = PeekFalse -> N.eqb y z = false).
    { intros z Hz. apply N.eqb_neq. intros ->. destruct Hz as [-> | [-> | [-> | ->]]]; destruct Hy as [Hy|Hy]; try discriminate;
        destruct Hy as (A & C); vm_compute in A, C; congruence. }
    rewrite !Hne by auto. destruct (pf_number _ _ _ _ PF (parser s) t r HG Hl H H0 H1) as (s' & res & E1 & K). rewrite E1. cbn [obind].
    eexists _, _. split; [reflexivity|]. split; [exact Hst|]. destruct res; [|exact K]. destruct K as (_ & K1 & K2). repeat split; auto; apply Hst.
  - injection El as <- _. cbn [N.eqb QUOTE Pos.eqb]. apply (KEEP _ _ (fun _ => True)).
    destruct (pf_string _ _ _ _ PF (parser s) (mkWriter [] None) t r HG Hl H H0) as (s' & w' & res & p & q & E1 & E2 & E3 & E4). rewrite E1. cbn [obind].
    exists s', res. split; [reflexivity|]. destruct res; [tauto|]. destruct E4 as [E4|(k & _ & E4 & _)]; [exact E4|].
    destruct E3 as (_ & _ & _ & a & _ & _ & E3). cbn in E3. unfold exhausted in E4. congruence.
Qed.

(** ** Values *)
Definition settle (p : position) : position := match p with ObjectBetweenKV => ObjectMiddle | p => p end.
Definition value_run (p0 : position) (x : byte) (s : sstate B) : run_of := fun k => finish_iter k (scan_value cb o p0 x s).
Definition value_goal (b : bool) (v : json) (l r : bytes) : Prop :=
  forall es p p0 u s x l0, home es p -> settle p0 = p -> at_ es u l s -> l = x :: l0 -> (b = true -> 0 < jidx (parser s)) ->
  exists u' st, walk_value beh d E (path es) v u u' st /\ ends_as (value_run p0 x s) es p u' r st.

Lemma atom_value b v l r : atom v -> value_at P b v l r -> value_goal b v l r.
Proof.
  intros Ha Hv es p p0 u s x l0 Hh Hp Hat El Hb. destruct (value_head _ _ _ _ _ Hv) as (y & m & Em & Hy & _ & H1 & H2).
  assert (x = y) as -> by congruence.
  assert (N1 : N.eqb y LBRACK = false) by (destruct (N.eqb y LBRACK); [destruct (proj1 H1 eq_refl) as (? & ->); contradiction|reflexivity]).
  assert (N2 : N.eqb y LBRACE = false) by (destruct (N.eqb y LBRACE); [destruct (proj1 H2 eq_refl) as (? & ->); contradiction|reflexivity]).
  unfold value_run, scan_value. rewrite N1, N2. fold (settle p0). rewrite Hp.
  destruct (begin_value PAtom b v l r es u s Ha Hat Hv Hb) as [(Eb & u' & Ho)|(s' & u' & op & Eb & Ho & Hst & Hop)]; rewrite Eb; cbn [vbind begin_result].
  { exists u', (Stopped Crashed). split; [apply (w_atom beh d E _ _ _ _ None Ha Ho)|]. apply crashes_now. reflexivity. }
  destruct op as [| |m0]; cbn [begin_result].
  - destruct Hop as (Hat' & _). destruct (atom_skipped b v l r es u' s' y l0 Ha Hat' Hv El) as (s2 & res & Es & Hst2 & Hres). rewrite Es. cbn [obind].
    destruct res as [t|e].
    + exists u', Through. split; [apply (w_atom beh d E _ _ _ _ (Some OpNone) Ha Ho)|]. exists s2. split; [apply leads_refl|exact Hres].
    + exists u', (Stopped Broken). split; [apply w_atom_broken; auto|]. rewrite (HS Hres). cbn [skip_tokens].
      replace (if _ : bool then Done (s2, false) else Done (s2, false)) with (Done (s2, false)) by (destruct (_ || _)%bool; reflexivity).
      cbn [obind]. rewrite <- (proj1 Hst2). eapply stops_now; [reflexivity|exact I].
  - exists u', Through. split; [apply (w_atom beh d E _ _ _ _ (Some ValueIsConsumed) Ha Ho)|]. exists s'. split; [apply leads_refl|exact Hop].
  - exists u', (Stopped (ByAction m0)). split; [apply (w_atom beh d E _ _ _ _ (Some (OpError m0)) Ha Ho)|]. rewrite <- (proj1 Hst).
    eapply stops_now; [reflexivity|reflexivity].
Qed.

(** ** Arrays *)
Definition array_entry : entry := (pos_code ArrayMiddle, bs "#array").
Definition step_run (op : rj -> outcome (rj * result (option byte) rerror)) (s : sstate B) : sverdict B :=
  vbind (sbind (parse op s)
      (fun s peeked =>
    match peeked with
    | Some x => Done (s, Ok (Some x, ArrayMiddle))
    | None =>
        do (p, popped) <- pop_assoc (stack s) pos_ty;
        let s := mkS (parser s) (user s) p in
        match popped with
        | None => Done (s, Err (InternalError (current_index (parser s)) "Context stack is empty when ending array"))
        | Some _ => sbind (run_end cb PArray s) (fun s _ =>
            sbind (top_position "Context stack is empty when ending array" s) (fun s p => Done (s, Ok (None, p))))
        end
    end))
    (fun s r =>
       match r with
       | (Some x, ArrayMiddle) => scan_value cb o ArrayMiddle x s
       | (None, p) => Done (s, Continue p)
       | _ => Done (s, Return (Err (InternalError (current_index (parser s)) "Unexpected position from handle_array")))
       end).
Definition rest_of_array (F : run_of) (vs : list json) (es : list entry) (p : position) (u : B) (r : bytes) : Prop :=
  exists u' st, walk_items beh d E (bs "#array" :: path es) vs u u' st /\
    match st with
    | Stopped why => stops F u' why
    | Through => exists u'' e, on_end beh PArray (path es) u' u'' e /\ ends_as F es p u'' r (ended e)
    end.
Definition items_goal (vs : list json) (l r : bytes) : Prop :=
  forall es p u s, home es p -> at_ (array_entry :: es) u l s -> rest_of_array (loop_at ArrayMiddle s) vs es p u r.

Lemma rest_of_array_leads F F' vs es p u r : leads F F' -> rest_of_array F' vs es p u r -> rest_of_array F vs es p u r.
Proof.
  intros H (u' & st & A & C). exists u', st. split; [exact A|]. destruct st as [|why]; [|exact (leads_stops _ _ _ _ H C)].
  destruct C as (u'' & e & C & D). exists u'', e. split; [exact C|]. exact (leads_ends _ _ _ _ _ _ _ H D).
Qed.
Lemma home_array es : home (array_entry :: es) ArrayMiddle.
Proof. eexists _, _, _. split; reflexivity. Qed.
(** The end of an array. *)
Lemma array_done op es p u s s1 r : home es p -> on_stack (array_entry :: es) u s ->
  op (parser s) = Done (s1, Ok None) -> rest s1 = r -> G s1 ->
  rest_of_array (fun k => finish_iter k (step_run op s)) [] es p u r.
Proof.
  intros Hh (Hu & Hst) Eo Hr HG. exists u, Through. split; [constructor|].
  destruct (stack_pop _ _ _ _ _ Hst) as (q & Ep & Hq). unfold step_run, parse. rewrite Eo. cbn [obind sbind]. cbn [stack user parser]. rewrite Ep. cbn [obind].
  set (s2 := mkS s1 (user s) q). assert (H2 : on_stack es u s2) by (split; [exact Hu|exact Hq]).
  destruct (end_run PArray es u s2 ltac:(discriminate) H2) as [(Ee & u' & Ho)|(u' & e & Ee & Ho)]; rewrite Ee.
  - exists u', None. split; [exact Ho|]. apply crashes_now. reflexivity.
  - exists u', (Some e). split; [exact Ho|]. destruct e as [[]|m]; cbn [end_result sbind ended].
    + assert (H3 : on_stack es u' (mkS (parser s2) u' (stack s2))) by (split; [reflexivity|apply H2]). rewrite (top_home _ _ _ _ p H3 Hh). cbn [sbind vbind].
      exists (mkS s1 u' q). split; [apply leads_refl|]. repeat split; auto.
    + cbn [vbind ends_as]. eapply (stops_now _ (mkS (parser s2) u' (stack s2))); [reflexivity|reflexivity].
Qed.
Lemma array_broken op vs es p u s s1 e r : E = true -> on_stack (array_entry :: es) u s -> op (parser s) = Done (s1, Err e) ->
  rest_of_array (fun k => finish_iter k (step_run op s)) vs es p u r.
Proof.
  intros HE (Hu & Hst) Eo. exists u, (Stopped Broken). split; [apply w_items_broken, HE|]. unfold step_run, parse. rewrite Eo. cbn [obind sbind vbind].
  rewrite <- Hu. eapply (stops_now _ (mkS s1 (user s) (stack s))); [reflexivity|exact I].
Qed.
(** One element and what follows. *)
Lemma array_element op v vs es p u s s1 x l0 l1 r : home es p -> on_stack (array_entry :: es) u s ->
  op (parser s) = Done (s1, Ok (Some x)) -> rest s1 = x :: l0 -> 0 < jidx s1 -> G s1 ->
  value_goal true v (x :: l0) l1 -> items_goal vs l1 r ->
  rest_of_array (fun k => finish_iter k (step_run op s)) (v :: vs) es p u r.
Proof.
  intros Hh (Hu & Hst) Eo Hr Hj HG IHv IHvs.
  set (s2 := mkS s1 (user s) (stack s)).
  assert (Hat : at_ (array_entry :: es) u (x :: l0) s2) by (repeat split; auto).
  apply rest_of_array_leads with (value_run ArrayMiddle x s2).
  { apply leads_eq. intros k. unfold value_run, step_run, parse. rewrite Eo. reflexivity. }
  destruct (IHv (array_entry :: es) ArrayMiddle ArrayMiddle u s2 x l0 (home_array es) eq_refl Hat eq_refl (fun _ => Hj)) as (u1 & st & Hw & He).
  destruct st as [|why].
  - destruct He as (s3 & Hl & Hat3). destruct (IHvs es p u1 s3 Hh Hat3) as (u2 & st2 & Hw2 & He2).
    exists u2, st2. split; [eapply w_items; eauto|]. destruct st2 as [|why]; [|eapply leads_stops; eauto].
    destruct He2 as (u'' & e & C & D). exists u'', e. split; [exact C|]. eapply leads_ends; eauto.
  - exists u1, (Stopped why). split; [apply w_items_stopped; exact Hw|]. exact He.
Qed.
Lemma items_end_run w r : spaces w -> items_goal [] (w ++ RBRACK :: r) r.
Proof.
  intros Hw es p u s Hh (HG & Hr & Hst). eapply rest_of_array_leads; [apply loop_step; discriminate|].
  change (rest_of_array (fun k => finish_iter k (step_run array_step s)) [] es p u r).
  destruct (pf_step_end _ _ _ _ PF (parser s) w r HG Hr Hw) as (s1 & res & Eo & H). destruct res as [y|e].
  - destruct H as (-> & H1 & H2). eapply array_done; eauto.
  - eapply array_broken; eauto.
Qed.
Lemma items_more_run w w2 v vs l l1 r : spaces w -> spaces w2 -> value_at P true v l l1 -> value_goal true v l l1 -> items_goal vs l1 r ->
  items_goal (v :: vs) (w ++ COMMA :: w2 ++ l) r.
Proof.
  intros Hw Hw2 Hv IHv IHvs es p u s Hh (HG & Hr & Hst). eapply rest_of_array_leads; [apply loop_step; discriminate|].
  change (rest_of_array (fun k => finish_iter k (step_run array_step s)) (v :: vs) es p u r).
  destruct (value_head _ _ _ _ _ Hv) as (x & l0 & -> & Hx & Hn & _).
  destruct (pf_step _ _ _ _ PF (parser s) w w2 x l0 HG Hr Hw Hw2 Hx Hn) as (s1 & res & Eo & H). destruct res as [y|e].
  - destruct H as (-> & H1 & H2 & H3). eapply array_element; eauto.
  - eapply array_broken; eauto.
Qed.
Lemma scan_value_array p0 s : scan_value cb o p0 LBRACK s = Done (s, Continue ArrayBegin).
Proof. reflexivity. Qed.
Lemma array_value b vs l r :
  (forall es p u s, home es p -> at_ (array_entry :: es) u (LBRACK :: l) s ->
     rest_of_array (fun k => finish_iter k (step_run known_array s)) vs es p u r) ->
  value_at P b (JArray vs) (LBRACK :: l) r -> value_goal b (JArray vs) (LBRACK :: l) r.
Proof.
  intros IH Hv es p p0 u s x l0 Hh Hp Hat El Hb. injection El as <- <-.
  assert (HL : leads (value_run p0 LBRACK s) (fun k => finish_iter k (scan_iter cb o ArrayBegin s))).
  { eapply leads_trans; [|apply (loop_step ArrayBegin s); discriminate]. apply leads_eq. reflexivity. }
  cut (exists u' st, walk_value beh d E (path es) (JArray vs) u u' st /\
         ends_as (fun k => finish_iter k (scan_iter cb o ArrayBegin s)) es p u' r st).
  { intros (u' & st & A & C). exists u', st. split; [exact A|]. eapply leads_ends; eauto. }
  cbn [scan_iter]. unfold handle_array. change (pos_eqb ArrayBegin ArrayBegin) with true. cbv beta zeta iota.
  destruct (begin_value PArray b (JArray vs) _ r es u s (ex_intro _ vs eq_refl) Hat Hv Hb) as [(Eb & u' & Ho)|(s' & u' & op & Eb & Ho & Hst & Hop)]; rewrite Eb.
  { exists u', (Stopped Crashed). split; [eapply w_array_halt; eauto; reflexivity|]. apply crashes_now. reflexivity. }
  destruct op as [| |m0]; cbn [begin_result sbind].
  - destruct Hop as ((HG' & Hr' & Hu' & Hst') & _). destruct (stack_push d (stack s') es (pos_code ArrayMiddle) (bs "#array") Hst') as (q & res & Ep & H).
    rewrite Ep. cbn [obind]. destruct (admit_name d (path es) (bs "#array")) as [x|] eqn:Ea.
    + destruct H as (Hq & e & -> & Hx). exists u', (Stopped (Denied x)). split; [eapply w_array_denied; eauto|]. cbn [vbind ends_as].
      rewrite <- Hu'. eapply (stops_now _ (mkS (parser s') (user s') q)); [reflexivity|]. destruct x; cbn [reports parser]; [|left; eexists; reflexivity].
      rewrite (proj1 Hx). f_equal. destruct (stack_count _ _ _ Hq) as (-> & Hc). apply admit_deep in Ea. rewrite path_length in Ea. lia.
    + destruct H as (-> & Hq). set (s2 := mkS (parser s') (user s') q).
      assert (Hat2 : at_ (array_entry :: es) u' (LBRACK :: l) s2) by (repeat split; auto).
      destruct (IH es p u' s2 Hh Hat2) as (u2 & st & Hw & He). destruct st as [|why].
      * destruct He as (u3 & e & Hoe & He). exists u3, (ended e). split; [eapply w_array; eauto|]. exact He.
      * exists u2, (Stopped why). split; [eapply w_array_stopped; eauto|]. exact He.
  - exists u', Through. split; [apply w_array_consumed, Ho|]. rewrite (top_home _ _ _ _ p Hst Hh). cbn [sbind vbind].
    exists s'. split; [apply leads_refl|exact Hop].
  - exists u', (Stopped (ByAction m0)). split; [eapply w_array_halt; eauto; reflexivity|]. cbn [vbind ends_as]. rewrite <- (proj1 Hst).
    eapply stops_now; [reflexivity|reflexivity].
Qed.
Lemma array_empty_value b w r : spaces w -> value_goal b (JArray []) (LBRACK :: w ++ RBRACK :: r) r.
Proof.
  intros Hw. apply array_value; [|constructor; exact Hw]. intros es p u s Hh (HG & Hr & Hst).
  destruct (pf_array_empty _ _ _ _ PF (parser s) w r HG Hr Hw) as (s1 & res & Eo & H). destruct res as [y|e].
  - destruct H as (-> & H1 & H2). eapply array_done; eauto.
  - eapply array_broken; eauto.
Qed.
Lemma array_full_value b w v vs l l1 r : spaces w -> value_at P true v l l1 -> items_at P vs l1 r ->
  value_goal true v l l1 -> items_goal vs l1 r -> value_goal b (JArray (v :: vs)) (LBRACK :: w ++ l) r.
Proof.
  intros Hw Hv Hvs IHv IHvs. apply array_value; [|econstructor; eauto]. intros es p u s Hh (HG & Hr & Hst).
  destruct (value_head _ _ _ _ _ Hv) as (x & l0 & -> & Hx & Hn & _).
  destruct (pf_array _ _ _ _ PF (parser s) w x l0 HG Hr Hw Hx Hn) as (s1 & res & Eo & H). destruct res as [y|e].
  - destruct H as (-> & H1 & H2 & H3). eapply array_element; eauto.
  - eapply array_broken; eauto.
Qed.

(** ** Objects *)
Definition key_entry (k : bytes) : entry := (pos_code ObjectMiddle, k).
Definition key_run (key : bytes) (s : sstate B) : sres B position :=
  do (p, pushed) <- push_assoc (stack s) pos_ty [pos_code ObjectMiddle] key;
  let s := mkS (parser s) (user s) p in
  match pushed with
  | Err (SliceLimitExceeded max) => Done (s, Err (MaxNestingExceeded (current_index (parser s)) max))
  | Err _ => Done (s, Err (InternalError (current_index (parser s)) "Failed to push key to context pool"))
  | Ok _ =>
      sbind (run_begin cb PNone s)
        (fun s consumed => Done (s, Ok (if consumed then ObjectMiddle else ObjectBetweenKV)))
  end.
Definition object_run (op : rj -> outcome (rj * result (option bytes) rerror)) (s : sstate B) : sres B position :=
  sbind (parse op s)
    (fun s keyr =>
       match keyr with
       | None => sbind (run_end cb PObject s) (fun s _ => top_position "Context stack is empty when ending object" s)
       | Some key => key_run key s
       end).
Definition then_go (x : sres B position) : run_of := fun k => finish_iter k (vbind x (fun s p => Done (s, Continue p))).
Definition rest_of_object (F : run_of) (ms : list (bytes * json)) (es : list entry) (p : position) (u : B) (r : bytes) : Prop :=
  exists u' st, walk_members beh d E (path es) ms u u' st /\
    match st with
    | Stopped why => stops F u' why
    | Through => exists u'' e, on_end beh PObject (path es) u' u'' e /\ ends_as F es p u'' r (ended e)
    end.
(** Behind the value of a member with key [k]: the end of that member comes first. *)
Definition members_goal (ms : list (bytes * json)) (l r : bytes) : Prop :=
  forall k es p u s, home es p -> at_ (key_entry k :: es) u l s ->
  exists u1 e, on_end beh PNone (k :: path es) u u1 e /\
    match ended e with
    | Through => rest_of_object (loop_at ObjectMiddle s) ms es p u1 r
    | Stopped why => stops (loop_at ObjectMiddle s) u1 why
    end.

Lemma rest_of_object_leads F F' ms es p u r : leads F F' -> rest_of_object F' ms es p u r -> rest_of_object F ms es p u r.
Proof.
  intros H (u' & st & A & C). exists u', st. split; [exact A|]. destruct st as [|why]; [|exact (leads_stops _ _ _ _ H C)].
  destruct C as (u'' & e & C & D). exists u'', e. split; [exact C|]. exact (leads_ends _ _ _ _ _ _ _ H D).
Qed.
Lemma home_key k es : home (key_entry k :: es) ObjectMiddle.
Proof. eexists _, _, _. split; reflexivity. Qed.
Lemma object_done op es p u s s1 r : home es p -> on_stack es u s -> op (parser s) = Done (s1, Ok None) -> rest s1 = r -> G s1 ->
  rest_of_object (then_go (object_run op s)) [] es p u r.
Proof.
  intros Hh (Hu & Hst) Eo Hr HG. exists u, Through. split; [constructor|].
  unfold then_go, object_run, parse. rewrite Eo. cbn [obind sbind]. set (s2 := mkS s1 (user s) (stack s)).
  assert (H2 : on_stack es u s2) by (split; [exact Hu|exact Hst]).
  destruct (end_run PObject es u s2 ltac:(discriminate) H2) as [(Ee & u' & Ho)|(u' & e & Ee & Ho)]; rewrite Ee.
  - exists u', None. split; [exact Ho|]. apply crashes_now. reflexivity.
  - exists u', (Some e). split; [exact Ho|]. destruct e as [[]|m]; cbn [end_result sbind ended].
    + assert (H3 : on_stack es u' (mkS (parser s2) u' (stack s2))) by (split; [reflexivity|apply H2]). rewrite (top_home _ _ _ _ p H3 Hh). cbn [vbind].
      exists (mkS s1 u' (stack s)). split; [apply leads_refl|]. repeat split; auto.
    + cbn [vbind ends_as]. eapply (stops_now _ (mkS (parser s2) u' (stack s2))); [reflexivity|reflexivity].
Qed.
Lemma object_broken op ms es p u s s1 e r : E = true -> on_stack es u s -> op (parser s) = Done (s1, Err e) ->
  rest_of_object (then_go (object_run op s)) ms es p u r.
Proof.
  intros HE (Hu & Hst) Eo. exists u, (Stopped Broken). split; [apply w_members_broken, HE|]. unfold then_go, object_run, parse. rewrite Eo. cbn [obind sbind vbind].
  rewrite <- Hu. eapply (stops_now _ (mkS s1 (user s) (stack s))); [reflexivity|exact I].
Qed.
(** A value in front of which the next byte is looked at. *)
Lemma peeked_value v w l l1 es p p0 u s : spaces w -> value_at P false v l l1 -> value_goal false v l l1 -> home es p ->
  settle p0 = p -> p0 = ObjectBetweenKV \/ p0 = Top -> G0 (parser s) -> rest (parser s) = w ++ l -> on_stack es u s ->
  exists u' st, walk_value beh d E (path es) v u u' st /\ ends_as (fun k => finish_iter k (scan_iter cb o p0 s)) es p u' l1 st.
Proof.
  intros Hw Hv IHv Hh Hp Hp0 HG Hr Hst. destruct (value_head _ _ _ _ _ Hv) as (x & l0 & El & Hx & _). rewrite El in Hr.
  destruct (pf_peek _ _ _ _ PF (parser s) w x l0 HG Hr Hw Hx) as (s1 & res & Ep & H).
  replace (scan_iter cb o p0 s) with
    (let s' := mkS s1 (user s) (stack s) in
     match res with
     | Ok x => scan_value cb o p0 x s'
     | Err e =>
          match err_type e with
          | JsonError EofWhileParsingValue =>
              if pos_eqb p0 Top then vbind (parse finish s') (fun s _ => Done (s, Return (Ok tt)))
              else Done (s', Return (Err (UnbalancedJson (current_index s1))))
          | _ => Done (s', Return (Err (RJiterError e)))
          end
     end) by (destruct Hp0 as [-> | ->]; cbn [scan_iter]; rewrite Ep; reflexivity).
  cbv zeta. destruct res as [y|e].
  - destruct H as (-> & H1 & H2). apply (IHv es p p0 u (mkS s1 (user s) (stack s)) x l0 Hh Hp); auto; [|discriminate].
    repeat split; cbn; auto; try apply Hst. congruence.
  - destruct H as (HE & Hio). unfold is_io in Hio. exists u, (Stopped Broken). split; [apply w_value_broken, HE|]. rewrite <- (proj1 Hst).
    destruct (err_type e) as [j| | |] eqn:Et; try discriminate; eapply (stops_now _ (mkS s1 (user s) (stack s))); try exact I; reflexivity.
Qed.
Lemma member_value v w l l1 es u s : spaces w -> value_at P false v l l1 -> value_goal false v l l1 -> home es ObjectMiddle -> at_ es u (w ++ l) s ->
  exists u' st, walk_value beh d E (path es) v u u' st /\ ends_as (loop_at ObjectBetweenKV s) es ObjectMiddle u' l1 st.
Proof.
  intros Hw Hv IHv Hh (HG & Hr & Hst).
  destruct (peeked_value v w l l1 es ObjectMiddle ObjectBetweenKV u s) as (u' & st & A & C); auto; [apply (pf_start _ _ _ _ PF), HG|].
  exists u', st. split; [exact A|]. eapply leads_ends; [apply loop_step; discriminate|exact C].
Qed.
Lemma object_member op k v ms es p u s s1 w2 l l1 r : home es p -> on_stack es u s ->
  op (parser s) = Done (s1, Ok (Some k)) -> rest s1 = w2 ++ l -> spaces w2 -> G s1 -> value_at P false v l l1 ->
  value_goal false v l l1 -> members_goal ms l1 r ->
  rest_of_object (then_go (object_run op s)) ((k, v) :: ms) es p u r.
Proof.
  intros Hh (Hu & Hst) Eo Hr Hw2 HG Hv IHv IHms. unfold then_go, object_run, parse. rewrite Eo. cbn [obind sbind]. unfold key_run. cbn [stack user parser].
  destruct (stack_push d (stack s) es (pos_code ObjectMiddle) k Hst) as (q & res & Ep & H). rewrite Ep. cbn [obind].
  destruct (admit_name d (path es) k) as [x|] eqn:Ea.
  { destruct H as (Hq & e & -> & Hx). exists u, (Stopped (Denied x)). split; [apply w_members_denied, Ea|]. rewrite <- Hu. destruct x.
    - destruct Hx as (_ & ->). eapply (stops_now _ (mkS s1 (user s) q)); reflexivity.
    - destruct e; try (elim (Hx _ eq_refl)); eapply (stops_now _ (mkS s1 (user s) q)); try reflexivity; right; eexists; reflexivity. }
  destruct H as (-> & Hq). set (s2 := mkS s1 (user s) q).
  assert (Hat2 : at_ (key_entry k :: es) u (w2 ++ l) s2) by (repeat split; auto).
  destruct (begin_key v w2 l l1 (key_entry k :: es) u s2 Hat2 Hw2 Hv) as [(Eb & u' & Ho)|(s' & u' & op' & Eb & Ho & Hst' & Hop)]; rewrite Eb.
  { exists u', (Stopped Crashed). split; [eapply w_members_stopped; [exact Ea|]; eapply w_member_halt; eauto; reflexivity|]. apply crashes_now. reflexivity. }
  destruct op' as [| |m0]; cbn [begin_result sbind vbind].
  - destruct Hop as (w' & Hat' & Hw').
    destruct (member_value v w' l l1 (key_entry k :: es) u' s' Hw' Hv IHv (home_key k es) Hat') as (u2 & st & Hwv & He).
    change (path (key_entry k :: es)) with (k :: path es) in *.
    destruct st as [|why].
    + destruct He as (s3 & Hl3 & Hat3). destruct (IHms k es p u2 s3 Hh Hat3) as (u3 & e & Hoe & H3).
      destruct (ended e) as [|why] eqn:Ee.
      * eapply rest_of_object_leads in H3; [|exact Hl3]. destruct H3 as (u4 & st4 & Hw4 & H4). exists u4, st4.
        split; [eapply w_members; [exact Ea| |exact Hw4]; rewrite <- Ee; eapply w_member; eauto|]. exact H4.
      * exists u3, (Stopped why). split; [eapply w_members_stopped; [exact Ea|]; rewrite <- Ee; eapply w_member; eauto|].
        eapply leads_stops; eauto.
    + exists u2, (Stopped why). split; [eapply w_members_stopped; [exact Ea|]; eapply w_member_stopped; eauto|]. exact He.
  - destruct (IHms k es p u' s' Hh Hop) as (u3 & e & Hoe & H3). change (path (key_entry k :: es)) with (k :: path es) in *.
    destruct (ended e) as [|why] eqn:Ee.
    + destruct H3 as (u4 & st4 & Hw4 & H4). exists u4, st4.
      split; [eapply w_members; [exact Ea| |exact Hw4]; rewrite <- Ee; eapply w_member_consumed; eauto|]. exact H4.
    + exists u3, (Stopped why). split; [eapply w_members_stopped; [exact Ea|]; rewrite <- Ee; eapply w_member_consumed; eauto|]. exact H3.
  - exists u', (Stopped (ByAction m0)). split; [eapply w_members_stopped; [exact Ea|]; eapply w_member_halt; eauto; reflexivity|].
    rewrite <- (proj1 Hst'). eapply stops_now; [reflexivity|reflexivity].
Qed.
(** The start of an iteration inside an object: the member just finished is closed. *)
Lemma member_closed ms k es p u s r l : home es p -> at_ (key_entry k :: es) u l s ->
  (forall u1 s1, at_ es u1 l s1 -> rest_of_object (then_go (object_run next_key_bytes s1)) ms es p u1 r) ->
  exists u1 e, on_end beh PNone (k :: path es) u u1 e /\
    match ended e with
    | Through => rest_of_object (loop_at ObjectMiddle s) ms es p u1 r
    | Stopped why => stops (loop_at ObjectMiddle s) u1 why
    end.
Proof.
  intros Hh (HG & Hr & Hu & Hst) IH.
  assert (HL : leads (loop_at ObjectMiddle s) (fun k => finish_iter k (scan_iter cb o ObjectMiddle s))) by (apply loop_step; discriminate).
  cbn [scan_iter] in HL. unfold handle_object in HL. change (pos_eqb ObjectMiddle ObjectBegin) with false in HL. cbv beta zeta iota in HL.
  destruct (end_found PNone (key_entry k :: es) u s ltac:(discriminate) (conj Hu Hst)) as (s1 & a & E1 & E2 & E3 & Hend).
  rewrite E1 in HL. cbn [obind] in HL. rewrite E3 in HL. destruct (stack_pop _ _ _ _ _ Hst) as (q & Ep & Hq). rewrite Ep in HL. cbn [obind] in HL.
  destruct (Hend q) as [(Ee & u' & Ho)|(u' & e & Ee & Ho)]; rewrite Ee in HL.
  - exists u', None. split; [exact Ho|]. eapply leads_stops; [exact HL|]. apply crashes_now. reflexivity.
  - exists u', (Some e). split; [exact Ho|]. destruct e as [[]|m]; cbn [ended end_result sbind] in *.
    + eapply rest_of_object_leads; [exact HL|]. apply (IH u' (mkS (parser s) u' q)). repeat split; auto.
    + eapply leads_stops; [exact HL|]. eapply (stops_now _ (mkS (parser s) u' q)); [reflexivity|reflexivity].
Qed.
Lemma members_end_run w r : spaces w -> members_goal [] (w ++ RBRACE :: r) r.
Proof.
  intros Hw k es p u s Hh Hat. eapply member_closed; eauto. intros u1 s1 (HG & Hr & Hst).
  destruct (pf_key_end _ _ _ _ PF (parser s1) w r HG Hr Hw) as (s2 & res & Eo & H). destruct res as [y|e].
  - destruct H as (-> & H1 & H2). eapply object_done; eauto.
  - eapply object_broken; eauto.
Qed.
Lemma members_more_run w w0 k w1 w2 v ms l l1 r : spaces w -> spaces w0 -> string_text k -> spaces w1 -> key_ok P k w1 -> spaces w2 ->
  value_at P false v l l1 -> value_goal false v l l1 -> members_goal ms l1 r ->
  members_goal ((k, v) :: ms) (w ++ COMMA :: w0 ++ QUOTE :: k ++ QUOTE :: w1 ++ COLON :: w2 ++ l) r.
Proof.
  intros Hw Hw0 Hk Hw1 Hkey Hw2 Hv IHv IHms k0 es p u s Hh Hat. eapply member_closed; eauto. intros u1 s1 (HG & Hr & Hst).
  destruct (pf_key _ _ _ _ PF (parser s1) w w0 k w1 (w2 ++ l) HG Hr Hw Hw0 Hk Hw1 Hkey) as (s2 & res & Eo & H). destruct res as [y|e].
  - destruct H as (-> & H1 & H2). eapply object_member; eauto.
  - eapply object_broken; eauto.
Qed.
Lemma object_value b ms l r :
  (forall es p u s, home es p -> at_ es u (LBRACE :: l) s -> (b = true -> 0 < jidx (parser s)) ->
     rest_of_object (then_go (object_run next_object_bytes s)) ms es p u r) ->
  value_at P b (JObject ms) (LBRACE :: l) r -> value_goal b (JObject ms) (LBRACE :: l) r.
Proof.
  intros IH Hv es p p0 u s x l0 Hh Hp Hat El Hb. injection El as <- <-.
  assert (HL : leads (value_run p0 LBRACE s) (fun k => finish_iter k (scan_iter cb o ObjectBegin s))).
  { eapply leads_trans; [|apply (loop_step ObjectBegin s); discriminate]. apply leads_eq. reflexivity. }
  cut (exists u' st, walk_value beh d E (path es) (JObject ms) u u' st /\
         ends_as (fun k => finish_iter k (scan_iter cb o ObjectBegin s)) es p u' r st).
  { intros (u' & st & A & C). exists u', st. split; [exact A|]. eapply leads_ends; eauto. }
  cbn [scan_iter]. unfold handle_object. change (pos_eqb ObjectBegin ObjectBegin) with true. cbv beta zeta iota.
  destruct (begin_value PObject b (JObject ms) _ r es u s (ex_intro _ ms eq_refl) Hat Hv Hb) as [(Eb & u' & Ho)|(s' & u' & op & Eb & Ho & Hst & Hop)]; rewrite Eb.
  { exists u', (Stopped Crashed). split; [eapply w_object_halt; eauto; reflexivity|]. apply crashes_now. reflexivity. }
  destruct op as [| |m0]; cbn [begin_result].
  - destruct Hop as (Hat' & Hb'). destruct (IH es p u' s' Hh Hat' Hb') as (u2 & st & Hw & He). destruct st as [|why].
    + destruct He as (u3 & e & Hoe & He). exists u3, (ended e). split; [eapply w_object; eauto|]. exact He.
    + exists u2, (Stopped why). split; [eapply w_object_stopped; eauto|]. exact He.
  - exists u', Through. split; [apply w_object_consumed, Ho|]. cbn [sbind]. rewrite (top_home _ _ _ _ p Hst Hh). cbn [vbind].
    exists s'. split; [apply leads_refl|exact Hop].
  - exists u', (Stopped (ByAction m0)). split; [eapply w_object_halt; eauto; reflexivity|]. cbn [vbind sbind ends_as]. rewrite <- (proj1 Hst).
    eapply stops_now; [reflexivity|reflexivity].
Qed.

(** ** All values *)
Lemma simulation :
  (forall b v l r, value_at P b v l r -> value_goal b v l r) /\
  (forall vs l r, items_at P vs l r -> items_goal vs l r) /\
  (forall ms l r, members_at P ms l r -> members_goal ms l r).
Proof.
  apply (grammar_ind P value_goal items_goal members_goal).
  - intros. apply atom_value; [exact I|constructor].
  - intros. apply atom_value; [exact I|constructor].
  - intros. apply atom_value; [exact I|constructor].
  - intros. apply atom_value; [exact I|constructor; auto].
  - intros. apply atom_value; [exact I|constructor; auto].
  - intros. apply array_empty_value; auto.
  - intros. eapply array_full_value; eauto.
  - intros b w r Hw Ho. apply object_value; [|constructor; auto]. intros es p u s Hh (HG & Hr & Hst) Hb.
    destruct (pf_object_empty _ _ _ _ PF b (parser s) w r HG Hr Hw Hb Ho) as (s1 & res & Eo & H). destruct res as [y|e].
    + destruct H as (-> & H1 & H2). eapply object_done; eauto.
    + eapply object_broken; eauto.
  - intros b w k w1 w2 v ms l l1 r Hw Hk Hw1 Hkey Hw2 Ho Hv IHv Hms IHms. apply object_value; [|econstructor; eauto].
    intros es p u s Hh (HG & Hr & Hst) Hb.
    destruct (pf_object _ _ _ _ PF b (parser s) w k w1 (w2 ++ l) HG Hr Hw Hk Hw1 Hkey Hb Ho) as (s1 & res & Eo & H). destruct res as [y|e].
    + destruct H as (-> & H1 & H2). eapply object_member; eauto.
    + eapply object_broken; eauto.
  - intros. apply items_end_run; auto.
  - intros. eapply items_more_run; eauto.
  - intros. apply members_end_run; auto.
  - intros. eapply members_more_run; eauto.
Qed.

(** ** The top level *)
Definition top_run (progressed : bool) (s : sstate B) : run_of := fun k => scan_loop cb o k progressed Top s.
Lemma top_step progressed s : progressed && stop_early o = false -> leads (top_run progressed s) (fun k => finish_iter k (scan_iter cb o Top s)).
Proof. intros H. exists 1. intros k. unfold top_run. cbn [Nat.add scan_loop]. rewrite H. reflexivity. Qed.
Definition top_done (F : run_of) (es : list entry) (u : B) : Prop :=
  exists n s', (forall k, F (n + k) = Done (s', Ok tt)) /\ on_stack es u s' /\ G0 (parser s') /\ rest (parser s') = [].
Definition top_post (F : run_of) (es : list entry) (u : B) (st : status) : Prop :=
  match st with Through => top_done F es u | Stopped why => stops F u why end.
Lemma top_done_leads F F' es u : leads F F' -> top_done F' es u -> top_done F es u.
Proof.
  intros (n & H) (m & s' & K & L). exists (n + m), s'. split; [|exact L]. intros k. rewrite <- Nat.add_assoc, H, K. reflexivity.
Qed.
Lemma top_post_leads F F' es u st : leads F F' -> top_post F' es u st -> top_post F es u st.
Proof. intros H. destruct st; cbn; [apply top_done_leads, H|apply leads_stops, H]. Qed.
Lemma top_end es u s l : spaces l -> home es Top -> G0 (parser s) -> rest (parser s) = l -> on_stack es u s ->
  exists st, walk_items beh d E (path es) [] u u st /\ top_post (fun k => finish_iter k (scan_iter cb o Top s)) es u st.
Proof.
  intros Hl Hh HG Hr Hst. rewrite <- Hr in Hl. cbn [scan_iter].
  destruct (pf_end _ _ _ _ PF (parser s) HG Hl) as (s1 & e & Ep & [(He & s2 & res & Ef & H)|(He & HE)]); rewrite Ep; cbn [obind].
  - rewrite He. cbn [pos_eqb pos_code N.eqb]. unfold parse. cbn [parser]. rewrite Ef. cbn [obind]. destruct res as [[]|e2]; cbn [vbind].
    + exists Through. split; [constructor|]. exists 0. eexists. split; [reflexivity|]. split; [exact Hst|]. split; apply H.
    + exists (Stopped Broken). split; [apply w_items_broken, H|]. rewrite <- (proj1 Hst).
      eapply (stops_now _ (mkS s2 (user s) (stack s))); [reflexivity|exact I].
  - exists (Stopped Broken). split; [apply w_items_broken, HE|]. rewrite <- (proj1 Hst).
    destruct (err_type e) as [j| | |] eqn:Et; try (eapply (stops_now _ (mkS s1 (user s) (stack s))); [reflexivity|exact I]).
    destruct j; try (eapply (stops_now _ (mkS s1 (user s) (stack s))); [reflexivity|exact I]). congruence.
Qed.
Lemma top_documents : stop_early o = false -> forall vs l, documents P vs l ->
  forall es u s progressed, home es Top -> G0 (parser s) -> rest (parser s) = l -> on_stack es u s ->
  exists u' st, walk_items beh d E (path es) vs u u' st /\ top_post (top_run progressed s) es u' st.
Proof.
  intros Hse vs l H. induction H as [l Hl|v vs l r (w & l' & -> & Hw & Hv) Hd IH]; intros es u s progressed Hh HG Hr Hst.
  - destruct (top_end es u s l Hl Hh HG Hr Hst) as (st & A & C). exists u, st. split; [exact A|].
    eapply top_post_leads; [apply top_step; rewrite Hse; apply andb_false_r|exact C].
  - assert (HL : leads (top_run progressed s) (fun k => finish_iter k (scan_iter cb o Top s))) by (apply top_step; rewrite Hse; apply andb_false_r).
    destruct (peeked_value v w l' r es Top Top u s) as (u1 & st & A & C); auto; [apply (proj1 simulation), Hv|].
    destruct st as [|why].
    + destruct C as (s1 & HL1 & HG1 & Hr1 & Hst1).
      destruct (IH es u1 s1 true Hh (pf_start _ _ _ _ PF _ HG1) Hr1 Hst1) as (u2 & st2 & A2 & C2).
      exists u2, st2. split; [eapply w_items; eauto|]. eapply top_post_leads; [eapply leads_trans; [exact HL|exact HL1]|exact C2].
    + exists u1, (Stopped why). split; [apply w_items_stopped, A|]. eapply leads_stops; eauto.
Qed.
Lemma top_single v l r es u s : stop_early o = true -> document P v l r ->
  home es Top -> G0 (parser s) -> rest (parser s) = l -> on_stack es u s ->
  exists u' st, walk_value beh d E (path es) v u u' st /\
    match st with
    | Through => exists n s', (forall k, top_run false s (n + k) = Done (s', Ok tt)) /\ at_ es u' r s'
    | Stopped why => stops (top_run false s) u' why
    end.
Proof.
  intros Hse (w & l' & -> & Hw & Hv) Hh HG Hr Hst.
  assert (HL : leads (top_run false s) (fun k => finish_iter k (scan_iter cb o Top s))) by (apply top_step; reflexivity).
  destruct (peeked_value v w l' r es Top Top u s) as (u1 & st & A & C); auto; [apply (proj1 simulation), Hv|].
  exists u1, st. split; [exact A|]. destruct st as [|why]; [|eapply leads_stops; eauto].
  destruct C as (s1 & HL1 & Hat1). destruct (leads_trans _ _ _ HL HL1) as (n & Hn). exists (n + 1), s1. split; [|exact Hat1].
  intros k. rewrite <- Nat.add_assoc, Hn. unfold loop_at. cbn [Nat.add scan_loop]. rewrite Hse. reflexivity.
Qed.
Lemma top_blank es u s l : spaces l -> home es Top -> G0 (parser s) -> rest (parser s) = l -> on_stack es u s ->
  exists st, walk_items beh d E (path es) [] u u st /\ top_post (top_run false s) es u st.
Proof.
  intros Hl Hh HG Hr Hst. destruct (top_end es u s l Hl Hh HG Hr Hst) as (st & A & C). exists st. split; [exact A|].
  eapply top_post_leads; [apply top_step; reflexivity|exact C].
Qed.
End Simulation.
