(** More about the parser: invariants of the buffer cells, valid input never yields a wrong token, and what is left after failures. *)
From Verif Require Import Base Buffer BufferSpec BufferProofs Jiter JiterProofs RJiter RJiterSpec RJiterProofs RJiterOpProofs
  RJiterLookProofs RJiterLongProofs RJiterIndexProofs.

(** ** Completeness and soundness on valid input *)
Definition no_stale {A} (f : jop A) (eager : bool) (token : option byte) (s : rj) : Prop :=
  jidx s = 0 -> strip token (rest s) = rest s -> forall r0 a0, f (jview s) = (r0, a0) -> 0 < a0 ->
    match r0 with Ok _ => eager = true /\ a0 = len (jview s) | Err _ => True end ->
    exists er a1, f (skipn a0 (jview s)) = (Err er, a1) /\ can_retry (fst er) = true.

Lemma op_complete_gen {A} k known token (f : jop A) op s v l' :
  method k known token f op ->
  valid s -> 2 <= rcap s -> rquiet s = true ->
  on_token known (rest s) -> no_form_feed token (rest s) ->
  parsed f (rest s) v l' ->
  len (strip token (rest s)) < rcap s + len l' ->
  no_stale f (eager_of k) token s ->
  (eager_of k = true -> 0 < jidx s \/ l' <> [] \/ n_bytes (bf s) = 0) ->
  exists s', op s = Done (s', Ok v) /\ valid s' /\ rest s' = l' /\ total s' = total s /\ rcap s' = rcap s /\ rquiet s' = true.
Proof.
  intros M V Hc Hq Hon Hff Hp Hfit Hns Hk. apply method_facts in M as [-> Hw Hb He Hl Hbl Hd].
  destruct (loop_spec f token (eager_of k) s Hw Hb He V Hc) as (s' & r & E & P). rewrite E.
  set (R := rest s) in *. set (S := strip token R) in *.
  assert (HpS : parsed f S v l').
  { unfold S. rewrite Hff. apply Hbl; assumption. }
  destruct HpS as (a' & HfS & Hl').
  assert (Ha' : a' < rcap s).
  { pose proof (Hb _ _ _ HfS). rewrite Hl', skipn_length in Hfit. lia. }
  assert (Hcut : rcap s < len S -> f (firstn (rcap s) S) = (Ok v, a')).
  { intros Hlt. apply (Hl (firstn (rcap s) S) (skipn (rcap s) S)); [rewrite firstn_skipn; exact HfS|].
    rewrite firstn_length_le' by lia. exact Ha'. }
  unfold op_post in P. fold R in P. fold S in P. destruct r as [v'|e].
  - destruct P as (V' & C' & Q' & T' & P).
    assert (HH : v' = v /\ rest s' = l').
    { destruct P as [P|[P|[(He1 & Hlt & Hf & _)|(Hz & HR & r0 & a0 & a1 & E0 & Ha0 & Hr0 & E1 & _)]]].
      - eapply parsed_fun; eauto.
      - eapply parsed_fun; [exact P|]. exists a'. auto.
      - rewrite (Hcut Hlt) in Hf. injection Hf as _ Hf. lia.
      - destruct (Hns Hz HR r0 a0 E0 Ha0 Hr0) as (er & a2 & E2 & _). congruence. }
    destruct HH as [-> Hrest]. exists s'. repeat split; auto; apply V'.
  - exfalso. destruct P as [(_ & P)|[(er & a & P & _)|[(Hlt & er & a & P & _)|(Hz & HR & r0 & a0 & er & a1 & E0 & Ha0 & Hr0 & E1 & P)]]].
    + congruence.
    + congruence.
    + rewrite (Hcut Hlt) in P. discriminate.
    + destruct (Hns Hz HR r0 a0 E0 Ha0 Hr0) as (er2 & a2 & E2 & Hre). rewrite E1 in E2. injection E2 as <- <-.
      destruct P as [P|[P|P]]; [congruence| |].
      * pose proof (jview_length s V) as Hlj. pose proof (jview_split s V) as Hsp. rewrite P, app_nil_r in Hsp. rewrite <- Hsp in *. fold R in E0, Hr0, Hlj.
        destruct Hp as (a & Hp & Hla). rewrite E0 in Hp. injection Hp as -> ->.
        destruct Hr0 as [Hek Hr0]. destruct (Hk Hek) as [Hk'|[Hk'|Hk']]; [lia| |].
        -- apply Hk'. rewrite Hla, Hr0, skipn_all. reflexivity.
        -- lia.
      * assert (Hv : jview s = firstn (rcap s) S).
        { rewrite jview_rest by exact V. fold R. rewrite Hz, Nat.sub_0_r, P. f_equal. symmetry. exact HR. }
        assert (Hlv : len (jview s) = rcap s) by (rewrite jview_length by exact V; lia).
        assert (HfV : f (jview s) = (Ok v, a')).
        { rewrite Hv. apply (Hl (firstn (rcap s) S) (skipn (rcap s) S)); [rewrite firstn_skipn; exact HfS|].
          rewrite <- Hv, Hlv. exact Ha'. }
        rewrite HfV in E0. injection E0 as <- <-. destruct Hr0 as [_ Hr0]. lia.
Qed.

(** What the first attempt leaves for a second one: never a second object. *)
Lemma next_object_bytes_stale l er a0 : j_next_object j_known_bytes l = (Err er, a0) -> run_length json_ws l = 0 -> 0 < a0 ->
  (exists m v a, j_next_object j_known_bytes (l ++ m) = (Ok v, a)) ->
  (exists w, l = LBRACE :: w /\ run_length json_ws w = 0 /\ forall v a, j_next_object j_known_bytes (skipn a0 l) <> (Ok v, a)) \/
  (exists w, l = LBRACE :: w /\ 0 < run_length json_ws w).
Proof.
  intros E Hw Ha (m & v & a & Em). unfold j_next_object, next_as in E. rewrite after_ws_0 in E by exact Hw. rewrite jat_0 in E.
  destruct l as [|x l]; [cbn in E; injection E as _ <-; lia|].
  destruct (N.eqb_spec LBRACE x) as [<-|Hx]; [|injection E as _ <-; lia].
  destruct (run_length json_ws l) as [|n] eqn:En; [left|right; exists l; split; [reflexivity|lia]].
  exists l. split; [reflexivity|]. split; [exact En|]. intros v' a' E'.
  unfold j_known_object in E. apply jat_err in E as (e1 & b & E & ->). cbn [skipn] in E.
  rewrite after_ws_0 in E by exact En. rewrite jat_0 in E.
  cbn [Nat.add skipn] in E'.
  destruct l as [|y l]; [cbn in E; injection E as _ <-; cbn in E'; discriminate|].
  destruct (N.eqb_spec y QUOTE) as [->|Hy].
  - unfold object_key in E. destruct (j_known_bytes (QUOTE :: l)) as [[k|e2] c] eqn:Ek.
    + apply jat_err in E as (e3 & b3 & E & ->).
      unfold after_ws in E. apply jat_err in E as (e4 & b4 & E & ->).
      set (q := skipn c (QUOTE :: l)) in *.
      destruct (skipn (run_length json_ws q) q) as [|z q'] eqn:Eq.
      * cbn in E. injection E as _ <-.
        rewrite Nat.add_0_r in E'.
        replace (skipn (c + run_length json_ws q) (QUOTE :: l)) with ([] : bytes) in E'; [cbn in E'; discriminate|].
        symmetry. rewrite <- skipn_skipn. fold q. exact Eq.
      * destruct (N.eqb_spec z COLON) as [->|Hz]; [discriminate|]. injection E as _ <-.
        (* the whole input would be rejected as well *)
        exfalso. unfold j_next_object, next_as in Em. rewrite after_ws_0 in Em by exact Hw. rewrite jat_0 in Em.
        cbn [app] in Em. rewrite N.eqb_refl in Em. unfold j_known_object in Em. apply jat_ok in Em as (b5 & Em & _).
        cbn [skipn] in Em. rewrite after_ws_0 in Em by reflexivity. rewrite jat_0 in Em. rewrite N.eqb_refl in Em.
        unfold object_key in Em. change (QUOTE :: l ++ m) with ((QUOTE :: l) ++ m) in Em.
        assert (Hk2 : j_known_bytes ((QUOTE :: l) ++ m) = (Ok k, c)).
        { destruct (known_bytes_stable (QUOTE :: l) m) as [(e5 & o5 & a5 & Hx & _)|[(Hx & _)|Hx]]; [rewrite Ek in Hx; discriminate|discriminate|].
          rewrite Hx. exact Ek. }
        rewrite Hk2 in Em. apply jat_ok in Em as (b6 & Em & _). unfold after_ws in Em.
        apply jat_ok in Em as (b7 & Em & _).
        rewrite skipn_app_le in Em by (eapply known_bytes_bounded; exact Ek). fold q in Em.
        rewrite run_length_app_lt in Em.
        2:{ pose proof (skipn_length (run_length json_ws q) q) as HH. rewrite Eq in HH. cbn in HH. unfold byte in *. lia. }
        rewrite skipn_app_le in Em.
        2:{ pose proof (skipn_length (run_length json_ws q) q) as HH. rewrite Eq in HH. cbn in HH. unfold byte in *. lia. }
        rewrite Eq in Em. cbn [app] in Em. destruct (N.eqb_spec z COLON); [contradiction|discriminate].
    + injection E as _ <-. cbn [skipn] in E'. unfold j_next_object, next_as in E'. rewrite after_ws_0 in E' by reflexivity.
      rewrite jat_0 in E'. discriminate.
  - destruct (N.eqb_spec y RBRACE) as [->|Hy2]; [discriminate|].
    injection E as _ <-. cbn [skipn] in E'.
    (* not an object at all *)
    exfalso. unfold j_next_object, next_as in Em. rewrite after_ws_0 in Em by exact Hw. rewrite jat_0 in Em.
    cbn [app] in Em. rewrite N.eqb_refl in Em. unfold j_known_object in Em. apply jat_ok in Em as (b5 & Em & _).
    cbn [skipn] in Em. rewrite after_ws_0 in Em by (cbn [run_length] in En |- *; destruct (json_ws y); [discriminate|reflexivity]).
    rewrite jat_0 in Em.
    destruct (N.eqb_spec y QUOTE); [contradiction|]. destruct (N.eqb_spec y RBRACE); [contradiction|]. discriminate.
Qed.

(** A method called on valid input finds the right token or fails. *)
Definition found {A} (s : rj) (v : A) (l' : bytes) (x : outcome (rj * result A rerror)) : Prop :=
  exists s' r, x = Done (s', r) /\
    match r with
    | Ok v' => v' = v /\ rest s' = l' /\ valid s' /\ rcap s' = rcap s /\ total s' = total s /\ (rquiet s = true -> rquiet s' = true)
    | Err e => True
    end.
Lemma op_valid {A} k known token (f : jop A) op s v l' :
  method k known token f op ->
  valid s -> 2 <= rcap s -> on_token known (rest s) -> no_form_feed token (rest s) ->
  number_fits k s -> parsed f (rest s) v l' ->
  (k = ObjectOpen -> jidx s = 0 -> strip token (rest s) = rest s -> forall er a0, f (jview s) = (Err er, a0) -> 0 < a0 ->
     forall v' a, f (skipn a0 (jview s)) <> (Ok v', a)) ->
  found s v l' (op s).
Proof.
  intros M V Hc Hon Hff Hnf Hp Ho. pose proof M as M'. apply method_facts in M' as [-> Hw Hb He Hl Hbl Hd].
  destruct (loop_spec f token (eager_of k) s Hw Hb He V Hc) as (s' & r & E & P). exists s', r. split; [exact E|].
  destruct r as [v'|e]; [|exact I]. destruct P as (V' & C' & Q' & T' & P).
  assert (HH : v' = v /\ rest s' = l'); [|repeat split; try tauto; apply V'].
  destruct P as [P|[P|[(He1 & Hlt & Hf & Hr)|(Hz & HR & r0 & a0 & a1 & E0 & Ha0 & Hr0 & E1 & _)]]].
  - eapply parsed_fun; eauto.
  - rewrite Hff in P. apply (proj1 (Hbl _ _ _ Hon)) in P. eapply parsed_fun; eauto.
  - assert (P : parsed f (strip token (rest s)) v' (rest s')).
    { exists (rcap s). split; [|assumption]. eapply number_cut; eauto. destruct k; try discriminate; exact Hnf. }
    rewrite Hff in P. apply (proj1 (Hbl _ _ _ Hon)) in P. eapply parsed_fun; eauto.
  - exfalso. destruct k.
    + assert (Hdd : dead f (jview s) a0) by (rewrite Hff in HR; eapply Hd; eauto; rewrite <- jview_split by exact V; exact HR).
      destruct Hdd as [?|(er & a2 & E2 & _)]; [lia|congruence].
    + destruct r0 as [v0|e0]; [destruct Hr0; discriminate|].
      assert (Hdd : dead f (jview s) a0).
      { destruct Hp as (a & Hp & _). rewrite (jview_split s V) in Hp. rewrite Hff in HR. eapply Hd; eauto; rewrite <- jview_split by exact V; exact HR. }
      destruct Hdd as [?|(er & a2 & E2 & _)]; [lia|congruence].
    + destruct r0 as [v0|e0]; [destruct Hr0; discriminate|]. eapply Ho; eauto.
    + assert (Hdd : dead f (jview s) a0) by (rewrite Hff in HR; eapply Hd; eauto; rewrite <- jview_split by exact V; exact HR).
      destruct Hdd as [?|(er & a2 & E2 & _)]; [lia|congruence].
    + assert (Hdd : dead f (jview s) a0).
      { destruct Hd as [Hd Hd0]. destruct r0 as [v0|e0]; [destruct Hr0 as [_ ->]; apply dead_all; exact Hd0|].
        destruct Hp as (a & Hp & _). rewrite (jview_split s V) in Hp. rewrite Hff in HR. eapply Hd; eauto; rewrite <- jview_split by exact V; exact HR. }
      destruct Hdd as [?|(er & a2 & E2 & _)]; [lia|congruence].
Qed.

(** The braces of an object never confuse the parser on valid input. *)
Lemma strip_jview_ws s w : valid s -> jidx s = 0 -> jview s = LBRACE :: w -> 0 < run_length json_ws w ->
  strip (Some LBRACE) (rest s) <> rest s.
Proof.
  intros V Hz Hj Hw E. rewrite (jview_split s V), Hj in E. cbn [app] in E. unfold strip, skip_aw in E.
  replace (run_length is_ascii_whitespace (LBRACE :: w ++ src (rd (bf s)))) with 0 in E by reflexivity.
  cbn [skipn] in E. rewrite N.eqb_refl in E. injection E as E.
  destruct w as [|x w]; [cbn in Hw; lia|]. cbn [app run_length] in E, Hw.
  destruct (json_ws x) eqn:Ex; [|lia]. rewrite (json_ws_ascii _ Ex) in E. cbn [skipn] in E.
  apply (f_equal (@List.length byte)) in E. rewrite skipn_length in E. cbn [List.length] in E. unfold byte in *. lia.
Qed.
Lemma next_object_bytes_valid s v l' :
  valid s -> 2 <= rcap s -> no_form_feed (Some LBRACE) (rest s) ->
  parsed (j_next_object j_known_bytes) (rest s) v l' -> found s v l' (next_object_bytes s).
Proof.
  intros V Hc Hff Hp. eapply op_valid; eauto; [constructor|discriminate|exact I|].
  intros _ Hz HR er a0 E0 Ha v' a E1.
  assert (Hw : run_length json_ws (jview s) = 0).
  { rewrite Hff in HR. rewrite (jview_split s V) in HR. apply jstrip_head in HR. eapply run_length_0_app; exact HR. }
  destruct Hp as (b & Hp & _). rewrite (jview_split s V) in Hp.
  destruct (next_object_bytes_stale _ _ _ E0 Hw Ha) as [(w & _ & _ & H)|(w & H1 & H2)]; [eauto|eapply H; eauto|].
  eapply strip_jview_ws; eauto.
Qed.

(** ** Invariants of the buffer *)
Definition closed (J : buffer -> Prop) : Prop :=
  (forall b t f, J b -> J (shift_buffer b t f)) /\ (forall b, J b -> J (fst (read_more b))).

Section Closed.
Context (J : buffer -> Prop) (HJ : closed J).

Lemma closed_shift b t f : J b -> J (shift_buffer b t f). Proof. apply HJ. Qed.
Lemma closed_read b b' r : read_more b = (b', r) -> J b -> J b'.
Proof. intros E H. apply HJ in H. rewrite E in H. exact H. Qed.

Lemma closed_collect_while fuel : forall b pred p a i c sh b' r,
  collect_while_loop fuel b pred p a i c sh = Done (b', r) -> J b -> J b'.
Proof.
  induction fuel as [|fuel IH]; intros b pred p a i c sh b' r E H; [discriminate|]. cbn [collect_while_loop] in E. cbv zeta in E.
  destruct (_ <? n_bytes b) in E; [injection E as <- _; exact H|].
  assert (Hgo : forall b1 j1 c1 s1, J b1 ->
    match read_more b1 with
    | (b', Err e) => Done (b', Err e)
    | (b', Ok 0) => Done (b', Ok (c1, n_bytes b'))
    | (b', Ok (S _)) => collect_while_loop fuel b' pred p a j1 c1 s1
    end = Done (b', r) -> J b').
  { intros b1 j1 c1 s1 H1 E1. destruct (read_more b1) as [b2 [[|k]|e]] eqn:E2.
    - injection E1 as <- _. eapply closed_read; eauto.
    - eapply IH; [exact E1|]. eapply closed_read; eauto.
    - injection E1 as <- _. eapply closed_read; eauto. }
  destruct (len (buf b) <=? n_bytes b).
  - destruct (negb a || sh || (p =? 0)); [injection E as <- _; exact H|].
    eapply Hgo; [|exact E]. apply closed_shift. exact H.
  - eapply Hgo; [|exact E]. exact H.
Qed.
Lemma closed_skip_spaces fuel : forall b p b' r, skip_spaces_loop fuel b p = Done (b', r) -> J b -> J b'.
Proof.
  induction fuel as [|fuel IH]; intros b p b' r E H; [discriminate|]. cbn [skip_spaces_loop] in E.
  destruct (collect_while b is_ascii_whitespace p false) as [[b1 [[x e]|e]]| |] eqn:E1; try discriminate;
    apply closed_collect_while in E1; auto.
  - injection E as <- _. destruct (p <? e); [apply closed_shift|]; exact E1.
  - destruct (err_type e); try (injection E as <- _; exact E1). eapply IH; [exact E|]. apply closed_shift. exact E1.
Qed.
Lemma closed_collect_count fuel : forall b n a t c sh b' r,
  collect_count_loop fuel b n a t c sh = Done (b', r) -> J b -> J b'.
Proof.
  induction fuel as [|fuel IH]; intros b n a t c sh b' r E H; [discriminate|]. cbn [collect_count_loop] in E. cbv zeta in E.
  destruct (t <=? n_bytes b); [injection E as <- _; exact H|].
  assert (Hgo : forall b1 t1 c1 s1, J b1 ->
    match read_more b1 with
    | (b', Err e) => Done (b', Err e)
    | (b', Ok 0) => Done (b', Ok (c1, n_bytes b'))
    | (b', Ok (S _)) => collect_count_loop fuel b' n a t1 c1 s1
    end = Done (b', r) -> J b').
  { intros b1 t1 c1 s1 H1 E1. destruct (read_more b1) as [b2 [[|k]|e]] eqn:E2.
    - injection E1 as <- _. eapply closed_read; eauto.
    - eapply IH; [exact E1|]. eapply closed_read; eauto.
    - injection E1 as <- _. eapply closed_read; eauto. }
  destruct (len (buf b) <=? n_bytes b).
  - destruct (negb a || sh || (c =? 0)); [injection E as <- _; exact H|].
    destruct (len (buf b) <? n); [injection E as <- _; exact H|].
    eapply Hgo; [|exact E]. apply closed_shift. exact H.
  - eapply Hgo; [|exact E]. exact H.
Qed.
Lemma closed_skip_n fuel : forall b n p t b' r, skip_n_loop fuel b n p t = Done (b', r) -> J b -> J b'.
Proof.
  induction fuel as [|fuel IH]; intros b n p t b' r E H; [discriminate|]. cbn [skip_n_loop] in E. cbv zeta in E.
  destruct (n =? 0); [injection E as <- _; exact H|].
  destruct (n <=? n_bytes b - p); [injection E as <- _; exact H|].
  set (b1 := if n_bytes b =? len (buf b) then _ else _) in E.
  assert (H1 : J (fst b1)) by (unfold b1; destruct (n_bytes b =? len (buf b)); cbn [fst]; auto using closed_shift).
  destruct b1 as [b1 p1]. cbn [fst] in H1. destruct (read_more b1) as [b2 [[|k]|e]] eqn:E2.
  - injection E as <- _. eapply closed_read; eauto.
  - eapply IH; [exact E|]. eapply closed_read; eauto.
  - injection E as <- _. eapply closed_read; eauto.
Qed.
Lemma closed_feeding s p t s' r : skip_spaces_feeding s p t = Done (s', r) -> J (bf s) -> J (bf s').
Proof.
  unfold skip_spaces_feeding. intros E H.
  set (b1 := if 0 <? p then shift_buffer (bf s) 0 p else bf s) in E.
  assert (H1 : J b1) by (unfold b1; destruct (0 <? p); auto using closed_shift).
  destruct (skip_spaces b1 0) as [[b2 [[]|e]]| |] eqn:E2; try discriminate; apply closed_skip_spaces in E2; auto.
  2:{ injection E as <- _. exact E2. }
  assert (Hfin : forall b, J b -> J (bf (if is_changed (bf s) b then create_new_jiter (with_bf s b) else with_bf s b))).
  { intros b Hb. destruct (is_changed (bf s) b); exact Hb. }
  destruct t as [t|]; [|injection E as <- _; auto].
  set (x := if n_bytes b2 =? 0 then read_more b2 else (b2, Ok 0)) in E.
  assert (H3 : J (fst x)).
  { unfold x. destruct (n_bytes b2 =? 0); [|exact E2]. destruct (read_more b2) eqn:E3. eapply closed_read; eauto. }
  destruct x as [b3 [n|e]]; cbn [fst] in H3; [|injection E as <- _; exact H3].
  destruct (firstn (n_bytes b3) (buf b3)) as [|y l]; [injection E as <- _; auto|].
  destruct (N.eqb y t); [|injection E as <- _; auto].
  destruct (skip_spaces b3 1) as [[b4 [[]|e]]| |] eqn:E4; try discriminate; apply closed_skip_spaces in E4; auto; injection E as <- _; auto.
Qed.
Lemma closed_retry {A} (f : jop A) eager fuel : forall s s' r, retry_loop fuel f eager s = Done (s', r) -> J (bf s) -> J (bf s').
Proof.
  induction fuel as [|fuel IH]; intros s s' r E H; [discriminate|]. cbn [retry_loop] in E. unfold jcall in E.
  destruct (f (jview s)) as [r0 a]. cbn [bf] in E.
  set (s1 := mkRj (bf s) (jlen s) (jidx s + a)) in E.
  assert (Hgo : forall r1 : jres A, match read_more (bf s) with
    | (b, Err e) => Done (with_bf s1 b, Err e)
    | (b, Ok 0) => let s2 := with_bf s1 b in
        Done (s2, match r1 with Ok v => Ok v | Err e => Err (from_jiter_error (current_index s2) e) end)
    | (b, Ok (S _)) => retry_loop fuel f eager (create_new_jiter (with_bf s1 b))
    end = Done (s', r) -> J (bf s')).
  { intros r1 E1. destruct (read_more (bf s)) as [b [[|k]|e]] eqn:E2; cbn zeta in E1.
    - injection E1 as <- _. eapply closed_read; eauto.
    - eapply IH; [exact E1|]. eapply closed_read; eauto.
    - injection E1 as <- _. eapply closed_read; eauto. }
  destruct r0 as [v|[e o]].
  - destruct (really_ok eager s1); [injection E as <- _; exact H|]. exact (Hgo (Ok v) E).
  - destruct (can_retry (fst (e, jidx s + o))); [|injection E as <- _; exact H]. exact (Hgo (Err (e, jidx s + o)) E).
Qed.
Lemma closed_loop {A} (f : jop A) token eager s s' r : loop_until_success f token eager s = Done (s', r) -> J (bf s) -> J (bf s').
Proof.
  unfold loop_until_success, jcall. destruct (f (jview s)) as [r0 a]. intros E H.
  set (s1 := mkRj (bf s) (jlen s) (jidx s + a)) in E.
  assert (Hgo : match skip_spaces_feeding s1 (jidx s) token with
    | Done (s2, Ok tt) => retry_loop (fuel_for (bf s2)) f eager s2
    | Done (s2, Err e) => Done (s2, Err e)
    | Panic => Panic
    | Diverge => Diverge
    end = Done (s', r) -> J (bf s')).
  { intros E1. destruct (skip_spaces_feeding s1 (jidx s) token) as [[s2 [[]|e]]| |] eqn:E2; try discriminate;
      apply closed_feeding in E2; auto.
    - eapply closed_retry; eauto.
    - injection E1 as <- _. exact E2. }
  destruct r0 as [v|[e o]]; [|apply Hgo, E]. destruct (really_ok eager s1); [injection E as <- _; exact H|apply Hgo, E].
Qed.
Lemma closed_method {A} k known token (f : jop A) op s s' r : method k known token f op -> op s = Done (s', r) -> J (bf s) -> J (bf s').
Proof. intros M E H. apply method_facts in M as [-> _ _ _ _ _ _]. eapply closed_loop; eauto. Qed.
Lemma closed_finish fuel : forall s s' r, finish_loop fuel s = Done (s', r) -> J (bf s) -> J (bf s').
Proof.
  induction fuel as [|fuel IH]; intros s s' r E H; [discriminate|]. cbn [finish_loop] in E. unfold jcall in E.
  destruct (j_finish (jview s)) as [[v|[e o]] a]; cbn [bf jidx] in E; [|injection E as <- _; exact H].
  destruct (_ <? _) in E; [|eapply IH; [exact E|]; apply closed_shift; exact H].
  destruct (read_more (bf s)) as [b [[|k]|e]] eqn:E2.
  - injection E as <- _. eapply closed_read; eauto.
  - eapply IH; [exact E|]. apply closed_shift. eapply closed_read; eauto.
  - injection E as <- _. eapply closed_read; eauto.
Qed.
Lemma closed_long parser segment fuel : forall s w s' w' r, handle_long fuel parser segment s w = Done (s', w', r) -> J (bf s) -> J (bf s').
Proof.
  induction fuel as [|fuel IH]; intros s w s' w' r E H; [discriminate|]. cbn [handle_long] in E. unfold jcall in E.
  destruct (parser (jview s)) as [r0 a]. set (s1 := mkRj (bf s) (jlen s) (jidx s + a)) in E. cbn zeta in E.
  destruct r0 as [v|[e o]].
  - destruct (write_all w v) as [w1 [u|e1]]; injection E as <- _ _; exact H.
  - destruct (can_retry (fst (e, jidx s + o))); [|injection E as <- _ _; exact H].
    set (s2 := if 0 <? jidx s1 then _ else s1) in E.
    assert (H2 : J (bf s2)) by (unfold s2; destruct (0 <? jidx s1); [apply closed_shift|]; exact H).
    clearbody s2. destruct (find_leading (buf (bf s2)) (raw_segment_end (bf s2))) as [se|]; [|discriminate].
    assert (Hgo : forall s3 w3 (err : jerr), J (bf s3) ->
      match read_more (bf s3) with
      | (b, Err e) => Done (with_bf s3 b, w3, Err e)
      | (b, Ok 0) => let s4 := with_bf s3 b in Done (s4, w3, Err (from_jiter_error (current_index s4) err))
      | (b, Ok (S _)) => handle_long fuel parser segment (create_new_jiter (with_bf s3 b)) w3
      end = Done (s', w', r) -> J (bf s')).
    { intros s3 w3 err H3 E3. destruct (read_more (bf s3)) as [b [[|k]|e3]] eqn:E4; cbn zeta in E3.
      - injection E3 as <- _ _. eapply closed_read; eauto.
      - eapply IH; [exact E3|]. eapply closed_read; eauto.
      - injection E3 as <- _ _. eapply closed_read; eauto. }
    destruct (1 <? se).
    + destruct (segment (buf (bf s2)) se) as [d|e2]; [|injection E as <- _ _; exact H2].
      destruct (write_all w d) as [w1 [u|e1]]; [|injection E as <- _ _; exact H2].
      refine (Hgo _ _ (e, jidx s + o) _ E). apply closed_shift. exact H2.
    + exact (Hgo _ _ (e, jidx s + o) H2 E).
Qed.
Lemma closed_lookahead_n n s s' r : lookahead_n n s = Done (s', r) -> J (bf s) -> J (bf s').
Proof.
  unfold lookahead_n, lookahead. intros E H.
  destruct (collect_count (bf s) n (jidx s) true) as [[b1 [[x e]|e]]| |] eqn:E1; try discriminate; apply closed_collect_count in E1; auto.
  2:{ injection E as <- _. exact E1. }
  set (q := if is_changed (bf s) b1 then _ else _) in E.
  assert (Hq : J (bf (fst (fst q)))).
  { unfold q. destruct (is_changed (bf s) b1); [|exact E1].
    destruct ((n_shifted_out (bf s) =? n_shifted_out b1) && (0 <? jidx s)); [apply closed_shift|]; exact E1. }
  destruct q as [[s2 st] en]. cbn [fst] in Hq. destruct (slice (buf (bf s2)) st en); [|discriminate]. injection E as <- _. exact Hq.
Qed.
Lemma closed_skip_n_bytes n s s' r : skip_n_bytes n s = Done (s', r) -> J (bf s) -> J (bf s').
Proof.
  unfold skip_n_bytes. intros E H. destruct (skip_n (bf s) n (jidx s)) as [[b [[x k]|e]]| |] eqn:E1; try discriminate;
    apply closed_skip_n in E1; auto; injection E as <- _; [apply closed_shift|]; exact E1.
Qed.
Lemma closed_skip_token t s s' r : known_skip_token t s = Done (s', r) -> J (bf s) -> J (bf s').
Proof.
  unfold known_skip_token. intros E H. destruct (lookahead_n (len t) s) as [[s1 [d|e]]| |] eqn:E1; try discriminate;
    apply closed_lookahead_n in E1; auto; [|injection E as <- _; exact E1].
  destruct (beq d t); [|injection E as <- _; exact E1].
  destruct (skip_n_bytes (len t) s1) as [[s2 [k|e]]| |] eqn:E2; try discriminate; apply closed_skip_n_bytes in E2; auto;
    injection E as <- _; exact E2.
Qed.
End Closed.

Lemma reader_src r n x r' : reader_read r n = (x, r') -> exists k, src r' = skipn k (src r) /\ match x with Ok d => d = firstn k (src r) | Err _ => k = 0 end.
Proof.
  unfold reader_read. destruct (sched r) as [|[k|e] s]; intros E; injection E as <- <-; [exists n|eexists|exists 0]; split; try reflexivity.
Qed.
Lemma closed_holds_only P : closed (holds_only P).
Proof.
  split.
  - intros b t f [H1 H2]. split; [apply shift_cells; exact H1|].
    unfold shift_buffer. destruct (if t <? _ then _ else _) as [l c].
    destruct ((t <? f) && (t <? n_bytes b)); exact H2.
  - intros b [H1 H2]. unfold read_more. destruct (reader_read (rd b) (len (buf b) - n_bytes b)) as [x r'] eqn:E.
    apply reader_src in E as (k & E & Ex). split.
    + destruct x as [d|e]; cbn [fst buf]; [|exact H1]. apply Forall_write_at; [exact H1|]. rewrite Ex. apply Forall_firstn'. exact H2.
    + destruct x as [d|e]; cbn [fst rd]; rewrite E; apply Forall_skipn'; exact H2.
Qed.

Lemma closed_at_once : closed at_once.
Proof.
  split.
  - intros b t f H. unfold shift_buffer, at_once, cap in *. destruct (if t <? _ then _ else _) as [l c].
    destruct H as [H|(H1 & H2 & H3)].
    + left. destruct ((t <? f) && (t <? n_bytes b)); exact H.
    + rewrite H2. rewrite (proj2 (Nat.ltb_ge t 0)) by lia. rewrite andb_false_r. right. cbn [rd n_bytes buf]. auto.
  - intros b H. unfold read_more, reader_read, at_once in *. destruct H as [H|(H1 & H2 & H3)].
    + left. rewrite H. destruct (sched (rd b)) as [|[k|e] s]; cbn [fst rd src]; rewrite ?skipn_nil; auto.
    + rewrite H1. cbn [fst rd src]. left. apply skipn_all2. unfold cap in H3. lia.
Qed.

(** ** Progress *)
Lemma retry_advances {A} (f : jop A) eager : (forall l v a, f l = (Ok v, a) -> 1 <= a) ->
  forall fuel s s' v, retry_loop fuel f eager s = Done (s', Ok v) -> 0 < jidx s'.
Proof.
  intros Hf. induction fuel as [|fuel IH]; intros s s' v E; [discriminate|]. cbn [retry_loop] in E. unfold jcall in E.
  destruct (f (jview s)) as [[v0|[e o]] a] eqn:Ef.
  - apply Hf in Ef. destruct (really_ok _ _); [injection E as <- _; cbn; lia|].
    cbn [bf] in E. destruct (read_more (bf s)) as [b [[|k]|e]]; [injection E as <- _; cbn; lia|eapply IH; exact E|discriminate].
  - destruct (can_retry _); [|discriminate].
    cbn [bf] in E. destruct (read_more (bf s)) as [b [[|k]|e']]; [discriminate|eapply IH; exact E|discriminate].
Qed.
Lemma loop_advances {A} (f : jop A) token eager s s' v : (forall l v a, f l = (Ok v, a) -> 1 <= a) ->
  loop_until_success f token eager s = Done (s', Ok v) -> 0 < jidx s'.
Proof.
  intros Hf. unfold loop_until_success, jcall. destruct (f (jview s)) as [r a] eqn:Ef. intros E.
  assert (Hgo : forall s1, match skip_spaces_feeding s1 (jidx s) token with
    | Done (s2, Ok tt) => retry_loop (fuel_for (bf s2)) f eager s2
    | Done (s2, Err e) => Done (s2, Err e)
    | Panic => Panic
    | Diverge => Diverge
    end = Done (s', Ok v) -> 0 < jidx s').
  { intros s1 E1. destruct (skip_spaces_feeding s1 (jidx s) token) as [[s2 [[]|e]]| |]; try discriminate.
    eapply retry_advances; eauto. }
  destruct r as [v0|[e o]]; [|eapply Hgo; exact E].
  apply Hf in Ef. destruct (really_ok _ _); [injection E as <- _; cbn; lia|eapply Hgo; exact E].
Qed.
Lemma loop_loaded {A} (f : jop A) token s s' v : no_empty f -> valid s ->
  loop_until_success f token false s = Done (s', Ok v) -> 0 < n_bytes (bf s').
Proof.
  intros Hf V E.
  assert (Hr : forall fuel s1, jlen s1 = n_bytes (bf s1) -> retry_loop fuel f false s1 = Done (s', Ok v) -> 0 < n_bytes (bf s')).
  { induction fuel as [|fuel IH]; intros s1 HL E1; [discriminate|]. cbn [retry_loop] in E1. unfold jcall in E1.
    destruct (f (jview s1)) as [[v0|[e o]] a] eqn:Ef.
    - cbn [really_ok negb orb] in E1. injection E1 as <- _. cbn [bf]. destruct (n_bytes (bf s1)) eqn:En; [|lia].
      unfold jview in Ef. rewrite HL in Ef. cbn [firstn] in Ef. rewrite skipn_nil in Ef. destruct Hf as (e & a' & Hf). congruence.
    - destruct (can_retry _); [|discriminate]. cbn [bf] in E1.
      destruct (read_more (bf s1)) as [b [[|k]|e']]; [discriminate| |discriminate]. eapply IH; [|exact E1]. reflexivity. }
  unfold loop_until_success, jcall in E. destruct (f (jview s)) as [r a] eqn:Ef. destruct V as (W & HL & HI).
  assert (Hgo : forall i, match skip_spaces_feeding (mkRj (bf s) (jlen s) i) (jidx s) token with
    | Done (s2, Ok tt) => retry_loop (fuel_for (bf s2)) f false s2
    | Done (s2, Err e) => Done (s2, Err e)
    | Panic => Panic
    | Diverge => Diverge
    end = Done (s', Ok v) -> 0 < n_bytes (bf s')).
  { clear E. intros i E1. destruct (skip_spaces_feeding _ (jidx s) token) as [[s2 [[]|e]]| |] eqn:E2; try discriminate.
    eapply Hr; [|exact E1]. clear E1. unfold skip_spaces_feeding in E2.
    destruct (skip_spaces _ 0) as [[b2 [[]|e]]| |]; try discriminate.
    assert (Hfin : forall b, Done (if is_changed (bf (mkRj (bf s) (jlen s) i)) b then create_new_jiter (with_bf (mkRj (bf s) (jlen s) i) b)
        else with_bf (mkRj (bf s) (jlen s) i) b, Ok tt) = Done (s2, @Ok unit rerror tt) -> jlen s2 = n_bytes (bf s2)).
    { intros b E3. injection E3 as <-. destruct (is_changed _ b) eqn:Ec; [reflexivity|].
      apply is_changed_false in Ec as [_ Ec]. cbn [bf with_bf jlen] in *. lia. }
    destruct token as [t|]; [|eapply Hfin; exact E2].
    destruct (if n_bytes b2 =? 0 then _ else _) as [b3 [n|e]]; [|discriminate].
    destruct (firstn (n_bytes b3) (buf b3)) as [|y l]; [eapply Hfin; exact E2|].
    destruct (N.eqb y t); [|eapply Hfin; exact E2].
    destruct (skip_spaces b3 1) as [[b4 [[]|e]]| |]; try discriminate. eapply Hfin; exact E2. }
  destruct r as [v0|[e o]]; [|eapply Hgo; exact E].
  cbn [really_ok negb orb] in E. injection E as <- _. cbn [bf].
  destruct (n_bytes (bf s)) eqn:En; [|lia].
  unfold jview in Ef. rewrite HL in Ef. cbn [firstn] in Ef. rewrite skipn_nil in Ef. destruct Hf as (e & a' & Hf). congruence.
Qed.

(** ** Failing calls *)
(** At the end of the input [peek] says so, and nothing is lost. *)
Lemma all_ws_peek l : skip_jw l = [] -> j_peek l = (Err (JsonError EofWhileParsingValue, len l), len l).
Proof.
  intros H. unfold j_peek, after_ws, jat. unfold skip_jw in H. rewrite H. cbn.
  assert (run_length json_ws l = len l).
  { pose proof (skipn_length (run_length json_ws l) l) as HH. rewrite H in HH. cbn in HH. pose proof (run_length_le json_ws l). unfold byte in *. lia. }
  rewrite Nat.add_0_r. f_equal; congruence.
Qed.
Lemma skip_jw_prefix l m : skip_jw (l ++ m) = [] -> skip_jw l = [].
Proof.
  intros H. destruct (skip_jw l) as [|x k] eqn:E; [reflexivity|]. rewrite (skip_jw_app_cons _ m _ _ E) in H. discriminate.
Qed.
Lemma all_jw_aw l : skip_jw l = [] -> skip_aw l = [].
Proof.
  induction l as [|x l IH]; intros H; [reflexivity|]. unfold skip_jw, skip_aw in *. cbn [run_length] in *.
  destruct (json_ws x) eqn:E; [|discriminate]. rewrite (json_ws_ascii _ E). cbn [skipn] in *. auto.
Qed.
Lemma peek_blank s : valid s -> 2 <= rcap s -> skip_jw (rest s) = [] ->
  exists s' e, peek s = Done (s', Err e) /\
    ((is_io e = true /\ rquiet s = false) \/
     (err_type e = JsonError EofWhileParsingValue /\ valid s' /\ rest s' = [] /\ rcap s' = rcap s /\ total s' = total s /\
      (rquiet s = true -> rquiet s' = true))).
Proof.
  intros V Hc Hb. pose proof V as (W & HL & HI). unfold peek, loop_until_success, jcall.
  assert (Hv : skip_jw (jview s) = []) by (rewrite (jview_split s V) in Hb; eapply skip_jw_prefix; exact Hb).
  rewrite (all_ws_peek _ Hv). cbn zeta. rewrite jview_length by exact V.
  set (s1 := mkRj (bf s) (jlen s) _).
  destruct (feeding_spec s1 (jidx s) None W HI Hc) as (s2 & r2 & E2 & P2). rewrite E2.
  destruct r2 as [[]|e]; [|exists s2, e; split; [reflexivity|]; left; tauto].
  destruct P2 as (W2 & C2 & Q2 & T2 & S2 & P2). cbn [strip] in S2. change (stream (bf s1)) with (stream (bf s)) in *.
  fold (rest s) in S2. rewrite (all_jw_aw _ Hb) in S2.
  pose proof (stream_length _ W2) as L2. rewrite S2 in L2. cbn in L2.
  assert (Hn2 : n_bytes (bf s2) = 0) by lia. assert (Hs2 : src (rd (bf s2)) = []) by (destruct (src (rd (bf s2))); [reflexivity|cbn in L2; lia]).
  assert (Hj : jlen s2 = 0 /\ jidx s2 = 0).
  { destruct P2 as [(-> & ->)|(P1 & P2 & P3 & -> & ->)]; [auto|]. cbn [s1 jlen jidx bf] in *. lia. }
  destruct Hj as [Hjl Hji]. unfold fuel_for. cbn [retry_loop]. unfold jcall.
  assert (Hjv : jview s2 = []) by (unfold jview; rewrite Hjl, Hji; reflexivity). rewrite Hjv. cbn [j_peek after_ws run_length jat skipn jfail].
  cbn [Nat.add fst can_retry]. destruct (read_more (bf (mkRj (bf s2) (jlen s2) (jidx s2 + 0)))) as [b r] eqn:Er.
  destruct (read_more_spec _ _ _ W2 Er) as (C3 & N3 & Q3 & P3).
  destruct r as [[|k]|e].
  - eexists _, _. split; [reflexivity|]. right. split; [reflexivity|].
    assert (St : stream b = []) by (rewrite (cut_nil_stream _ _ _ C3); exact S2).
    cbn [bf] in *. destruct P3 as (A1 & A2 & _).
    split; [|split; [|split; [|split]]].
    + unfold valid. cbn [with_bf bf jlen jidx]. split; [eapply cut_wf; eauto|]. lia.
    + unfold rest. cbn [with_bf bf jidx]. rewrite St, skipn_nil. reflexivity.
    + unfold rcap in *. cbn [with_bf bf]. rewrite (cut_cap _ _ _ _ C3). exact C2.
    + unfold total in *. cbn [with_bf bf]. rewrite N3, St. rewrite S2 in T2. exact T2.
    + intros Hq. apply Q3, Q2, Hq.
  - exfalso. cbn [bf] in P3. rewrite Hs2 in P3. cbn in P3. lia.
  - eexists _, _. split; [reflexivity|]. left. destruct P3 as ((kd & ->) & _ & _ & _ & P3). split; [reflexivity|].
    destruct (rquiet s) eqn:Eq; [|reflexivity]. specialize (Q2 Eq). unfold rquiet in Q2. cbn [bf] in P3. congruence.
Qed.

(** A call that cannot succeed on the byte in front leaves the parser where it is. *)
Definition refuses {A} (f : jop A) (x : byte) : Prop :=
  (exists er, f [] = (Err er, 0) /\ can_retry (fst er) = true) /\
  forall l, exists er, f (x :: l) = (Err er, 0) /\ can_retry (fst er) = false.
Lemma retry_refuses {A} (f : jop A) eager x l fuel : forall s,
  refuses f x -> wf (bf s) -> jlen s = n_bytes (bf s) -> jidx s = 0 -> 2 <= rcap s -> stream (bf s) = x :: l ->
  len (src (rd (bf s))) < fuel ->
  exists s' e, retry_loop fuel f eager s = Done (s', Err e) /\
    ((is_io e = true /\ rquiet s = false) \/
     (valid s' /\ rest s' = x :: l /\ rcap s' = rcap s /\ total s' = total s /\ (rquiet s = true -> rquiet s' = true))).
Proof.
  induction fuel as [|fuel IH]; intros s Hf W HL HI Hc S Hfu; [lia|].
  assert (V : valid s) by (unfold valid; repeat split; auto; lia).
  assert (Hsp : rest s = x :: l) by (unfold rest; rewrite HI; exact S).
  cbn [retry_loop]. unfold jcall. rewrite (jview_split s V) in Hsp.
  destruct (jview s) as [|y jv] eqn:Ej.
  - destruct Hf as ((er & Hf & Hre) & Hf2). rewrite Hf. destruct er as [ty o]. cbn [fst] in *. rewrite Hre. cbn [bf].
    assert (Hn : n_bytes (bf s) = 0) by (pose proof (jview_length s V) as HH; rewrite Ej in HH; cbn in HH; lia).
    destruct (read_more (bf s)) as [b r] eqn:Er. destruct (read_more_spec _ _ _ W Er) as (C3 & N3 & Q3 & P3).
    assert (St : stream b = x :: l) by (rewrite (cut_nil_stream _ _ _ C3); exact S).
    destruct r as [[|k]|e].
    + exfalso. destruct P3 as (A1 & A2 & A3). cbn in Hsp. destruct (A3 eq_refl) as [A4|A4]; [unfold rcap in Hc; lia|].
      rewrite A4 in Hsp. discriminate.
    + destruct P3 as (A1 & A2 & _).
      destruct (IH (create_new_jiter (with_bf (mkRj (bf s) (jlen s) (jidx s + 0)) b))) as (s' & e & E & P); auto.
      { split; [exists (ty, o); auto|exact Hf2]. } { eapply cut_wf; eauto. }
      { unfold rcap in *. cbn. rewrite (cut_cap _ _ _ _ C3). exact Hc. } { cbn. lia. }
      exists s', e. split; [exact E|]. unfold rcap, total, rquiet in *. cbn [create_new_jiter with_bf bf] in P.
      rewrite (cut_cap _ _ _ _ C3), St, N3 in P. rewrite S.
      destruct P as [(P1 & P2)|P]; [left|right; intuition].
      split; [exact P1|]. destruct (quiet (bf s)); [rewrite Q3 in P2 by reflexivity; discriminate|reflexivity].
    + eexists _, _. split; [reflexivity|]. left. destruct P3 as ((kd & ->) & _ & _ & _ & P3). split; [reflexivity|exact P3].
  - cbn [app] in Hsp. injection Hsp as -> Hsp. destruct Hf as (Hf1 & Hf2). destruct (Hf2 jv) as (er & Hf & Hre). rewrite Hf.
    destruct er as [ty o]. cbn [fst] in *. rewrite Hre. eexists _, _. split; [reflexivity|]. right.
    rewrite Nat.add_0_r. replace (mkRj (bf s) (jlen s) (jidx s)) with s by (destruct s; reflexivity).
    split; [exact V|]. split; [|auto]. unfold rest. rewrite HI. exact S.
Qed.
Lemma loop_refuses {A} (f : jop A) eager x l s :
  refuses f x -> valid s -> 2 <= rcap s -> rest s = x :: l -> is_ascii_whitespace x = false ->
  exists s' e, loop_until_success f None eager s = Done (s', Err e) /\
    ((is_io e = true /\ rquiet s = false) \/
     (valid s' /\ rest s' = x :: l /\ rcap s' = rcap s /\ total s' = total s /\ (rquiet s = true -> rquiet s' = true))).
Proof.
  intros Hf V Hc HR Hx. pose proof V as (W & HL & HI). unfold loop_until_success, jcall.
  assert (E0 : exists er, f (jview s) = (Err er, 0)).
  { pose proof HR as HR'. rewrite (jview_split s V) in HR'. destruct (jview s) as [|y jv].
    - destruct Hf as ((er & Hf & _) & _). eauto.
    - cbn in HR'. injection HR' as -> _. destruct Hf as (_ & Hf). destruct (Hf jv) as (er & Hf' & _). eauto. }
  destruct E0 as ([ty o] & ->). set (s1 := mkRj (bf s) (jlen s) (jidx s + 0)).
  destruct (feeding_spec s1 (jidx s) None W HI Hc) as (s2 & r2 & E2 & P2). rewrite E2.
  destruct r2 as [[]|e]; [|exists s2, e; split; [reflexivity|]; left; tauto].
  destruct P2 as (W2 & C2 & Q2 & T2 & S2 & P2). cbn [strip] in S2. change (stream (bf s1)) with (stream (bf s)) in *.
  fold (rest s) in S2. rewrite HR in S2. unfold skip_aw in S2. cbn [run_length] in S2. rewrite Hx in S2. cbn [skipn] in S2.
  assert (Hj : jlen s2 = n_bytes (bf s2) /\ jidx s2 = 0).
  { destruct P2 as [P2|(P1 & P2 & P3 & -> & ->)]; [exact P2|]. cbn [s1 jlen jidx bf] in *. lia. }
  destruct Hj as [Hjl Hji].
  destruct (retry_refuses f eager x l (fuel_for (bf s2)) s2) as (s' & e & E & P); auto.
  { rewrite C2. exact Hc. }
  exists s', e. split; [exact E|]. change (rcap s1) with (rcap s) in *. change (total s1) with (total s) in *. change (rquiet s1) with (rquiet s) in *.
  destruct P as [(P1 & P3)|(P1 & P3 & P4 & P5 & P6)]; [left|right].
  - split; [exact P1|]. destruct (rquiet s); [rewrite Q2 in P3 by reflexivity; discriminate|reflexivity].
  - repeat split; try apply P1; try congruence. auto.
Qed.
