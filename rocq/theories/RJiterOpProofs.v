(** Proofs about the single parsing methods of the streaming parser. *)
From Verif Require Import Base Buffer BufferSpec BufferProofs Jiter JiterProofs JiterValue JiterValueProofs RJiter RJiterSpec RJiterProofs.

(** ** White space in front of and behind the transparent token does not matter to the plain parser *)
Lemma json_ws_ascii x : json_ws x = true -> is_ascii_whitespace x = true.
Proof.
  unfold json_ws. rewrite !orb_true_iff, !N.eqb_eq.
  intros [[[->| ->]| ->]| ->]; reflexivity.
Qed.

Lemma run_length_skip p l : run_length p (skipn (run_length p l) l) = 0.
Proof. induction l as [|x l IH]; [reflexivity|]. cbn [run_length]. destruct (p x) eqn:E; [exact IH|]. cbn [skipn run_length]. rewrite E. reflexivity. Qed.

Lemma parsed_fun {A} (f : jop A) l v m v' m' : parsed f l v m -> parsed f l v' m' -> v = v' /\ m = m'.
Proof. intros (a & E & ->) (a' & E' & ->). rewrite E in E'. injection E' as <- <-. auto. Qed.

Lemma parsed_jat {A} n (f : jop A) l v m : parsed (jat n f) l v m <-> parsed f (skipn n l) v m.
Proof.
  split.
  - intros (a & E & ->). apply jat_ok in E as (b & E & ->). exists b. split; [exact E|]. rewrite skipn_skipn. reflexivity.
  - intros (b & E & ->). exists (n + b). split; [apply jat_ok_intro; exact E|]. rewrite skipn_skipn. reflexivity.
Qed.
Lemma parsed_after_ws {A} (f : jop A) l v m : parsed (after_ws f) l v m <-> parsed f (skip_jw l) v m.
Proof. unfold after_ws. apply parsed_jat. Qed.
Lemma skip_jw_idem l : skip_jw (skip_jw l) = skip_jw l.
Proof. unfold skip_jw at 1. unfold skip_jw at 1. rewrite run_length_skip. reflexivity. Qed.
Lemma skip_jw_head x l : json_ws x = false -> skip_jw (x :: l) = x :: l.
Proof. intros H. unfold skip_jw. cbn [run_length]. rewrite H. reflexivity. Qed.
Lemma skip_jw_first l x l' : skip_jw l = x :: l' -> json_ws x = false.
Proof.
  induction l as [|y l IH]; intros H; [discriminate|]. unfold skip_jw in H. cbn [run_length] in H.
  destruct (json_ws y) eqn:E; [apply IH; exact H|]. injection H as -> _. exact E.
Qed.

Definition blind {A} (known : bool) (token : option byte) (f : jop A) : Prop :=
  forall l v m, on_token known l -> (parsed f (jstrip token l) v m <-> parsed f l v m).

Lemma blind_ws {A} known (g : jop A) : blind known None (after_ws g).
Proof. intros l v m _. cbn [jstrip]. rewrite !parsed_after_ws, skip_jw_idem. reflexivity. Qed.
Lemma on_token_id l : on_token true l -> skip_jw l = l.
Proof.
  intros H. specialize (H eq_refl). destruct l as [|x l]; [reflexivity|]. apply skip_jw_head.
  destruct (json_ws x) eqn:E; [|reflexivity]. apply json_ws_ascii in E. congruence.
Qed.
Lemma blind_known {A} (f : jop A) : blind true None f.
Proof. intros l v m H. cbn [jstrip]. rewrite on_token_id by exact H. reflexivity. Qed.
Lemma blind_token {A} known t (g h : jop A) :
  json_ws t = false ->
  (forall l, g (t :: l) = jat 1 (after_ws h) (t :: l)) -> blind known (Some t) (after_ws g).
Proof.
  intros Ht Hg l v m _. rewrite !parsed_after_ws. cbn [jstrip].
  destruct (skip_jw l) as [|x l'] eqn:E; [reflexivity|].
  pose proof (skip_jw_first _ _ _ E) as Hx.
  destruct (N.eqb_spec x t) as [->|Hn]; [|rewrite skip_jw_head by exact Hx; reflexivity].
  rewrite skip_jw_head by exact Ht.
  assert (Hp : forall k, parsed g (t :: k) v m <-> parsed h (skip_jw k) v m).
  { intros k. rewrite <- parsed_after_ws. rewrite <- (parsed_jat 1 (after_ws h) (t :: k)).
    unfold parsed. rewrite Hg. reflexivity. }
  rewrite !Hp, skip_jw_idem. reflexivity.
Qed.
Lemma blind_known_token {A} t (h : jop A) : blind true (Some t) (jat 1 (after_ws h)).
Proof.
  intros l v m H. cbn [jstrip]. rewrite on_token_id by exact H. destruct l as [|x l]; [reflexivity|].
  destruct (N.eqb x t); [|reflexivity].
  rewrite !parsed_jat. cbn [skipn]. rewrite !parsed_after_ws, skip_jw_idem. reflexivity.
Qed.

(** ** A second attempt without renewed view ends in a retry *)
Definition dead {A} (f : jop A) (l : bytes) (a0 : nat) : Prop :=
  a0 = 0 \/ exists er a1, f (skipn a0 l) = (Err er, a1) /\ can_retry (fst er) = true.
Definition stale_dead {A} (eager : bool) (token : option byte) (f : jop A) : Prop :=
  forall l m r0 a0, jstrip token (l ++ m) = l ++ m -> f l = (r0, a0) ->
    match r0 with Ok _ => eager = true /\ a0 = len l | Err _ => True end -> dead f l a0.
Definition stale_dead_if_ok {A} (token : option byte) (f : jop A) : Prop :=
  forall l m v a er a0, jstrip token (l ++ m) = l ++ m -> f (l ++ m) = (Ok v, a) -> f l = (Err er, a0) -> dead f l a0.

Lemma jstrip_none_head l : jstrip None l = l -> run_length json_ws l = 0.
Proof.
  cbn. unfold skip_jw. intros H. pose proof (skipn_length (run_length json_ws l) l) as HL. rewrite H in HL.
  pose proof (run_length_le json_ws l). destruct l; [reflexivity|]. cbn [List.length] in *. lia.
Qed.
Lemma skip_jw_le l : len (skip_jw l) <= len l.
Proof. unfold skip_jw. rewrite skipn_length. lia. Qed.
Lemma jstrip_head t l : jstrip t l = l -> run_length json_ws l = 0.
Proof.
  destruct t as [t|]; [|apply jstrip_none_head]. intros H. apply jstrip_none_head. cbn [jstrip] in *.
  destruct (skip_jw l) as [|x l'] eqn:E; [congruence|]. destruct (N.eqb x t) eqn:Et; [|congruence].
  pose proof (skip_jw_le l') as H1. pose proof (skip_jw_le l) as H2. rewrite E in H2.
  assert (Hl : len l = S (len (skip_jw l'))) by (rewrite <- H at 1; reflexivity).
  cbn [List.length] in H2. transitivity (x :: skip_jw l'); [f_equal|exact H]. symmetry.
  unfold skip_jw in *. rewrite skipn_length in *. pose proof (run_length_le json_ws l').
  destruct l' as [|y l']; [reflexivity|]. replace (run_length json_ws (y :: l')) with 0; [reflexivity|].
  cbn [List.length] in *. lia.
Qed.
Lemma jstrip_behind t l : jstrip (Some t) (t :: l) = t :: l -> json_ws t = false -> run_length json_ws l = 0.
Proof.
  intros H Ht. cbn [jstrip] in H. rewrite skip_jw_head in H by exact Ht. rewrite N.eqb_refl in H.
  injection H as H. apply jstrip_none_head. exact H.
Qed.
Lemma run_length_0_app p l m : run_length p (l ++ m) = 0 -> run_length p l = 0.
Proof. destruct l as [|x l]; [reflexivity|]. cbn. destruct (p x); [discriminate|reflexivity]. Qed.

Lemma after_ws_0 {A} (f : jop A) l : run_length json_ws l = 0 -> after_ws f l = jat 0 f l.
Proof. intros H. unfold after_ws. rewrite H. reflexivity. Qed.
Lemma jat_0 {A} (f : jop A) l : jat 0 f l = f l.
Proof. unfold jat. cbn [skipn Nat.add]. destruct (f l) as [[v|[e o]] a]; reflexivity. Qed.
Lemma jat_err {A} n (f : jop A) l e a : jat n f l = (Err e, a) -> exists e' b, f (skipn n l) = (Err e', b) /\ a = n + b.
Proof. unfold jat. destruct (f (skipn n l)) as [[v'|[e' o]] b]; [discriminate|]. intros [= <- <-]. eauto. Qed.

Lemma stale_dead_inert {A} token (f : jop A) : inert f -> stale_dead false token f.
Proof.
  intros Hi l m r0 a0 _ E H. left. destruct r0 as [v|e]; [destruct H; discriminate|]. eapply Hi; eauto.
Qed.
Lemma stale_dead_ws {A} token (g : jop A) : inert g -> stale_dead false token (after_ws g).
Proof.
  intros Hi l m r0 a0 Hs E H. left. destruct r0 as [v|e]; [destruct H; discriminate|].
  apply jstrip_head in Hs. rewrite after_ws_0 in E by (eapply run_length_0_app; eauto).
  rewrite jat_0 in E. eapply Hi; eauto.
Qed.
Definition next_head {A} (t : json_type) (ok : byte -> bool) (f : byte -> jop A) : jop A := fun l =>
  match l with [] => jfail EofWhileParsingValue | x :: _ => if ok x then f x l else (wrong_type t x l, 0) end.
Lemma next_head_inert {A} t ok (f : byte -> jop A) : (forall x, inert (f x)) -> inert (next_head t ok f).
Proof.
  intros Hf [|x l] e a H; cbn in H; [injection H as _ <-; reflexivity|]. destruct (ok x); [eapply Hf; exact H|]. injection H as _ <-. reflexivity.
Qed.
Lemma peek_dead : stale_dead false None j_peek.
Proof. apply stale_dead_ws. intros [|x l] e a H; [injection H as _ <-; reflexivity|discriminate]. Qed.

Lemma dead_all {A} (f : jop A) l : eof_result (f []) -> dead f l (len l).
Proof.
  intros (e & o & a & E & H). right. exists (e, o), a. rewrite skipn_all. split; [exact E|].
  destruct e as [[]| | |]; try discriminate; reflexivity.
Qed.
Lemma dead_beyond {A} (f : jop A) l n : eof_result (f []) -> len l <= n -> dead f l n.
Proof.
  intros (e & o & a & E & H) Hn. right. exists (e, o), a. rewrite skipn_all2 by exact Hn. split; [exact E|].
  destruct e as [[]| | |]; try discriminate; reflexivity.
Qed.

(** Behind an opening bracket: fails only if nothing but white space is there. *)
Lemma first_behind_err l e a :
  jat 1 (after_ws (fun l : bytes => match l with
    | [] => jfail EofWhileParsingList
    | x :: _ => if N.eqb x RBRACK then jok (None : option byte) 1 else jok (Some x) 0
    end)) l = (Err e, a) -> len l <= a.
Proof.
  intros H. apply jat_err in H as (e' & b & H & ->). unfold after_ws in H. apply jat_err in H as (e2 & b2 & H & ->).
  pose proof (skipn_length (run_length json_ws (skipn 1 l)) (skipn 1 l)) as HL. rewrite (skipn_length 1 l) in HL.
  destruct (skipn (run_length json_ws (skipn 1 l)) (skipn 1 l)) as [|x l']; [cbn [List.length] in HL; lia|].
  destruct (N.eqb x RBRACK); discriminate.
Qed.
Lemma known_array_dead : stale_dead false (Some LBRACK) j_known_array.
Proof.
  intros l m r0 a0 _ E H. destruct r0 as [v|e]; [destruct H; discriminate|].
  apply dead_beyond; [apply jat1_nil, after_ws_nil, eof_fail; reflexivity|]. apply first_behind_err in E. exact E.
Qed.
Lemma next_array_dead : stale_dead false (Some LBRACK) j_next_array.
Proof.
  intros l m r0 a0 Hs E H. destruct r0 as [v|e]; [destruct H; discriminate|].
  apply jstrip_head in Hs. unfold j_next_array, next_as in E. rewrite after_ws_0 in E by (eapply run_length_0_app; eauto).
  rewrite jat_0 in E. destruct l as [|x l]; [left; injection E as _ <-; reflexivity|].
  destruct (N.eqb LBRACK x).
  - apply dead_beyond; [apply after_ws_nil, eof_fail; reflexivity|]. apply first_behind_err in E. exact E.
  - left. injection E as _ <-. reflexivity.
Qed.
Lemma next_number_dead : stale_dead true None j_next_number_bytes.
Proof.
  intros l m r0 a0 Hs E H. apply jstrip_head in Hs. destruct r0 as [v|e].
  - destruct H as [_ ->]. apply dead_all. apply after_ws_nil, eof_fail. reflexivity.
  - left. unfold j_next_number_bytes, next_as in E. rewrite after_ws_0 in E by (eapply run_length_0_app; eauto).
    rewrite jat_0 in E. eapply (next_head_inert TFloat is_num (fun _ => j_number)); [intros; apply number_inert|exact E].
Qed.

(** Separators: fails only at the end, if all is well with the whole input. *)
Lemma array_step_dead : stale_dead_if_ok (Some COMMA) j_array_step.
Proof.
  intros l m v a er a0 Hs Hok E. pose proof (jstrip_head _ _ Hs) as Hh.
  unfold j_array_step in E, Hok. rewrite after_ws_0 in E by (eapply run_length_0_app; eauto). rewrite after_ws_0 in Hok by exact Hh.
  rewrite jat_0 in E, Hok. destruct l as [|x l]; [left; injection E as _ <-; reflexivity|]. cbn [app] in *.
  destruct (N.eqb_spec x COMMA) as [->|Hx]; [|destruct (N.eqb x RBRACK); [discriminate|discriminate]].
  apply dead_beyond; [apply after_ws_nil, eof_fail; reflexivity|].
  apply jat_err in E as (e' & b & E & ->). cbn [skipn] in E. apply jat_ok in Hok as (b' & Hok & _). cbn [skipn] in Hok.
  destruct (array_peek_stable l m) as [(e2 & o & a2 & E2 & _)|[(Habs & _)|E2]]; [|discriminate|congruence].
  unfold array_peek, after_ws in E. apply jat_err in E as (e3 & b3 & E & ->).
  pose proof (skipn_length (run_length json_ws l) l) as HL.
  destruct (skipn (run_length json_ws l) l) as [|y l'] eqn:El; [cbn [List.length] in *; lia|].
  exfalso. unfold array_peek, after_ws in Hok.
  assert (Hr : run_length json_ws l < List.length l) by (pose proof (run_length_le json_ws l); cbn [List.length] in HL; unfold bytes, byte in *; lia).
  rewrite run_length_app_lt in Hok by exact Hr. apply jat_ok in Hok as (b4 & Hok & _).
  rewrite skipn_app_le in Hok by lia. rewrite El in Hok. cbn [app] in Hok.
  destruct (N.eqb y RBRACK); discriminate.
Qed.

Lemma object_key_err D l e a : inert D -> bounded D -> object_key D l = (Err e, a) -> a = 0 \/ len l <= a \/
  (exists m, exists k b, D l = (Ok k, b) /\ skipn (run_length json_ws (skipn b l)) (skipn b l) = m /\ match m with x :: _ => x <> COLON | [] => False end).
Proof.
  intros Hi Hb H. unfold object_key in H. destruct (D l) as [[k|e'] b] eqn:ED.
  - right. unfold after_ws in H. apply jat_err in H as (e1 & b1 & H & ->). apply jat_err in H as (e2 & b2 & H & ->).
    apply Hb in ED as Hle.
    pose proof (skipn_length (run_length json_ws (skipn b l)) (skipn b l)) as HL. rewrite (skipn_length b l) in HL.
    destruct (skipn (run_length json_ws (skipn b l)) (skipn b l)) as [|x l'] eqn:E; [left; cbn [List.length] in HL; lia|].
    right. exists (x :: l'), k, b. repeat split; auto. destruct (N.eqb_spec x COLON); [discriminate|assumption].
  - left. injection H as _ <-. reflexivity.
Qed.
Lemma next_key_dead D : stable false D -> bounded D -> inert D -> stale_dead_if_ok (Some COMMA) (j_next_key D).
Proof.
  intros HD HB Hi l m v a er a0 Hs Hok E. pose proof (jstrip_head _ _ Hs) as Hh.
  assert (Hstab := next_key_stable D HD HB l m).
  destruct Hstab as [Heof|[(Habs & _)|Heq]]; [|discriminate|congruence].
  unfold j_next_key in E, Hok, Heof. rewrite after_ws_0 in E, Heof by (eapply run_length_0_app; eauto).
  rewrite after_ws_0 in Hok by exact Hh.
  rewrite jat_0 in E, Hok, Heof. destruct l as [|x l]; [left; injection E as _ <-; reflexivity|]. cbn [app] in *.
  destruct (N.eqb_spec x COMMA) as [->|Hx].
  2:{ destruct (N.eqb x RBRACE); discriminate. }
  assert (Hl0 : run_length json_ws l = 0).
  { apply jstrip_behind in Hs; [|reflexivity]. eapply run_length_0_app; eauto. }
  assert (Hlm0 : run_length json_ws (l ++ m) = 0) by (apply jstrip_behind in Hs; [exact Hs|reflexivity]).
  apply jat_err in E as (e' & b & E & ->). cbn [skipn] in E. rewrite after_ws_0, jat_0 in E by exact Hl0.
  destruct l as [|y l].
  { injection E as _ <-. apply dead_beyond; [apply after_ws_nil, eof_fail; reflexivity|]. cbn. lia. }
  destruct (N.eqb_spec y QUOTE) as [->|Hy].
  - destruct (object_key_err D _ _ _ Hi HB E) as [->|[Hge|(k & kk & bb & ED & Em & Hm)]].
    + right. cbn [Nat.add skipn]. exists (JsonError ExpectedObjectCommaOrEnd, 0), 0. split; reflexivity.
    + apply dead_beyond; [apply after_ws_nil, eof_fail; reflexivity|]. cbn [List.length] in *. lia.
    + (* key, then no colon: an error for the whole input as well *)
      exfalso. destruct k as [|c k]; [exact Hm|].
      apply jat_ok in Hok as (b2 & Hok & _). cbn [skipn app] in Hok.
      rewrite after_ws_0, jat_0 in Hok by exact Hlm0. cbn [app] in Hok. rewrite N.eqb_refl in Hok.
      unfold object_key in Hok. change (QUOTE :: l ++ m) with ((QUOTE :: l) ++ m) in Hok.
      destruct (HD (QUOTE :: l) m) as [(e2 & o & a2 & E2 & _)|[(Habs & _)|E2]]; [congruence|discriminate|].
      rewrite E2, ED in Hok. apply jat_ok in Hok as (b3 & Hok & _). unfold after_ws in Hok.
      apply HB in ED as Hle. rewrite skipn_app_le in Hok by exact Hle.
      assert (Hlt : run_length json_ws (skipn bb (QUOTE :: l)) < List.length (skipn bb (QUOTE :: l))).
      { pose proof (run_length_le json_ws (skipn bb (QUOTE :: l))).
        destruct (Nat.eq_dec (run_length json_ws (skipn bb (QUOTE :: l))) (List.length (skipn bb (QUOTE :: l)))) as [Heq|]; [|lia].
        rewrite Heq, skipn_all in Em. discriminate. }
      rewrite run_length_app_lt in Hok by exact Hlt. apply jat_ok in Hok as (b4 & Hok & _).
      rewrite skipn_app_le in Hok by lia. rewrite Em in Hok. cbn [app] in Hok.
      destruct (N.eqb_spec c COLON); [contradiction|discriminate].
  - (* neither quote: fails on the whole input *)
    exfalso. apply jat_ok in Hok as (b2 & Hok & _). cbn [skipn app] in Hok.
    rewrite after_ws_0, jat_0 in Hok by exact Hlm0. cbn [app] in Hok.
    destruct (N.eqb_spec y QUOTE); [contradiction|]. destruct (N.eqb y RBRACE); discriminate.
Qed.

(** ** Facts about every method *)
Definition eager_of (k : kind) : bool := match k with Number | Whole => true | _ => false end.
Record facts {A} (k : kind) (known : bool) (token : option byte) (f : jop A)
  (op : rj -> outcome (rj * result A rerror)) : Prop := mkFacts {
  f_op : op = loop_until_success f token (eager_of k);
  f_weak : weakly_stable (eager_of k) f;
  f_bounded : bounded f;
  f_empty : no_empty f;
  f_local : local f;
  f_blind : blind known token f;
  f_dead : match k with
           | Plain | Number => stale_dead (eager_of k) token f
           | Separator => stale_dead_if_ok token f
           | ObjectOpen => True
           | Whole => stale_dead_if_ok token f /\ eof_result (f [])
           end }.

Lemma known_bool_weakly x : weakly_stable false (j_known_bool x).
Proof.
  destruct (N.eqb x 116 || N.eqb x 102)%bool eqn:E; [apply stable_weakly, known_bool_stable; exact E|].
  apply orb_false_iff in E as [E1 E2].
  intros l m. right. right. right. unfold j_known_bool. rewrite E1, E2.
  destruct (@wrong_type_err bool TBool x l) as [e ->], (@wrong_type_err bool TBool x (l ++ m)) as [e' ->].
  split; do 2 eexists; reflexivity.
Qed.
Lemma known_bool_empty x : no_empty (j_known_bool x).
Proof.
  unfold no_empty, j_known_bool. destruct (N.eqb x 116); [do 2 eexists; reflexivity|].
  destruct (N.eqb x 102); [do 2 eexists; reflexivity|]. destruct (@wrong_type_err bool TBool x []) as [e ->]. eauto.
Qed.
Lemma next_as_dead {A} token t ok (f : byte -> jop A) : (forall x, inert (f x)) -> stale_dead false token (next_as t ok f).
Proof. intros H. apply (stale_dead_ws token (next_head t ok f)). apply next_head_inert. exact H. Qed.

Lemma look_dead {A} (g : byte -> jop A) : (forall p, inert (g p)) -> stale_dead true None (jthen j_peek g).
Proof.
  intros Hi l m r0 a0 Hs E H. apply jstrip_head in Hs. destruct r0 as [v|e].
  - destruct H as [_ ->]. apply dead_all. rewrite look_empty. apply eof_fail. reflexivity.
  - left. rewrite look_head in E by (eapply run_length_0_app; eauto). destruct l as [|x l]; [injection E as _ <-; reflexivity|].
    eapply Hi; eauto.
Qed.
Lemma look_blind {A} known (g : byte -> jop A) : blind known None (jthen j_peek g).
Proof.
  intros l v m H. set (h := fun l : bytes => match l with [] => jfail EofWhileParsingValue | x :: _ => g x l end).
  assert (P : forall l, parsed (jthen j_peek g) l v m <-> parsed (after_ws h) l v m) by (intros k; unfold parsed, h; rewrite look_eq; reflexivity).
  rewrite !P. apply (blind_ws known). exact H.
Qed.
Lemma eof_can_retry e : eof_kind e = true -> can_retry e = true.
Proof. destruct e as [[]| | |]; try discriminate; reflexivity. Qed.
Lemma again_dead {A} (f : jop A) : stable true f -> (forall l e o a, run_length json_ws l = 0 -> f l = (Err (e, o), a) -> eof_kind e = true -> eof_result (f (skipn a l))) ->
  stale_dead_if_ok None f.
Proof.
  intros Hs Ha l m v a er a0 Hst Hok E. apply jstrip_head in Hst. destruct (Hs l m) as [(e & o & b & E' & He)|[(_ & v' & E')|E']]; [|congruence|congruence].
  rewrite E in E'. injection E' as -> ->. right.
  destruct (Ha _ _ _ _ (run_length_0_app _ _ _ Hst) E He) as (e1 & o1 & a1 & E1 & H1). exists (e1, o1), a1. split; [exact E1|].
  apply eof_can_retry. exact H1.
Qed.

Lemma method_facts {A} k known token (f : jop A) op : method k known token f op -> facts k known token f op.
Proof.
  assert (Hb : stable false j_known_bytes /\ bounded j_known_bytes) by (split; [apply known_bytes_stable|apply known_bytes_bounded]).
  assert (Hs : stable false j_known_str /\ bounded j_known_str) by (split; [apply known_str_stable|apply known_str_bounded]).
  destruct Hb as [Hb1 Hb2], Hs as [Hs1 Hs2].
  intros [].
  - split; try reflexivity; [apply stable_weakly, peek_stable|apply peek_bounded|do 2 eexists; reflexivity|apply peek_local|apply blind_ws|apply peek_dead].
  - split; try reflexivity; [apply stable_weakly, known_array_stable|apply known_array_bounded|do 2 eexists; reflexivity|apply known_array_local|apply blind_known_token|apply known_array_dead].
  - split; try reflexivity; [apply known_bool_weakly|apply known_bool_bounded|apply known_bool_empty|apply known_bool_local|apply blind_known|apply stale_dead_inert, known_bool_inert].
  - split; try reflexivity; [apply stable_weakly, known_bytes_stable|apply known_bytes_bounded|do 2 eexists; reflexivity|apply known_bytes_local|apply blind_known|apply stale_dead_inert, known_bytes_inert].
  - split; try reflexivity; [apply stable_weakly, ident_stable; discriminate|apply ident_bounded; discriminate|do 2 eexists; reflexivity|apply ident_local|apply blind_known|apply stale_dead_inert, ident_inert].
  - split; try reflexivity; [apply stable_weakly, known_object_stable; assumption|apply known_object_bounded; assumption|do 2 eexists; reflexivity|apply known_object_local, known_str_local|apply blind_known_token].
  - split; try reflexivity; [apply stable_weakly, known_str_stable|apply known_str_bounded|do 2 eexists; reflexivity|apply known_str_local|apply blind_known|apply stale_dead_inert, known_str_inert].
  - split; try reflexivity; [apply next_array_stable|apply next_array_bounded|do 2 eexists; reflexivity|apply next_as_local; intros; apply known_array_local|eapply blind_token; [reflexivity|reflexivity]|apply next_array_dead].
  - split; try reflexivity; [apply stable_weakly, array_step_stable|apply array_step_bounded|do 2 eexists; reflexivity|apply array_step_local|eapply blind_token; [reflexivity|reflexivity]|apply array_step_dead].
  - split; try reflexivity; [apply next_bool_stable|apply next_bool_bounded|do 2 eexists; reflexivity|apply next_as_local; intros; apply known_bool_local|apply blind_ws|apply next_as_dead; apply known_bool_inert].
  - split; try reflexivity; [apply next_bytes_stable|apply next_bytes_bounded|do 2 eexists; reflexivity|apply next_as_local; intros; apply known_bytes_local|apply blind_ws|apply next_as_dead; intros; apply known_bytes_inert].
  - split; try reflexivity; [apply next_float_weak|apply next_float_bounded|do 2 eexists; reflexivity|apply next_float_local|apply look_blind|apply look_dead; intros; apply known_num_inert, decode_float_inert].
  - split; try reflexivity; [apply next_int_weak|apply next_int_bounded|do 2 eexists; reflexivity|apply next_int_local|apply look_blind|apply look_dead; intros; apply known_num_inert, decode_int_inert].
  - split; try reflexivity; [apply stable_weakly, next_key_stable; assumption|apply next_key_bounded; assumption|do 2 eexists; reflexivity|apply next_key_local, known_str_local|eapply blind_token; [reflexivity|reflexivity]|apply next_key_dead; auto using known_str_inert].
  - split; try reflexivity; [apply stable_weakly, next_key_stable; assumption|apply next_key_bounded; assumption|do 2 eexists; reflexivity|apply next_key_local, known_bytes_local|eapply blind_token; [reflexivity|reflexivity]|apply next_key_dead; auto using known_bytes_inert].
  - split; try reflexivity; [apply next_null_stable|apply next_null_bounded|do 2 eexists; reflexivity|apply next_as_local; intros; apply ident_local|apply blind_ws|apply next_as_dead; intros; apply ident_inert].
  - split; try reflexivity; [apply next_any_weak|apply next_any_bounded|do 2 eexists; reflexivity|apply next_any_local|apply look_blind|apply look_dead; intros; apply known_num_inert, decode_any_inert].
  - split; try reflexivity; [apply next_number_stable|apply next_number_bounded|do 2 eexists; reflexivity|apply next_as_local; intros; apply number_local|apply blind_ws|apply next_number_dead].
  - split; try reflexivity; [apply next_object_stable; assumption|apply next_object_bounded; assumption|do 2 eexists; reflexivity|apply next_as_local; intros; apply known_object_local, known_str_local|eapply blind_token; [reflexivity|reflexivity]].
  - split; try reflexivity; [apply next_object_stable; assumption|apply next_object_bounded; assumption|do 2 eexists; reflexivity|apply next_as_local; intros; apply known_object_local, known_bytes_local|eapply blind_token; [reflexivity|reflexivity]].
  - split; try reflexivity; [apply next_skip_weak|apply next_skip_bounded|do 2 eexists; reflexivity|apply next_skip_local|apply look_blind|].
    split; [apply again_dead; [apply look_stable, known_skip_ext|apply next_skip_again]|apply eof_fail; reflexivity].
  - split; try reflexivity; [apply next_str_stable|apply next_str_bounded|do 2 eexists; reflexivity|apply next_as_local; intros; apply known_str_local|apply blind_ws|apply next_as_dead; intros; apply known_str_inert].
  - split; try reflexivity; [apply next_value_weak|apply next_value_bounded|do 2 eexists; reflexivity|apply next_value_local|apply look_blind|].
    split; [apply again_dead; [apply look_stable, known_value_ext|apply next_value_again]|apply eof_fail; reflexivity].
  - split; try reflexivity; [apply next_value_weak|apply next_value_bounded|do 2 eexists; reflexivity|apply next_value_local|apply look_blind|].
    split; [apply again_dead; [apply look_stable, known_value_ext|apply next_value_again]|apply eof_fail; reflexivity].
Qed.

(** ** Completeness *)
Lemma op_complete {A} k known token (f : jop A) op s v l' :
  method k known token f op ->
  valid s -> 2 <= rcap s -> rquiet s = true ->
  on_token known (rest s) -> no_form_feed token (rest s) ->
  parsed f (rest s) v l' ->
  len (strip token (rest s)) < rcap s + len l' ->
  match k with
  | Plain | Separator => True
  | Number | Whole => 0 < jidx s \/ l' <> [] \/ n_bytes (bf s) = 0
  | ObjectOpen => 0 < jidx s
  end ->
  exists s', op s = Done (s', Ok v) /\ valid s' /\ rest s' = l' /\ total s' = total s /\ rcap s' = rcap s /\ rquiet s' = true.
Proof.
  intros M V Hc Hq Hon Hff Hp Hfit Hk. apply method_facts in M as [-> Hw Hb He Hl Hbl Hd].
  destruct (loop_spec f token (eager_of k) s Hw Hb He V Hc) as (s' & r & E & P). rewrite E.
  set (R := rest s) in *. set (S := strip token R) in *.
  assert (HpS : parsed f S v l').
  { unfold S. rewrite Hff. apply Hbl; assumption. }
  destruct HpS as (a' & HfS & Hl').
  assert (Ha' : a' < rcap s).
  { pose proof (Hb _ _ _ HfS). rewrite Hl', skipn_length in Hfit. lia. }
  assert (Hcut : rcap s < len S -> f (firstn (rcap s) S) = (Ok v, a')).
  { intros Hlt. apply (Hl (firstn (rcap s) S) (skipn (rcap s) S)); [rewrite firstn_skipn; exact HfS|].
    rewrite firstn_length_le' by lia. exact Ha'. }
  assert (Hview : strip token R = R -> jidx s = 0 -> jstrip token (jview s ++ src (rd (bf s))) = jview s ++ src (rd (bf s))).
  { intros H1 H2. rewrite <- jview_split by exact V. fold R. rewrite <- Hff. exact H1. }
  assert (Hnostale : jidx s = 0 -> strip token R = R -> forall r0 a0, f (jview s) = (r0, a0) -> 0 < a0 ->
      match r0 with Ok _ => eager_of k = true /\ a0 = len (jview s) | Err _ => True end ->
      exists er a1, f (skipn a0 (jview s)) = (Err er, a1) /\ can_retry (fst er) = true).
  { intros Hz HR r0 a0 E0 Ha0 Hr0.
    assert (Hdd : dead f (jview s) a0).
    { destruct k.
      - eapply Hd; eauto.
      - destruct r0 as [v0|e0]; [destruct Hr0; discriminate|].
        destruct Hp as (a & Hp & _). unfold R in Hp. rewrite (jview_split s V) in Hp. eapply Hd; eauto.
      - lia.
      - eapply Hd; eauto.
      - destruct Hd as [Hd Hd0]. destruct r0 as [v0|e0]; [destruct Hr0 as [_ ->]; apply dead_all; exact Hd0|].
        destruct Hp as (a & Hp & _). unfold R in Hp. rewrite (jview_split s V) in Hp. eapply Hd; eauto. }
    destruct Hdd as [?|Hdd]; [lia|exact Hdd]. }
  unfold op_post in P. fold R in P. fold S in P. destruct r as [v'|e].
  - destruct P as (V' & C' & Q' & T' & P).
    assert (HH : v' = v /\ rest s' = l').
    { destruct P as [P|[P|[(He1 & Hlt & Hf & _)|(Hz & HR & r0 & a0 & a1 & E0 & Ha0 & Hr0 & E1 & _)]]].
      - eapply parsed_fun; eauto.
      - eapply parsed_fun; [exact P|]. exists a'. auto.
      - rewrite (Hcut Hlt) in Hf. injection Hf as _ Hf. lia.
      - destruct (Hnostale Hz HR r0 a0 E0 Ha0 Hr0) as (er & a2 & E2 & _). congruence. }
    destruct HH as [-> Hrest]. exists s'. repeat split; auto; apply V'.
  - exfalso. destruct P as [(_ & P)|[(er & a & P & _)|[(Hlt & er & a & P & _)|(Hz & HR & r0 & a0 & er & a1 & E0 & Ha0 & Hr0 & E1 & P)]]].
    + congruence.
    + congruence.
    + rewrite (Hcut Hlt) in P. discriminate.
    + destruct (Hnostale Hz HR r0 a0 E0 Ha0 Hr0) as (er2 & a2 & E2 & Hre). rewrite E1 in E2. injection E2 as <- <-.
      destruct P as [P|[P|P]]; [congruence| |].
      * pose proof (jview_length s V) as Hlj. pose proof (jview_split s V) as Hsp. rewrite P, app_nil_r in Hsp. rewrite <- Hsp in *. fold R in E0, Hr0, Hlj.
        destruct Hp as (a & Hp & Hla). rewrite E0 in Hp. injection Hp as -> ->.
        destruct Hr0 as [Hek Hr0].
        assert (Hk' : 0 < jidx s \/ l' <> [] \/ n_bytes (bf s) = 0) by (destruct k; try discriminate; exact Hk).
        destruct Hk' as [Hk'|[Hk'|Hk']]; [lia| |].
        -- apply Hk'. rewrite Hla, Hr0, skipn_all. reflexivity.
        -- lia.
      * assert (Hv : jview s = firstn (rcap s) S).
        { rewrite jview_rest by exact V. fold R. rewrite Hz, Nat.sub_0_r, P. f_equal. symmetry. exact HR. }
        assert (Hlv : len (jview s) = rcap s) by (rewrite jview_length by exact V; lia).
        assert (HfV : f (jview s) = (Ok v, a')).
        { rewrite Hv. apply (Hl (firstn (rcap s) S) (skipn (rcap s) S)); [rewrite firstn_skipn; exact HfS|].
          rewrite <- Hv, Hlv. exact Ha'. }
        rewrite HfV in E0. injection E0 as <- <-. destruct Hr0 as [_ Hr0]. lia.
Qed.

(** A token that is completely in the buffer is always found at once. *)
Lemma op_buffered {A} k known token (f : jop A) op s v a :
  method k known token f op -> valid s ->
  f (jview s) = (Ok v, a) -> (k = Number \/ k = Whole -> a < len (jview s)) ->
  op s = Done (mkRj (bf s) (jlen s) (jidx s + a), Ok v) /\ valid (mkRj (bf s) (jlen s) (jidx s + a)) /\
  rest (mkRj (bf s) (jlen s) (jidx s + a)) = skipn a (rest s).
Proof.
  intros M V E Hk. apply method_facts in M as [-> Hw Hb He Hl Hbl Hd].
  pose proof (Hb _ _ _ E) as Ha. rewrite jview_length in Ha by exact V. pose proof V as (W & HL & HI).
  split; [|split].
  - unfold loop_until_success, jcall. rewrite E.
    replace (really_ok (eager_of k) _) with true; [reflexivity|].
    unfold really_ok. cbn [jidx bf]. symmetry. rewrite jview_length in Hk by exact V.
    destruct k; try reflexivity; cbn [eager_of negb orb]; apply Nat.ltb_lt; [specialize (Hk (or_introl eq_refl))|specialize (Hk (or_intror eq_refl))]; lia.
  - unfold valid. cbn [bf jlen jidx]. repeat split; auto. lia.
  - unfold rest. cbn [bf jidx]. rewrite skipn_skipn. reflexivity.
Qed.

(** ** Soundness *)
Definition numeric (n : nat) (l : bytes) : Prop := forall x, In x (firstn n l) -> number_char x = true.
Lemma numeric_add a b l : numeric a l -> numeric b (skipn a l) -> numeric (a + b) l.
Proof.
  intros Ha Hb x Hx. rewrite <- (firstn_skipn a l) in Hx. rewrite firstn_app in Hx. apply in_app_or in Hx as [Hx|Hx].
  - rewrite firstn_firstn in Hx. replace (Nat.min (a + b) a) with a in Hx by lia. auto.
  - rewrite firstn_length in Hx. destruct (Nat.le_gt_cases a (len l)) as [H|H].
    + replace (a + b - Nat.min a (List.length l)) with b in Hx by (unfold bytes, byte in *; lia). auto.
    + rewrite skipn_all2, firstn_nil in Hx by lia. destruct Hx.
Qed.
Lemma numeric_1 x l : number_char x = true -> numeric 1 (x :: l).
Proof. intros H y [<-|[]]. exact H. Qed.
Lemma numeric_0 l : numeric 0 l. Proof. intros x []. Qed.
Lemma numeric_digits l : numeric (digits l) l.
Proof.
  induction l as [|z l IH]; intros x Hx; unfold digits in *; cbn [run_length] in Hx; [destruct Hx|].
  destruct (is_digit z) eqn:Ez; [|destruct Hx]. destruct Hx as [<-|Hx]; [unfold number_char; rewrite Ez; reflexivity|auto].
Qed.
Lemma digit_number x : is_digit x = true -> number_char x = true.
Proof. intros H. unfold number_char. rewrite H. reflexivity. Qed.
Lemma exp_number x : is_exp x = true -> number_char x = true.
Proof. unfold is_exp, number_char. rewrite orb_true_iff. intros [H|H]; rewrite H, ?orb_true_r; reflexivity. Qed.
Lemma exponent_numeric l n : num_exponent l = Ok n -> numeric n l.
Proof.
  intros H. unfold num_exponent in H. destruct l as [|y l]; [discriminate|].
  destruct (N.eqb y 43 || N.eqb y 45)%bool eqn:Ey; cbn [skipn] in H.
  - destruct l as [|z l]; [discriminate|]. destruct (is_digit z) eqn:Ez; [|discriminate]. injection H as <-.
    apply (numeric_add 1); [|apply numeric_digits]. apply numeric_1.
    unfold number_char. apply orb_true_iff in Ey as [Ey|Ey]; rewrite Ey, ?orb_true_r; reflexivity.
  - destruct (is_digit y) eqn:Ez; [|discriminate]. injection H as <-. apply numeric_digits.
Qed.
Lemma decimal_numeric l n : num_decimal l = Ok n -> numeric n l.
Proof.
  intros H. unfold num_decimal in H. destruct l as [|x l]; [discriminate|].
  destruct (is_digit x) eqn:Ex; [|discriminate].
  destruct (skipn (digits (x :: l)) (x :: l)) as [|y l'] eqn:E.
  - injection H as <-. apply numeric_digits.
  - destruct (is_exp y) eqn:Ey; [|injection H as <-; apply numeric_digits].
    apply add_off_ok in H as (j & H & ->). replace (S (digits (x :: l)) + j) with (digits (x :: l) + (1 + j)) by lia.
    apply numeric_add; [apply numeric_digits|]. rewrite E. apply numeric_add; [apply numeric_1, exp_number, Ey|].
    apply exponent_numeric. exact H.
Qed.
Lemma tail_numeric l n : num_tail l = Ok n -> numeric n l.
Proof.
  intros H. destruct l as [|x l]; cbn [num_tail] in H; [injection H as <-; apply numeric_0|].
  destruct (N.eqb x 46) eqn:Ex.
  - apply add_off_ok in H as (j & H & ->). apply numeric_add; [|apply decimal_numeric; exact H].
    apply numeric_1. unfold number_char. rewrite Ex, ?orb_true_r. reflexivity.
  - destruct (is_exp x) eqn:Ee; [|injection H as <-; apply numeric_0].
    apply add_off_ok in H as (j & H & ->). apply numeric_add; [apply numeric_1, exp_number, Ee|apply exponent_numeric; exact H].
Qed.
Lemma unsigned_numeric l n : num_unsigned l = Ok n -> numeric n l.
Proof.
  intros H. destruct l as [|x l]; cbn [num_unsigned] in H; [discriminate|].
  destruct (N.eqb_spec x 48) as [->|Hx].
  - destruct l as [|y l]; [injection H as <-; apply numeric_1; reflexivity|].
    destruct (is_digit y); [discriminate|]. apply add_off_ok in H as (j & H & ->).
    apply numeric_add; [apply numeric_1; reflexivity|apply tail_numeric; exact H].
  - destruct (is_digit x) eqn:Ed; [|discriminate].
    apply add_off_ok in H as (j & H & ->). apply numeric_add; [apply numeric_digits|apply tail_numeric; exact H].
Qed.
Lemma range_numeric l n : num_range l = Ok n -> numeric n l.
Proof.
  intros H. destruct l as [|x l]; cbn [num_range] in H; [discriminate|].
  destruct (N.eqb_spec x 45) as [->|Hx]; [|destruct (is_inf_nan x); [discriminate|]; apply unsigned_numeric; exact H].
  apply add_off_ok in H as (j & H & ->). apply numeric_add; [apply numeric_1; reflexivity|apply unsigned_numeric; exact H].
Qed.
Lemma numeric_run n l : numeric n l -> n <= len l -> n <= run_length number_char l.
Proof.
  revert n. induction l as [|x l IH]; intros n H Hn; cbn [List.length] in Hn; [lia|]. destruct n; [lia|].
  cbn [run_length]. rewrite H by (left; reflexivity).
  assert (n <= run_length number_char l); [|lia]. apply IH; [|lia]. intros y Hy. apply H. right. exact Hy.
Qed.
Lemma run_length_firstn p n l : run_length p (firstn n l) <= run_length p l.
Proof.
  revert n. induction l as [|x l IH]; intros [|n]; cbn [firstn run_length]; try lia. destruct (p x); [|lia]. specialize (IH n). lia.
Qed.
Lemma next_number_numeric l v n : j_next_number_bytes l = (Ok v, n) -> run_length json_ws l = 0 -> n <= run_length number_char l.
Proof.
  intros H H0. unfold j_next_number_bytes, next_as in H. rewrite after_ws_0, jat_0 in H by exact H0.
  destruct l as [|x l]; [discriminate|]. destruct (is_num x).
  - unfold j_number in H. destruct (num_range (x :: l)) as [k|[? ?]] eqn:E; [|discriminate]. injection H as _ <-.
    apply numeric_run; [apply range_numeric; exact E|eapply range_bounded; exact E].
  - destruct (@wrong_type_err bytes TFloat x (x :: l)) as [e He]. rewrite He in H. discriminate.
Qed.

Lemma range_run l n : num_range l = Ok n -> n <= run_length number_char l.
Proof. intros E. apply numeric_run; [apply range_numeric; exact E|eapply range_bounded; exact E]. Qed.
Lemma next_number_definite : definite j_next_number_bytes.
Proof.
  intros l v n H H0. right. unfold j_next_number_bytes, next_as in H. rewrite after_ws_0, jat_0 in H by exact H0.
  destruct l as [|x l]; [discriminate|]. destruct (is_num x).
  - unfold j_number in H. destruct (num_range (x :: l)) as [k|[? ?]]; [|discriminate]. injection H as _ <-. reflexivity.
  - destruct (@wrong_type_err bytes TFloat x (x :: l)) as [e He]. rewrite He in H. discriminate.
Qed.
Definition number_like {A} (k : kind) (token : option byte) (f : jop A) : Prop :=
  eager_of k = true -> token = None /\ definite f.
Lemma method_number {A} k known token (f : jop A) op : method k known token f op -> number_like k token f.
Proof.
  intros [] H; try discriminate; (split; [reflexivity|]); auto using next_float_definite, next_int_definite, next_any_definite, next_number_definite,
    next_skip_definite, next_value_definite.
Qed.
(** An answer at the end of a full buffer is the right one, unless it is a number that does not fit. *)
Lemma number_cut {A} k known token (f : jop A) op s v : method k known token f op -> eager_of k = true -> no_form_feed token (rest s) ->
  f (firstn (rcap s) (strip token (rest s))) = (Ok v, rcap s) -> run_length number_char (skip_jw (rest s)) < rcap s ->
  f (strip token (rest s)) = (Ok v, rcap s).
Proof.
  intros M He Hff Hf Hnf. destruct (method_number _ _ _ _ _ M He) as [-> Hnum]. rewrite Hff in *. cbn [jstrip] in *.
  destruct (Hnum _ _ _ Hf) as [H|H].
  - unfold skip_jw. pose proof (run_length_skip json_ws (rest s)).
    destruct (skipn (run_length json_ws (rest s)) (rest s)) as [|x l]; [rewrite firstn_nil; reflexivity|].
    destruct (rcap s); [reflexivity|]. cbn [firstn run_length] in *. destruct (json_ws x); [discriminate|reflexivity].
  - rewrite <- (firstn_skipn (rcap s) (skip_jw (rest s))) at 1. apply H.
  - apply range_run in H. pose proof (run_length_firstn number_char (rcap s) (skip_jw (rest s))). lia.
Qed.

(** When no success can come from the second attempt without renewed view. *)
Definition renewed (k : kind) (s : rj) : Prop :=
  match k with Plain | Number => True | Separator | ObjectOpen | Whole => 0 < jidx s end.
Definition number_fits (k : kind) (s : rj) : Prop :=
  match k with Number | Whole => run_length number_char (skip_jw (rest s)) < rcap s | _ => True end.

Lemma op_sound {A} k known token (f : jop A) op s :
  method k known token f op ->
  valid s -> 2 <= rcap s -> on_token known (rest s) -> no_form_feed token (rest s) ->
  renewed k s -> number_fits k s ->
  exists s' r, op s = Done (s', r) /\
    match r with
    | Ok v => parsed f (rest s) v (rest s') /\
              valid s' /\ rcap s' = rcap s /\ total s' = total s /\ (rquiet s = true -> rquiet s' = true)
    | Err e => True
    end.
Proof.
  intros M V Hc Hon Hff Hrn Hnf. pose proof M as M'. apply method_facts in M' as [-> Hw Hb He Hl Hbl Hd].
  destruct (loop_spec f token (eager_of k) s Hw Hb He V Hc) as (s' & r & E & P). exists s', r. split; [exact E|].
  destruct r as [v|e]; [|exact I]. destruct P as (V' & C' & Q' & T' & P).
  split; [|auto].
  destruct P as [P|[P|[(He1 & Hlt & Hf & Hr)|(Hz & HR & r0 & a0 & a1 & E0 & Ha0 & Hr0 & E1 & _)]]].
  - exact P.
  - rewrite Hff in P. apply (proj1 (Hbl _ _ _ Hon) P).
  - assert (P : parsed f (strip token (rest s)) v (rest s')).
    { exists (rcap s). split; [|assumption]. eapply number_cut; eauto. destruct k; try discriminate; exact Hnf. }
    rewrite Hff in P. apply (proj1 (Hbl _ _ _ Hon) P).
  - exfalso. rewrite Hff in HR.
    assert (Hdd : dead f (jview s) a0).
    { destruct k; cbn in Hrn; try lia; eapply Hd; eauto; rewrite <- jview_split by exact V; exact HR. }
    destruct Hdd as [?|(er & a2 & E2 & _)]; [lia|congruence].
Qed.
