(** The scanner on two parsers and two working buffers that differ only in cells that nothing has been written to yet. *)
From Verif Require Import Base U8Pool Buffer Jiter RJiter Scan ScanSpec ScanStack Fresh.

Section Scanner.
Context {B : Type} (cb : callbacks B) (o : options) (d : dims).
Definition steady (a : action B) : Prop := forall r1 r2 u, peer r1 r2 -> both wpeer (a r1 u) (a r2 u).
Context (HA : forall name c u, match find_action cb name c u with (_, Some a) => steady a | _ => True end).

Inductive sib : sstate B -> sstate B -> Prop :=
| sib_at r1 r2 u p1 p2 es : peer r1 r2 -> stack_of d p1 es -> stack_of d p2 es -> sib (mkS r1 u p1) (mkS r2 u p2).
Definition spair {X} (x1 x2 : sstate B * X) : Prop := sib (fst x1) (fst x2) /\ snd x1 = snd x2.
Lemma spair_done {X} s1 s2 (v : X) : sib s1 s2 -> both spair (Done (s1, v)) (Done (s2, v)).
Proof. intros H. split; [exact H|reflexivity]. Qed.
Lemma spair_bind {X Y} (x1 x2 : sres B X) (f : sstate B -> X -> sres B Y) :
  both spair x1 x2 -> (forall s1 s2 v, sib s1 s2 -> both spair (f s1 v) (f s2 v)) -> both spair (sbind x1 f) (sbind x2 f).
Proof.
  destruct x1 as [[s1 r1]| |], x2 as [[s2 r2]| |]; cbn [both]; intros H G; try contradiction; try exact Logic.I.
  destruct H as [Hs E]. cbn [fst snd] in Hs, E. subst r2. destruct r1 as [v|er]; cbn [sbind]; [apply G; exact Hs|apply spair_done; exact Hs].
Qed.
Lemma vpair_bind {X} (x1 x2 : sres B X) (f : sstate B -> X -> sverdict B) :
  both spair x1 x2 -> (forall s1 s2 v, sib s1 s2 -> both spair (f s1 v) (f s2 v)) -> both spair (vbind x1 f) (vbind x2 f).
Proof.
  destruct x1 as [[s1 r1]| |], x2 as [[s2 r2]| |]; cbn [both]; intros H G; try contradiction; try exact Logic.I.
  destruct H as [Hs E]. cbn [fst snd] in Hs, E. subst r2. destruct r1 as [v|er]; cbn [vbind]; [apply G; exact Hs|apply spair_done; exact Hs].
Qed.
Lemma spair_do {X Y} (x1 x2 : outcome (sstate B * X)) (f : sstate B * X -> outcome (sstate B * Y)) :
  both spair x1 x2 -> (forall s1 s2 v, sib s1 s2 -> both spair (f (s1, v)) (f (s2, v))) -> both spair (obind x1 f) (obind x2 f).
Proof.
  intros H G. apply (both_bind spair); [exact H|]. intros [s1 v1] [s2 v2] [Hs E]. cbn [fst snd] in Hs, E. subst v2. apply G. exact Hs.
Qed.

Lemma spair_begin name s1 s2 : sib s1 s2 -> both spair (run_begin cb name s1) (run_begin cb name s2).
Proof.
  intros [r1 r2 u p1 p2 es H P1 P2]. unfold run_begin. cbn [stack user parser].
  rewrite (stack_context _ _ _ P1), (stack_context _ _ _ P2). cbn [obind].
  pose proof (HA name (mkCtx (path_of es) (List.length es)) u) as G.
  destruct (find_action cb name _ u) as [u' [a|]]; [|apply spair_done; econstructor; eassumption].
  apply (both_bind wpeer); [apply G; exact H|]. intros [[q1 v1] o1] [[q2 v2] o2] (Hq & Ev & Eo). cbn [fst snd] in Hq, Ev, Eo. subst v2 o2.
  rewrite (peer_index _ _ Hq). apply spair_done. econstructor; eassumption.
Qed.
Lemma spair_end_action a s1 s2 : sib s1 s2 -> both spair (run_end_action a s1) (run_end_action a s2).
Proof.
  intros H. unfold run_end_action. destruct a as [a|]; [|apply spair_done; exact H].
  destruct H as [r1 r2 u p1 p2 es H P1 P2]. cbn [user parser stack].
  destruct (a u) as [[u' r]| |]; cbn [obind]; try exact Logic.I.
  rewrite (peer_index _ _ H). apply spair_done. econstructor; eassumption.
Qed.
Lemma spair_look name s1 s2 : sib s1 s2 -> both spair (look_up_end cb name s1) (look_up_end cb name s2).
Proof.
  intros [r1 r2 u p1 p2 es H P1 P2]. unfold look_up_end. cbn [stack user parser].
  rewrite (stack_context _ _ _ P1), (stack_context _ _ _ P2). cbn [obind].
  destruct (find_end_action cb name _ u) as [u' a]. apply spair_done. econstructor; eassumption.
Qed.
Lemma spair_end name s1 s2 : sib s1 s2 -> both spair (run_end cb name s1) (run_end cb name s2).
Proof.
  intros H. unfold run_end. apply spair_do; [apply spair_look; exact H|]. intros t1 t2 a Ht. apply spair_end_action. exact Ht.
Qed.
Lemma spair_top m s1 s2 : sib s1 s2 -> both spair (@top_position B m s1) (top_position m s2).
Proof.
  intros [r1 r2 u p1 p2 es H P1 P2]. unfold top_position. cbn [stack parser]. rewrite (peer_index _ _ H).
  rewrite (stack_top _ _ _ P1), (stack_top _ _ _ P2). cbn [obind]. destruct es as [|[c k] es].
  - apply spair_done. econstructor; eassumption.
  - destruct (pos_of [c]); [|exact Logic.I]. apply spair_done. econstructor; eassumption.
Qed.
Lemma spair_parse {X} (op : rj -> outcome (rj * result X rerror)) s1 s2 :
  (forall r1 r2, peer r1 r2 -> both rpeer (op r1) (op r2)) -> sib s1 s2 -> both spair (@parse B X op s1) (parse op s2).
Proof.
  intros F [r1 r2 u p1 p2 es H P1 P2]. unfold parse. cbn [parser user stack].
  apply (both_bind rpeer); [apply F; exact H|]. intros [q1 v1] [q2 v2] [Hq E]. cbn [fst snd] in Hq, E. subst v2.
  apply spair_done. econstructor; eassumption.
Qed.
(** Popping and pushing. *)
Lemma pop_nil p : stack_of d p [] -> pop_assoc p pos_ty = Done (p, None).
Proof. intros H. destruct (stack_count _ _ _ H) as [E _]. unfold pop_assoc. unfold pool_len in E. rewrite E. reflexivity. Qed.
Lemma pops p1 p2 es : stack_of d p1 es -> stack_of d p2 es ->
  exists q1 q2 v es', pop_assoc p1 pos_ty = Done (q1, v) /\ pop_assoc p2 pos_ty = Done (q2, v) /\ stack_of d q1 es' /\ stack_of d q2 es'.
Proof.
  intros P1 P2. destruct es as [|[c k] es].
  - exists p1, p2, None, []. rewrite (pop_nil _ P1), (pop_nil _ P2). auto.
  - destruct (stack_pop _ _ _ _ _ P1) as (q1 & E1 & Q1), (stack_pop _ _ _ _ _ P2) as (q2 & E2 & Q2). exists q1, q2, (Some ([c], k)), es. auto.
Qed.
Definition alike_push (r1 r2 : result (bytes * bytes) perror) : Prop :=
  match r1, r2 with
  | Ok _, Ok _ => True
  | Err (SliceLimitExceeded m), Err (SliceLimitExceeded n) => m = n
  | Err (SliceLimitExceeded _), _ | _, Err (SliceLimitExceeded _) => False
  | Err _, Err _ => True
  | _, _ => False
  end.
Lemma pushes p1 p2 es c k : stack_of d p1 es -> stack_of d p2 es ->
  exists q1 q2 v1 v2 es', push_assoc p1 pos_ty [c] k = Done (q1, v1) /\ push_assoc p2 pos_ty [c] k = Done (q2, v2) /\
    stack_of d q1 es' /\ stack_of d q2 es' /\ alike_push v1 v2.
Proof.
  intros P1 P2. destruct (stack_push _ _ _ c k P1) as (q1 & v1 & E1 & Q1), (stack_push _ _ _ c k P2) as (q2 & v2 & E2 & Q2).
  destruct (admit_name d (path_of es) k) as [x|].
  - destruct Q1 as (Q1 & e1 & -> & X1), Q2 as (Q2 & e2 & -> & X2). exists q1, q2, (Err e1), (Err e2), es.
    do 4 (split; [assumption|]). destruct x as [n|].
    + destruct X1 as [_ ->], X2 as [_ ->]. reflexivity.
    + unfold alike_push. destruct e1; try (exfalso; eapply X1; reflexivity); destruct e2; try (exfalso; eapply X2; reflexivity); exact Logic.I.
  - destruct Q1 as (-> & Q1), Q2 as (-> & Q2). exists q1, q2, (Ok ([c], k)), (Ok ([c], k)), ((c, k) :: es). do 4 (split; [assumption|]). exact Logic.I.
Qed.

Lemma spair_object pos s1 s2 : sib s1 s2 -> both spair (handle_object cb pos s1) (handle_object cb pos s2).
Proof.
  intros H0. unfold handle_object. cbv zeta.
  match goal with |- both spair (if _ then _ else ?R) _ => let t := eval pattern s1 in R in match t with ?g _ => pose (rest := g) end end.
  assert (H : forall s1 s2, sib s1 s2 -> both spair (rest s1) (rest s2)).
  { clear s1 s2 H0. intros s1 s2 H. unfold rest. apply spair_bind.
    - destruct (pos_eqb pos ObjectBegin); [apply spair_done; exact H|].
      apply spair_do; [apply spair_look; exact H|]. intros t1 t2 a [r1 r2 u p1 p2 es Hr P1 P2]. cbn [stack parser user].
      destruct (pops _ _ _ P1 P2) as (q1 & q2 & v & es' & -> & -> & Q1 & Q2). cbn [obind].
      apply spair_end_action. econstructor; eassumption.
    - intros t1 t2 [] Ht. apply spair_bind.
      + apply spair_parse; [|exact Ht]. intros r1 r2 Hr. destruct (pos_eqb pos ObjectBegin); apply peer_loop; exact Hr.
      + intros u1 u2 [key|] Hu.
        * destruct Hu as [r1 r2 u p1 p2 es Hr P1 P2]. cbn [stack parser user].
          destruct (pushes _ _ _ (pos_code ObjectMiddle) key P1 P2) as (q1 & q2 & v1 & v2 & es' & -> & -> & Q1 & Q2 & Hv). cbn [obind].
          rewrite (peer_index _ _ Hr).
          destruct v1 as [v1|[]], v2 as [v2|[]]; cbn [alike_push] in Hv; try contradiction; try subst; try (apply spair_done; econstructor; eassumption).
          apply spair_bind; [apply spair_begin; econstructor; eassumption|]. intros v1' v2' v Hv'. apply spair_done. exact Hv'.
        * apply spair_bind; [apply spair_end; exact Hu|]. intros v1 v2 _ Hv. apply spair_top. exact Hv. }
  destruct (pos_eqb pos ObjectBegin); [|exact (H _ _ H0)].
  apply spair_bind; [apply spair_begin; exact H0|].
  intros t1 t2 [|] Ht; [apply spair_top; exact Ht|exact (H _ _ Ht)].
Qed.
Lemma spair_array pos s1 s2 : sib s1 s2 -> both spair (handle_array cb pos s1) (handle_array cb pos s2).
Proof.
  intros H0. unfold handle_array. cbv zeta.
  match goal with |- both spair (if _ then _ else ?R) _ => let t := eval pattern s1 in R in match t with ?g _ => pose (rest := g) end end.
  assert (H : forall s1 s2, sib s1 s2 -> both spair (rest s1) (rest s2)).
  { clear s1 s2 H0. intros s1 s2 H. unfold rest. apply spair_bind.
    - apply spair_parse; [|exact H]. intros r1 r2 Hr. destruct (pos_eqb pos ArrayBegin); apply peer_loop; exact Hr.
    - intros t1 t2 [x|] Ht; [apply spair_done; exact Ht|]. destruct Ht as [r1 r2 u p1 p2 es Hr P1 P2]. cbn [stack parser user]. rewrite (peer_index _ _ Hr).
      destruct (pops _ _ _ P1 P2) as (q1 & q2 & v & es' & -> & -> & Q1 & Q2). cbn [obind].
      destruct v as [x|]; [|apply spair_done; econstructor; eassumption].
      apply spair_bind; [apply spair_end; econstructor; eassumption|].
      intros v1 v2 _ Hv. apply spair_bind; [apply spair_top; exact Hv|].
      intros w1 w2 w Hw. apply spair_done. exact Hw. }
  destruct (pos_eqb pos ArrayBegin); [|exact (H _ _ H0)].
  apply spair_bind; [apply spair_begin; exact H0|].
  intros t1 t2 [|] Ht.
  - apply spair_bind; [apply spair_top; exact Ht|]. intros w1 w2 w Hw. apply spair_done. exact Hw.
  - destruct Ht as [r1 r2 u p1 p2 es Hr P1 P2]. cbn [stack parser user]. rewrite (peer_index _ _ Hr).
    destruct (pushes _ _ _ (pos_code ArrayMiddle) (bs "#array") P1 P2) as (q1 & q2 & v1 & v2 & es' & -> & -> & Q1 & Q2 & Hv). cbn [obind].
    rewrite (stack_len _ _ _ Q1), (stack_len _ _ _ Q2).
    destruct v1 as [v1|v1], v2 as [v2|v2]; cbn [alike_push] in Hv; try contradiction;
      [|exfalso; destruct v2; contradiction|exfalso; destruct v1; contradiction|].
    + exact (H _ _ (sib_at _ _ u _ _ es' Hr Q1 Q2)).
    + apply spair_done. econstructor; eassumption.
Qed.
Lemma spair_basic peeked s1 s2 : sib s1 s2 -> both spair (skip_basic_values peeked s1) (skip_basic_values peeked s2).
Proof.
  intros H. unfold skip_basic_values. cbv zeta.
  assert (F : forall X (op : rj -> outcome (rj * result X rerror)), (forall r1 r2, peer r1 r2 -> both rpeer (op r1) (op r2)) ->
    both spair (sbind (parse op s1) (fun s _ => Done (s, Ok tt))) (sbind (parse op s2) (fun s _ => Done (s, Ok tt)))).
  { intros X op F. apply spair_bind; [apply spair_parse; assumption|]. intros t1 t2 v Ht. apply spair_done. exact Ht. }
  destruct (N.eqb peeked QUOTE).
  { apply F. intros r1 r2 Hr. apply (both_bind wpeer); [apply peer_long_bytes; exact Hr|].
    intros [[q1 v1] o1] [[q2 v2] o2] (Hq & Ev & Eo). cbn [fst snd] in Hq, Ev, Eo. subst v2 o2. apply rpeer_done. exact Hq. }
  destruct (N.eqb peeked PeekNull); [apply F; intros; apply peer_loop; assumption|].
  destruct (N.eqb peeked PeekTrue); [apply F; intros; apply peer_loop; assumption|].
  destruct (N.eqb peeked PeekFalse); [apply F; intros; apply peer_loop; assumption|].
  destruct H as [r1 r2 u p1 p2 es H P1 P2]. cbn [parser user stack].
  apply (both_bind rpeer); [apply peer_loop; exact H|]. intros [q1 v1] [q2 v2] [Hq E]. cbn [fst snd] in Hq, E. subst v2.
  rewrite (peer_index _ _ Hq). apply spair_done. econstructor; eassumption.
Qed.
Lemma spair_tokens ts : forall s1 s2, sib s1 s2 -> both spair (skip_tokens ts s1) (@skip_tokens B ts s2).
Proof.
  induction ts as [|t ts IH]; intros s1 s2 H; cbn [skip_tokens]; [apply spair_done; exact H|].
  destruct H as [r1 r2 u p1 p2 es H P1 P2]. cbn [parser user stack].
  apply (both_bind rpeer); [apply peer_token; exact H|]. intros [q1 v1] [q2 v2] [Hq E]. cbn [fst snd] in Hq, E. subst v2. cbv zeta.
  destruct v1 as [v|e]; [apply spair_done|apply IH]; econstructor; eassumption.
Qed.
Lemma sib_len s1 s2 : sib s1 s2 -> pool_len (stack s2) = pool_len (stack s1).
Proof. intros [r1 r2 u p1 p2 es H P1 P2]. cbn [stack]. rewrite (stack_len _ _ _ P1), (stack_len _ _ _ P2). reflexivity. Qed.
Lemma sib_index s1 s2 : sib s1 s2 -> current_index (parser s2) = current_index (parser s1).
Proof. intros [r1 r2 u p1 p2 es H P1 P2]. exact (peer_index _ _ H). Qed.
Lemma vpair_value pos peeked s1 s2 : sib s1 s2 -> both spair (scan_value cb o pos peeked s1) (scan_value cb o pos peeked s2).
Proof.
  intros H. unfold scan_value. cbv zeta.
  destruct (N.eqb peeked LBRACK); [apply spair_done; exact H|]. destruct (N.eqb peeked LBRACE); [apply spair_done; exact H|].
  apply vpair_bind; [apply spair_begin; exact H|]. intros t1 t2 [|] Ht; [apply spair_done; exact Ht|].
  apply spair_do; [apply spair_basic; exact Ht|]. intros u1 u2 [v|v] Hu; [apply spair_done; exact Hu|].
  apply spair_do.
  - rewrite (sib_len _ _ Hu). destruct (_ || _); [apply spair_tokens; exact Hu|apply spair_done; exact Hu].
  - intros v1 v2 [|] Hv; [apply spair_done; exact Hv|]. rewrite (sib_index _ _ Hv). apply spair_done. exact Hv.
Qed.
Lemma vpair_iter pos s1 s2 : sib s1 s2 -> both spair (scan_iter cb o pos s1) (scan_iter cb o pos s2).
Proof.
  intros H.
  assert (T : forall p, p = Top \/ p = ObjectBetweenKV -> both spair (scan_iter cb o p s1) (scan_iter cb o p s2)).
  { intros p Hp.
    assert (E : forall s, scan_iter cb o p s =
      do (r, v) <- peek (parser s);
      let s := mkS r (user s) (stack s) in
      match v with
      | Ok x => scan_value cb o p x s
      | Err e =>
          match err_type e with
          | JsonError EofWhileParsingValue =>
              if pos_eqb p Top then vbind (parse finish s) (fun s _ => Done (s, Return (Ok tt)))
              else Done (s, Return (Err (UnbalancedJson (current_index r))))
          | _ => Done (s, Return (Err (RJiterError e)))
          end
      end) by (destruct Hp as [-> | ->]; reflexivity).
    rewrite !E. clear E. destruct H as [r1 r2 u p1 p2 es H P1 P2]. cbn [parser user stack].
    apply (both_bind rpeer); [apply peer_loop; exact H|]. intros [q1 v1] [q2 v2] [Hq E]. cbn [fst snd] in Hq, E. subst v2. cbv zeta.
    assert (S : sib (mkS q1 u p1) (mkS q2 u p2)) by (econstructor; eassumption).
    destruct v1 as [x|er]; [apply vpair_value; exact S|].
    rewrite (peer_index _ _ Hq).
    destruct (err_type er) as [[]| | |]; try (apply spair_done; exact S).
    destruct (pos_eqb p Top); [|apply spair_done; exact S].
    apply vpair_bind; [apply spair_parse; [intros; apply peer_finish; assumption|exact S]|].
    intros w1 w2 [] Hw. apply spair_done. exact Hw. }
  destruct pos; try (apply T; tauto); cbn [scan_iter].
  - apply vpair_bind; [apply spair_object; exact H|]. intros t1 t2 v Ht. apply spair_done. exact Ht.
  - apply vpair_bind; [apply spair_object; exact H|]. intros t1 t2 v Ht. apply spair_done. exact Ht.
  - apply vpair_bind; [apply spair_array; exact H|].
    intros t1 t2 [[x|] []] Ht; try (apply spair_done; exact Ht); try (apply vpair_value; exact Ht);
      rewrite (sib_index _ _ Ht); apply spair_done; exact Ht.
  - apply vpair_bind; [apply spair_array; exact H|].
    intros t1 t2 [[x|] []] Ht; try (apply spair_done; exact Ht); try (apply vpair_value; exact Ht);
      rewrite (sib_index _ _ Ht); apply spair_done; exact Ht.
Qed.
Lemma spair_loop fuel : forall b pos s1 s2, sib s1 s2 -> both spair (scan_loop cb o fuel b pos s1) (scan_loop cb o fuel b pos s2).
Proof.
  induction fuel as [|fuel IH]; intros b pos s1 s2 H; [exact Logic.I|].
  pose proof (vpair_iter pos _ _ H) as G. cbn [scan_loop].
  destruct (_ && _); [apply spair_done; exact H|].
  destruct (scan_iter cb _ pos s1) as [[t1 v1]| |], (scan_iter cb _ pos s2) as [[t2 v2]| |]; cbn [both] in G; try contradiction; try exact Logic.I.
  destruct G as [Ht E]. cbn [fst snd] in Ht, E. subst v2. destruct v1 as [p|r]; [apply IH; exact Ht|apply spair_done; exact Ht].
Qed.
Lemma spair_scan fuel s1 s2 : sib s1 s2 -> both spair (scan cb o fuel s1) (scan cb o fuel s2).
Proof.
  intros [r1 r2 u p1 p2 es H P1 P2]. unfold scan. cbn [stack parser user].
  destruct (pushes _ _ _ (pos_code Top) (bs "#top") P1 P2) as (q1 & q2 & v1 & v2 & es' & -> & -> & Q1 & Q2 & Hv). cbn [obind].
  destruct v1 as [v1|v1], v2 as [v2|v2]; cbn [alike_push] in Hv; try contradiction;
    [|exfalso; destruct v2; contradiction|exfalso; destruct v1; contradiction|].
  - apply spair_loop. econstructor; eassumption.
  - cbn [parser]. rewrite (peer_index _ _ H). apply spair_done. econstructor; eassumption.
Qed.
End Scanner.
