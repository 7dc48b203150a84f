(** Two readers that deliver the same bytes; then the input of one ends and the other reports an error: the scanner. *)
From Verif Require Import Base U8Pool Buffer Jiter JiterProofs RJiter RJiterSpec RJiterProofs RJiterOpProofs RJiterIndexProofs Scan ArrivedSpec Arrived.

Section Scanner.
Context (e : io_kind) (q : list event) (d : bytes) (c0 : nat) (Hdigit : ends_apart d) (Hshort : runs_below c0 d).
Context {B : Type} (Sm : B -> B -> Prop) (Sm_same : forall u, Sm u u).
Notation close := (close e q d c0).
Notation rcut := (rcut e q d c0).

(** Callbacks that pass on the errors of the parser without any effect but that of remembering the error. *)
Definition apt_action (a : action B) : Prop := forall r1 r2 u, close r1 r2 ->
  match a r1 u with
  | Done (t1, u1, op) => (exists t2, a r2 u = Done (t2, u1, op) /\ close t1 t2) \/
                         (exists m1 m2 t2 u2, op = OpError m1 /\ a r2 u = Done (t2, u2, OpError m2) /\ Sm u1 u2)
  | _ => True
  end.
Definition apt_callbacks (cb : callbacks B) : Prop :=
  forall n c u u' a, find_action cb n c u = (u', Some a) -> apt_action a.
Context (cb : callbacks B) (Hcb : apt_callbacks cb) (stop : bool).

Inductive alike : sstate B -> sstate B -> Prop := alike_at r1 r2 u p : close r1 r2 -> alike (mkS r1 u p) (mkS r2 u p).
Definition ends (u : B) {X} (P : X -> Prop) (x2 : outcome (sstate B * X)) : Prop :=
  match x2 with Done (s2, v) => P v /\ Sm u (user s2) | _ => True end.
Definition scut {X} (x1 x2 : sres B X) : Prop :=
  match x1 with
  | Done (s1, Ok v) => exists s2, x2 = Done (s2, Ok v) /\ alike s1 s2
  | Done (s1, Err _) => ends (user s1) failed x2
  | _ => True
  end.
Definition final (v : verdict) : Prop := exists r, v = Return r.
Definition vcut (x1 x2 : sverdict B) : Prop :=
  match x1 with
  | Done (s1, Continue p) => exists s2, x2 = Done (s2, Continue p) /\ alike s1 s2
  | Done (s1, Return _) => ends (user s1) final x2
  | _ => True
  end.
Lemma close_index r1 r2 : close r1 r2 -> current_index r2 = current_index r1.
Proof. intros [[b1 b2 l i H] _]. unfold current_index. cbn [bf jidx]. destruct (near_fields _ _ _ _ _ H) as (_ & _ & -> & _). reflexivity. Qed.
Lemma alike_user s1 s2 : alike s1 s2 -> user s2 = user s1. Proof. intros [r1 r2 u p H]. reflexivity. Qed.
Lemma scut_done {X} s1 s2 (r1 r2 : result X scan_error) : alike s1 s2 ->
  (forall v, r1 = Ok v -> r2 = Ok v) -> (forall x, r1 = Err x -> failed r2) -> scut (Done (s1, r1)) (Done (s2, r2)).
Proof.
  intros H A F. destruct r1 as [v|x]; cbn [scut ends].
  - rewrite (A v eq_refl). eauto.
  - split; [exact (F x eq_refl)|]. rewrite (alike_user _ _ H). apply Sm_same.
Qed.
Lemma scut_ok {X} s1 s2 (v : X) : alike s1 s2 -> scut (Done (s1, Ok v)) (Done (s2, Ok v)).
Proof. intros H. cbn [scut]. eauto. Qed.
Lemma scut_err {X} s1 s2 x y : alike s1 s2 -> @scut X (Done (s1, Err x)) (Done (s2, Err y)).
Proof. intros H. split; [apply failed_err|]. rewrite (alike_user _ _ H). apply Sm_same. Qed.
Lemma vcut_go s1 s2 p : alike s1 s2 -> vcut (Done (s1, Continue p)) (Done (s2, Continue p)).
Proof. intros H. cbn [vcut]. eauto. Qed.
Lemma vcut_end s1 s2 x y : alike s1 s2 -> vcut (Done (s1, Return x)) (Done (s2, Return y)).
Proof. intros H. split; [exists y; reflexivity|]. rewrite (alike_user _ _ H). apply Sm_same. Qed.
Lemma scut_bind {X Y} (x1 x2 : sres B X) (f : sstate B -> X -> sres B Y) :
  scut x1 x2 -> (forall s1 s2 v, alike s1 s2 -> scut (f s1 v) (f s2 v)) -> scut (sbind x1 f) (sbind x2 f).
Proof.
  intros H F. destruct x1 as [[s1 [v|x]]| |]; [| |exact Logic.I|exact Logic.I]; cbn [scut] in H.
  - destruct H as (s2 & -> & Hs). apply F. exact Hs.
  - destruct x2 as [[s2 r2]| |]; cbn [ends sbind scut] in *; auto. destruct H as [[y ->] H]. split; [apply failed_err|exact H].
Qed.
Lemma vcut_bind {X} (x1 x2 : sres B X) (f : sstate B -> X -> sverdict B) :
  scut x1 x2 -> (forall s1 s2 v, alike s1 s2 -> vcut (f s1 v) (f s2 v)) -> vcut (vbind x1 f) (vbind x2 f).
Proof.
  intros H F. destruct x1 as [[s1 [v|x]]| |]; [| |exact Logic.I|exact Logic.I]; cbn [scut] in H.
  - destruct H as (s2 & -> & Hs). apply F. exact Hs.
  - destruct x2 as [[s2 r2]| |]; cbn [ends vbind vcut] in *; auto. destruct H as [[y ->] H]. split; [eexists; reflexivity|exact H].
Qed.
Lemma scut_begin name s1 s2 : alike s1 s2 -> scut (run_begin cb name s1) (run_begin cb name s2).
Proof.
  intros [r1 r2 u p H]. unfold run_begin. cbn [stack user parser]. destruct (context_of p) as [c| |]; cbn [obind]; [|exact Logic.I|exact Logic.I].
  destruct (find_action cb name c u) as [u' [a|]] eqn:E; [|apply scut_ok; constructor; exact H].
  pose proof (Hcb _ _ _ _ _ E r1 r2 u' H) as G.
  destruct (a r1 u') as [[[t1 v1] op]| |]; cbn [obind]; [|exact Logic.I|exact Logic.I].
  destruct G as [(t2 & -> & Ht)|(m1 & m2 & t2 & u2 & -> & -> & HS)]; cbn [obind].
  - rewrite (close_index _ _ Ht). destruct op; first [apply scut_ok; constructor; exact Ht|apply scut_err; constructor; exact Ht].
  - split; [apply failed_err|exact HS].
Qed.
Lemma scut_end_action a s1 s2 : alike s1 s2 -> scut (run_end_action a s1) (run_end_action a s2).
Proof.
  intros [r1 r2 u p H]. unfold run_end_action. destruct a as [a|]; [|apply scut_ok; constructor; exact H]. cbn [user parser stack].
  destruct (a u) as [[u' [[]|r]]| |]; cbn [obind]; [| |exact Logic.I|exact Logic.I].
  - apply scut_ok. constructor. exact H.
  - apply scut_err. constructor. exact H.
Qed.
Lemma cut_look name s1 s2 : alike s1 s2 ->
  match look_up_end cb name s1 with
  | Done (t1, a) => exists t2, look_up_end cb name s2 = Done (t2, a) /\ alike t1 t2
  | _ => True
  end.
Proof.
  intros [r1 r2 u p H]. unfold look_up_end. cbn [stack user parser]. destruct (context_of p) as [c| |]; cbn [obind]; [|exact Logic.I|exact Logic.I].
  destruct (find_end_action cb name c u) as [u' a]. eexists. split; [reflexivity|]. constructor. exact H.
Qed.
Lemma scut_end name s1 s2 : alike s1 s2 -> scut (run_end cb name s1) (run_end cb name s2).
Proof.
  intros H. unfold run_end. pose proof (cut_look name _ _ H) as G.
  destruct (look_up_end cb name s1) as [[t1 a]| |]; cbn [obind]; [|exact Logic.I|exact Logic.I].
  destruct G as (t2 & -> & Ht). cbn [obind]. apply scut_end_action. exact Ht.
Qed.
Lemma scut_top m s1 s2 : alike s1 s2 -> scut (@top_position B m s1) (top_position m s2).
Proof.
  intros [r1 r2 u p H]. unfold top_position. cbn [stack parser].
  destruct (top_assoc_obj _ _) as [[a|]| |]; cbn [obind]; [| |exact Logic.I|exact Logic.I].
  - destruct (pos_of a); [|exact Logic.I]. apply scut_ok. constructor. exact H.
  - apply scut_err. constructor. exact H.
Qed.
Lemma scut_parse {X} (op : rj -> outcome (rj * result X rerror)) s1 s2 :
  (forall r1 r2, close r1 r2 -> rcut (op r1) (op r2)) -> alike s1 s2 -> scut (@parse B X op s1) (parse op s2).
Proof.
  intros F [r1 r2 u p H]. unfold parse. cbn [parser user stack]. specialize (F r1 r2 H).
  destruct (op r1) as [[t1 [v|er]]| |]; cbn [obind]; [| |exact Logic.I|exact Logic.I]; cbn [Arrived.rcut] in F.
  - destruct F as (t2 & -> & Ht). cbn [obind]. apply scut_ok. constructor. exact Ht.
  - destruct F as (t2 & x & ->). cbn [obind]. split; [apply failed_err|apply Sm_same].
Qed.
Ltac op := match goal with H : close _ _ |- _ =>
  first [exact (arrived_method e q d c0 _ _ _ _ _ _ _ m_peek eq_refl H) |
    exact (arrived_method e q d c0 _ _ _ _ _ _ _ m_next_object_bytes eq_refl H) | exact (arrived_method e q d c0 _ _ _ _ _ _ _ m_next_key_bytes eq_refl H) |
    exact (arrived_method e q d c0 _ _ _ _ _ _ _ m_next_array eq_refl H) | exact (arrived_method e q d c0 _ _ _ _ _ _ _ m_known_array eq_refl H) |
    exact (arrived_method e q d c0 _ _ _ _ _ _ _ m_array_step eq_refl H) | exact (arrived_method e q d c0 _ _ _ _ _ _ _ m_known_null eq_refl H) |
    exact (arrived_method e q d c0 _ _ _ _ _ _ _ (m_known_bool _) eq_refl H)] end.
Lemma scut_object pos s1 s2 : alike s1 s2 -> scut (handle_object cb pos s1) (handle_object cb pos s2).
Proof.
  intros H0. unfold handle_object. cbv zeta.
  match goal with |- scut (if _ then _ else ?R) _ => let t := eval pattern s1 in R in match t with ?g _ => pose (rest := g) end end.
  assert (H : forall s1 s2, alike s1 s2 -> scut (rest s1) (rest s2)).
  { clear s1 s2 H0. intros s1 s2 H. unfold rest. apply scut_bind.
    - destruct (pos_eqb pos ObjectBegin); [apply scut_ok; exact H|].
      pose proof (cut_look PNone _ _ H) as F.
      destruct (look_up_end cb PNone s1) as [[t1 a]| |]; cbn [obind]; [|exact Logic.I|exact Logic.I].
      destruct F as (t2 & -> & Ht). cbn [obind]. destruct Ht as [r1 r2 u p Hr]. cbn [stack parser user].
      destruct (pop_assoc p pos_ty) as [[p' x]| |]; cbn [obind]; [|exact Logic.I|exact Logic.I].
      apply scut_end_action. constructor. exact Hr.
    - intros t1 t2 [] Ht. apply scut_bind.
      + apply scut_parse; [|exact Ht]. intros r1 r2 Hr. destruct (pos_eqb pos ObjectBegin); op.
      + intros u1 u2 [key|] Hu.
        * destruct Hu as [r1 r2 u p Hr]. cbn [stack parser user].
          destruct (push_assoc p pos_ty _ key) as [[p' x]| |]; cbn [obind]; [|exact Logic.I|exact Logic.I].
          destruct x as [x|[]]; try (apply scut_err; constructor; exact Hr).
          apply scut_bind; [apply scut_begin; constructor; exact Hr|]. intros v1 v2 v Hv. apply scut_ok. exact Hv.
        * apply scut_bind; [apply scut_end; exact Hu|]. intros v1 v2 _ Hv. apply scut_top. exact Hv. }
  destruct (pos_eqb pos ObjectBegin); [|exact (H _ _ H0)].
  apply scut_bind; [apply scut_begin; exact H0|]. intros t1 t2 [|] Ht; [apply scut_top; exact Ht|exact (H _ _ Ht)].
Qed.
Lemma scut_array pos s1 s2 : alike s1 s2 -> scut (handle_array cb pos s1) (handle_array cb pos s2).
Proof.
  intros H0. unfold handle_array. cbv zeta.
  match goal with |- scut (if _ then _ else ?R) _ => let t := eval pattern s1 in R in match t with ?g _ => pose (rest := g) end end.
  assert (H : forall s1 s2, alike s1 s2 -> scut (rest s1) (rest s2)).
  { clear s1 s2 H0. intros s1 s2 H. unfold rest. apply scut_bind.
    - apply scut_parse; [|exact H]. intros r1 r2 Hr. destruct (pos_eqb pos ArrayBegin); op.
    - intros t1 t2 [x|] Ht; [apply scut_ok; exact Ht|]. destruct Ht as [r1 r2 u p Hr]. cbn [stack parser user].
      destruct (pop_assoc p pos_ty) as [[p' x]| |]; cbn [obind]; [|exact Logic.I|exact Logic.I].
      destruct x as [x|]; [|apply scut_err; constructor; exact Hr].
      apply scut_bind; [apply scut_end; constructor; exact Hr|].
      intros v1 v2 _ Hv. apply scut_bind; [apply scut_top; exact Hv|]. intros w1 w2 w Hw. apply scut_ok. exact Hw. }
  destruct (pos_eqb pos ArrayBegin); [|exact (H _ _ H0)].
  apply scut_bind; [apply scut_begin; exact H0|]. intros t1 t2 [|] Ht.
  - apply scut_bind; [apply scut_top; exact Ht|]. intros w1 w2 w Hw. apply scut_ok. exact Hw.
  - destruct Ht as [r1 r2 u p Hr]. cbn [stack parser user].
    destruct (push_assoc p pos_ty _ _) as [[p' x]| |]; cbn [obind]; [|exact Logic.I|exact Logic.I].
    destruct x as [x|x]; [|apply scut_err; constructor; exact Hr]. exact (H _ _ (alike_at _ _ u p' Hr)).
Qed.
Lemma scut_basic peeked s1 s2 : alike s1 s2 -> scut (skip_basic_values peeked s1) (skip_basic_values peeked s2).
Proof.
  intros H. unfold skip_basic_values. cbv zeta.
  assert (F : forall X (op : rj -> outcome (rj * result X rerror)), (forall r1 r2, close r1 r2 -> rcut (op r1) (op r2)) ->
    scut (sbind (parse op s1) (fun s _ => Done (s, Ok tt))) (sbind (parse op s2) (fun s _ => Done (s, Ok tt)))).
  { intros X op F. apply scut_bind; [apply scut_parse; assumption|]. intros t1 t2 v Ht. apply scut_ok. exact Ht. }
  destruct (N.eqb peeked QUOTE).
  { apply F. intros r1 r2 Hr. pose proof (arrived_long _ _ _ _ _ _ (mkWriter [] None) Hr) as G.
    destruct (write_long_bytes r1 _) as [[[t1 w1] [v|x]]| |]; cbn [obind]; [| |exact Logic.I|exact Logic.I]; cbn [wcut] in G.
    - destruct G as (t2 & -> & Ht). cbn [obind]. exists t2. auto.
    - destruct G as (t2 & y & ->). cbn [obind]. exists t2, y. reflexivity. }
  destruct (N.eqb peeked PeekNull); [apply F; intros; op|].
  destruct (N.eqb peeked PeekTrue); [apply F; intros; op|].
  destruct (N.eqb peeked PeekFalse); [apply F; intros; op|].
  destruct H as [r1 r2 u p H]. cbn [parser user stack]. pose proof (arrived_number e q d c0 Hdigit Hshort r1 r2 H) as G.
  destruct (next_number_bytes r1) as [[t1 [v|x]]| |]; cbn [obind]; [| |exact Logic.I|exact Logic.I]; cbn [Arrived.rcut] in G.
  - destruct G as (t2 & -> & Ht). cbn [obind]. apply scut_ok. constructor. exact Ht.
  - destruct G as (t2 & y & ->). cbn [obind]. split; [apply failed_err|apply Sm_same].
Qed.
Lemma vcut_value pos peeked s1 s2 : alike s1 s2 ->
  vcut (scan_value cb (mkOptions [] stop) pos peeked s1) (scan_value cb (mkOptions [] stop) pos peeked s2).
Proof.
  intros H. unfold scan_value. cbv zeta.
  destruct (N.eqb peeked LBRACK); [apply vcut_go; exact H|]. destruct (N.eqb peeked LBRACE); [apply vcut_go; exact H|].
  apply vcut_bind; [apply scut_begin; exact H|].
  intros t1 t2 [|] Ht; [apply vcut_go; exact Ht|].
  pose proof (scut_basic peeked _ _ Ht) as G.
  destruct (skip_basic_values peeked t1) as [[u1 [v|v]]| |]; cbn [obind]; [| |exact Logic.I|exact Logic.I]; cbn [scut] in G.
  - destruct G as (u2 & -> & Hu). cbn [obind]. apply vcut_go. exact Hu.
  - cbn [sse_tokens skip_tokens].
    assert (K : ends (user u1) final (do (s, r) <- skip_basic_values peeked t2;
       match r with
       | Ok _ => Done (s, Continue match pos with ObjectBetweenKV => ObjectMiddle | p => p end)
       | Err _ =>
           do (s, skipped) <-
             (if pos_eqb match pos with ObjectBetweenKV => ObjectMiddle | p => p end Top ||
                 ((pos_eqb match pos with ObjectBetweenKV => ObjectMiddle | p => p end ArrayBegin ||
                   pos_eqb match pos with ObjectBetweenKV => ObjectMiddle | p => p end ArrayMiddle) && (pool_len (stack s) =? 2))
              then Done (s, false) else Done (s, false));
           if skipped : bool then Done (s, Continue match pos with ObjectBetweenKV => ObjectMiddle | p => p end)
           else Done (s, Return (Err (UnhandledPeek peeked (current_index (parser s)))))
       end)).
    { destruct (skip_basic_values peeked t2) as [[u2 r2]| |]; cbn [obind ends] in *; auto. destruct G as [[y ->] G].
      destruct (_ || _); cbn [obind ends]; (split; [eexists; reflexivity|exact G]). }
    match goal with |- vcut (obind (if ?b then _ else _) _) _ => destruct b end; cbn [obind]; exact K.
Qed.
Lemma vcut_iter pos s1 s2 : alike s1 s2 ->
  vcut (scan_iter cb (mkOptions [] stop) pos s1) (scan_iter cb (mkOptions [] stop) pos s2).
Proof.
  intros H.
  assert (T : forall p, p = Top \/ p = ObjectBetweenKV ->
    vcut (scan_iter cb (mkOptions [] stop) p s1) (scan_iter cb (mkOptions [] stop) p s2)).
  { intros p Hp.
    assert (E : forall s, scan_iter cb (mkOptions [] stop) p s =
      do (r, v) <- peek (parser s);
      let s := mkS r (user s) (stack s) in
      match v with
      | Ok x => scan_value cb (mkOptions [] stop) p x s
      | Err e =>
          match err_type e with
          | JsonError EofWhileParsingValue =>
              if pos_eqb p Top then vbind (parse finish s) (fun s _ => Done (s, Return (Ok tt)))
              else Done (s, Return (Err (UnbalancedJson (current_index r))))
          | _ => Done (s, Return (Err (RJiterError e)))
          end
      end) by (destruct Hp as [-> | ->]; reflexivity).
    rewrite !E. clear E. destruct H as [r1 r2 u p' H]. cbn [parser user stack] in *.
    assert (G : rcut (peek r1) (peek r2)) by op.
    destruct (peek r1) as [[t1 [x|er]]| |]; cbn [obind]; [| |exact Logic.I|exact Logic.I]; cbn [Arrived.rcut] in G; cbv zeta.
    - destruct G as (t2 & -> & Ht). cbn [obind]. apply vcut_value. constructor. exact Ht.
    - destruct G as (t2 & y & ->). cbn [obind].
      assert (L : forall t (y : rerror), match (match err_type y with
          | JsonError EofWhileParsingValue =>
              if pos_eqb p Top then vbind (parse finish (mkS t u p')) (fun s _ => Done (s, Return (Ok tt)))
              else Done (mkS t u p', Return (Err (UnbalancedJson (current_index t))))
          | _ => Done (mkS t u p', Return (Err (RJiterError y)))
          end) with Done (s, v) => user s = u /\ final v | _ => True end).
      { clear. intros t y.
        assert (F : forall x, final (Return x)) by (intros x; exists x; reflexivity).
        destruct (err_type y) as [[]| | |]; try (split; [reflexivity|apply F]). destruct (pos_eqb p Top); [|split; [reflexivity|apply F]].
        unfold parse. cbn [parser user stack]. destruct (finish t) as [[t' [x|x]]| |]; cbn [obind vbind]; auto. }
      pose proof (L t1 er) as L1. pose proof (L t2 y) as L2.
      destruct (match err_type er with JsonError _ => _ | _ => _ end) as [[z1 v1]| |]; [|exact Logic.I|exact Logic.I].
      destruct L1 as [U1 [x1 ->]]. cbn [vcut]. rewrite U1.
      destruct (match err_type y with JsonError _ => _ | _ => _ end) as [[z2 v2]| |]; [|exact Logic.I|exact Logic.I].
      destruct L2 as [U2 F2]. cbn [ends]. split; [exact F2|]. rewrite U2. apply Sm_same. }
  destruct pos; try (apply T; tauto); cbn [scan_iter].
  - apply vcut_bind; [apply scut_object; exact H|]. intros t1 t2 v Ht. apply vcut_go. exact Ht.
  - apply vcut_bind; [apply scut_object; exact H|]. intros t1 t2 v Ht. apply vcut_go. exact Ht.
  - apply vcut_bind; [apply scut_array; exact H|].
    intros t1 t2 [[x|] []] Ht; first [apply vcut_go; exact Ht|apply vcut_value; exact Ht|apply vcut_end; exact Ht].
  - apply vcut_bind; [apply scut_array; exact H|].
    intros t1 t2 [[x|] []] Ht; first [apply vcut_go; exact Ht|apply vcut_value; exact Ht|apply vcut_end; exact Ht].
Qed.
Definition same_end (x1 x2 : sres B unit) : Prop :=
  match x1, x2 with Done (s1, _), Done (s2, _) => Sm (user s1) (user s2) | _, _ => True end.
Lemma arrived_scan_loop fuel : forall b pos s1 s2, alike s1 s2 ->
  same_end (scan_loop cb (mkOptions [] stop) fuel b pos s1) (scan_loop cb (mkOptions [] stop) fuel b pos s2).
Proof.
  induction fuel as [|fuel IH]; intros b pos s1 s2 H; [exact Logic.I|].
  pose proof (vcut_iter pos _ _ H) as G. cbn [scan_loop].
  destruct (_ && _); [cbn [same_end]; rewrite (alike_user _ _ H); apply Sm_same|].
  destruct (scan_iter cb _ pos s1) as [[t1 [p|r]]| |]; cbn [vcut] in G; [| |exact Logic.I|exact Logic.I].
  - destruct G as (t2 & -> & Ht). apply IH. exact Ht.
  - destruct (scan_iter cb _ pos s2) as [[t2 v2]| |]; cbn [ends] in G; [|exact Logic.I|exact Logic.I].
    destruct G as [[r2 ->] G]. exact G.
Qed.
Lemma arrived_scan fuel s1 s2 : alike s1 s2 -> same_end (scan cb (mkOptions [] stop) fuel s1) (scan cb (mkOptions [] stop) fuel s2).
Proof.
  intros [r1 r2 u p H]. unfold scan. cbn [stack parser user].
  destruct (push_assoc p pos_ty _ _) as [[p' x]| |]; cbn [obind]; [|exact Logic.I|exact Logic.I].
  cbv zeta. destruct x as [x|x]; [apply arrived_scan_loop; constructor; exact H|]. apply Sm_same.
Qed.
End Scanner.
