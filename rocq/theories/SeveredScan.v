(** Two readers that give the same up to a point, where one of them reports an error: the scanner. *)
From Verif Require Import Base U8Pool Buffer Jiter RJiter Scan Severed.

Section Scanner.
Context (e : io_kind) (q q' : list event) {B : Type} (Le : B -> B -> Prop).
Context (Le_same : forall u, Le u u) (Le_trans : forall u v w, Le u v -> Le v w -> Le u w).
Notation close := (close e q q').
Notation rcut := (rcut e q q').

(** Callbacks whose effects grow, and that pass on the errors of the parser. *)
Definition grows_by {X} (u : B) (x : outcome (rj * B * X)) : Prop :=
  match x with Done (_, u', _) => Le u u' | _ => True end.
Definition acut (x1 x2 : outcome (rj * B * stream_op)) : Prop :=
  match x1 with
  | Done (r1, u1, op) => (exists r2, x2 = Done (r2, u1, op) /\ close r1 r2) \/
                         ((exists m, op = OpError m) /\ forall r2 u2 o2, x2 = Done (r2, u2, o2) -> Le u1 u2)
  | _ => True
  end.
Definition good_action (a : action B) : Prop :=
  (forall r u, grows_by u (a r u)) /\ forall r1 r2 u, close r1 r2 -> acut (a r1 u) (a r2 u).
Definition good_end (a : end_action B) : Prop := forall u u' r, a u = Done (u', r) -> Le u u'.
Definition good_callbacks (cb : callbacks B) : Prop :=
  (forall n c u u' a, find_action cb n c u = (u', a) -> Le u u' /\ match a with Some a => good_action a | None => True end) /\
  (forall n c u u' a, find_end_action cb n c u = (u', a) -> Le u u' /\ match a with Some a => good_end a | None => True end).
Context (cb : callbacks B) (Hcb : good_callbacks cb) (stop : bool).

(** Growth. *)
Definition sgrow {X} (u : B) (x : outcome (sstate B * X)) : Prop := match x with Done (s, _) => Le u (user s) | _ => True end.
Lemma sgrow_bind {X Y} u (x : sres B X) (f : sstate B -> X -> sres B Y) :
  sgrow u x -> (forall s v, sgrow (user s) (f s v)) -> sgrow u (sbind x f).
Proof.
  intros H F. destruct x as [[s [v|er]]| |]; cbn [sbind sgrow] in *; auto.
  specialize (F s v). destruct (f s v) as [[s' v']| |]; cbn [sgrow] in *; eauto.
Qed.
Lemma sgrow_vbind {X} u (x : sres B X) (f : sstate B -> X -> sverdict B) :
  sgrow u x -> (forall s v, sgrow (user s) (f s v)) -> sgrow u (vbind x f).
Proof.
  intros H F. destruct x as [[s [v|er]]| |]; cbn [vbind sgrow] in *; auto.
  specialize (F s v). destruct (f s v) as [[s' v']| |]; cbn [sgrow] in *; eauto.
Qed.
Lemma sgrow_le {X} u v (x : outcome (sstate B * X)) : Le u v -> sgrow v x -> sgrow u x.
Proof. intros H. destruct x as [[s r]| |]; cbn [sgrow]; eauto. Qed.
Lemma sgrow_begin name s : sgrow (user s) (run_begin cb name s).
Proof.
  unfold run_begin. destruct (context_of (stack s)) as [c| |]; cbn [obind]; [|exact Logic.I|exact Logic.I].
  destruct (find_action cb name c (user s)) as [u a] eqn:E. destruct (proj1 Hcb _ _ _ _ _ E) as [L G].
  destruct a as [a|]; [|exact L]. destruct G as [G _]. specialize (G (parser s) u).
  destruct (a (parser s) u) as [[[r u'] op]| |]; cbn [obind sgrow grows_by user] in *; eauto.
Qed.
Lemma sgrow_end_action a s : (match a with Some a => good_end a | None => True end) -> sgrow (user s) (run_end_action a s).
Proof.
  intros G. unfold run_end_action. destruct a as [a|]; [|apply Le_same].
  destruct (a (user s)) as [[u r]| |] eqn:E; cbn [obind sgrow user]; eauto.
Qed.
Lemma look_up name s s' a : look_up_end cb name s = Done (s', a) ->
  parser s' = parser s /\ stack s' = stack s /\ Le (user s) (user s') /\ match a with Some a => good_end a | None => True end.
Proof.
  unfold look_up_end. destruct (context_of (stack s)) as [c| |]; cbn [obind]; [|discriminate|discriminate].
  destruct (find_end_action cb name c (user s)) as [u x] eqn:E. destruct (proj2 Hcb _ _ _ _ _ E) as [L G].
  intros H. injection H as <- <-. cbn. auto.
Qed.
Lemma sgrow_end name s : sgrow (user s) (run_end cb name s).
Proof.
  unfold run_end. destruct (look_up_end cb name s) as [[s1 a]| |] eqn:E; cbn [obind]; [|exact Logic.I|exact Logic.I].
  destruct (look_up _ _ _ _ E) as (_ & _ & L & G). exact (sgrow_le _ _ _ L (sgrow_end_action _ _ G)).
Qed.
Lemma sgrow_top m s : sgrow (user s) (@top_position B m s).
Proof.
  unfold top_position. destruct (top_assoc_obj _ _) as [[a|]| |]; cbn [obind sgrow]; auto.
  destruct (pos_of a); cbn [sgrow]; auto.
Qed.
Lemma sgrow_parse {X} (op : rj -> outcome (rj * result X rerror)) s : sgrow (user s) (@parse B X op s).
Proof. unfold parse. destruct (op _) as [[r v]| |]; cbn [obind sgrow user]; auto. Qed.
Lemma sgrow_object pos s : sgrow (user s) (handle_object cb pos s).
Proof.
  unfold handle_object. cbv zeta.
  match goal with |- sgrow _ (if _ then _ else ?R) => let t := eval pattern s in R in match t with ?g _ => pose (rest := g) end end.
  assert (H : forall s, sgrow (user s) (rest s)).
  { clear s. intros s. unfold rest. apply sgrow_bind.
    - destruct (pos_eqb pos ObjectBegin); [apply Le_same|].
      destruct (look_up_end cb PNone s) as [[s1 a]| |] eqn:E; cbn [obind]; [|exact Logic.I|exact Logic.I].
      destruct (look_up _ _ _ _ E) as (_ & _ & L & G).
      destruct (pop_assoc (stack s1) pos_ty) as [[p x]| |]; cbn [obind]; [|exact Logic.I|exact Logic.I].
      apply (sgrow_le _ _ _ L). exact (sgrow_end_action a (mkS (parser s1) (user s1) p) G).
    - intros s1 []. apply sgrow_bind; [apply sgrow_parse|]. intros s2 [key|].
      + destruct (push_assoc (stack s2) pos_ty _ key) as [[p x]| |]; cbn [obind]; [|exact Logic.I|exact Logic.I].
        destruct x as [x|[]]; try apply Le_same.
        apply (sgrow_bind (user s2)); [exact (sgrow_begin PNone (mkS (parser s2) (user s2) p))|]. intros s3 v. apply Le_same.
      + apply sgrow_bind; [apply sgrow_end|]. intros s3 _. apply sgrow_top. }
  destruct (pos_eqb pos ObjectBegin); [|exact (H s)].
  apply sgrow_bind; [apply sgrow_begin|]. intros s1 [|]; [apply sgrow_top|exact (H s1)].
Qed.
Lemma sgrow_array pos s : sgrow (user s) (handle_array cb pos s).
Proof.
  unfold handle_array. cbv zeta.
  match goal with |- sgrow _ (if _ then _ else ?R) => let t := eval pattern s in R in match t with ?g _ => pose (rest := g) end end.
  assert (H : forall s, sgrow (user s) (rest s)).
  { clear s. intros s. unfold rest. apply sgrow_bind; [apply sgrow_parse|]. intros s1 [x|]; [apply Le_same|].
    destruct (pop_assoc (stack s1) pos_ty) as [[p x]| |]; cbn [obind]; [|exact Logic.I|exact Logic.I].
    destruct x as [x|]; [|apply Le_same].
    apply (sgrow_bind (user s1)); [exact (sgrow_end PArray (mkS (parser s1) (user s1) p))|]. intros s2 _.
    apply sgrow_bind; [apply sgrow_top|]. intros s3 p3. apply Le_same. }
  destruct (pos_eqb pos ArrayBegin); [|exact (H s)].
  apply sgrow_bind; [apply sgrow_begin|]. intros s1 [|].
  - apply sgrow_bind; [apply sgrow_top|]. intros s2 p. apply Le_same.
  - destruct (push_assoc (stack s1) pos_ty _ _) as [[p x]| |]; cbn [obind]; [|exact Logic.I|exact Logic.I].
    destruct x as [x|x]; [|apply Le_same]. exact (H (mkS (parser s1) (user s1) p)).
Qed.
Lemma basic_same peeked s s' v : @skip_basic_values B peeked s = Done (s', v) -> user s' = user s.
Proof.
  unfold skip_basic_values. cbv zeta.
  assert (H : forall X (op : rj -> outcome (rj * result X rerror)) s' v,
    sbind (parse op s) (fun s _ => Done (s, Ok tt)) = Done (s', v) -> user s' = user s).
  { clear. intros X op s' v. unfold parse. destruct (op _) as [[r [x|x]]| |]; cbn [obind sbind]; try discriminate; intros E; injection E as <- <-; reflexivity. }
  repeat (destruct (N.eqb peeked _); [apply H|]).
  destruct (next_number_bytes _) as [[r x]| |]; cbn [obind]; try discriminate. intros E. injection E as <- <-. reflexivity.
Qed.
Lemma sgrow_value pos peeked s : sgrow (user s) (scan_value cb (mkOptions [] stop) pos peeked s).
Proof.
  unfold scan_value. cbv zeta. destruct (N.eqb peeked LBRACK); [apply Le_same|]. destruct (N.eqb peeked LBRACE); [apply Le_same|].
  apply sgrow_vbind; [apply sgrow_begin|]. intros s1 [|]; [apply Le_same|].
  destruct (skip_basic_values peeked s1) as [[s2 v]| |] eqn:E; cbn [obind]; [|exact Logic.I|exact Logic.I].
  rewrite <- (basic_same _ _ _ _ E). destruct v as [v|v]; [apply Le_same|]. cbn [sse_tokens skip_tokens].
  destruct (_ || _); apply Le_same.
Qed.
Lemma sgrow_iter pos s : sgrow (user s) (scan_iter cb (mkOptions [] stop) pos s).
Proof.
  assert (T : forall p, sgrow (user s) (do (r, v) <- peek (parser s);
      let s := mkS r (user s) (stack s) in
      match v with
      | Ok x => scan_value cb (mkOptions [] stop) p x s
      | Err e =>
          match err_type e with
          | JsonError EofWhileParsingValue =>
              if pos_eqb p Top then vbind (parse finish s) (fun s _ => Done (s, Return (Ok tt)))
              else Done (s, Return (Err (UnbalancedJson (current_index r))))
          | _ => Done (s, Return (Err (RJiterError e)))
          end
      end)).
  { intros p. destruct (peek (parser s)) as [[r v]| |]; cbn [obind]; [|exact Logic.I|exact Logic.I]. cbv zeta.
    destruct v as [x|er]; [exact (sgrow_value p x (mkS r (user s) (stack s)))|].
    destruct (err_type er) as [[]| | |]; try apply Le_same.
    destruct (pos_eqb p Top); [|apply Le_same].
    apply (sgrow_vbind (user s)); [exact (sgrow_parse finish (mkS r (user s) (stack s)))|]. intros s1 v. apply Le_same. }
  destruct pos; cbn [scan_iter]; try apply T.
  - apply sgrow_vbind; [apply sgrow_object|]. intros s1 v. apply Le_same.
  - apply sgrow_vbind; [apply sgrow_object|]. intros s1 v. apply Le_same.
  - apply sgrow_vbind; [apply sgrow_array|]. intros s1 [[x|] []]; try apply Le_same. apply sgrow_value.
  - apply sgrow_vbind; [apply sgrow_array|]. intros s1 [[x|] []]; try apply Le_same. apply sgrow_value.
Qed.
Lemma sgrow_loop fuel : forall b pos s, sgrow (user s) (scan_loop cb (mkOptions [] stop) fuel b pos s).
Proof.
  induction fuel as [|fuel IH]; intros b pos s; [exact Logic.I|]. cbn [scan_loop].
  destruct (_ && _); [apply Le_same|]. pose proof (sgrow_iter pos s) as H.
  destruct (scan_iter cb _ pos s) as [[s1 [p|r]]| |]; cbn [sgrow] in H; [|exact H|exact Logic.I|exact Logic.I].
  exact (sgrow_le _ _ _ H (IH true p s1)).
Qed.

(** The two runs. *)
Inductive alike : sstate B -> sstate B -> Prop := alike_at r1 r2 u p : close r1 r2 -> alike (mkS r1 u p) (mkS r2 u p).
Definition scut {X} (x1 x2 : sres B X) : Prop :=
  match x1 with
  | Done (s1, r) => (exists s2, x2 = Done (s2, r) /\ alike s1 s2) \/ ((exists er, r = Err er) /\ sgrow (user s1) x2)
  | _ => True
  end.
Definition vcut (x1 x2 : sverdict B) : Prop :=
  match x1 with
  | Done (s1, r) => (exists s2, x2 = Done (s2, r) /\ alike s1 s2) \/ ((exists er, r = Return (Err er)) /\ sgrow (user s1) x2)
  | _ => True
  end.
Lemma scut_done {X} s1 s2 (r : result X scan_error) : alike s1 s2 -> scut (Done (s1, r)) (Done (s2, r)).
Proof. left. eauto. Qed.
Lemma vcut_done s1 s2 r : alike s1 s2 -> vcut (Done (s1, r)) (Done (s2, r)).
Proof. left. eauto. Qed.
Lemma scut_bind {X Y} (x1 x2 : sres B X) (f : sstate B -> X -> sres B Y) :
  scut x1 x2 -> (forall s1 s2 v, alike s1 s2 -> scut (f s1 v) (f s2 v)) -> (forall s v, sgrow (user s) (f s v)) ->
  scut (sbind x1 f) (sbind x2 f).
Proof.
  intros H F G. destruct x1 as [[s1 r]| |]; [|exact Logic.I|exact Logic.I]. cbn [scut] in H.
  destruct H as [(s2 & -> & Hs)|[[er ->] Hg]].
  - destruct r as [v|er]; [apply F; exact Hs|apply scut_done; exact Hs].
  - right. split; [eauto|]. apply sgrow_bind; assumption.
Qed.
Lemma vcut_bind {X} (x1 x2 : sres B X) (f : sstate B -> X -> sverdict B) :
  scut x1 x2 -> (forall s1 s2 v, alike s1 s2 -> vcut (f s1 v) (f s2 v)) -> (forall s v, sgrow (user s) (f s v)) ->
  vcut (vbind x1 f) (vbind x2 f).
Proof.
  intros H F G. destruct x1 as [[s1 r]| |]; [|exact Logic.I|exact Logic.I]. cbn [scut] in H.
  destruct H as [(s2 & -> & Hs)|[[er ->] Hg]].
  - destruct r as [v|er]; [apply F; exact Hs|apply vcut_done; exact Hs].
  - right. split; [eauto|]. apply sgrow_vbind; assumption.
Qed.
Lemma scut_begin name s1 s2 : alike s1 s2 -> scut (run_begin cb name s1) (run_begin cb name s2).
Proof.
  intros [r1 r2 u p H]. unfold run_begin. cbn [stack user parser]. destruct (context_of p) as [c| |]; cbn [obind]; [|exact Logic.I|exact Logic.I].
  destruct (find_action cb name c u) as [u' a] eqn:E. destruct (proj1 Hcb _ _ _ _ _ E) as [L G].
  destruct a as [a|]; [|apply scut_done; constructor; exact H]. destruct G as [_ G]. specialize (G r1 r2 u' H).
  destruct (a r1 u') as [[[t1 v1] op]| |]; cbn [obind acut] in *; [|exact Logic.I|exact Logic.I].
  destruct G as [(t2 & -> & Ht)|[[m ->] G]]; cbn [obind].
  - rewrite (close_index _ _ _ _ _ Ht). apply scut_done. constructor. exact Ht.
  - right. split; [eauto|]. destruct (a r2 u') as [[[t2 v2] o2]| |]; cbn [obind sgrow user]; eauto.
Qed.
Lemma scut_end_action a s1 s2 : alike s1 s2 -> scut (run_end_action a s1) (run_end_action a s2).
Proof.
  intros [r1 r2 u p H]. unfold run_end_action. destruct a as [a|]; [|apply scut_done; constructor; exact H]. cbn [user parser stack].
  destruct (a u) as [[u' r]| |]; cbn [obind]; [|exact Logic.I|exact Logic.I].
  rewrite (close_index _ _ _ _ _ H). apply scut_done. constructor. exact H.
Qed.
Lemma cut_look name s1 s2 : alike s1 s2 ->
  match look_up_end cb name s1 with
  | Done (t1, a) => exists t2, look_up_end cb name s2 = Done (t2, a) /\ alike t1 t2
  | _ => True
  end.
Proof.
  intros [r1 r2 u p H]. unfold look_up_end. cbn [stack user parser]. destruct (context_of p) as [c| |]; cbn [obind]; [|exact Logic.I|exact Logic.I].
  destruct (find_end_action cb name c u) as [u' a]. eexists. split; [reflexivity|]. constructor. exact H.
Qed.
Lemma scut_end name s1 s2 : alike s1 s2 -> scut (run_end cb name s1) (run_end cb name s2).
Proof.
  intros H. unfold run_end. pose proof (cut_look name _ _ H) as G.
  destruct (look_up_end cb name s1) as [[t1 a]| |]; cbn [obind]; [|exact Logic.I|exact Logic.I].
  destruct G as (t2 & -> & Ht). cbn [obind]. apply scut_end_action. exact Ht.
Qed.
Lemma scut_top m s1 s2 : alike s1 s2 -> scut (@top_position B m s1) (top_position m s2).
Proof.
  intros [r1 r2 u p H]. unfold top_position. cbn [stack parser]. rewrite (close_index _ _ _ _ _ H).
  destruct (top_assoc_obj _ _) as [[a|]| |]; cbn [obind]; [| |exact Logic.I|exact Logic.I].
  - destruct (pos_of a); [|exact Logic.I]. apply scut_done. constructor. exact H.
  - apply scut_done. constructor. exact H.
Qed.
Lemma scut_parse {X} (op : rj -> outcome (rj * result X rerror)) s1 s2 :
  (forall r1 r2, close r1 r2 -> rcut (op r1) (op r2)) -> alike s1 s2 -> scut (@parse B X op s1) (parse op s2).
Proof.
  intros F [r1 r2 u p H]. unfold parse. cbn [parser user stack]. specialize (F r1 r2 H).
  destruct (op r1) as [[t1 v]| |]; cbn [obind]; [|exact Logic.I|exact Logic.I]. cbn [Severed.rcut] in F.
  destruct F as [(t2 & -> & Ht)|(er & k & -> & Et)].
  - cbn [obind]. apply scut_done. constructor. exact Ht.
  - right. split; [eauto|]. destruct (op r2) as [[t2 v2]| |]; cbn [obind sgrow user]; auto.
Qed.
Lemma scut_object pos s1 s2 : alike s1 s2 -> scut (handle_object cb pos s1) (handle_object cb pos s2).
Proof.
  intros H0. unfold handle_object. cbv zeta.
  match goal with |- scut (if _ then _ else ?R) _ => let t := eval pattern s1 in R in match t with ?g _ => pose (rest := g) end end.
  assert (G : forall s, sgrow (user s) (rest s)).
  { clear s1 s2 H0. intros s. unfold rest. apply sgrow_bind.
    - destruct (pos_eqb pos ObjectBegin); [apply Le_same|].
      destruct (look_up_end cb PNone s) as [[s1 a]| |] eqn:E; cbn [obind]; [|exact Logic.I|exact Logic.I].
      destruct (look_up _ _ _ _ E) as (_ & _ & L & G).
      destruct (pop_assoc (stack s1) pos_ty) as [[p x]| |]; cbn [obind]; [|exact Logic.I|exact Logic.I].
      apply (sgrow_le _ _ _ L). exact (sgrow_end_action a (mkS (parser s1) (user s1) p) G).
    - intros s1 []. apply sgrow_bind; [apply sgrow_parse|]. intros s2 [key|].
      + destruct (push_assoc (stack s2) pos_ty _ key) as [[p x]| |]; cbn [obind]; [|exact Logic.I|exact Logic.I].
        destruct x as [x|[]]; try apply Le_same.
        apply (sgrow_bind (user s2)); [exact (sgrow_begin PNone (mkS (parser s2) (user s2) p))|]. intros s3 v. apply Le_same.
      + apply sgrow_bind; [apply sgrow_end|]. intros s3 _. apply sgrow_top. }
  assert (H : forall s1 s2, alike s1 s2 -> scut (rest s1) (rest s2)).
  { clear s1 s2 H0. intros s1 s2 H. unfold rest. apply scut_bind.
    - destruct (pos_eqb pos ObjectBegin); [apply scut_done; exact H|].
      pose proof (cut_look PNone _ _ H) as F.
      destruct (look_up_end cb PNone s1) as [[t1 a]| |]; cbn [obind]; [|exact Logic.I|exact Logic.I].
      destruct F as (t2 & -> & Ht). cbn [obind]. destruct Ht as [r1 r2 u p Hr]. cbn [stack parser user].
      destruct (pop_assoc p pos_ty) as [[p' x]| |]; cbn [obind]; [|exact Logic.I|exact Logic.I].
      apply scut_end_action. constructor. exact Hr.
    - intros t1 t2 [] Ht. apply scut_bind.
      + apply scut_parse; [|exact Ht]. intros r1 r2 Hr. destruct (pos_eqb pos ObjectBegin); apply cut_loop; exact Hr.
      + intros u1 u2 [key|] Hu.
        * destruct Hu as [r1 r2 u p Hr]. cbn [stack parser user]. rewrite (close_index _ _ _ _ _ Hr).
          destruct (push_assoc p pos_ty _ key) as [[p' x]| |]; cbn [obind]; [|exact Logic.I|exact Logic.I].
          destruct x as [x|[]]; try (apply scut_done; constructor; exact Hr).
          apply scut_bind; [apply scut_begin; constructor; exact Hr| |].
          -- intros v1 v2 v Hv. apply scut_done. exact Hv.
          -- intros v1 v. apply Le_same.
        * apply scut_bind; [apply scut_end; exact Hu| |].
          -- intros v1 v2 _ Hv. apply scut_top. exact Hv.
          -- intros v1 _. apply sgrow_top.
      + intros u1 [key|].
        * destruct (push_assoc (stack u1) pos_ty _ key) as [[p x]| |]; cbn [obind]; [|exact Logic.I|exact Logic.I].
          destruct x as [x|[]]; try apply Le_same.
          apply (sgrow_bind (user u1)); [exact (sgrow_begin PNone (mkS (parser u1) (user u1) p))|]. intros s3 v. apply Le_same.
        * apply sgrow_bind; [apply sgrow_end|]. intros s3 _. apply sgrow_top.
    - intros u1 []. apply sgrow_bind; [apply sgrow_parse|]. intros u2 [key|].
      + destruct (push_assoc (stack u2) pos_ty _ key) as [[p x]| |]; cbn [obind]; [|exact Logic.I|exact Logic.I].
        destruct x as [x|[]]; try apply Le_same.
        apply (sgrow_bind (user u2)); [exact (sgrow_begin PNone (mkS (parser u2) (user u2) p))|]. intros s3 v. apply Le_same.
      + apply sgrow_bind; [apply sgrow_end|]. intros s3 _. apply sgrow_top. }
  destruct (pos_eqb pos ObjectBegin); [|exact (H _ _ H0)].
  apply scut_bind; [apply scut_begin; exact H0| |].
  - intros t1 t2 [|] Ht; [apply scut_top; exact Ht|exact (H _ _ Ht)].
  - intros t1 [|]; [apply sgrow_top|exact (G t1)].
Qed.
Lemma scut_array pos s1 s2 : alike s1 s2 -> scut (handle_array cb pos s1) (handle_array cb pos s2).
Proof.
  intros H0. unfold handle_array. cbv zeta.
  match goal with |- scut (if _ then _ else ?R) _ => let t := eval pattern s1 in R in match t with ?g _ => pose (rest := g) end end.
  assert (T : forall (s : sstate B) (x : option byte * position), sgrow (user s) (Done (s, @Ok _ scan_error x))) by (intros; apply Le_same).
  assert (K : forall s (peeked : option byte), sgrow (user s)
     (match peeked with
      | Some x => Done (s, Ok (Some x, ArrayMiddle))
      | None =>
          do (p, popped) <- pop_assoc (stack s) pos_ty;
          match popped with
          | Some _ => sbind (run_end cb PArray (mkS (parser s) (user s) p))
                (fun s _ => sbind (top_position "Context stack is empty when ending array" s) (fun s p => Done (s, Ok (None, p))))
          | None => Done (mkS (parser s) (user s) p, Err (InternalError (current_index (parser (mkS (parser s) (user s) p))) "Context stack is empty when ending array"))
          end
      end)).
  { intros s [x|]; [apply T|].
    destruct (pop_assoc (stack s) pos_ty) as [[p x]| |]; cbn [obind]; [|exact Logic.I|exact Logic.I].
    destruct x as [x|]; [|apply Le_same].
    apply (sgrow_bind (user s)); [exact (sgrow_end PArray (mkS (parser s) (user s) p))|]. intros s2' _.
    apply sgrow_bind; [apply sgrow_top|]. intros s3 p3. apply T. }
  assert (G : forall s, sgrow (user s) (rest s)).
  { intros s. unfold rest. apply sgrow_bind; [apply sgrow_parse|]. exact K. }
  assert (H : forall s1 s2, alike s1 s2 -> scut (rest s1) (rest s2)).
  { clear s1 s2 H0. intros s1 s2 H. unfold rest. apply scut_bind; [| |exact K].
    - apply scut_parse; [|exact H]. intros r1 r2 Hr. destruct (pos_eqb pos ArrayBegin); apply cut_loop; exact Hr.
    - intros t1 t2 [x|] Ht; [apply scut_done; exact Ht|]. destruct Ht as [r1 r2 u p Hr]. cbn [stack parser user]. rewrite (close_index _ _ _ _ _ Hr).
      destruct (pop_assoc p pos_ty) as [[p' x]| |]; cbn [obind]; [|exact Logic.I|exact Logic.I].
      destruct x as [x|]; [|apply scut_done; constructor; exact Hr].
      apply scut_bind; [apply scut_end; constructor; exact Hr| |].
      + intros v1 v2 _ Hv. apply scut_bind; [apply scut_top; exact Hv| |intros; apply T].
        intros w1 w2 w Hw. apply scut_done. exact Hw.
      + intros v1 _. apply sgrow_bind; [apply sgrow_top|]. intros; apply T. }
  destruct (pos_eqb pos ArrayBegin); [|exact (H _ _ H0)].
  apply scut_bind; [apply scut_begin; exact H0| |].
  - intros t1 t2 [|] Ht.
    + apply scut_bind; [apply scut_top; exact Ht| |intros; apply T]. intros w1 w2 w Hw. apply scut_done. exact Hw.
    + destruct Ht as [r1 r2 u p Hr]. cbn [stack parser user]. rewrite (close_index _ _ _ _ _ Hr).
      destruct (push_assoc p pos_ty _ _) as [[p' x]| |]; cbn [obind]; [|exact Logic.I|exact Logic.I].
      destruct x as [x|x]; [|apply scut_done; constructor; exact Hr].
      exact (H _ _ (alike_at _ _ u p' Hr)).
  - intros t1 [|].
    + apply sgrow_bind; [apply sgrow_top|]. intros; apply T.
    + destruct (push_assoc (stack t1) pos_ty _ _) as [[p x]| |]; cbn [obind]; [|exact Logic.I|exact Logic.I].
      destruct x as [x|x]; [|apply Le_same]. exact (G (mkS (parser t1) (user t1) p)).
Qed.
Lemma scut_basic peeked s1 s2 : alike s1 s2 ->
  match skip_basic_values peeked s1 with
  | Done (t1, r) => (exists t2 r2, skip_basic_values peeked s2 = Done (t2, r2) /\ alike t1 t2 /\ r2 = r) \/ (user t1 = user s1 /\ exists er, r = Err er)
  | _ => True
  end.
Proof.
  intros H. unfold skip_basic_values. cbv zeta.
  assert (F : forall X (op : rj -> outcome (rj * result X rerror)), (forall r1 r2, close r1 r2 -> rcut (op r1) (op r2)) ->
    match sbind (parse op s1) (fun s _ => Done (s, Ok tt)) with
    | Done (t1, r) => (exists t2 r2, sbind (parse op s2) (fun s _ => Done (s, Ok tt)) = Done (t2, r2) /\ alike t1 t2 /\ r2 = r) \/ (user t1 = user s1 /\ exists er : scan_error, r = Err er)
    | _ => True
    end).
  { intros X op F. destruct H as [r1 r2 u p H]. unfold parse. cbn [parser user stack]. specialize (F r1 r2 H).
    destruct (op r1) as [[t1 v]| |]; cbn [obind sbind]; [|exact Logic.I|exact Logic.I]. cbn [Severed.rcut] in F.
    destruct F as [(t2 & -> & Ht)|(er & k & -> & Et)].
    - cbn [obind]. destruct v as [v|v]; cbn [sbind]; left; eexists _, _; (split; [reflexivity|]); (split; [|reflexivity]); constructor; exact Ht.
    - cbn [sbind]. right. split; [reflexivity|]. eauto. }
  destruct (N.eqb peeked QUOTE).
  { apply F. intros r1 r2 Hr. pose proof (cut_long _ _ _ _ _ (mkWriter [] None) Hr) as G.
    destruct (write_long_bytes r1 _) as [[[t1 w1] v]| |]; cbn [obind]; [|exact Logic.I|exact Logic.I]. cbn [wcut] in G.
    destruct G as [(t2 & -> & Ht)|[Hb _]]; cbn [obind]; [left; eauto|right; exact Hb]. }
  destruct (N.eqb peeked PeekNull); [apply F; intros; apply cut_loop; assumption|].
  destruct (N.eqb peeked PeekTrue); [apply F; intros; apply cut_loop; assumption|].
  destruct (N.eqb peeked PeekFalse); [apply F; intros; apply cut_loop; assumption|].
  destruct H as [r1 r2 u p H]. cbn [parser user stack].
  pose proof (cut_loop e q q' j_next_number_bytes None true r1 r2 H) as G.
  change (loop_until_success j_next_number_bytes None true) with next_number_bytes in G.
  destruct (next_number_bytes r1) as [[t1 v]| |]; cbn [obind]; [|exact Logic.I|exact Logic.I]. cbn [Severed.rcut] in G.
  destruct G as [(t2 & -> & Ht)|(er & k & -> & Et)].
  - cbn [obind]. left. eexists _, _. split; [reflexivity|]. split; [constructor; exact Ht|].
    rewrite (close_index _ _ _ _ _ Ht). reflexivity.
  - right. split; [reflexivity|]. eauto.
Qed.
Lemma vcut_value pos peeked s1 s2 : alike s1 s2 ->
  vcut (scan_value cb (mkOptions [] stop) pos peeked s1) (scan_value cb (mkOptions [] stop) pos peeked s2).
Proof.
  intros H. unfold scan_value. cbv zeta.
  destruct (N.eqb peeked LBRACK); [apply vcut_done; exact H|]. destruct (N.eqb peeked LBRACE); [apply vcut_done; exact H|].
  assert (T : forall s (v : bool), sgrow (user s)
     (if v then Done (s, Continue match pos with ObjectBetweenKV => ObjectMiddle | p => p end)
      else do (s, r) <- skip_basic_values peeked s;
           match r with
           | Ok _ => Done (s, Continue match pos with ObjectBetweenKV => ObjectMiddle | p => p end)
           | Err _ =>
               do (s, skipped) <-
                 (if pos_eqb match pos with ObjectBetweenKV => ObjectMiddle | p => p end Top ||
                     ((pos_eqb match pos with ObjectBetweenKV => ObjectMiddle | p => p end ArrayBegin ||
                       pos_eqb match pos with ObjectBetweenKV => ObjectMiddle | p => p end ArrayMiddle) && (pool_len (stack s) =? 2))
                  then skip_tokens (sse_tokens (mkOptions [] stop)) s else Done (s, false));
               if skipped : bool then Done (s, Continue match pos with ObjectBetweenKV => ObjectMiddle | p => p end)
               else Done (s, Return (Err (UnhandledPeek peeked (current_index (parser s)))))
           end)).
  { intros s [|]; [apply Le_same|].
    destruct (skip_basic_values peeked s) as [[t v]| |] eqn:E; cbn [obind]; [|exact Logic.I|exact Logic.I].
    rewrite <- (basic_same _ _ _ _ E). destruct v as [v|v]; [apply Le_same|]. cbn [sse_tokens skip_tokens].
    destruct (_ || _); apply Le_same. }
  apply vcut_bind; [apply scut_begin; exact H| |exact T].
  intros t1 t2 [|] Ht; [apply vcut_done; exact Ht|].
  pose proof (scut_basic peeked _ _ Ht) as G. specialize (T t2 false). cbv iota in T.
  destruct (skip_basic_values peeked t1) as [[u1 v]| |]; cbn [obind]; [|exact Logic.I|exact Logic.I].
  destruct G as [(u2 & v2 & -> & Hu & ->)|[Eu [er ->]]].
  - cbn [obind]. destruct v as [v|v]; [apply vcut_done; exact Hu|]. destruct Hu as [r1 r2 u p Hr].
    cbn [sse_tokens skip_tokens stack parser]. clear T.
    destruct (_ || _); cbn [obind parser]; rewrite (close_index _ _ _ _ _ Hr); apply vcut_done; constructor; exact Hr.
  - cbn [sse_tokens skip_tokens]. cbn [sse_tokens skip_tokens] in T.
    assert (Eu2 : user t2 = user u1) by (rewrite Eu; destruct Ht; reflexivity).
    rewrite Eu2 in T. match goal with |- vcut (obind (if ?b then _ else _) _) _ => destruct b end; cbn [obind]; right; (split; [eauto|exact T]).
Qed.
Lemma vcut_iter pos s1 s2 : alike s1 s2 ->
  vcut (scan_iter cb (mkOptions [] stop) pos s1) (scan_iter cb (mkOptions [] stop) pos s2).
Proof.
  intros H.
  assert (T : forall p, p = Top \/ p = ObjectBetweenKV ->
    vcut (scan_iter cb (mkOptions [] stop) p s1) (scan_iter cb (mkOptions [] stop) p s2)).
  { intros p Hp. pose proof (sgrow_iter p s2) as K.
    assert (E : forall s, scan_iter cb (mkOptions [] stop) p s =
      do (r, v) <- peek (parser s);
      let s := mkS r (user s) (stack s) in
      match v with
      | Ok x => scan_value cb (mkOptions [] stop) p x s
      | Err e =>
          match err_type e with
          | JsonError EofWhileParsingValue =>
              if pos_eqb p Top then vbind (parse finish s) (fun s _ => Done (s, Return (Ok tt)))
              else Done (s, Return (Err (UnbalancedJson (current_index r))))
          | _ => Done (s, Return (Err (RJiterError e)))
          end
      end) by (destruct Hp as [-> | ->]; reflexivity).
    rewrite E in K. rewrite !E. clear E. destruct H as [r1 r2 u p' H]. cbn [parser user stack] in *.
    pose proof (cut_loop e q q' j_peek None false r1 r2 H) as G.
    change (loop_until_success j_peek None false) with peek in G.
    destruct (peek r1) as [[t1 v]| |]; cbn [obind]; [|exact Logic.I|exact Logic.I]. cbn [Severed.rcut] in G.
    destruct G as [(t2 & E2 & Ht)|(er & k & -> & Et)].
    - rewrite E2. cbn [obind]. cbv zeta. destruct v as [x|er]; [apply vcut_value; constructor; exact Ht|].
      rewrite (close_index _ _ _ _ _ Ht).
      destruct (err_type er) as [[]| | |]; try (apply vcut_done; constructor; exact Ht).
      destruct (pos_eqb p Top); [|apply vcut_done; constructor; exact Ht].
      apply vcut_bind.
      + apply scut_parse; [intros; apply cut_finish; assumption|]. constructor. exact Ht.
      + intros v1 v2 [] Hv. apply vcut_done. exact Hv.
      + intros v1 _. apply Le_same.
    - cbv zeta. rewrite Et. right. split; [eauto|]. exact K. }
  destruct pos; try (apply T; tauto); cbn [scan_iter].
  - apply vcut_bind; [apply scut_object; exact H| |intros; apply Le_same]. intros t1 t2 v Ht. apply vcut_done. exact Ht.
  - apply vcut_bind; [apply scut_object; exact H| |intros; apply Le_same]. intros t1 t2 v Ht. apply vcut_done. exact Ht.
  - apply vcut_bind; [apply scut_array; exact H| |].
    + intros t1 t2 [[x|] []] Ht; try (apply vcut_done; exact Ht); try (apply vcut_value; exact Ht);
        destruct Ht as [r1 r2 u p Hr]; cbn [parser]; rewrite ?(close_index _ _ _ _ _ Hr); try (apply vcut_done; constructor; exact Hr).
    + intros t1 [[x|] []]; try apply Le_same. apply sgrow_value.
  - apply vcut_bind; [apply scut_array; exact H| |].
    + intros t1 t2 [[x|] []] Ht; try (apply vcut_done; exact Ht); try (apply vcut_value; exact Ht);
        destruct Ht as [r1 r2 u p Hr]; cbn [parser]; rewrite ?(close_index _ _ _ _ _ Hr); try (apply vcut_done; constructor; exact Hr).
    + intros t1 [[x|] []]; try apply Le_same. apply sgrow_value.
Qed.
Lemma scut_loop fuel : forall b pos s1 s2, alike s1 s2 ->
  scut (scan_loop cb (mkOptions [] stop) fuel b pos s1) (scan_loop cb (mkOptions [] stop) fuel b pos s2).
Proof.
  induction fuel as [|fuel IH]; intros b pos s1 s2 H; [exact Logic.I|].
  pose proof (vcut_iter pos _ _ H) as G. cbn [scan_loop].
  destruct (_ && _); [apply scut_done; exact H|].
  destruct (scan_iter cb _ pos s1) as [[t1 [p|r]]| |]; cbn [vcut] in G; [| |exact Logic.I|exact Logic.I].
  - destruct G as [(t2 & -> & Ht)|[[er E] _]]; [|discriminate]. apply IH. exact Ht.
  - destruct G as [(t2 & -> & Ht)|[[er E] G]]; [apply scut_done; exact Ht|]. injection E as ->.
    right. split; [eauto|]. destruct (scan_iter cb _ pos s2) as [[t2 [p|r]]| |]; [|exact G|exact Logic.I|exact Logic.I].
    exact (sgrow_le _ _ _ G (sgrow_loop fuel true p t2)).
Qed.
Lemma scut_scan fuel s1 s2 : alike s1 s2 -> scut (scan cb (mkOptions [] stop) fuel s1) (scan cb (mkOptions [] stop) fuel s2).
Proof.
  intros [r1 r2 u p H]. unfold scan. cbn [stack parser user].
  destruct (push_assoc p pos_ty _ _) as [[p' x]| |]; cbn [obind]; [|exact Logic.I|exact Logic.I].
  cbv zeta. destruct x as [x|x]; [apply scut_loop; constructor; exact H|].
  cbn [parser]. rewrite (close_index _ _ _ _ _ H). apply scut_done. constructor. exact H.
Qed.
End Scanner.
