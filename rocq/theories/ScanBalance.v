(** The names in the working buffer, whatever the input and the callbacks. *)
From Verif Require Import Base U8Pool PoolSpec PoolProofs Buffer Jiter RJiter RJiterSpec Scan ScanSpec ScanParser ScanStack ScanProofs ScanTop EndsSpec.

Section Balance.
Context {B : Type} (cb : callbacks B) (o : options) (d : dims) (es0 : list entry).
Definition key_entry (k : bytes) : entry := (pos_code ObjectMiddle, k).
Inductive inner : list entry -> Prop :=
| in_nil : inner []
| in_key k es : inner es -> inner (key_entry k :: es)
| in_array es : inner es -> inner (array_entry :: es).
(** What the position says about the innermost name. *)
Definition fitting (p : position) (es : list entry) : Prop :=
  inner es /\
  match p with
  | Top => es = []
  | ObjectMiddle | ObjectBetweenKV => exists k es', es = key_entry k :: es'
  | ArrayMiddle => exists es', es = array_entry :: es'
  | ObjectBegin | ArrayBegin => True
  end.
Definition names_are (es : list entry) (p : pool) : Prop := stack_of d p (es ++ top_entry :: es0).
Definition held (pos : position) (s : sstate B) : Prop := exists es, fitting pos es /\ names_are es (stack s).
Definition holds {X} (x : sres B X) (Q : sstate B -> X -> Prop) : Prop :=
  match x with Done (s, Ok v) => Q s v | Done (_, Err e) => ~ impossible e | _ => True end.
Lemma possible e : (forall i m, e <> InternalError i m) -> ~ impossible e.
Proof. intros H (i & m & E & _). exact (H _ _ E). Qed.
Ltac fine := apply possible; discriminate.
Lemma holds_sbind {X Y} (x : sres B X) (f : sstate B -> X -> sres B Y) Q R : holds x Q -> (forall s v, Q s v -> holds (f s v) R) -> holds (sbind x f) R.
Proof. destruct x as [[s [v|e]]| |]; cbn; auto. Qed.
Definition same {X} (s : sstate B) : sstate B -> X -> Prop := fun s' _ => stack s' = stack s.
Lemma parse_same {X} (op : rj -> outcome (rj * result X rerror)) s : holds (parse op s) (same s).
Proof. unfold parse. destruct (op (parser s)) as [[r [v|e]]| |]; cbn; try exact I; [reflexivity|fine]. Qed.
Lemma begin_same name s : holds (run_begin cb name s) (same s).
Proof.
  unfold run_begin. destruct (context_of (stack s)) as [c| |]; cbn [obind holds]; auto. destruct (find_action cb name c (user s)) as [u [act|]]; [|reflexivity].
  destruct (act (parser s) u) as [[[r u'] op]| |]; cbn; auto. destruct op; cbn; [reflexivity|reflexivity|fine].
Qed.
Lemma end_action_same a s : holds (run_end_action a s) (same s).
Proof. destruct a as [act|]; [|reflexivity]. cbn. destruct (act (user s)) as [[u [[]|m]]| |]; cbn; auto; [reflexivity|fine]. Qed.
Lemma run_end_same name s : holds (run_end cb name s) (same s).
Proof.
  unfold run_end, look_up_end. destruct (context_of (stack s)) as [c| |]; cbn [obind holds]; auto.
  destruct (find_end_action cb name c (user s)) as [u a]. cbn [obind].
  exact (end_action_same a (mkS (parser s) u (stack s))).
Qed.
Lemma position_held m es s : inner es -> names_are es (stack s) -> holds (top_position m s) (fun s' p => held p s').
Proof.
  intros Hi Hn. unfold top_position. rewrite (stack_top _ _ _ Hn). cbn [obind].
  destruct Hi as [|k es Hi|es Hi]; cbn [app key_entry array_entry top_entry obind]; cbn [holds]; eexists; (split; [|exact Hn]); split; try constructor; eauto.
Qed.
Lemma object_held pos s : pos = ObjectBegin \/ pos = ObjectMiddle -> held pos s -> holds (handle_object cb pos s) (fun s' p => held p s').
Proof.
  intros Hp (es & (Hi & Hf) & Hn). unfold handle_object.
  assert (HK : forall es s, inner es -> names_are es (stack s) -> forall op, holds (sbind (parse op s)
      (fun s keyr =>
    match keyr with
    | None =>
        sbind (run_end cb PObject s) (fun s _ => top_position "Context stack is empty when ending object" s)
    | Some key =>
        do (p, pushed) <- push_assoc (stack s) pos_ty [pos_code ObjectMiddle] key;
        let s := mkS (parser s) (user s) p in
        match pushed with
        | Err (SliceLimitExceeded max) => Done (s, Err (MaxNestingExceeded (current_index (parser s)) max))
        | Err _ => Done (s, Err (InternalError (current_index (parser s)) "Failed to push key to context pool"))
        | Ok _ =>
            sbind (run_begin cb PNone s)
              (fun s consumed => Done (s, Ok (if consumed then ObjectMiddle else ObjectBetweenKV)))
        end
    end)) (fun s' p => held p s')).
  { clear. intros es s Hi Hn op. eapply holds_sbind; [apply parse_same|]. intros s1 keyr Es. unfold same in Es. destruct keyr as [key|].
    - rewrite Es. destruct (stack_push d (stack s) _ (pos_code ObjectMiddle) key Hn) as (p & r & Ep & H). rewrite Ep. cbn [obind].
      destruct (admit_name d (path_of (es ++ top_entry :: es0)) key) as [x|].
      + destruct H as (_ & e & -> & _). cbn [holds]. destruct e; try (intros (i & m & E & Hm); injection E as _ <-; apply Hm; reflexivity). fine.
      + destruct H as (-> & H). eapply holds_sbind; [apply begin_same|]. intros s2 consumed Es2. unfold same in Es2. cbn [stack] in Es2. cbn [holds].
        exists (key_entry key :: es). split; [split; [constructor; exact Hi|destruct consumed; eauto]|]. unfold names_are. rewrite Es2. exact H.
    - eapply holds_sbind; [apply run_end_same|]. intros s2 ? Es2. unfold same in Es2. apply position_held with es; [exact Hi|]. unfold names_are. rewrite Es2, Es. exact Hn. }
  destruct Hp as [-> | ->].
  - change (pos_eqb ObjectBegin ObjectBegin) with true. cbv beta zeta iota.
    eapply holds_sbind; [apply begin_same|]. intros s1 consumed Es. unfold same in Es.
    assert (Hn1 : names_are es (stack s1)) by (unfold names_are; rewrite Es; exact Hn). destruct consumed.
    + apply position_held with es; auto.
    + cbn [sbind]. apply (HK es s1 Hi Hn1 next_object_bytes).
  - change (pos_eqb ObjectMiddle ObjectBegin) with false. cbv beta zeta iota. 
    destruct Hf as (k & es' & ->). assert (Hi' : inner es') by (inversion Hi; assumption).
    apply holds_sbind with (fun s' (_ : unit) => names_are es' (stack s')).
    + unfold look_up_end. rewrite (stack_context _ _ _ Hn). cbn [obind].
      match goal with |- context [find_end_action cb PNone ?c ?u] => destruct (find_end_action cb PNone c u) as [u1 a] end. cbn [obind stack parser user].
      destruct (stack_pop _ _ _ _ _ Hn) as (p & Ep & H). rewrite Ep. cbn [obind].
      pose proof (end_action_same a (mkS (parser s) u1 p)) as K. destruct (run_end_action a (mkS (parser s) u1 p)) as [[s2 [v|e]]| |]; cbn [holds] in *; auto.
      unfold same in K. cbn [stack] in K. rewrite K. exact H.
    + intros s1 v1 Hn1. apply (HK es' s1 Hi' Hn1 next_key_bytes).
Qed.
Definition element_held (s : sstate B) (r : option byte * position) : Prop :=
  held (snd r) s /\ match fst r with Some _ => snd r = ArrayMiddle | None => True end.
Lemma array_held pos s : pos = ArrayBegin \/ pos = ArrayMiddle -> held pos s -> holds (handle_array cb pos s) element_held.
Proof.
  intros Hp (es & (Hi & Hf) & Hn). unfold handle_array.
  assert (HP : forall m s es, inner es -> names_are es (stack s) -> holds (sbind (top_position m s) (fun s p => Done (s, Ok (None, p)))) element_held).
  { intros m s1 es1 Hi1 Hn1. eapply holds_sbind; [apply position_held with es1; auto|]. intros s2 p H. split; [exact H|exact I]. }
  assert (HK : forall es s, inner es -> names_are (array_entry :: es) (stack s) -> forall op, holds (sbind (parse op s)
      (fun s peeked =>
    match peeked with
    | Some x => Done (s, Ok (Some x, ArrayMiddle))
    | None =>
        do (p, popped) <- pop_assoc (stack s) pos_ty;
        let s := mkS (parser s) (user s) p in
        match popped with
        | None => Done (s, Err (InternalError (current_index (parser s)) "Context stack is empty when ending array"))
        | Some _ => sbind (run_end cb PArray s) (fun s _ => 
            sbind (top_position "Context stack is empty when ending array" s) (fun s p => Done (s, Ok (None, p))))
        end
    end)) element_held).
  { clear - HP. intros es s Hi Hn op. eapply holds_sbind; [apply parse_same|]. intros s1 [x|] Es; unfold same in Es.
    - split; [|reflexivity]. exists (array_entry :: es). split; [split; [constructor; exact Hi|cbn; eauto]|]. unfold names_are. rewrite Es. exact Hn.
    - rewrite Es. destruct (stack_pop _ _ _ _ _ Hn) as (p & Ep & H). rewrite Ep. cbn [obind].
      eapply holds_sbind; [apply run_end_same|]. intros s2 u2 Es2. unfold same in Es2. cbn [stack] in Es2. apply HP with es; [exact Hi|].
      unfold names_are. rewrite Es2. exact H. }
  destruct Hp as [-> | ->].
  - change (pos_eqb ArrayBegin ArrayBegin) with true. cbv beta zeta iota.
    eapply holds_sbind; [apply begin_same|]. intros s1 consumed Es. unfold same in Es.
    assert (Hn1 : names_are es (stack s1)) by (unfold names_are; rewrite Es; exact Hn). destruct consumed.
    + apply HP with es; auto.
    + destruct (stack_push d (stack s1) _ (pos_code ArrayMiddle) (bs "#array") Hn1) as (p & r & Ep & H). rewrite Ep. cbn [obind].
      destruct (admit_name d _ (bs "#array")) as [x|].
      * destruct H as (_ & e & -> & _). cbn [holds]. fine.
      * destruct H as (-> & H). apply (HK es (mkS (parser s1) (user s1) p) Hi H known_array).
  - change (pos_eqb ArrayMiddle ArrayBegin) with false. cbv beta zeta iota.
    destruct Hf as (es' & ->). apply (HK es' s); [inversion Hi; assumption|exact Hn].
Qed.
Definition next_held (v : sverdict B) : Prop :=
  match v with
  | Done (s, Continue p) => held p s
  | Done (s, Return (Ok _)) => names_are [] (stack s)
  | Done (s, Return (Err e)) => ~ impossible e
  | _ => True
  end.
Lemma next_vbind {X} (x : sres B X) f Q : holds x Q -> (forall s v, Q s v -> next_held (f s v)) -> next_held (vbind x f).
Proof. destruct x as [[s [v|e]]| |]; cbn; auto. Qed.
Lemma skip_same x s : holds (skip_basic_values x s) (same s).
Proof.
  assert (HI : forall X (op : rj -> outcome (rj * result X rerror)), holds (sbind (parse op s) (fun s _ => Done (s, Ok tt))) (same s)).
  { intros X op. eapply holds_sbind; [apply parse_same|]. intros s1 v H. exact H. }
  unfold skip_basic_values. destruct (N.eqb x QUOTE); [apply HI|]. destruct (N.eqb x PeekNull); [apply HI|]. destruct (N.eqb x PeekTrue); [apply HI|].
  destruct (N.eqb x PeekFalse); [apply HI|]. destruct (next_number_bytes (parser s)) as [[r [v|e]]| |]; cbn; auto; [reflexivity|fine].
Qed.
Lemma skip_err_same x (s s' : sstate B) e : skip_basic_values x s = Done (s', Err e) -> stack s' = stack s.
Proof.
  assert (HI : forall X (op : rj -> outcome (rj * result X rerror)), sbind (parse op s) (fun s _ => Done (s, Ok tt)) = Done (s', Err e) -> stack s' = stack s).
  { intros X op. unfold parse. destruct (op (parser s)) as [[r [v|e1]]| |]; cbn; try discriminate. intros E. injection E as <- _. reflexivity. }
  unfold skip_basic_values. destruct (N.eqb x QUOTE); [apply HI|]. destruct (N.eqb x PeekNull); [apply HI|]. destruct (N.eqb x PeekTrue); [apply HI|].
  destruct (N.eqb x PeekFalse); [apply HI|]. destruct (next_number_bytes (parser s)) as [[r [v|e1]]| |]; cbn; try discriminate. intros E. injection E as <- _. reflexivity.
Qed.
Lemma tokens_same ts : forall (s s' : sstate B) b, skip_tokens ts s = Done (s', b) -> stack s' = stack s.
Proof.
  induction ts as [|t ts IH]; intros s s' b E; cbn in E; [injection E as <- _; reflexivity|].
  destruct (known_skip_token t (parser s)) as [[r [v|e]]| |]; cbn in E; try discriminate; [injection E as <- _; reflexivity|].
  apply IH in E. exact E.
Qed.
Lemma settled_fitting p es : p = Top \/ p = ObjectBetweenKV \/ p = ArrayMiddle -> fitting p es -> fitting (settle p) es.
Proof. intros [-> | [-> | ->]] H; exact H. Qed.
Lemma value_held pos x s : pos = Top \/ pos = ObjectBetweenKV \/ pos = ArrayMiddle -> held pos s -> next_held (scan_value cb o pos x s).
Proof.
  intros Hp (es & Hf & Hn). unfold scan_value. fold (settle pos). destruct (N.eqb x LBRACK); [exists es; split; [split; [apply Hf|exact I]|exact Hn]|].
  destruct (N.eqb x LBRACE); [exists es; split; [split; [apply Hf|exact I]|exact Hn]|].
  eapply next_vbind; [apply begin_same|]. intros s1 consumed Es. unfold same in Es.
  assert (HC : forall s', stack s' = stack s -> held (settle pos) s').
  { intros s' E. exists es. split; [apply settled_fitting; auto|]. unfold names_are. rewrite E. exact Hn. }
  destruct consumed; [apply HC, Es|]. pose proof (skip_same x s1) as K. pose proof (skip_err_same x s1) as K2. unfold same in K. cbv beta zeta.
  destruct (skip_basic_values x s1) as [[s2 [v|e]]| |]; cbn [obind next_held holds] in *; auto; [apply HC; congruence|].
  specialize (K2 s2 e eq_refl).
  destruct (_ || _)%bool; [|cbn; fine]. destruct (skip_tokens (sse_tokens o) s2) as [[s3 b]| |] eqn:E3; cbn [obind]; try exact I.
  apply tokens_same in E3. destruct b; [apply HC; congruence|cbn; fine].
Qed.
Lemma iter_held pos s : held pos s -> next_held (scan_iter cb o pos s).
Proof.
  intros H. destruct pos; cbn [scan_iter].
  - destruct (peek (parser s)) as [[r [x|e]]| |]; cbn [obind]; try exact I.
    + apply value_held; auto.
    + destruct (err_type e) as [j| | |]; try (cbn; fine). destruct j; try (cbn; fine).
      eapply next_vbind; [apply parse_same|]. intros s1 u Es. unfold same in Es. cbn [stack] in Es. cbn. rewrite Es. destruct H as (es & (_ & ->) & Hn). exact Hn.
  - eapply next_vbind; [apply object_held; auto|]. intros s1 p H1. exact H1.
  - eapply next_vbind; [apply object_held; auto|]. intros s1 p H1. exact H1.
  - destruct (peek (parser s)) as [[r [x|e]]| |]; cbn [obind]; try exact I.
    + apply value_held; auto.
    + destruct (err_type e) as [j| | |]; try (cbn; fine). destruct j; cbn; fine.
  - eapply next_vbind; [apply array_held; auto|]. intros s1 [[x|] p] (H1 & H2); cbn in H1, H2; [subst p; apply value_held; auto|exact H1].
  - eapply next_vbind; [apply array_held; auto|]. intros s1 [[x|] p] (H1 & H2); cbn in H1, H2; [subst p; apply value_held; auto|exact H1].
Qed.
Lemma loop_held fuel : forall progressed pos s s' v, held pos s -> scan_loop cb o fuel progressed pos s = Done (s', Ok v) -> names_are [] (stack s').
Proof.
  induction fuel as [|fuel IH]; intros progressed pos s s' v H E; [discriminate|]. cbn [scan_loop] in E.
  destruct (progressed && stop_early o && pos_eqb pos Top)%bool eqn:Eb.
  - injection E as <- _. apply andb_true_iff in Eb as (_ & Eb). destruct pos; try discriminate. destruct H as (es & (_ & ->) & Hn). exact Hn.
  - pose proof (iter_held pos s H) as K. destruct (scan_iter cb o pos s) as [[s1 [p|r]]| |]; try discriminate; [eapply IH; eauto|].
    injection E as <- ->. exact K.
Qed.
Lemma loop_fine fuel : forall progressed pos s s' e, held pos s -> scan_loop cb o fuel progressed pos s = Done (s', Err e) -> ~ impossible e.
Proof.
  induction fuel as [|fuel IH]; intros progressed pos s s' e H E; [discriminate|]. cbn [scan_loop] in E.
  destruct (progressed && stop_early o && pos_eqb pos Top)%bool eqn:Eb; [discriminate|].
  pose proof (iter_held pos s H) as K. destruct (scan_iter cb o pos s) as [[s1 [p|r]]| |]; try discriminate; [eapply IH; eauto|].
  injection E as <- ->. exact K.
Qed.
End Balance.
(** A scan that succeeds leaves one name more than it found: [#top]. *)
Lemma scan_leaves_top {B} (cb : callbacks B) o fuel d s es s' v : stack_of d (stack s) es ->
  scan cb o fuel s = Done (s', Ok v) -> stack_of d (stack s') (top_entry :: es).
Proof.
  intros Hst E. destruct (scan_enters cb o d s es Hst) as (p & K). destruct (admit_name d (path_of es) (bs "#top")).
  - rewrite K in E. discriminate.
  - destruct K as (Hp & K). rewrite K in E. eapply (loop_held cb o d es) in E; [exact E|]. exists []. split; [split; [constructor|reflexivity]|exact Hp].
Qed.
(** A scan never reports an impossible situation. *)
Lemma scan_never_impossible {B} (cb : callbacks B) o fuel d s es s' e : stack_of d (stack s) es ->
  scan cb o fuel s = Done (s', Err e) -> ~ impossible e.
Proof.
  intros Hst E. destruct (scan_enters cb o d s es Hst) as (p & K). destruct (admit_name d (path_of es) (bs "#top")).
  - rewrite K in E. injection E as _ <-. apply possible. discriminate.
  - destruct K as (Hp & K). rewrite K in E. eapply (loop_fine cb o d es) in E; [exact E|]. exists []. split; [split; [constructor|reflexivity]|exact Hp].
Qed.
