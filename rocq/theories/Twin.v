(** Two runs of a converter that differ only in the writer: the second writer takes everything. As long as the first writer takes
    everything, the runs are the same; once it has failed, the first run ends with an error. *)
From Verif Require Import Base U8Pool Buffer Jiter RJiter Scan ScanSpec ScanParser.

Section Twin.
Context {B : Type} (R dead : B -> B -> Prop).
(** The states of the two runs, in step; after the first one has failed. *)
Definition pair (s1 s2 : sstate B) : Prop := parser s1 = parser s2 /\ stack s1 = stack s2 /\ R (user s1) (user s2).
Definition bad {X} (v : result X scan_error) : Prop := exists e, v = Err e.
Definition bad_verdict (v : verdict) : Prop := exists e, v = Return (Err e).
Definition twin {X} (fails : X -> Prop) (x1 x2 : outcome (sstate B * X)) : Prop :=
  match x1, x2 with
  | Done (s1, v1), Done (s2, v2) => pair s1 s2 /\ v1 = v2 \/ fails v1 /\ dead (user s1) (user s2)
  | Done (_, v1), _ => fails v1
  | Panic, Panic | Diverge, Diverge => True
  | _, _ => False
  end.
Definition keeps {X} (u : B) (x : outcome (sstate B * X)) : Prop :=
  match x with Done (s, _) => dead u (user s) | _ => True end.

(** Callbacks that fit. *)
Definition twin_op (x1 x2 : outcome (rj * B * stream_op)) : Prop :=
  match x1, x2 with
  | Done (r1, u1, o1), Done (r2, u2, o2) => (r1 = r2 /\ R u1 u2 /\ o1 = o2) \/ (exists m, o1 = OpError m) /\ dead u1 u2
  | Done (_, _, o1), _ => exists m, o1 = OpError m
  | Panic, Panic | Diverge, Diverge => True
  | _, _ => False
  end.
Definition keeps_op (u : B) (x : outcome (rj * B * stream_op)) : Prop := match x with Done (_, u2, _) => dead u u2 | _ => True end.
Definition twin_end (x1 x2 : outcome (B * result unit string)) : Prop :=
  match x1, x2 with
  | Done (u1, v1), Done (u2, v2) => (R u1 u2 /\ v1 = v2) \/ (exists m, v1 = Err m) /\ dead u1 u2
  | Done (_, v1), _ => exists m, v1 = Err m
  | Panic, Panic | Diverge, Diverge => True
  | _, _ => False
  end.
Definition keeps_end (u : B) (x : outcome (B * result unit string)) : Prop := match x with Done (u2, _) => dead u u2 | _ => True end.
Context (cb : callbacks B).
Record twins : Prop := {
  tw_begin : forall name x r u1 u2, R u1 u2 ->
    match find_action cb name x u1, find_action cb name x u2 with
    | (v1, None), (v2, None) => R v1 v2
    | (v1, Some f1), (v2, Some f2) => twin_op (f1 r v1) (f2 r v2)
    | _, _ => False
    end;
  tw_end : forall name x u1 u2, R u1 u2 ->
    match find_end_action cb name x u1, find_end_action cb name x u2 with
    | (v1, None), (v2, None) => R v1 v2
    | (v1, Some f1), (v2, Some f2) => R v1 v2 /\ twin_end (f1 v1) (f2 v2)
    | _, _ => False
    end;
  tw_keep : forall name x r u u2, dead u u2 ->
    match find_action cb name x u2 with
    | (v2, None) => dead u v2
    | (v2, Some f) => keeps_op u (f r v2)
    end;
  tw_keep_end : forall name x u u2, dead u u2 ->
    match find_end_action cb name x u2 with
    | (v2, None) => dead u v2
    | (v2, Some f) => dead u v2 /\ keeps_end u (f v2)
    end }.
Context (T : twins).

Lemma twin_done {X} (fails : X -> Prop) s1 s2 v : pair s1 s2 -> twin fails (Done (s1, v)) (Done (s2, v)).
Proof. intros H. left. auto. Qed.
Lemma twin_bind {X Y} (x1 x2 : sres B X) (f g : sstate B -> X -> sres B Y) : twin bad x1 x2 -> (forall s1 s2 v, pair s1 s2 -> twin bad (f s1 v) (g s2 v)) ->
  (forall u s v, dead u (user s) -> keeps u (g s v)) -> twin bad (sbind x1 f) (sbind x2 g).
Proof.
  intros H1 H2 H3. destruct x1 as [[s1 [v1|e1]]| |], x2 as [[s2 v2]| |]; cbn in *; try contradiction; auto.
  - destruct H1 as [(Hp & <-)|((e & E) & _)]; [|discriminate]. apply H2, Hp.
  - destruct H1 as (e & E). discriminate.
  - destruct H1 as (e & E). discriminate.
  - destruct H1 as [(Hp & <-)|(_ & Hd)]; [left; auto|]. destruct v2 as [v2|e2]; [|right; split; [eexists; reflexivity|exact Hd]].
    pose proof (H3 _ _ v2 Hd) as Hk. unfold twin, keeps in *. destruct (g s2 v2) as [[s3 v3]| |]; [right; split; [eexists; reflexivity|exact Hk]| |]; eexists; reflexivity.
  - eexists. reflexivity.
  - eexists. reflexivity.
Qed.
Lemma keeps_bind {X Y} u (x : sres B X) (f : sstate B -> X -> sres B Y) : keeps u x -> (forall s v, dead u (user s) -> keeps u (f s v)) -> keeps u (sbind x f).
Proof. intros H1 H2. destruct x as [[s [v|e]]| |]; cbn in *; auto. Qed.
Lemma twin_vbind {X} (x1 x2 : sres B X) (f g : sstate B -> X -> sverdict B) : twin bad x1 x2 -> (forall s1 s2 v, pair s1 s2 -> twin bad_verdict (f s1 v) (g s2 v)) ->
  (forall u s v, dead u (user s) -> keeps u (g s v)) -> twin bad_verdict (vbind x1 f) (vbind x2 g).
Proof.
  intros H1 H2 H3. destruct x1 as [[s1 [v1|e1]]| |], x2 as [[s2 v2]| |]; cbn in *; try contradiction; auto.
  - destruct H1 as [(Hp & <-)|((e & E) & _)]; [|discriminate]. apply H2, Hp.
  - destruct H1 as (e & E). discriminate.
  - destruct H1 as (e & E). discriminate.
  - destruct H1 as [(Hp & <-)|(_ & Hd)]; [left; auto|]. destruct v2 as [v2|e2]; [|right; split; [eexists; reflexivity|exact Hd]].
    pose proof (H3 _ _ v2 Hd) as Hk. unfold twin, keeps in *. destruct (g s2 v2) as [[s3 v3]| |]; [right; split; [eexists; reflexivity|exact Hk]| |]; eexists; reflexivity.
  - eexists. reflexivity.
  - eexists. reflexivity.
Qed.
Lemma keeps_vbind {X} u (x : sres B X) (f : sstate B -> X -> sverdict B) : keeps u x -> (forall s v, dead u (user s) -> keeps u (f s v)) -> keeps u (vbind x f).
Proof. intros H1 H2. destruct x as [[s [v|e]]| |]; cbn in *; auto. Qed.

Lemma begin_twin name s1 s2 : pair s1 s2 -> twin bad (run_begin cb name s1) (run_begin cb name s2).
Proof.
  intros (Hp & Hs & Hu). unfold run_begin. rewrite <- Hs, <- Hp. destruct (context_of (stack s1)) as [x| |]; cbn [obind]; try exact I.
  pose proof (tw_begin T name x (parser s1) _ _ Hu) as H. destruct (find_action cb name x (user s1)) as [v1 [f1|]], (find_action cb name x (user s2)) as [v2 [f2|]]; try contradiction.
  - destruct (f1 (parser s1) v1) as [[[r1 u1] o1]| |], (f2 (parser s1) v2) as [[[r2 u2] o2]| |]; cbn in *; try contradiction; try exact I.
    + destruct H as [(<- & H & <-)|((m & ->) & H)]; [left; split; [repeat split; exact H|reflexivity]|right; split; [eexists; reflexivity|exact H]].
    + destruct H as (m & ->). eexists. reflexivity.
    + destruct H as (m & ->). eexists. reflexivity.
  - apply twin_done. repeat split. exact H.
Qed.
Lemma begin_keeps name u s : dead u (user s) -> keeps u (run_begin cb name s).
Proof.
  intros Hu. unfold run_begin. destruct (context_of (stack s)) as [x| |]; cbn [obind]; try exact I.
  pose proof (tw_keep T name x (parser s) _ _ Hu) as H. destruct (find_action cb name x (user s)) as [v [f|]]; [|exact H].
  destruct (f (parser s) v) as [[[r1 u1] o1]| |]; exact H || exact I.
Qed.

Lemma end_action_twin name x s1 s2 : pair s1 s2 -> forall p,
  match find_end_action cb name x (user s1), find_end_action cb name x (user s2) with
  | (v1, a1), (v2, a2) => twin bad (run_end_action a1 (mkS (parser s1) v1 p)) (run_end_action a2 (mkS (parser s2) v2 p))
  end.
Proof.
  intros (Hp & Hs & Hu) p. pose proof (tw_end T name x _ _ Hu) as H. rewrite <- Hp.
  destruct (find_end_action cb name x (user s1)) as [v1 [f1|]], (find_end_action cb name x (user s2)) as [v2 [f2|]]; try contradiction.
  - destruct H as (_ & H). unfold run_end_action. cbn [user parser stack].
    destruct (f1 v1) as [[u1 o1]| |], (f2 v2) as [[u2 o2]| |]; cbn in *; try contradiction; try exact I.
    + destruct H as [(H & <-)|((m & ->) & H)]; [left; split; [repeat split; exact H|reflexivity]|right; split; [eexists; reflexivity|exact H]].
    + destruct H as (m & ->). eexists. reflexivity.
    + destruct H as (m & ->). eexists. reflexivity.
  - apply twin_done. repeat split. exact H.
Qed.
Lemma end_action_keeps name x u s : dead u (user s) -> forall p,
  let '(v, a) := find_end_action cb name x (user s) in keeps u (run_end_action a (mkS (parser s) v p)).
Proof.
  intros Hu p. pose proof (tw_keep_end T name x _ _ Hu) as H. destruct (find_end_action cb name x (user s)) as [v [f|]]; [|exact H].
  destruct H as (_ & H). unfold run_end_action. cbn [user parser stack]. destruct (f v) as [[u1 o1]| |]; exact H || exact I.
Qed.
Lemma end_twin name s1 s2 : pair s1 s2 -> twin bad (run_end cb name s1) (run_end cb name s2).
Proof.
  intros Hp. pose proof Hp as (_ & Hs & _). unfold run_end, look_up_end. rewrite <- Hs. destruct (context_of (stack s1)) as [x| |]; cbn [obind]; try exact I.
  pose proof (end_action_twin name x _ _ Hp (stack s1)) as H. destruct (find_end_action cb name x (user s1)), (find_end_action cb name x (user s2)). exact H.
Qed.
Lemma end_keeps name u s : dead u (user s) -> keeps u (run_end cb name s).
Proof.
  intros Hp. unfold run_end, look_up_end. destruct (context_of (stack s)) as [x| |]; cbn [obind]; try exact I.
  pose proof (end_action_keeps name x _ _ Hp (stack s)) as H. destruct (find_end_action cb name x (user s)). exact H.
Qed.
Definition pop_end (s : sstate B) : sres B unit :=
  do (s1, a) <- look_up_end cb PNone s;
  do (p, _) <- pop_assoc (stack s1) pos_ty;
  run_end_action a (mkS (parser s1) (user s1) p).
Lemma pop_end_twin s1 s2 : pair s1 s2 -> twin bad (pop_end s1) (pop_end s2).
Proof.
  intros Hp. pose proof Hp as (_ & Hs & _). unfold pop_end, look_up_end. rewrite <- Hs. destruct (context_of (stack s1)) as [x| |]; cbn [obind]; try exact I.
  pose proof (end_action_twin PNone x _ _ Hp) as H. destruct (find_end_action cb PNone x (user s1)), (find_end_action cb PNone x (user s2)). cbn [obind stack parser user].
  destruct (pop_assoc (stack s1) pos_ty) as [[p ?]| |]; cbn [obind]; try exact I. apply H.
Qed.
Lemma pop_end_keeps u s : dead u (user s) -> keeps u (pop_end s).
Proof.
  intros Hp. unfold pop_end, look_up_end. destruct (context_of (stack s)) as [x| |]; cbn [obind]; try exact I.
  pose proof (end_action_keeps PNone x _ _ Hp) as H. destruct (find_end_action cb PNone x (user s)). cbn [obind stack parser user].
  destruct (pop_assoc (stack s) pos_ty) as [[p ?]| |]; cbn [obind]; try exact I. apply H.
Qed.
Lemma parse_twin {X} (op : rj -> outcome (rj * result X rerror)) s1 s2 : pair s1 s2 -> twin bad (parse op s1) (parse op s2).
Proof.
  intros (Hp & Hs & Hu). unfold parse. rewrite <- Hp. destruct (op (parser s1)) as [[r v]| |]; cbn [obind]; try exact I.
  left. split; [repeat split; assumption|reflexivity].
Qed.
Lemma parse_keeps {X} (op : rj -> outcome (rj * result X rerror)) u s : dead u (user s) -> keeps u (parse op s).
Proof. intros H. unfold parse. destruct (op (parser s)) as [[r v]| |]; cbn [obind]; exact H || exact I. Qed.
Lemma top_twin msg s1 s2 : pair s1 s2 -> twin bad (top_position msg s1) (top_position msg s2).
Proof.
  intros (Hp & Hs & Hu). unfold top_position. rewrite <- Hs, <- Hp. destruct (top_assoc_obj (stack s1) pos_ty) as [[a|]| |]; cbn [obind]; try exact I.
  - destruct (pos_of a); [apply twin_done; repeat split; assumption|exact I].
  - apply twin_done. repeat split; assumption.
Qed.
Lemma top_keeps msg u s : dead u (user s) -> keeps u (top_position msg s).
Proof. intros H. unfold top_position. destruct (top_assoc_obj (stack s) pos_ty) as [[a|]| |]; cbn [obind]; try exact I; [destruct (pos_of a)|]; exact H || exact I. Qed.


(** Both at once. *)
Definition kin {X} (fails : X -> Prop) (f : sstate B -> outcome (sstate B * X)) : Prop :=
  (forall s1 s2, pair s1 s2 -> twin fails (f s1) (f s2)) /\ (forall u s, dead u (user s) -> keeps u (f s)).
Lemma kin_bind {X Y} (f : sstate B -> sres B X) (g : sstate B -> X -> sres B Y) : kin bad f -> (forall v, kin bad (fun s => g s v)) -> kin bad (fun s => sbind (f s) g).
Proof.
  intros (F1 & F2) G. split.
  - intros s1 s2 H. apply twin_bind; [apply F1, H|intros; apply G; assumption|intros; apply G; assumption].
  - intros u s H. apply keeps_bind; [apply F2, H|intros; apply G; assumption].
Qed.
Lemma kin_vbind {X} (f : sstate B -> sres B X) (g : sstate B -> X -> sverdict B) : kin bad f -> (forall v, kin bad_verdict (fun s => g s v)) -> kin bad_verdict (fun s => vbind (f s) g).
Proof.
  intros (F1 & F2) G. split.
  - intros s1 s2 H. apply twin_vbind; [apply F1, H|intros; apply G; assumption|intros; apply G; assumption].
  - intros u s H. apply keeps_vbind; [apply F2, H|intros; apply G; assumption].
Qed.
Lemma kin_done {X} (fails : X -> Prop) (g : rj -> X) : kin fails (fun s => Done (s, g (parser s))).
Proof. split; [intros s1 s2 H; pose proof H as (<- & _); left; auto|intros u s H; exact H]. Qed.
(** What uses the parser or the stack only. *)
Lemma kin_stack {X Y} (fails : X -> Prop) (op : pool -> outcome (pool * Y)) (g : Y -> sstate B -> outcome (sstate B * X)) : (forall y, kin fails (g y)) ->
  kin fails (fun s => do (p, y) <- op (stack s); g y (mkS (parser s) (user s) p)).
Proof.
  intros G. split.
  - intros s1 s2 (Hp & Hs & Hu). rewrite <- Hs. destruct (op (stack s1)) as [[p y]| |]; cbn [obind]; try exact I. apply G. repeat split; assumption.
  - intros u s H. destruct (op (stack s)) as [[p y]| |]; cbn [obind]; try exact I. apply G, H.
Qed.
Lemma kin_parser {X Y} (fails : X -> Prop) (op : rj -> outcome (rj * Y)) (g : Y -> sstate B -> outcome (sstate B * X)) : (forall y, kin fails (g y)) ->
  kin fails (fun s => do (r, y) <- op (parser s); g y (mkS r (user s) (stack s))).
Proof.
  intros G. split.
  - intros s1 s2 (Hp & Hs & Hu). rewrite <- Hp. destruct (op (parser s1)) as [[p y]| |]; cbn [obind]; try exact I. apply G. repeat split; assumption.
  - intros u s H. destruct (op (parser s)) as [[p y]| |]; cbn [obind]; try exact I. apply G, H.
Qed.
Lemma kin_begin name : kin bad (run_begin cb name).
Proof. split; [apply begin_twin|apply begin_keeps]. Qed.
Lemma kin_end name : kin bad (run_end cb name).
Proof. split; [apply end_twin|apply end_keeps]. Qed.
Lemma kin_pop_end : kin bad pop_end.
Proof. split; [apply pop_end_twin|apply pop_end_keeps]. Qed.
Lemma kin_parse {X} (op : rj -> outcome (rj * result X rerror)) : kin bad (parse op).
Proof. split; [apply parse_twin|apply parse_keeps]. Qed.
Lemma kin_top msg : kin bad (top_position msg).
Proof. split; [apply top_twin|apply top_keeps]. Qed.

Lemma kin_object pos : kin bad (handle_object cb pos).
Proof.
  assert (W : kin bad (fun s => sbind (if pos_eqb pos ObjectBegin then Done (s, Ok tt) else pop_end s) (fun s _ =>
      sbind (parse (if pos_eqb pos ObjectBegin then next_object_bytes else next_key_bytes) s) (fun s keyr =>
        match keyr with
        | None => sbind (run_end cb PObject s) (fun s _ => top_position "Context stack is empty when ending object" s)
        | Some key =>
            do (p, pushed) <- push_assoc (stack s) pos_ty [pos_code ObjectMiddle] key;
            let s := mkS (parser s) (user s) p in
            match pushed with
            | Err (SliceLimitExceeded max) => Done (s, Err (MaxNestingExceeded (current_index (parser s)) max))
            | Err _ => Done (s, Err (InternalError (current_index (parser s)) "Failed to push key to context pool"))
            | Ok _ => sbind (run_begin cb PNone s) (fun s consumed => Done (s, Ok (if consumed then ObjectMiddle else ObjectBetweenKV)))
            end
        end)))).
  { apply (kin_bind (fun s => if pos_eqb pos ObjectBegin then Done (s, Ok tt) else pop_end s)).
    { destruct (pos_eqb pos ObjectBegin); [apply (kin_done bad (fun _ => Ok tt))|apply kin_pop_end]. }
    intros _. apply (kin_bind (parse _)); [apply kin_parse|]. intros [key|].
    - refine (kin_stack bad (fun p => push_assoc p pos_ty [pos_code ObjectMiddle] key) (fun pushed s =>
        match pushed with
        | Err (SliceLimitExceeded max) => Done (s, Err (MaxNestingExceeded (current_index (parser s)) max))
        | Err _ => Done (s, Err (InternalError (current_index (parser s)) "Failed to push key to context pool"))
        | Ok _ => sbind (run_begin cb PNone s) (fun s consumed => Done (s, Ok (if consumed then ObjectMiddle else ObjectBetweenKV)))
        end) _).
      intros [y|y].
      + apply (kin_bind (run_begin cb PNone)); [apply kin_begin|]. intros v. apply (kin_done bad (fun _ => Ok _)).
      + destruct y; try apply (kin_done bad (fun r => Err (InternalError (current_index r) _))). apply (kin_done bad (fun r => Err (MaxNestingExceeded (current_index r) _))).
    - apply (kin_bind (run_end cb PObject)); [apply kin_end|]. intros _. apply kin_top. }
  unfold handle_object. fold pop_end. destruct (pos_eqb pos ObjectBegin) eqn:E; [|exact W].
  apply (kin_bind (run_begin cb PObject)); [apply kin_begin|]. intros [|]; [apply kin_top|exact W].
Qed.
Lemma kin_array pos : kin bad (handle_array cb pos).
Proof.
  assert (W : kin bad (fun s => sbind (parse (if pos_eqb pos ArrayBegin then known_array else array_step) s)
      (fun s peeked =>
    match peeked with
    | Some x => Done (s, Ok (Some x, ArrayMiddle))
    | None =>
        do (p, popped) <- pop_assoc (stack s) pos_ty;
        let s := mkS (parser s) (user s) p in
        match popped with
        | None => Done (s, Err (InternalError (current_index (parser s)) "Context stack is empty when ending array"))
        | Some _ => sbind (run_end cb PArray s) (fun s _ => sbind (top_position "Context stack is empty when ending array" s) (fun s p => Done (s, Ok (None, p))))
        end
    end))).
  { apply (kin_bind (parse _)); [apply kin_parse|]. intros [x|]; [apply (kin_done bad (fun _ => Ok _))|].
    refine (kin_stack bad (fun p => pop_assoc p pos_ty) (fun popped s =>
        match popped with
        | None => Done (s, Err (InternalError (current_index (parser s)) "Context stack is empty when ending array"))
        | Some _ => sbind (run_end cb PArray s) (fun s _ => sbind (top_position "Context stack is empty when ending array" s) (fun s p => Done (s, Ok (None, p))))
        end) _).
    intros [y|]; [|apply (kin_done bad (fun r => Err (InternalError (current_index r) _)))].
    apply (kin_bind (run_end cb PArray)); [apply kin_end|]. intros _. apply (kin_bind (top_position _)); [apply kin_top|]. intros p. apply (kin_done bad (fun _ => Ok _)). }
  unfold handle_array. destruct (pos_eqb pos ArrayBegin) eqn:E; [|exact W].
  apply (kin_bind (run_begin cb PArray)); [apply kin_begin|]. intros [|].
  - apply (kin_bind (top_position _)); [apply kin_top|]. intros p. apply (kin_done bad (fun _ => Ok _)).
  - split.
    + intros s1 s2 (Hp & Hs & Hu). rewrite <- Hs. destruct (push_assoc (stack s1) pos_ty _ _) as [[p [y|y]]| |]; cbn [obind]; try exact I.
      * apply W. repeat split; assumption.
      * cbn [parser]. rewrite Hp. apply twin_done. repeat split; assumption.
    + intros u s H. destruct (push_assoc (stack s) pos_ty _ _) as [[p [y|y]]| |]; cbn [obind]; try exact I; [apply W, H|exact H].
Qed.
Lemma kin_tokens tokens : kin (fun _ : bool => False) (skip_tokens tokens).
Proof.
  induction tokens as [|t ts IH]; [apply (kin_done _ (fun _ => false))|].
  refine (kin_parser _ (known_skip_token t) (fun v s => match v with Ok _ => Done (s, true) | Err _ => skip_tokens ts s end) _).
  intros [v|v]; [apply (kin_done _ (fun _ => true))|exact IH].
Qed.
(** Values that are skipped: no callback is involved. *)
Definition kin_quiet {X} (f : sstate B -> outcome (sstate B * X)) : Prop := kin (fun _ : X => False) f.
Lemma quiet_then {X Y} (fails : Y -> Prop) (f : sstate B -> outcome (sstate B * X)) (g : X -> sstate B -> outcome (sstate B * Y)) :
  kin_quiet f -> (forall x, kin fails (g x)) -> kin fails (fun s => do (s, x) <- f s; g x s).
Proof.
  intros (F1 & F2) G. split.
  - intros s1 s2 H. pose proof (F1 _ _ H) as H1. unfold twin in H1. destruct (f s1) as [[s1' x]| |], (f s2) as [[s2' x2]| |]; cbn [obind] in *; try contradiction; try exact I.
    destruct H1 as [(H1 & <-)|([] & _)]. apply G, H1.
  - intros u s H. pose proof (F2 _ _ H) as H1. destruct (f s) as [[s' x]| |]; cbn [obind]; try exact I. apply G, H1.
Qed.
Lemma quiet_parse {X} (op : rj -> outcome (rj * result X rerror)) : kin_quiet (parse op).
Proof.
  split.
  - intros s1 s2 (Hp & Hs & Hu). unfold parse. rewrite <- Hp. destruct (op (parser s1)) as [[r v]| |]; cbn [obind]; try exact I. left. split; [repeat split; assumption|reflexivity].
  - apply parse_keeps.
Qed.
Lemma quiet_ignore {X} (op : rj -> outcome (rj * result X rerror)) : kin_quiet (fun s => sbind (parse op s) (fun s _ => Done (s, Ok tt))).
Proof.
  split.
  - intros s1 s2 (Hp & Hs & Hu). unfold parse. rewrite <- Hp. destruct (op (parser s1)) as [[r [v|v]]| |]; cbn [obind sbind]; try exact I; left; split; repeat split; assumption.
  - intros u s H. unfold parse. destruct (op (parser s)) as [[r [v|v]]| |]; cbn [obind sbind]; try exact I; exact H.
Qed.
Lemma quiet_values peeked : kin_quiet (skip_basic_values peeked).
Proof.
  unfold skip_basic_values. repeat match goal with |- context [if ?c then _ else _] => destruct c; [apply quiet_ignore|] end.
  refine (kin_parser _ next_number_bytes (fun v s => Done (s, match v with Ok _ => Ok tt | Err _ => Err (UnhandledPeek peeked (current_index (parser s))) end)) _).
  intros v. apply (kin_done _ (fun r => match v with Ok _ => Ok tt | Err _ => Err (UnhandledPeek peeked (current_index r)) end)).
Qed.
Lemma kin_value o pos peeked : kin bad_verdict (scan_value cb o pos peeked).
Proof.
  unfold scan_value. destruct (N.eqb peeked LBRACK); [apply (kin_done _ (fun _ => _))|]. destruct (N.eqb peeked LBRACE); [apply (kin_done _ (fun _ => _))|].
  apply (kin_vbind (run_begin cb PAtom)); [apply kin_begin|]. intros [|]; [apply (kin_done _ (fun _ => _))|].
  refine (quiet_then bad_verdict (skip_basic_values peeked) (fun r s => match r with Ok _ => _ | Err _ => _ end) (quiet_values peeked) _). intros [v|v]; [apply (kin_done _ (fun _ => _))|].
  refine (quiet_then bad_verdict (fun s => if _ : bool then skip_tokens (sse_tokens o) s else Done (s, false)) (fun b s => if b : bool then Done (s, Continue _) else Done (s, Return (Err (UnhandledPeek peeked (current_index (parser s)))))) _ _).
  - split.
    + intros s1 s2 H. pose proof H as (Hp & Hs & Hu). rewrite <- Hs. destruct (pos_eqb _ Top || _); [apply kin_tokens, H|left; auto].
    + intros u s H. destruct (pos_eqb _ Top || _); [apply kin_tokens, H|exact H].
  - intros [|]; [apply (kin_done _ (fun _ => _))|apply (kin_done _ (fun r => Return (Err (UnhandledPeek peeked (current_index r)))))].
Qed.
Lemma kin_iter o pos : kin bad_verdict (scan_iter cb o pos).
Proof.
  assert (WO : forall pos, kin bad_verdict (fun s => vbind (handle_object cb pos s) (fun s p => Done (s, Continue p)))).
  { intros p. apply (kin_vbind (handle_object cb p)); [apply kin_object|]. intros v. apply (kin_done _ (fun _ => _)). }
  assert (WA : forall pos, kin bad_verdict (fun s => vbind (handle_array cb pos s) (fun s r =>
           match r with
           | (Some x, ArrayMiddle) => scan_value cb o ArrayMiddle x s
           | (None, p) => Done (s, Continue p)
           | _ => Done (s, Return (Err (InternalError (current_index (parser s)) "Unexpected position from handle_array")))
           end))).
  { intros p. apply (kin_vbind (handle_array cb p)); [apply kin_array|].
    intros [[x|] q]; [|apply (kin_done _ (fun _ => _))]. destruct q; try apply (kin_done _ (fun r => Return (Err (InternalError (current_index r) _)))). apply kin_value. }
  assert (WP : kin bad_verdict (fun s => do (r, v) <- peek (parser s);
      let s := mkS r (user s) (stack s) in
      match v with
      | Ok x => scan_value cb o pos x s
      | Err e =>
          match err_type e with
          | JsonError EofWhileParsingValue =>
              if pos_eqb pos Top then vbind (parse finish s) (fun s _ => Done (s, Return (Ok tt)))
              else Done (s, Return (Err (UnbalancedJson (current_index r))))
          | _ => Done (s, Return (Err (RJiterError e)))
          end
      end)).
  { refine (kin_parser _ peek (fun v s => match v with
      | Ok x => scan_value cb o pos x s
      | Err e =>
          match err_type e with
          | JsonError EofWhileParsingValue =>
              if pos_eqb pos Top then vbind (parse finish s) (fun s _ => Done (s, Return (Ok tt)))
              else Done (s, Return (Err (UnbalancedJson (current_index (parser s)))))
          | _ => Done (s, Return (Err (RJiterError e)))
          end
      end) _).
    intros [x|e]; [apply kin_value|]. destruct (err_type e) as [j| | |]; try apply (kin_done _ (fun _ => _)). destruct j; try apply (kin_done _ (fun _ => _)).
    destruct (pos_eqb pos Top); [|apply (kin_done _ (fun r => Return (Err (UnbalancedJson (current_index r)))))].
    apply (kin_vbind (parse finish)); [apply kin_parse|]. intros v. apply (kin_done _ (fun _ => _)). }
  destruct pos; [exact WP|apply WO|apply WO|exact WP|apply WA|apply WA].
Qed.
Lemma kin_loop o fuel : forall progressed pos, kin bad (scan_loop cb o fuel progressed pos).
Proof.
  induction fuel as [|fuel IH]; intros progressed pos; cbn [scan_loop]; [split; intros; exact I|].
  destruct (progressed && stop_early o && pos_eqb pos Top); [apply (kin_done _ (fun _ => Ok tt))|]. split.
  - intros s1 s2 H. apply (kin_iter o pos) in H. unfold twin in H.
    destruct (scan_iter cb o pos s1) as [[s1' [p|r]]| |], (scan_iter cb o pos s2) as [[s2' v2]| |]; try contradiction; try exact I.
    + destruct H as [(H & <-)|((e & E) & _)]; [|discriminate]. apply IH, H.
    + destruct H as (e & E). discriminate.
    + destruct H as (e & E). discriminate.
    + destruct H as [(H & <-)|((e & E) & H)]; [left; auto|]. injection E as ->. destruct v2 as [p|r2]; [|right; split; [eexists; reflexivity|exact H]].
      apply (IH true p) in H. unfold keeps in H. unfold twin. destruct (scan_loop cb o fuel true p s2') as [[s3 v3]| |]; [right; split; [eexists; reflexivity|exact H]| |]; eexists; reflexivity.
    + destruct H as (e & E). injection E as ->. eexists. reflexivity.
    + destruct H as (e & E). injection E as ->. eexists. reflexivity.
  - intros u s H. apply (kin_iter o pos) in H. unfold keeps in H. destruct (scan_iter cb o pos s) as [[s' [p|r]]| |]; try exact I; [apply IH, H|exact H].
Qed.
Lemma kin_scan o fuel : kin bad (scan cb o fuel).
Proof.
  refine (kin_stack _ (fun p => push_assoc p pos_ty [pos_code Top] (bs "#top")) (fun pushed s =>
    match pushed with
    | Err _ => Done (s, Err (MaxNestingExceeded (current_index (parser s)) 0))
    | Ok _ => scan_loop cb o fuel false Top s
    end) _).
  intros [v|e]; [apply kin_loop|apply (kin_done _ (fun r => Err (MaxNestingExceeded (current_index r) 0)))].
Qed.
End Twin.
