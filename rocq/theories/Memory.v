(** Scanning with two sets of callbacks that do the same. *)
From Verif Require Import Base U8Pool Buffer Jiter RJiter Scan Conv NormalToDdb DdbToNormal IdTransform MemorySpec.

Section Alike.
Context {B1 B2 : Type} (R E : B1 -> B2 -> Prop) (HE : forall u1 u2, R u1 u2 -> E u1 u2).
Definition alike {X} (Q : X -> Prop) (x1 : outcome (sstate B1 * X)) (x2 : outcome (sstate B2 * X)) : Prop :=
  match x1, x2 with
  | Done (s1, v1), Done (s2, v2) => parser s1 = parser s2 /\ stack s1 = stack s2 /\ v1 = v2 /\ E (user s1) (user s2) /\ (Q v1 -> R (user s1) (user s2))
  | Panic, Panic | Diverge, Diverge => True
  | _, _ => False
  end.
Definition good {X} (v : result X scan_error) : Prop := match v with Ok _ => True | Err _ => False end.
Definition going (v : verdict) : Prop := match v with Continue _ => True | Return _ => False end.
Definition alike_op (x1 : outcome (rj * B1 * stream_op)) (x2 : outcome (rj * B2 * stream_op)) : Prop :=
  match x1, x2 with
  | Done (r1, u1, o1), Done (r2, u2, o2) => r1 = r2 /\ o1 = o2 /\ E u1 u2 /\ (match o1 with OpError _ => True | _ => R u1 u2 end)
  | Panic, Panic | Diverge, Diverge => True
  | _, _ => False
  end.
Definition alike_end (x1 : outcome (B1 * result unit string)) (x2 : outcome (B2 * result unit string)) : Prop :=
  match x1, x2 with
  | Done (u1, v1), Done (u2, v2) => v1 = v2 /\ E u1 u2 /\ (match v1 with Err _ => True | Ok _ => R u1 u2 end)
  | Panic, Panic | Diverge, Diverge => True
  | _, _ => False
  end.
Context (cb1 : callbacks B1) (cb2 : callbacks B2).
Record agree : Prop := {
  ag_begin : forall name x r u1 u2, R u1 u2 ->
    match find_action cb1 name x u1, find_action cb2 name x u2 with
    | (v1, None), (v2, None) => R v1 v2
    | (v1, Some f1), (v2, Some f2) => alike_op (f1 r v1) (f2 r v2)
    | _, _ => False
    end;
  ag_end : forall name x u1 u2, R u1 u2 ->
    match find_end_action cb1 name x u1, find_end_action cb2 name x u2 with
    | (v1, None), (v2, None) => R v1 v2
    | (v1, Some f1), (v2, Some f2) => alike_end (f1 v1) (f2 v2)
    | _, _ => False
    end }.
Context (A : agree).
Definition kin {X} (Q : X -> Prop) (f1 : sstate B1 -> outcome (sstate B1 * X)) (f2 : sstate B2 -> outcome (sstate B2 * X)) : Prop :=
  forall r u1 u2 p, R u1 u2 -> alike Q (f1 (mkS r u1 p)) (f2 (mkS r u2 p)).
Lemma kin_bind {X Y} f1 f2 (g1 : sstate B1 -> X -> sres B1 Y) (g2 : sstate B2 -> X -> sres B2 Y) :
  kin good f1 f2 -> (forall v, kin good (fun s => g1 s v) (fun s => g2 s v)) -> kin good (fun s => sbind (f1 s) g1) (fun s => sbind (f2 s) g2).
Proof.
  intros F G r u1 u2 p H. specialize (F r u1 u2 p H). unfold alike in F.
  destruct (f1 _) as [[[r1 w1 p1] [v1|e1]]| |], (f2 _) as [[[r2 w2 p2] v2]| |]; cbn [parser stack user] in F; try contradiction; try exact I.
  - destruct F as (<- & <- & <- & _ & F). apply G, F, I.
  - destruct F as (<- & <- & <- & F & _). cbn. repeat split; auto. contradiction.
Qed.
Lemma kin_vbind {X} f1 f2 (g1 : sstate B1 -> X -> sverdict B1) (g2 : sstate B2 -> X -> sverdict B2) :
  kin good f1 f2 -> (forall v, kin going (fun s => g1 s v) (fun s => g2 s v)) -> kin going (fun s => vbind (f1 s) g1) (fun s => vbind (f2 s) g2).
Proof.
  intros F G r u1 u2 p H. specialize (F r u1 u2 p H). unfold alike in F.
  destruct (f1 _) as [[[r1 w1 p1] [v1|e1]]| |], (f2 _) as [[[r2 w2 p2] v2]| |]; cbn [parser stack user] in F; try contradiction; try exact I.
  - destruct F as (<- & <- & <- & _ & F). apply G, F, I.
  - destruct F as (<- & <- & <- & F & _). cbn. repeat split; auto. contradiction.
Qed.
Lemma kin_done {X} (Q : X -> Prop) (g : rj -> X) : kin Q (fun s => Done (s, g (parser s))) (fun s => Done (s, g (parser s))).
Proof. intros r u1 u2 p H. cbn. repeat split; auto. Qed.
Lemma kin_stack {X Y} (Q : X -> Prop) (op : pool -> outcome (pool * Y)) g1 g2 : (forall y, kin Q (g1 y) (g2 y)) ->
  kin Q (fun s => do (p, y) <- op (stack s); g1 y (mkS (parser s) (user s) p)) (fun s => do (p, y) <- op (stack s); g2 y (mkS (parser s) (user s) p)).
Proof. intros G r u1 u2 p H. cbn [parser stack user]. destruct (op p) as [[q y]| |]; cbn [obind]; try exact I. apply G, H. Qed.
Lemma kin_parser {X Y} (Q : X -> Prop) (op : rj -> outcome (rj * Y)) g1 g2 : (forall y, kin Q (g1 y) (g2 y)) ->
  kin Q (fun s => do (r, y) <- op (parser s); g1 y (mkS r (user s) (stack s))) (fun s => do (r, y) <- op (parser s); g2 y (mkS r (user s) (stack s))).
Proof. intros G r u1 u2 p H. cbn [parser stack user]. destruct (op r) as [[q y]| |]; cbn [obind]; try exact I. apply G, H. Qed.
Lemma kin_begin name : kin good (run_begin cb1 name) (run_begin cb2 name).
Proof.
  intros r u1 u2 p H. unfold run_begin. cbn [parser stack user]. destruct (context_of p) as [x| |]; cbn [obind]; try exact I.
  pose proof (ag_begin A name x r _ _ H) as G. destruct (find_action cb1 name x u1) as [v1 [f1|]], (find_action cb2 name x u2) as [v2 [f2|]]; try contradiction.
  - unfold alike_op in G. destruct (f1 r v1) as [[[r1 w1] o1]| |], (f2 r v2) as [[[r2 w2] o2]| |]; cbn [obind]; try contradiction; try exact I.
    destruct G as (<- & <- & G & K). cbn. repeat split; auto. destruct o1; auto. contradiction.
  - cbn. repeat split; auto.
Qed.
Lemma kin_end_action name x u1 u2 r p : R u1 u2 ->
  match find_end_action cb1 name x u1, find_end_action cb2 name x u2 with
  | (v1, a1), (v2, a2) => alike good (run_end_action a1 (mkS r v1 p)) (run_end_action a2 (mkS r v2 p))
  end.
Proof.
  intros H. pose proof (ag_end A name x _ _ H) as G.
  destruct (find_end_action cb1 name x u1) as [v1 [f1|]], (find_end_action cb2 name x u2) as [v2 [f2|]]; try contradiction.
  - unfold alike_end in G. unfold run_end_action. cbn [user parser stack]. destruct (f1 v1) as [[w1 o1]| |], (f2 v2) as [[w2 o2]| |]; cbn [obind]; try contradiction; try exact I.
    destruct G as (<- & G & K). cbn. repeat split; auto. destruct o1 as [[]|]; auto. contradiction.
  - cbn. repeat split; auto.
Qed.
Lemma kin_end name : kin good (run_end cb1 name) (run_end cb2 name).
Proof.
  intros r u1 u2 p H. unfold run_end, look_up_end. cbn [parser stack user]. destruct (context_of p) as [x| |]; cbn [obind]; try exact I.
  pose proof (kin_end_action name x _ _ r p H) as G. destruct (find_end_action cb1 name x u1), (find_end_action cb2 name x u2). exact G.
Qed.
Definition pop_end {B} (cb : callbacks B) (s : sstate B) : sres B unit :=
  do (s1, a) <- look_up_end cb PNone s;
  do (p, _) <- pop_assoc (stack s1) pos_ty;
  run_end_action a (mkS (parser s1) (user s1) p).
Lemma kin_pop_end : kin good (pop_end cb1) (pop_end cb2).
Proof.
  intros r u1 u2 p H. unfold pop_end, look_up_end. cbn [parser stack user]. destruct (context_of p) as [x| |]; cbn [obind]; try exact I.
  pose proof (fun p => kin_end_action PNone x _ _ r p H) as G. destruct (find_end_action cb1 PNone x u1), (find_end_action cb2 PNone x u2). cbn [obind stack parser user].
  destruct (pop_assoc p pos_ty) as [[q ?]| |]; cbn [obind]; try exact I. apply G.
Qed.
(** What uses the parser only leaves the states related whatever comes out. *)
Definition kin_quiet {X} (f1 : sstate B1 -> outcome (sstate B1 * X)) f2 : Prop := kin (fun _ => True) f1 f2.
Lemma kin_weaken {X} (Q : X -> Prop) f1 f2 : kin_quiet f1 f2 -> kin Q f1 f2.
Proof.
  intros F r u1 u2 p H. specialize (F r u1 u2 p H). unfold alike in *.
  destruct (f1 _) as [[s1 v1]| |], (f2 _) as [[s2 v2]| |]; try contradiction; try exact I. destruct F as (? & ? & ? & ? & F). repeat split; auto.
Qed.
Lemma quiet_then {X Y} (Q : Y -> Prop) (f1 : sstate B1 -> outcome (sstate B1 * X)) f2 (g1 : X -> sstate B1 -> outcome (sstate B1 * Y)) g2 :
  kin_quiet f1 f2 -> (forall x, kin Q (g1 x) (g2 x)) -> kin Q (fun s => do (s, x) <- f1 s; g1 x s) (fun s => do (s, x) <- f2 s; g2 x s).
Proof.
  intros F G r u1 u2 p H. specialize (F r u1 u2 p H). unfold alike in F.
  destruct (f1 _) as [[[r1 w1 p1] v1]| |], (f2 _) as [[[r2 w2 p2] v2]| |]; cbn [parser stack user obind] in *; try contradiction; try exact I.
  destruct F as (<- & <- & <- & _ & F). apply G, F, I.
Qed.
Lemma quiet_parse {X} (op : rj -> outcome (rj * result X rerror)) : kin_quiet (parse op) (parse op).
Proof. intros r u1 u2 p H. unfold parse. cbn [parser stack user]. destruct (op r) as [[r' v]| |]; cbn [obind]; try exact I. cbn. repeat split; auto. Qed.
Lemma quiet_ignore {X} (op : rj -> outcome (rj * result X rerror)) :
  kin_quiet (fun s => sbind (parse op s) (fun s _ => Done (s, Ok tt))) (fun s => sbind (parse op s) (fun s _ => Done (s, Ok tt))).
Proof. intros r u1 u2 p H. unfold parse. cbn [parser stack user]. destruct (op r) as [[r' [v|v]]| |]; cbn [obind sbind]; try exact I; cbn; repeat split; auto. Qed.
Lemma kin_parse {X} (op : rj -> outcome (rj * result X rerror)) : kin good (parse op) (parse op).
Proof. apply kin_weaken, quiet_parse. Qed.
Lemma kin_top msg : kin good (top_position msg) (top_position msg).
Proof.
  intros r u1 u2 p H. unfold top_position. cbn [parser stack user]. destruct (top_assoc_obj p pos_ty) as [[a|]| |]; cbn [obind]; try exact I.
  - destruct (pos_of a); [|exact I]. cbn. repeat split; auto.
  - cbn. repeat split; auto.
Qed.
Lemma kin_object pos : kin good (handle_object cb1 pos) (handle_object cb2 pos).
Proof.
  assert (W : kin good
    (fun s => sbind (if pos_eqb pos ObjectBegin then Done (s, Ok tt) else pop_end cb1 s) (fun s _ =>
      sbind (parse (if pos_eqb pos ObjectBegin then next_object_bytes else next_key_bytes) s) (fun s keyr =>
        match keyr with
        | None => sbind (run_end cb1 PObject s) (fun s _ => top_position "Context stack is empty when ending object" s)
        | Some key =>
            do (p, pushed) <- push_assoc (stack s) pos_ty [pos_code ObjectMiddle] key;
            let s := mkS (parser s) (user s) p in
            match pushed with
            | Err (SliceLimitExceeded max) => Done (s, Err (MaxNestingExceeded (current_index (parser s)) max))
            | Err _ => Done (s, Err (InternalError (current_index (parser s)) "Failed to push key to context pool"))
            | Ok _ => sbind (run_begin cb1 PNone s) (fun s consumed => Done (s, Ok (if consumed then ObjectMiddle else ObjectBetweenKV)))
            end
        end)))
    (fun s => sbind (if pos_eqb pos ObjectBegin then Done (s, Ok tt) else pop_end cb2 s) (fun s _ =>
      sbind (parse (if pos_eqb pos ObjectBegin then next_object_bytes else next_key_bytes) s) (fun s keyr =>
        match keyr with
        | None => sbind (run_end cb2 PObject s) (fun s _ => top_position "Context stack is empty when ending object" s)
        | Some key =>
            do (p, pushed) <- push_assoc (stack s) pos_ty [pos_code ObjectMiddle] key;
            let s := mkS (parser s) (user s) p in
            match pushed with
            | Err (SliceLimitExceeded max) => Done (s, Err (MaxNestingExceeded (current_index (parser s)) max))
            | Err _ => Done (s, Err (InternalError (current_index (parser s)) "Failed to push key to context pool"))
            | Ok _ => sbind (run_begin cb2 PNone s) (fun s consumed => Done (s, Ok (if consumed then ObjectMiddle else ObjectBetweenKV)))
            end
        end)))).
  { apply (kin_bind (fun s => if pos_eqb pos ObjectBegin then Done (s, Ok tt) else pop_end cb1 s) (fun s => if pos_eqb pos ObjectBegin then Done (s, Ok tt) else pop_end cb2 s)).
    { destruct (pos_eqb pos ObjectBegin); [apply (kin_done good (fun _ => Ok tt))|apply kin_pop_end]. }
    intros _. apply (kin_bind (parse _) (parse _)); [apply kin_parse|]. intros [key|].
    - intros r u1 u2 p H. cbn [parser stack user]. destruct (push_assoc p pos_ty [pos_code ObjectMiddle] key) as [[q [y|y]]| |]; cbn [obind]; try exact I.
      + revert r u1 u2 q H. apply (kin_bind (run_begin cb1 PNone) (run_begin cb2 PNone)); [apply kin_begin|]. intros v. apply (kin_done good (fun _ => Ok _)).
      + destruct y; cbn; repeat split; auto.
    - apply (kin_bind (run_end cb1 PObject) (run_end cb2 PObject)); [apply kin_end|]. intros _. apply kin_top. }
  unfold handle_object. fold (pop_end cb1). fold (pop_end cb2). destruct (pos_eqb pos ObjectBegin) eqn:Ep; [|exact W].
  apply (kin_bind (run_begin cb1 PObject) (run_begin cb2 PObject)); [apply kin_begin|]. intros [|]; [apply kin_top|exact W].
Qed.
Lemma kin_array pos : kin good (handle_array cb1 pos) (handle_array cb2 pos).
Proof.
  assert (W : kin good
   (fun s => sbind (parse (if pos_eqb pos ArrayBegin then known_array else array_step) s)
      (fun s peeked =>
    match peeked with
    | Some x => Done (s, Ok (Some x, ArrayMiddle))
    | None =>
        do (p, popped) <- pop_assoc (stack s) pos_ty;
        let s := mkS (parser s) (user s) p in
        match popped with
        | None => Done (s, Err (InternalError (current_index (parser s)) "Context stack is empty when ending array"))
        | Some _ => sbind (run_end cb1 PArray s) (fun s _ => sbind (top_position "Context stack is empty when ending array" s) (fun s p => Done (s, Ok (None, p))))
        end
    end))
   (fun s => sbind (parse (if pos_eqb pos ArrayBegin then known_array else array_step) s)
      (fun s peeked =>
    match peeked with
    | Some x => Done (s, Ok (Some x, ArrayMiddle))
    | None =>
        do (p, popped) <- pop_assoc (stack s) pos_ty;
        let s := mkS (parser s) (user s) p in
        match popped with
        | None => Done (s, Err (InternalError (current_index (parser s)) "Context stack is empty when ending array"))
        | Some _ => sbind (run_end cb2 PArray s) (fun s _ => sbind (top_position "Context stack is empty when ending array" s) (fun s p => Done (s, Ok (None, p))))
        end
    end))).
  { apply (kin_bind (parse _) (parse _)); [apply kin_parse|]. intros [x|]; [apply (kin_done good (fun _ => Ok _))|].
    intros r u1 u2 p H. cbn [parser stack user]. destruct (pop_assoc p pos_ty) as [[q [y|]]| |]; cbn [obind]; try exact I.
    - revert r u1 u2 q H. apply (kin_bind (run_end cb1 PArray) (run_end cb2 PArray)); [apply kin_end|].
      intros _. apply (kin_bind (top_position _) (top_position _)); [apply kin_top|]. intros v. apply (kin_done good (fun _ => Ok _)).
    - cbn. repeat split; auto. }
  unfold handle_array. destruct (pos_eqb pos ArrayBegin) eqn:Ep; [|exact W].
  apply (kin_bind (run_begin cb1 PArray) (run_begin cb2 PArray)); [apply kin_begin|]. intros [|].
  - apply (kin_bind (top_position _) (top_position _)); [apply kin_top|]. intros p. apply (kin_done good (fun _ => Ok _)).
  - intros r u1 u2 p H. cbn [parser stack user]. destruct (push_assoc p pos_ty _ _) as [[q [y|y]]| |]; cbn [obind]; try exact I.
    + apply W, H.
    + cbn. repeat split; auto.
Qed.
Lemma quiet_tokens tokens : kin_quiet (skip_tokens tokens) (skip_tokens tokens).
Proof.
  induction tokens as [|t ts IH]; [apply (kin_done _ (fun _ => false))|].
  intros r u1 u2 p H. cbn [skip_tokens parser stack user]. destruct (known_skip_token t r) as [[r' [v|v]]| |]; cbn [obind]; try exact I.
  - cbn. repeat split; auto.
  - apply IH, H.
Qed.
Lemma quiet_values peeked : kin_quiet (skip_basic_values peeked) (skip_basic_values peeked).
Proof.
  unfold skip_basic_values. repeat match goal with |- context [if ?c then _ else _] => destruct c; [apply quiet_ignore|] end.
  intros r u1 u2 p H. cbn [parser stack user]. destruct (next_number_bytes r) as [[r' v]| |]; cbn [obind]; try exact I. cbn. repeat split; auto.
Qed.
Lemma kin_value o pos peeked : kin going (scan_value cb1 o pos peeked) (scan_value cb2 o pos peeked).
Proof.
  unfold scan_value. destruct (N.eqb peeked LBRACK); [apply (kin_done _ (fun _ => _))|]. destruct (N.eqb peeked LBRACE); [apply (kin_done _ (fun _ => _))|].
  apply (kin_vbind (run_begin cb1 PAtom) (run_begin cb2 PAtom)); [apply kin_begin|]. intros [|]; [apply (kin_done _ (fun _ => _))|].
  apply (quiet_then going (skip_basic_values peeked) (skip_basic_values peeked)
    (fun r s => match r with
      | Ok _ => Done (s, Continue match pos with ObjectBetweenKV => ObjectMiddle | p => p end)
      | Err _ =>
          do (s, skipped) <-
            (if pos_eqb match pos with ObjectBetweenKV => ObjectMiddle | p => p end Top || ((pos_eqb match pos with ObjectBetweenKV => ObjectMiddle | p => p end ArrayBegin || pos_eqb match pos with ObjectBetweenKV => ObjectMiddle | p => p end ArrayMiddle) && (pool_len (stack s) =? 2))
             then skip_tokens (sse_tokens o) s else Done (s, false));
          if skipped : bool then Done (s, Continue match pos with ObjectBetweenKV => ObjectMiddle | p => p end)
          else Done (s, Return (Err (UnhandledPeek peeked (current_index (parser s)))))
      end)
    (fun r s => match r with
      | Ok _ => Done (s, Continue match pos with ObjectBetweenKV => ObjectMiddle | p => p end)
      | Err _ =>
          do (s, skipped) <-
            (if pos_eqb match pos with ObjectBetweenKV => ObjectMiddle | p => p end Top || ((pos_eqb match pos with ObjectBetweenKV => ObjectMiddle | p => p end ArrayBegin || pos_eqb match pos with ObjectBetweenKV => ObjectMiddle | p => p end ArrayMiddle) && (pool_len (stack s) =? 2))
             then skip_tokens (sse_tokens o) s else Done (s, false));
          if skipped : bool then Done (s, Continue match pos with ObjectBetweenKV => ObjectMiddle | p => p end)
          else Done (s, Return (Err (UnhandledPeek peeked (current_index (parser s)))))
      end) (quiet_values peeked)).
  intros [v|v]; [apply (kin_done _ (fun _ => _))|].
  intros r u1 u2 p H. cbn [stack].
  destruct (pos_eqb _ Top || _).
  - revert r u1 u2 p H. apply (quiet_then going (skip_tokens (sse_tokens o)) (skip_tokens (sse_tokens o))
      (fun skipped s => if skipped : bool then Done (s, Continue match pos with ObjectBetweenKV => ObjectMiddle | p => p end) else Done (s, Return (Err (UnhandledPeek peeked (current_index (parser s))))))
      (fun skipped s => if skipped : bool then Done (s, Continue match pos with ObjectBetweenKV => ObjectMiddle | p => p end) else Done (s, Return (Err (UnhandledPeek peeked (current_index (parser s)))))) (quiet_tokens _)).
    intros [|]; [apply (kin_done _ (fun _ => _))|apply (kin_done _ (fun r => Return (Err (UnhandledPeek peeked (current_index r)))))].
  - cbn [obind]. cbn. repeat split; auto.
Qed.
Lemma kin_iter o pos : kin going (scan_iter cb1 o pos) (scan_iter cb2 o pos).
Proof.
  assert (WO : forall pos, kin going (fun s => vbind (handle_object cb1 pos s) (fun s p => Done (s, Continue p))) (fun s => vbind (handle_object cb2 pos s) (fun s p => Done (s, Continue p)))).
  { intros p. apply (kin_vbind (handle_object cb1 p) (handle_object cb2 p)); [apply kin_object|]. intros v. apply (kin_done _ (fun _ => _)). }
  assert (WA : forall pos, kin going (fun s => vbind (handle_array cb1 pos s) (fun s r =>
           match r with
           | (Some x, ArrayMiddle) => scan_value cb1 o ArrayMiddle x s
           | (None, p) => Done (s, Continue p)
           | _ => Done (s, Return (Err (InternalError (current_index (parser s)) "Unexpected position from handle_array")))
           end)) (fun s => vbind (handle_array cb2 pos s) (fun s r =>
           match r with
           | (Some x, ArrayMiddle) => scan_value cb2 o ArrayMiddle x s
           | (None, p) => Done (s, Continue p)
           | _ => Done (s, Return (Err (InternalError (current_index (parser s)) "Unexpected position from handle_array")))
           end))).
  { intros p. apply (kin_vbind (handle_array cb1 p) (handle_array cb2 p)); [apply kin_array|].
    intros [[x|] q]; [|apply (kin_done _ (fun _ => _))]. destruct q; try apply (kin_done _ (fun r => Return (Err (InternalError (current_index r) _)))). apply kin_value. }
  assert (WP : kin going (fun s => do (r, v) <- peek (parser s);
      let s := mkS r (user s) (stack s) in
      match v with
      | Ok x => scan_value cb1 o pos x s
      | Err e =>
          match err_type e with
          | JsonError EofWhileParsingValue =>
              if pos_eqb pos Top then vbind (parse finish s) (fun s _ => Done (s, Return (Ok tt)))
              else Done (s, Return (Err (UnbalancedJson (current_index r))))
          | _ => Done (s, Return (Err (RJiterError e)))
          end
      end) (fun s => do (r, v) <- peek (parser s);
      let s := mkS r (user s) (stack s) in
      match v with
      | Ok x => scan_value cb2 o pos x s
      | Err e =>
          match err_type e with
          | JsonError EofWhileParsingValue =>
              if pos_eqb pos Top then vbind (parse finish s) (fun s _ => Done (s, Return (Ok tt)))
              else Done (s, Return (Err (UnbalancedJson (current_index r))))
          | _ => Done (s, Return (Err (RJiterError e)))
          end
      end)).
  { intros r u1 u2 p H. cbn [parser stack user]. destruct (peek r) as [[r' [x|e]]| |]; cbn [obind]; try exact I; [apply kin_value, H|].
    assert (D : forall v, alike going (Done (mkS r' u1 p, Return v)) (Done (mkS r' u2 p, Return v))) by (intros v; cbn; repeat split; auto).
    destruct (err_type e) as [j| | |]; try apply D. destruct j; try apply D. destruct (pos_eqb pos Top); [|apply D].
    revert r' u1 u2 p H D. intros r' u1 u2 p H _. revert r' u1 u2 p H.
    apply (kin_vbind (parse finish) (parse finish)); [apply kin_parse|]. intros v. apply (kin_done _ (fun _ => _)). }
  destruct pos; [exact WP|apply WO|apply WO|exact WP|apply WA|apply WA].
Qed.
Definition over {X} (v : X) : Prop := False.
Lemma kin_loop o fuel : forall progressed pos, kin over (scan_loop cb1 o fuel progressed pos) (scan_loop cb2 o fuel progressed pos).
Proof.
  induction fuel as [|fuel IH]; intros progressed pos; cbn [scan_loop]; [intros r u1 u2 p H; exact I|].
  destruct (progressed && stop_early o && pos_eqb pos Top); [apply (kin_done _ (fun _ => Ok tt))|].
  intros r u1 u2 p H. pose proof (kin_iter o pos r u1 u2 p H) as K. unfold alike in K.
  destruct (scan_iter cb1 o pos _) as [[[r1 w1 p1] v1]| |], (scan_iter cb2 o pos _) as [[[r2 w2 p2] v2]| |]; cbn [parser stack user] in K; try contradiction; try exact I.
  destruct K as (<- & <- & <- & K & L). destruct v1 as [q|v]; [apply IH, L, I|].
  cbn. repeat split; auto.
Qed.
Lemma kin_scan o fuel : kin over (scan cb1 o fuel) (scan cb2 o fuel).
Proof.
  intros r u1 u2 p H. unfold scan. cbn [parser stack user]. destruct (push_assoc p pos_ty _ _) as [[q [y|y]]| |]; cbn [obind]; try exact I; [apply kin_loop, H|].
  cbn. repeat split; auto.
Qed.
Lemma kin_convert (b1 : B1 -> conv) (b2 : B2 -> conv) slots fuel rd rb xb u1 u2 : (forall u1 u2, E u1 u2 -> last_error (b1 u1) = last_error (b2 u2)) -> R u1 u2 ->
  match convert cb1 b1 slots fuel rd rb xb u1, convert cb2 b2 slots fuel rd rb xb u2 with
  | Done (u1', v1), Done (u2', v2) => E u1' u2' /\ v1 = v2
  | Panic, Panic | Diverge, Diverge => True
  | _, _ => False
  end.
Proof.
  intros HL H. unfold convert. destruct (pool_new true xb slots) as [[p|e]| |]; cbn [obind]; try exact I; [|auto].
  pose proof (kin_scan (mkOptions [] false) fuel (rj_new rd rb) u1 u2 p H) as K. unfold alike in K.
  destruct (scan cb1 _ _ _) as [[[r1 w1 p1] v1]| |], (scan cb2 _ _ _) as [[[r2 w2 p2] v2]| |]; cbn [parser stack user obind] in *; try contradiction; try exact I.
  destruct K as (<- & <- & <- & K & _). split; [exact K|]. rewrite (HL _ _ K). reflexivity.
Qed.
End Alike.

(** *** The converters: the remembered name is not looked at except right after it was noted *)
Section Names.
Context {B : Type} (sp : option bytes -> B -> B) (Hsp : forall k k' c, sp k (sp k' c) = sp k c).
Definition carry {X} (k : option bytes) (x : outcome (B * X)) : outcome (B * X) := do (c, v) <- x; Done (sp k c, v).
Definition carry_op (k : option bytes) (x : outcome (rj * B * stream_op)) : outcome (rj * B * stream_op) := do (r, c, o) <- x; Done (r, sp k c, o).
Definition neutral (f : step B) : Prop := forall k c, f (sp k c) = carry k (f c).
Definition neutral_action (a : action B) : Prop := forall r k c, a r (sp k c) = carry_op k (a r c).
Lemma neutral_then f g : neutral f -> neutral g -> neutral (f ;; g).
Proof. intros F G k c. unfold and_then. rewrite F. unfold carry. destruct (f c) as [[c' [v|m]]| |]; cbn [obind]; try reflexivity. apply G. Qed.
Lemma neutral_skip : neutral skip.
Proof. intros k c. reflexivity. Qed.
Lemma neutral_change f : (forall k c, f (sp k c) = sp k (f c)) -> neutral (change_to f).
Proof. intros F k c. unfold change_to, carry. cbn [obind]. rewrite F. reflexivity. Qed.
Lemma neutral_if (t : B -> bool) f g : (forall k c, t (sp k c) = t c) -> neutral f -> neutral g -> neutral (fun c => if t c then f c else g c).
Proof. intros T F G k c. rewrite T. destruct (t c); [apply F|apply G]. Qed.
Lemma neutral_act_of f op : neutral f -> neutral_action (act_of f op).
Proof. intros F r k c. unfold act_of, carry_op. rewrite F. unfold carry. destruct (f c) as [[c' v]| |]; reflexivity. Qed.
Lemma neutral_first f a : neutral f -> neutral_action a -> neutral_action (fun r c => do (c, v) <- f c; match v with Err m => Done (r, c, OpError m) | Ok _ => a r c end).
Proof. intros F G r k c. rewrite F. unfold carry. destruct (f c) as [[c' [v|m]]| |]; cbn [obind]; try reflexivity. apply G. Qed.
Lemma neutral_method {X} (op : rj -> outcome (rj * X)) (a : X -> action B) : (forall x, neutral_action (a x)) -> neutral_action (fun r c => do (r, x) <- op r; a x r c).
Proof. intros G r k c. destruct (op r) as [[r' x]| |]; cbn [obind]; try reflexivity. apply G. Qed.
Lemma neutral_answer f op : (forall k c, f (sp k c) = sp k (f c)) -> neutral_action (fun r c => Done (r, f c, op)).
Proof. intros F r k c. unfold carry_op. cbn [obind]. rewrite F. reflexivity. Qed.
Lemma neutral_if_action (b : bool) f g : neutral_action f -> neutral_action g -> neutral_action (if b then f else g).
Proof. destruct b; auto. Qed.
Definition renamed (u1 : B * nat) (u2 : B) : Prop := exists k, fst u1 = sp k u2.
Context (cb : callbacks B) (g : nat -> option bytes).
Record blind : Prop := {
  bl_begin : forall name x k c, (exists a, neutral_action a /\ find_action cb name x (sp k c) = (sp k (fst (find_action cb name x c)), Some a) /\ snd (find_action cb name x c) = Some a) \/
    (find_action cb name x (sp k c) = (sp k (fst (find_action cb name x c)), None) /\ snd (find_action cb name x c) = None) \/
    (find_action cb name x (sp k c) = find_action cb name x c);
  bl_end : forall name x k c, find_end_action cb name x (sp k c) = (sp k c, snd (find_end_action cb name x c)) /\ fst (find_end_action cb name x c) = c /\
    match snd (find_end_action cb name x c) with Some a => neutral a | None => True end }.
Context (Hid : forall c, exists k, c = sp k c).
Lemma blind_agree : blind -> agree renamed renamed (disturbed (fun n => sp (g n)) cb) cb.
Proof.
  intros [HB HN]. split.
  - intros name x r [c1 n] c2 [k H]. cbn [fst] in H. subst c1. cbn [disturbed find_action]. rewrite Hsp.
    destruct (HB name x (g n) c2) as [(a & Ha & E1 & E2)|[(E1 & E2)|E1]].
    + rewrite E1. cbn [option_map]. destruct (find_action cb name x c2) as [v o]. cbn [fst snd] in *. subst o. unfold alike_op.
      rewrite Ha. unfold carry_op. destruct (a r v) as [[[r1 u1] o1]| |]; cbn [obind]; try exact I.
      split; [reflexivity|]. split; [reflexivity|]. split; [exists (g n); reflexivity|]. destruct o1; try exact I; exists (g n); reflexivity.
    + rewrite E1. cbn [option_map]. destruct (find_action cb name x c2) as [v o]. cbn [fst snd] in *. subst o. exists (g n). reflexivity.
    + rewrite E1. destruct (find_action cb name x c2) as [v [a|]]; cbn [option_map].
      * unfold alike_op. destruct (a r v) as [[[r1 u1] o1]| |]; cbn [obind]; try exact I.
        split; [reflexivity|]. split; [reflexivity|]. split; [apply Hid|]. destruct o1; try exact I; apply Hid.
      * apply Hid.
  - intros name x [c1 n] c2 [k H]. cbn [fst] in H. subst c1. cbn [disturbed find_end_action]. rewrite Hsp.
    destruct (HN name x (g n) c2) as (E1 & E2 & Ha). rewrite E1. destruct (find_end_action cb name x c2) as [v o]. cbn [fst snd] in *. subst v.
    destruct o as [a|]; cbn [option_map]; [|exists (g n); reflexivity].
    rewrite Hsp, Ha. unfold carry. destruct (a c2) as [[c' v]| |]; cbn [obind alike_end]; try exact I.
    split; [reflexivity|]. split; [exists (g (S n)); reflexivity|]. destruct v; [exists (g (S n)); reflexivity|exact I].
Qed.
End Names.

Lemma spoil_spoil k k' c : spoil k (spoil k' c) = spoil k c.
Proof. reflexivity. Qed.
Lemma spoil_id c : exists k, c = spoil k c.
Proof. exists (field c). destruct c. reflexivity. Qed.
Notation quiet_step := (neutral spoil).
Lemma put_neutral d m : quiet_step (put d m).
Proof. intros k c. unfold put, carry. cbn [spoil cout]. destruct (write_all (cout c) d) as [w [v|e]]; reflexivity. Qed.
Lemma newline_neutral : quiet_step newline.
Proof. apply (neutral_if spoil pretty); [reflexivity|apply put_neutral|apply neutral_skip]. Qed.
Lemma comma_is_neutral b : quiet_step (comma_is b).
Proof. apply neutral_change. reflexivity. Qed.
Lemma deeper_neutral : quiet_step deeper.
Proof. apply neutral_change. reflexivity. Qed.
Lemma shallower_neutral : quiet_step shallower.
Proof. intros k c. unfold shallower. cbn [spoil level]. destruct (level c); reflexivity. Qed.
Lemma indents_neutral n : quiet_step (indents n).
Proof. induction n as [|n IH]; [apply neutral_skip|]. apply neutral_then; [apply put_neutral|exact IH]. Qed.
Lemma indent_neutral : quiet_step indent.
Proof. intros k c. unfold indent. cbn [spoil pretty level]. destruct (pretty c); [apply indents_neutral|apply neutral_skip]. Qed.
Lemma write_comma_neutral : quiet_step write_comma.
Proof.
  apply (neutral_if spoil pending); [reflexivity| |apply neutral_skip].
  apply neutral_then; [apply put_neutral|]. apply neutral_then; [apply newline_neutral|]. apply neutral_change. reflexivity.
Qed.
Create HintDb calm.
#[export] Hint Resolve put_neutral newline_neutral comma_is_neutral deeper_neutral shallower_neutral indent_neutral write_comma_neutral neutral_skip : calm.
Ltac calm := repeat (first [apply neutral_then | progress auto with calm nocore]).
Lemma close_atom_neutral : quiet_step close_atom.
Proof. unfold close_atom. calm. Qed.
#[export] Hint Resolve close_atom_neutral : calm.
Notation quiet_action := (neutral_action spoil).
Lemma refuse_neutral m : quiet_action (fun r c => Done (r, c, OpError m)).
Proof. apply (neutral_answer spoil (fun c => c)). reflexivity. Qed.
Lemma on_string_value_neutral : quiet_action on_string_value.
Proof.
  apply (neutral_first spoil (indent ;; put (bs """S"":""") "writing S type opening")); [calm|].
  intros r k c. cbn [spoil cout]. destruct (write_long_bytes r (cout c)) as [[[r' w] [v|e]]| |]; try reflexivity; cbn [obind].
  apply (neutral_act_of spoil (put [QUOTE] "writing S type closing quote" ;; close_atom) ValueIsConsumed ltac:(calm) r' k (set_cout c w)).
Qed.
Lemma on_bool_value_neutral : quiet_action on_bool_value.
Proof.
  apply (neutral_method spoil peek (fun v r c => match v with Err _ => _ | Ok p => _ end)). intros [p|e]; [|apply refuse_neutral].
  apply (neutral_first spoil indent); [calm|].
  destruct (N.eqb p PeekTrue); [apply (neutral_method spoil (known_bool p)); intros _; apply neutral_act_of; calm|].
  destruct (N.eqb p PeekFalse); [apply (neutral_method spoil (known_bool p)); intros _; apply neutral_act_of; calm|apply refuse_neutral].
Qed.
Lemma on_null_value_neutral : quiet_action on_null_value.
Proof.
  apply (neutral_method spoil peek (fun v r c => match v with Err _ => _ | Ok p => _ end)). intros [p|e]; [|apply refuse_neutral].
  destruct (N.eqb p PeekNull); [apply (neutral_method spoil known_null); intros _; apply neutral_act_of; calm|apply refuse_neutral].
Qed.
Lemma on_atom_value_neutral : quiet_action on_atom_value.
Proof.
  apply (neutral_first spoil write_comma); [calm|].
  apply (neutral_method spoil peek (fun v r c => match v with Err _ => _ | Ok p => _ end)). intros [p|e]; [|apply refuse_neutral].
  destruct (N.eqb p QUOTE); [apply on_string_value_neutral|]. destruct (N.eqb p PeekTrue || N.eqb p PeekFalse); [apply on_bool_value_neutral|].
  destruct (N.eqb p PeekNull); [apply on_null_value_neutral|].
  apply (neutral_method spoil next_number_bytes (fun v r c => match v with Err _ => _ | Ok p => _ end)). intros [n|e]; [|apply refuse_neutral].
  apply neutral_act_of. calm.
Qed.
Lemma on_root_literal_neutral : quiet_action on_root_literal.
Proof.
  apply (neutral_first spoil (put [LBRACE] "writing root literal opening brace" ;; deeper)); [calm|].
  intros r k c. rewrite on_atom_value_neutral. unfold carry_op at 1. destruct (on_atom_value r c) as [[[r' c'] op]| |]; cbn [obind]; try reflexivity.
  apply (neutral_act_of spoil (put [10%N] "writing final newline" ;; comma_is false) op ltac:(calm)).
Qed.
Lemma n2d_blind wrapper : blind spoil (n2d_callbacks wrapper).
Proof.
  assert (HA : quiet_step array_begin) by (unfold array_begin; calm).
  assert (HO : quiet_step nested_object_begin) by (unfold nested_object_begin; calm).
  assert (HE : quiet_step element_begin) by (unfold element_begin; calm).
  split.
  - intros name x k c. cbn [n2d_callbacks find_action]. unfold n2d_find_action. destruct (names x) as [|parent path].
    + destruct name; cbn [fst snd]; try (right; left; split; reflexivity); left; eexists; (split; [|split; reflexivity]); [apply neutral_act_of, HA|apply on_atom_value_neutral].
    + destruct (beq parent (bs "#top")).
      * destruct name; cbn [fst snd]; try (right; left; split; reflexivity); left; eexists; (split; [|split; reflexivity]).
        -- apply neutral_act_of. calm.
        -- apply neutral_act_of. destruct wrapper; calm.
        -- apply on_root_literal_neutral.
      * destruct name; cbn [fst snd]; try (right; right; reflexivity); left; eexists; (split; [|split; reflexivity]); destruct (beq parent (bs "#array"));
          try (apply neutral_act_of; calm).
        -- apply (neutral_first spoil element_begin); [exact HE|apply on_atom_value_neutral].
        -- apply on_atom_value_neutral.
  - intros name x k c. cbn [n2d_callbacks find_end_action]. unfold n2d_find_end_action. cbn [fst snd]. split; [reflexivity|]. split; [reflexivity|].
    assert (HAE : quiet_step on_array_end) by (unfold on_array_end; calm).
    destruct (names x) as [|parent path]; [exact I|]. destruct (beq parent (bs "#top")).
    + destruct name; try exact I; [unfold on_root_array_end; calm|]. unfold on_root_object_end. destruct wrapper; calm.
    + destruct name; try exact I; [exact HAE|unfold on_nested_object_end; calm|].
      destruct (beq parent (bs "#array")); [|exact I]. destruct path as [|y ys]; [exact I|]. destruct (beq y (bs "L")); [|exact I]. unfold on_array_element_end. calm.
Qed.
Lemma n2d_undisturbed g fuel rd w rb xb is_pretty wrapper :
  (do (c, v) <- convert (disturbed (fun n => spoil (g n)) (n2d_callbacks wrapper)) (fun c => fst c) 34 fuel rd rb xb (conv_new w is_pretty, 0);
   Done (cout (fst c), v)) = convert_normal_to_ddb fuel rd w rb xb is_pretty wrapper.
Proof.
  pose proof (kin_convert _ _ (fun u1 u2 H => H) _ _ (blind_agree spoil spoil_spoil _ g spoil_id (n2d_blind wrapper)) (fun c => fst c) (fun c => c) 34 fuel rd rb xb (conv_new w is_pretty, 0) (conv_new w is_pretty)) as H.
  unfold convert_normal_to_ddb.
  destruct (convert (disturbed _ _) _ _ _ _ _ _ _) as [[c1 v1]| |], (convert (n2d_callbacks wrapper) _ _ _ _ _ _ _) as [[c2 v2]| |]; cbn [obind]; try reflexivity;
    try (destruct H; [intros u1 u2 [k ->]; reflexivity|exists None; reflexivity]).
  destruct H as [[k H] ->]; [intros u1 u2 [k ->]; reflexivity|exists None; reflexivity|]. rewrite H. reflexivity.
Qed.

Lemma spoil_d2n_twice k k' c : spoil_d2n k (spoil_d2n k' c) = spoil_d2n k c.
Proof. reflexivity. Qed.
Lemma spoil_d2n_id c : exists k, c = spoil_d2n k c.
Proof. exists (field (base c)). destruct c as [[] ? ?]. reflexivity. Qed.
Notation quiet_step' := (neutral spoil_d2n).
Notation quiet_action' := (neutral_action spoil_d2n).
Lemma on_base_neutral f : quiet_step f -> quiet_step' (on_base f).
Proof. intros F k c. unfold on_base. cbn [spoil_d2n base]. rewrite F. unfold carry. destruct (f (base c)) as [[b v]| |]; reflexivity. Qed.
Lemma phase_is_neutral p : quiet_step' (phase_is p).
Proof. apply neutral_change. reflexivity. Qed.
Lemma type_is_neutral p : quiet_step' (type_is p).
Proof. apply neutral_change. reflexivity. Qed.
Lemma set_level_neutral n : quiet_step (change_to (fun c => Conv.set_level c n)).
Proof. apply neutral_change. reflexivity. Qed.
#[export] Hint Resolve on_base_neutral phase_is_neutral type_is_neutral set_level_neutral : calm.
Ltac calm' := repeat (first [apply neutral_then | apply on_base_neutral | progress auto with calm nocore]).
Lemma stored_neutral e x m : quiet_action' (fun r c => Done (r, store_rjiter_error c e x, OpError m)).
Proof. apply (neutral_answer spoil_d2n (fun c => store_rjiter_error c e x)). reflexivity. Qed.
Lemma on_error_neutral : quiet_action' on_error.
Proof. apply (neutral_answer spoil_d2n (fun c => c)). reflexivity. Qed.
Lemma refuse_neutral' m : quiet_action' (fun r c => Done (r, c, OpError m)).
Proof. apply (neutral_answer spoil_d2n (fun c => c)). reflexivity. Qed.
Lemma write_string_value_neutral q m1 m2 : quiet_action' (write_string_value q m1 m2).
Proof.
  apply (neutral_method spoil_d2n peek (fun v r c => match v with Err _ => _ | Ok p => _ end)). intros [p|e]; [|apply stored_neutral].
  destruct (negb _); [apply refuse_neutral'|]. apply (neutral_first spoil_d2n); [destruct q; calm'|].
  intros r k c. cbn [spoil_d2n base spoil cout]. destruct (write_long_bytes r (cout (base c))) as [[[r' w] [v|e]]| |]; try reflexivity; cbn [obind].
  assert (N : quiet_step' (on_base ((if q then put [QUOTE] "writing closing quote" else skip) ;; comma_is true))) by (destruct q; calm').
  apply (neutral_act_of spoil_d2n _ ValueIsConsumed N r' k (set_base c (set_cout (base c) w))).
Qed.
Lemma d2n_blind mode : blind spoil_d2n (d2n_callbacks mode).
Proof.
  split.
  - intros name x k c. cbn [d2n_callbacks find_action]. destruct name; cbn [d2n_find_action].
    + unfold find_action_array. cbn [spoil_d2n current_type].
      destruct (current_type c) as [[]|]; cbn [fst snd]; try (right; left; split; reflexivity); left; exists on_error; (split; [apply on_error_neutral|split; reflexivity]).
    + unfold find_action_object. cbn [spoil_d2n spoil base level at_phase current_type].
      destruct (level (base c) =? 0). { left. exists on_root_object_begin. split; [apply neutral_act_of; calm'|split; reflexivity]. }
      destruct (at_phase c); cbn [fst snd]; try (right; left; split; reflexivity);
        [destruct (current_type c) as [[]|]|left; exists on_error|destruct (parent_is (bs "#array") (names x))];
        try (right; left; split; reflexivity); try (left; exists on_error); (split; [apply on_error_neutral|split; reflexivity]).
    + unfold find_action_atom. cbn [spoil_d2n at_phase current_type].
      destruct (at_phase c); try (left; exists on_error; split; [apply on_error_neutral|split; reflexivity]).
      destruct (parent_is (bs "#array") (names x)); [|left; exists on_error; split; [apply on_error_neutral|split; reflexivity]].
      destruct (current_type c) as [[]|]; left; eexists; (split; [|split; reflexivity]); try apply on_error_neutral; apply write_string_value_neutral.
    + unfold find_action_key. destruct (names x) as [|key path]; [right; left; split; reflexivity|]. cbn [spoil_d2n spoil base level at_phase current_type].
      destruct (at_phase c); cbn [fst snd]; try (right; right; reflexivity).
      * destruct (_ && _); [right; left; split; reflexivity|right; right; reflexivity].
      * destruct (in_set (current_type c)); [right; right; reflexivity|]. left. exists on_error. split; [apply on_error_neutral|split; reflexivity].
  - intros name x k c. cbn [d2n_callbacks find_end_action]. unfold d2n_find_end_action. cbn [fst snd]. split; [reflexivity|]. split; [reflexivity|].
    assert (HM : quiet_step' on_map_end) by (unfold on_map_end; calm').
    assert (HMA : quiet_step' on_map_end_in_array) by (unfold on_map_end_in_array; calm').
    assert (HK : quiet_step' on_type_key_end) by (unfold on_type_key_end; calm').
    assert (HKA : quiet_step' on_type_key_end_in_array) by (unfold on_type_key_end_in_array; calm').
    assert (HT : quiet_step' on_transition_to_type_key_consumed) by (unfold on_transition_to_type_key_consumed; calm').
    destruct name.
    + destruct (at_phase c) eqn:P; try exact I; [|unfold on_set_end; calm'].
      intros k' c'. unfold on_list_end. cbn [spoil_d2n at_phase]. destruct (at_phase c'); try reflexivity.
      assert (N : quiet_step' (on_base (put [RBRACK] "writing L closing bracket" ;; comma_is true) ;; phase_is ExpectingValue ;; type_is None)) by calm'. apply N.
    + destruct (ctx_len x =? 1); [|exact I]. unfold on_root_object_end. calm'.
    + exact I.
    + unfold find_end_action_key. destruct (names x) as [|key path]; [exact I|].
      destruct (at_phase c); repeat match goal with |- context [if ?b then _ else _] => destruct b end; try exact I; assumption.
Qed.
Lemma d2n_undisturbed g fuel rd w rb xb is_pretty mode :
  (do (c, v) <- convert (disturbed (fun n => spoil_d2n (g n)) (d2n_callbacks mode)) (fun c => base (fst c)) 68 fuel rd rb xb (d2n_new w is_pretty, 0);
   Done (cout (base (fst c)), v)) = convert_ddb_to_normal fuel rd w rb xb is_pretty mode.
Proof.
  pose proof (kin_convert _ _ (fun u1 u2 H => H) _ _ (blind_agree spoil_d2n spoil_d2n_twice _ g spoil_d2n_id (d2n_blind mode)) (fun c => base (fst c)) base 68 fuel rd rb xb (d2n_new w is_pretty, 0) (d2n_new w is_pretty)) as H.
  unfold convert_ddb_to_normal.
  destruct (convert (disturbed _ _) _ _ _ _ _ _ _) as [[c1 v1]| |], (convert (d2n_callbacks mode) _ _ _ _ _ _ _) as [[c2 v2]| |]; cbn [obind]; try reflexivity;
    try (destruct H; [intros u1 u2 [k ->]; reflexivity|exists None; reflexivity]).
  destruct H as [[k H] ->]; [intros u1 u2 [k ->]; reflexivity|exists None; reflexivity|]. rewrite H. reflexivity.
Qed.

(** *** idtransform *)
Definition keyless (t : idt) : Prop := match seq t with AtBeginningKey _ | InMiddleKey _ => False | _ => True end.
Lemma keyless_spoil k t : keyless t -> spoil_idt k t = t.
Proof. unfold keyless, spoil_idt. destruct t as [o q]. cbn. destruct q; cbn; intros H; try contradiction; reflexivity. Qed.
Definition idt_same (u1 : idt * nat) (u2 : idt) : Prop := fst u1 = u2.
Definition idt_still (u1 : idt * nat) (u2 : idt) : Prop := fst u1 = u2 /\ keyless u2.
Lemma put_all_seq parts : forall t, seq (fst (put_all t parts)) = seq t.
Proof.
  induction parts as [|[d m] parts IH]; intros t; cbn [put_all]; [reflexivity|]. destruct (write_all (out t) d) as [w [v|e]]; [rewrite IH|]; reflexivity.
Qed.
Lemma write_seqpos_keyless t t' : write_seqpos t = (t', Ok tt) -> keyless t'.
Proof.
  unfold write_seqpos, keyless. destruct (seq t) eqn:S; try (intros [= <-]; cbn; rewrite ?S; exact I);
    match goal with |- context [put_all ?a ?b] => destruct (put_all a b) as [t1 [[]|m]] end; intros [= <-]; exact I.
Qed.
Definition tame (a : action idt) : Prop := forall r t, match a r t with Done (_, t', OpError _) => True | Done (_, t', _) => keyless t' | _ => True end.
Lemma on_key_tame : tame on_key.
Proof. intros r t. unfold on_key. destruct (write_seqpos t) as [t' [[]|m]]; exact I. Qed.
Lemma on_struct_tame d : tame (on_struct d).
Proof.
  intros r t. unfold on_struct. destruct (write_seqpos t) as [t' [[]|m]]; [|exact I]. destruct (put_all t' _) as [t1 [[]|m]]; exact I.
Qed.
Lemma on_atom_tame : tame on_atom.
Proof.
  intros r t. unfold on_atom. destruct (write_seqpos t) as [t' [[]|m]] eqn:W; [|exact I]. apply write_seqpos_keyless in W.
  destruct (peek r) as [[r' [p|e]]| |]; cbn [obind]; try exact I. destruct (copy_atom p r' (out t')) as [[[r1 w] [v|e]]| |]; cbn [obind]; try exact I. exact W.
Qed.
Lemma idt_agree g : agree idt_still idt_same (disturbed (fun n => spoil_idt (g n)) idt_callbacks) idt_callbacks.
Proof.
  assert (HS : forall a r t n, tame a -> alike_op idt_still idt_same (do (r', u', op) <- a r t; Done (r', (u', n : nat), op)) (a r t)).
  { intros a r t n T. specialize (T r t). destruct (a r t) as [[[r' t'] o]| |]; cbn [obind alike_op]; try exact I.
    split; [reflexivity|]. split; [reflexivity|]. split; [reflexivity|]. destruct o; try exact I; split; auto. }
  split.
  - intros name x r [t1 n] t [H K]. cbn [fst] in H. subst t1. cbn [disturbed find_action idt_callbacks]. rewrite keyless_spoil by exact K.
    unfold idt_find_action. destruct name; cbn [option_map].
    + apply HS, on_struct_tame.
    + apply HS, on_struct_tame.
    + apply HS, on_atom_tame.
    + destruct (names x) as [|key path]; cbn [option_map]; [split; auto|]. destruct (_ && _); cbn [option_map]; [apply HS, on_key_tame|split; auto].
  - intros name x [t1 n] t [H K]. cbn [fst] in H. subst t1. cbn [disturbed find_end_action idt_callbacks]. unfold idt_find_end_action. rewrite keyless_spoil by exact K.
    assert (W : forall d, alike_end idt_still idt_same (do (u', v) <- on_struct_end d t; Done ((u', S (S n)), v)) (on_struct_end d t)).
    { intros d. unfold on_struct_end. destruct (put_all _ _) as [t' v] eqn:P. cbn [obind alike_end]. split; [reflexivity|]. split; [reflexivity|].
      destruct v; [|exact I]. split; [reflexivity|]. pose proof (put_all_seq [(d, "IO error writing struct end"%string)] (set_seq t InMiddle)) as Q. rewrite P in Q. cbn in Q. unfold keyless. rewrite Q. exact I. }
    destruct name; cbn [option_map]; try (split; [reflexivity|exact K]); apply W.
Qed.
Lemma idt_undisturbed g fuel r w p :
  (do (s, v) <- scan (disturbed (fun n => spoil_idt (g n)) idt_callbacks) (mkOptions [] true) fuel (mkS r (idt_new w, 0) p);
   Done (mkS (parser s) (fst (user s)) (stack s), v)) = scan idt_callbacks (mkOptions [] true) fuel (mkS r (idt_new w) p).
Proof.
  pose proof (kin_scan idt_still idt_same (fun u1 u2 H => proj1 H) _ _ (idt_agree g)) as H.
  specialize (H (mkOptions [] true) fuel r (idt_new w, 0) (idt_new w) p (conj eq_refl I)). unfold alike in H.
  destruct (scan (disturbed _ _) _ _ _) as [[[r1 u1 p1] v1]| |], (scan idt_callbacks _ _ _) as [[[r2 u2 p2] v2]| |]; cbn [obind parser stack user] in *; try contradiction; try reflexivity.
  destruct H as (-> & -> & -> & H & _). unfold idt_same in H. rewrite H. reflexivity.
Qed.
