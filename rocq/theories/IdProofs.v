(** Proofs about idtransform. *)
From Verif Require Import Base U8Pool Buffer BufferSpec Jiter RJiter RJiterSpec Scan ScanSpec IdTransform IdSpec.
From Verif Require Import RJiterLookProofs ScanTokens ScanParser ScanStack ScanProofs ScanTop ScanSse.

(** ** What the callbacks do *)
(** What is written before the element at hand. *)
Definition mark (q : seqpos) (top : bool) : bytes :=
  match q with
  | AtBeginning | AfterKey => []
  | InMiddle => if top then [32%N] else [COMMA]
  | AtBeginningKey k => QUOTE :: k ++ [QUOTE; COLON]
  | InMiddleKey k => COMMA :: QUOTE :: k ++ [QUOTE; COLON]
  end.
Definition moved (q : seqpos) : seqpos := match q with AfterKey => AfterKey | _ => InMiddle end.
Definition no_error (t : idt) : Prop := io_error t = None /\ rjiter_error t = None /\ stored_scan_error t = None.
(** A part of [p] was written, and then the writer (or, if [E], the parser) failed. *)
Definition failed (E : bool) (t : idt) (p : bytes) (t' : idt) : Prop :=
  exists a b, p = a ++ b /\ spent (out t) a (out t') /\
    (E = true \/ (b <> [] /\ exists k, exhausted (out t') k /\ io_error t' = Some k)).
Definition wrote (t : idt) (p : bytes) (q : seqpos) (t' : idt) : Prop :=
  spent (out t) p (out t') /\ seq t' = q /\ no_error t'.
(** The position a callback finds. *)
Definition posture (name : pseudoname) (path : list bytes) (q : seqpos) : seqpos :=
  match name, path with
  | PNone, k :: _ => match q with AtBeginning => AtBeginningKey k | _ => InMiddleKey k end
  | _, _ => q
  end.
Definition idt_behaviour (E : bool) : behaviour idt := mkBehaviour
  (fun name path v t t' op =>
     no_error t -> (forall k, seq t <> AtBeginningKey k) -> (forall k, seq t <> InMiddleKey k) ->
     (name = PNone -> exists k p, path = k :: p /\ ordinary_key k) ->
     let q := posture name path (seq t) in
     let text := mark q (List.length path <? 2) ++
       match name with PObject => [LBRACE] | PArray => [LBRACK] | PAtom => compact v | PNone => [] end in
     match op with
     | None => False
     | Some (OpError _) => failed E t text t'
     | Some OpNone => name <> PAtom /\ wrote t text (match name with PNone => AfterKey | _ => AtBeginning end) t'
     | Some ValueIsConsumed => name = PAtom /\ wrote t text (moved q) t'
     end)
  (fun name path t t' e =>
     no_error t ->
     let text := match name with PObject => [RBRACE] | PArray => [RBRACK] | _ => [] end in
     match e with
     | None => False
     | Some (Err _) => failed E t text t'
     | Some (Ok _) => wrote t text (match name with PObject | PArray => InMiddle | _ => seq t end) t'
     end).

Lemma put_all_spent parts : forall t, exists t' r, put_all t parts = (t', r) /\
  seq t' = seq t /\ is_top_level t' = is_top_level t /\
  match r with
  | Ok _ => spent (out t) (List.concat (map fst parts)) (out t') /\ (no_error t -> no_error t')
  | Err _ => failed false t (List.concat (map fst parts)) t'
  end.
Proof.
  induction parts as [|[d m] parts IH]; intros t; cbn [put_all map fst List.concat].
  - exists t, (Ok tt). split; [reflexivity|]. do 2 (split; [reflexivity|]). split; [apply spent_refl|auto].
  - destruct (write_all_spent (out t) d) as (w & r & -> & H). destruct r as [[]|k].
    + destruct (IH (set_out t w)) as (t' & r & -> & Hs & Ht & H2). exists t', r. split; [reflexivity|]. do 2 (split; [assumption|]).
      destruct r.
      * destruct H2 as (H2 & H3). split; [eapply spent_trans; [exact H|exact H2]|exact H3].
      * destruct H2 as (a & b & Hab & Hs2 & H3). exists (d ++ a), b. rewrite Hab, app_assoc. split; [reflexivity|].
        split; [eapply spent_trans; [exact H|exact Hs2]|exact H3].
    + exists (set_io (set_out t w) k), (Err m). split; [reflexivity|]. do 2 (split; [reflexivity|]).
      destruct H as (p & q & -> & Hq & Hs & He). exists p, (q ++ List.concat (map fst parts)). rewrite app_assoc. split; [reflexivity|].
      split; [exact Hs|]. right. split; [destruct q; [contradiction|discriminate]|]. exists k. split; [exact He|reflexivity].
Qed.
Lemma write_seqpos_spent t : exists t' r, write_seqpos t = (t', r) /\ is_top_level t' = is_top_level t /\
  match r with
  | Ok _ => spent (out t) (mark (seq t) (is_top_level t)) (out t') /\ (no_error t -> no_error t') /\ seq t' = moved (seq t)
  | Err _ => failed false t (mark (seq t) (is_top_level t)) t'
  end.
Proof.
  assert (P : forall parts, exists t' r, (match put_all t parts with (t, Ok tt) => (set_seq t InMiddle, Ok tt) | (t, Err m) => (t, Err m) end) = (t', r) /\
    is_top_level t' = is_top_level t /\
    match r with
    | Ok _ => spent (out t) (List.concat (map fst parts)) (out t') /\ (no_error t -> no_error t') /\ seq t' = InMiddle
    | Err _ => failed false t (List.concat (map fst parts)) t'
    end).
  { intros parts. destruct (put_all_spent parts t) as (t' & r & -> & Hs & Ht & H). destruct r as [[]|m].
    - exists (set_seq t' InMiddle), (Ok tt). split; [reflexivity|]. split; [exact Ht|]. destruct H as (H & Hn). split; [exact H|]. split; [exact Hn|reflexivity].
    - exists t', (Err m). auto. }
  unfold write_seqpos. destruct (seq t) as [| |k|k|] eqn:Eq; cbn [mark moved].
  - exists (set_seq t InMiddle), (Ok tt). split; [reflexivity|]. split; [reflexivity|]. split; [apply spent_refl|auto].
  - destruct (P [(if is_top_level t then [32%N] else [COMMA], "IO error writing sequence position"%string)]) as (t' & r & E & H).
    exists t', r. split; [exact E|]. cbn [map fst List.concat] in H. rewrite app_nil_r in H. exact H.
  - destruct (P [([QUOTE], "IO error writing key quote"%string); (k, "IO error writing key"%string); ([QUOTE; COLON], "IO error writing key suffix"%string)])
      as (t' & r & E & H). exists t', r. split; [exact E|exact H].
  - destruct (P [([COMMA; QUOTE], "IO error writing key prefix"%string); (k, "IO error writing key"%string); ([QUOTE; COLON], "IO error writing key suffix"%string)])
      as (t' & r & E & H). exists t', r. split; [exact E|exact H].
  - exists t, (Ok tt). split; [reflexivity|]. split; [reflexivity|]. split; [apply spent_refl|auto].
Qed.
Lemma failed_more E t p q t' : failed false t p t' -> failed E t (p ++ q) t'.
Proof.
  intros (a & b & -> & Hs & [H|(Hb & H)]); [discriminate|]. exists a, (b ++ q). rewrite app_assoc. split; [reflexivity|]. split; [exact Hs|].
  right. split; [destruct b; [contradiction|discriminate]|exact H].
Qed.
Lemma failed_after E t p q t1 t' : spent (out t) p (out t1) -> failed E t1 q t' -> failed E t (p ++ q) t'.
Proof.
  intros H (a & b & -> & Hs & H2). exists (p ++ a), b. rewrite app_assoc. split; [reflexivity|]. split; [eapply spent_trans; eassumption|exact H2].
Qed.

Section Copy.
Context (G0 G : rj -> Prop) (P : profile) (E : bool) (PF : parser_facts G0 G P E).
Definition copied (v : json) (r : bytes) (w : writer) (x : outcome (rj * writer * result unit scan_error)) : Prop :=
  exists s' w' res a c, x = Done (s', w', res) /\ compact v = a ++ c /\ spent w a w' /\
    match res with
    | Ok _ => c = [] /\ rest s' = r /\ G s'
    | Err e => E = true \/ (c <> [] /\ exists k, exhausted w' k /\ (e = IOError k \/ exists e', e = RJiterError e' /\ err_type e' = IoError k))
    end.
Lemma put_last v r w p q (s : rj) w1 : compact v = p ++ q -> spent w p w1 -> rest s = r -> G s ->
  copied v r w (match write_all w1 q with (w', Ok _) => Done (s, w', Ok tt) | (w', Err e) => Done (s, w', Err (IOError e)) end).
Proof.
  intros Hc Hs Hr HG. destruct (write_all_spent w1 q) as (w' & res & -> & H). destruct res as [[]|k].
  - exists s, w', (Ok tt), (p ++ q), []. rewrite app_nil_r. split; [reflexivity|]. split; [exact Hc|]. split; [eapply spent_trans; eassumption|auto].
  - destruct H as (a & b & -> & Hb & Hs1 & Hk). exists s, w', (Err (IOError k)), (p ++ a), b. split; [reflexivity|].
    split; [rewrite Hc, app_assoc; reflexivity|]. split; [eapply spent_trans; eassumption|]. right. split; [exact Hb|]. exists k. auto.
Qed.
Lemma copy_literal {X} v r w s (op : rj -> outcome (rj * result X rerror)) (Q : X -> Prop) :
  tried E (op s) (fun s' x => Q x /\ rest s' = r /\ G s') ->
  copied v r w (do (r', y) <- op s;
    match y with
    | Ok _ => match write_all w (compact v) with (w', Ok _) => Done (r', w', Ok tt) | (w', Err e) => Done (r', w', Err (IOError e)) end
    | Err e => Done (r', w, Err (RJiterError e))
    end).
Proof.
  intros (s' & res & -> & H). cbn [obind]. destruct res as [x|e].
  - destruct H as (_ & Hr & HG). apply put_last with (p := []); auto using spent_refl.
  - exists s', w, (Err (RJiterError e)), [], (compact v). split; [reflexivity|]. split; [reflexivity|]. split; [apply spent_refl|auto].
Qed.
Lemma copy_atom_copied b v l r x l0 s w : atom v -> value_at P b v l r -> l = x :: l0 -> G s -> rest s = l -> copied v r w (copy_atom x s w).
Proof.
  intros Ha Hv El HG Hr. destruct Hv; try contradiction Ha.
  - injection El as <- <-. apply (copy_literal JNull r w s known_null (fun _ => True)).
    eapply tried_weaken; [|apply (pf_null _ _ _ _ PF s r HG Hr)]. cbn beta. tauto.
  - injection El as <- <-. apply (copy_literal JTrue r w s (known_bool PeekTrue) (fun x => x = true)), (pf_true _ _ _ _ PF s r HG Hr).
  - injection El as <- <-. apply (copy_literal JFalse r w s (known_bool PeekFalse) (fun x => x = false)), (pf_false _ _ _ _ PF s r HG Hr).
  - destruct (number_head t H) as (y & q & Et & Hx). assert (x = y) as -> by (rewrite Et in El; injection El; auto).
    assert (Hne : forall z : byte, z = QUOTE \/ z = PeekNull \/ z = PeekTrue \/ z = PeekFalse -> N.eqb y z = false).
    { intros z Hz. apply N.eqb_neq. intros ->. destruct Hz as [->|[->|[->| ->]]]; destruct Hx as [Hx|Hx]; try discriminate; destruct Hx as (A & B); vm_compute in A, B; congruence. }
    unfold copy_atom. rewrite !Hne by auto.
    destruct (pf_number _ _ _ _ PF s t r HG Hr H H0 H1) as (s' & res & -> & Hres). cbn [obind]. destruct res as [u|e].
    + destruct Hres as (-> & Hr' & HG'). apply put_last with (p := []); auto using spent_refl.
    + exists s', w, (Err (UnhandledPeek y (current_index s'))), [], t. split; [reflexivity|]. split; [reflexivity|]. split; [apply spent_refl|auto].
  - injection El as <- <-. unfold copy_atom. cbn [N.eqb Pos.eqb QUOTE]. change (N.eqb QUOTE QUOTE) with true. cbv iota.
    destruct (write_all_spent w [QUOTE]) as (w1 & res & -> & H1). destruct res as [[]|k].
    + destruct (pf_string _ _ _ _ PF s w1 t r HG Hr H H0) as (s' & w' & res & p & q & -> & -> & Hs & Hres). cbn [obind]. destruct res as [[]|e].
      * destruct Hres as (-> & Hr' & HG'). rewrite app_nil_r. apply put_last with (p := QUOTE :: p); auto.
        apply (spent_trans _ [QUOTE] _ _ _ H1 Hs).
      * exists s', w', (Err (RJiterError e)), (QUOTE :: p), (q ++ [QUOTE]). split; [reflexivity|].
        split; [cbn; rewrite app_assoc; reflexivity|]. split; [apply (spent_trans _ [QUOTE] _ _ _ H1 Hs)|].
        destruct Hres as [Hres|(k & He & Hk & _)]; [left; exact Hres|right]. split; [destruct q; discriminate|]. exists k. split; [exact Hk|]. right. eauto.
    + destruct H1 as (a & c & Hac & Hc & Hs & Hk). exists s, w1, (Err (IOError k)), a, (c ++ t ++ [QUOTE]). split; [reflexivity|].
      split; [change (compact (JString t)) with ([QUOTE] ++ t ++ [QUOTE]); rewrite Hac, <- app_assoc; reflexivity|].
      split; [exact Hs|]. right. split; [destruct c; [contradiction|discriminate]|]. exists k. auto.
Qed.
End Copy.

(** ** The callbacks keep to the contract *)
Lemma wrote_seq t p q t' : wrote t p q t' -> seq t' = q.
Proof. intros (_ & H & _). exact H. Qed.
Lemma on_struct_does t d s : exists t' op, on_struct d s t = Done (s, t', op) /\
  match op with
  | OpNone => no_error t -> wrote t (mark (seq t) (is_top_level t) ++ d) AtBeginning t'
  | OpError _ => failed false t (mark (seq t) (is_top_level t) ++ d) t'
  | ValueIsConsumed => False
  end.
Proof.
  unfold on_struct. destruct (write_seqpos_spent t) as (t1 & r & -> & Ht & H). destruct r as [[]|m].
  - destruct H as (Hs & Hn & _). destruct (put_all_spent [(d, "IO error writing struct"%string)] t1) as (t2 & r & -> & _ & _ & H2).
    cbn [map fst List.concat] in H2. rewrite app_nil_r in H2. destruct r as [[]|m].
    + eexists _, OpNone. split; [reflexivity|]. intros H0. split; [eapply spent_trans; [exact Hs|apply H2]|]. split; [reflexivity|apply H2, Hn, H0].
    + eexists _, (OpError m). split; [reflexivity|]. eapply failed_after; eassumption.
  - eexists _, (OpError m). split; [reflexivity|]. apply failed_more, H.
Qed.
Lemma failed_mono E t p t' : failed false t p t' -> failed E t p t'.
Proof. intros H. rewrite <- (app_nil_r p). apply failed_more, H. Qed.

Section Respects.
Context (G0 G : rj -> Prop) (P : profile) (E : bool) (PF : parser_facts G0 G P E).
Lemma on_atom_does b v l r s t : atom v -> value_at P b v l r -> G s -> rest s = l ->
  exists s' t' op, on_atom s t = Done (s', t', op) /\
    let text := mark (seq t) (is_top_level t) ++ compact v in
    match op with
    | OpNone => False
    | OpError _ => failed E t text t'
    | ValueIsConsumed => G s' /\ rest s' = r /\ (no_error t -> wrote t text (moved (seq t)) t')
    end.
Proof.
  intros Ha Hv HG Hr. unfold on_atom. destruct (write_seqpos_spent t) as (t1 & res & -> & _ & H). destruct res as [[]|m].
  2:{ eexists _, _, (OpError m). split; [reflexivity|]. apply failed_more, H. }
  destruct H as (Hs & Hn & Hq). destruct (value_head _ _ _ _ _ Hv) as (x & l0 & El & Hx & _).
  destruct (pf_peek _ _ _ _ PF s [] x l0 (pf_start _ _ _ _ PF _ HG)) as (s1 & res & -> & Hp); [rewrite Hr, El; reflexivity|constructor|exact Hx|].
  cbn [obind]. destruct res as [y|e].
  - destruct Hp as (-> & Hr1 & HG1).
    destruct (copy_atom_copied _ _ _ _ PF b v l r x l0 s1 (out t1) Ha Hv El HG1) as (s' & w' & res & a & c & -> & Hac & Hsp & Hres); [congruence|].
    cbn [obind]. destruct res as [[]|e].
    + destruct Hres as (-> & Hr' & HG'). rewrite app_nil_r in Hac. eexists _, _, ValueIsConsumed. split; [reflexivity|]. split; [exact HG'|]. split; [exact Hr'|].
      intros H0. rewrite Hac. split; [eapply spent_trans; [exact Hs|exact Hsp]|]. split; [exact Hq|apply Hn, H0].
    + eexists _, _, (OpError _). split; [reflexivity|]. eapply failed_after; [exact Hs|]. exists a, c. split; [exact Hac|].
      destruct e as [e|b0 i|b0|m i|i m|i n|k]; cbn [out]; try (split; [exact Hsp|]; destruct Hres as [Hres|(Hc & k0 & Hk & [He|(e' & He & He2)])]; [left; exact Hres|discriminate|discriminate]).
      * split; [destruct (err_type e); exact Hsp|]. destruct Hres as [Hres|(Hc & k & Hk & [He|(e' & He & He2)])]; [left; exact Hres|discriminate|].
        right. split; [exact Hc|]. exists k. injection He as <-. rewrite He2. cbn. auto.
      * split; [exact Hsp|]. destruct Hres as [Hres|(Hc & k0 & Hk & [He|(e' & He & He2)])]; [left; exact Hres| |discriminate].
        right. split; [exact Hc|]. exists k0. injection He as <-. cbn. auto.
  - eexists _, _, (OpError _). split; [reflexivity|]. eapply failed_after; [exact Hs|]. exists [], (compact v). split; [reflexivity|].
    split; [destruct (err_type e); apply spent_refl|]. left. apply Hp.
Qed.
Lemma idt_respects : respects G P idt_callbacks (idt_behaviour E).
Proof.
  split.
  - intros name b v l r path s t Hname HG Hr Hv Hb. cbn [find_action idt_callbacks].
    assert (HS : forall d, (name = PArray /\ d = [LBRACK]) \/ (name = PObject /\ d = [LBRACE]) ->
      exists s' u' op, on_struct d s (set_level t (List.length path <? 2)) = Done (s', u', op) /\
        on_begin (idt_behaviour E) name path v t u' (Some op) /\
        match op with
        | OpNone => G s' /\ rest s' = l /\ (b = true -> 0 < jidx s')
        | ValueIsConsumed => G s' /\ rest s' = r
        | OpError _ => True
        end).
    { intros d Hd. destruct (on_struct_does (set_level t (List.length path <? 2)) d s) as (t' & op & -> & H). exists s, t', op. split; [reflexivity|].
      cbn [seq is_top_level set_level] in H. split.
      - cbn [on_begin idt_behaviour]. intros Hn _ _ _. unfold posture. destruct op as [| |m]; [|contradiction|].
        + specialize (H Hn). destruct Hd as [(-> & ->)|(-> & ->)]; (split; [discriminate|exact H]).
        + apply (failed_mono E) in H. destruct Hd as [(-> & ->)|(-> & ->)]; exact H.
      - destruct op; auto. contradiction. }
    destruct name; cbn [idt_find_action ctx_len]; cbn [announces] in Hname.
    + right. apply HS. auto.
    + right. apply HS. auto.
    + right. destruct (on_atom_does b v l r s (set_level t (List.length path <? 2)) Hname Hv HG Hr) as (s' & t' & op & -> & H).
      cbn [seq is_top_level set_level] in H. cbv zeta in H.
      exists s', t', op. split; [reflexivity|]. destruct op as [| |m]; [contradiction| |].
      * destruct H as (HG' & Hr' & H). split; [|auto]. cbn [on_begin idt_behaviour]. intros Hn _ _ _. split; [reflexivity|]. exact (H Hn).
      * split; [|exact I]. cbn [on_begin idt_behaviour]. intros Hn _ _ _. exact H.
    + contradiction.
  - intros v w l r path s t HG Hr Hw Hv. cbn [find_action idt_callbacks idt_find_action names].
    assert (HX : forall k p, path = k :: p -> negb (beq k (bs "#top")) && negb (beq k (bs "#array")) = false -> ordinary_key k -> False).
    { intros k p _ H (H1 & H2). destruct (beq k (bs "#top")) eqn:E1; [apply beq_eq in E1; contradiction|].
      destruct (beq k (bs "#array")) eqn:E2; [apply beq_eq in E2; contradiction|discriminate]. }
    destruct path as [|k path].
    { cbn [on_begin idt_behaviour]. intros _ _ _ H. destruct (H eq_refl) as (? & ? & ? & _). discriminate. }
    destruct (negb (beq k (bs "#top")) && negb (beq k (bs "#array"))) eqn:Ek.
    + right. unfold on_key. set (t0 := set_seq t _). destruct (write_seqpos_spent t0) as (t1 & res & -> & _ & H).
      assert (Hm : forall top, mark (seq t0) top = mark (posture PNone (k :: path) (seq t)) (List.length (k :: path) <? 2)) by (intros top; subst t0; cbn; destruct (seq t); reflexivity).
      rewrite Hm in H. destruct res as [[]|m].
      * destruct H as (Hs & Hn & Hq). exists s, (set_seq t1 AfterKey), OpNone. split; [reflexivity|]. split; [|split; [exact HG|exists w; auto]].
        cbn [on_begin idt_behaviour]. intros H0 _ _ _. rewrite app_nil_r. split; [discriminate|]. split; [exact Hs|]. split; [reflexivity|apply Hn, H0].
      * exists s, t1, (OpError m). split; [reflexivity|]. split; [|exact I]. cbn [on_begin idt_behaviour]. intros H0 _ _ _. apply failed_more, H.
    + cbn [on_begin idt_behaviour]. intros _ _ _ H. destruct (H eq_refl) as (k' & p' & Hp & Ho). injection Hp as <- <-. elim (HX k path eq_refl Ek Ho).
  - intros name path t Hname. cbn [find_end_action idt_callbacks idt_find_end_action].
    assert (HS : forall d, (name = PArray /\ d = [RBRACK]) \/ (name = PObject /\ d = [RBRACE]) ->
      exists u' e, on_struct_end d t = Done (u', e) /\ on_end (idt_behaviour E) name path t u' (Some e)).
    { intros d Hd. unfold on_struct_end. change (list byte) with bytes in d. destruct (put_all_spent [(d, "IO error writing struct end"%string)] (set_seq t InMiddle)) as (t2 & r & Ep & Hq & _ & H).
      cbn [map fst List.concat] in H. rewrite app_nil_r in H. exists t2, r. split; [apply (f_equal Done) in Ep; exact Ep|]. cbn [on_end idt_behaviour]. intros Hn. destruct r as [[]|m].
      - destruct H as (H & Hn2). destruct Hd as [(-> & ->)|(-> & ->)]; (split; [exact H|]; split; [exact Hq|apply Hn2, Hn]).
      - apply failed_mono with (E := E) in H. destruct Hd as [(-> & ->)|(-> & ->)]; exact H. }
    destruct name; [right; apply HS; auto|right; apply HS; auto|contradiction|].
    cbn [on_end idt_behaviour]. intros Hn. split; [apply spent_refl|]. split; [reflexivity|exact Hn].
Qed.
End Respects.

(** ** The walk *)
Definition resting (q : seqpos) : Prop := (forall k, q <> AtBeginningKey k) /\ (forall k, q <> InMiddleKey k).
Definition partly (E : bool) (t : idt) (text : bytes) (t' : idt) (why : stop) : Prop :=
  exists a b, text = a ++ b /\ spent (out t) a (out t') /\
    match why with
    | Crashed => False
    | ByAction _ => E = true \/ (b <> [] /\ exists k, exhausted (out t') k /\ io_error t' = Some k)
    | Denied _ => no_error t'
    | Broken => E = true
    end.
Definition progress (E : bool) (t : idt) (text : bytes) (t' : idt) (st : status) (Q : seqpos -> Prop) : Prop :=
  match st with
  | Through => spent (out t) text (out t') /\ no_error t' /\ Q (seq t')
  | Stopped why => partly E t text t' why
  end.
Definition rest_list (q : seqpos) (l : list bytes) : bytes :=
  match q with AtBeginning => join l | _ => flat_map (cons COMMA) l end.
Definition member_text (kv : bytes * json) : bytes := let '(k, v) := kv in QUOTE :: k ++ QUOTE :: COLON :: compact v.
Lemma join_cons x l : join (x :: l) = x ++ flat_map (cons COMMA) l.
Proof.
  revert x. induction l as [|y l IH]; intros x; [symmetry; apply app_nil_r|]. change (join (x :: y :: l)) with (x ++ COMMA :: join (y :: l)).
  rewrite IH. reflexivity.
Qed.
Lemma partly_after E t p q t1 t' why : spent (out t) p (out t1) -> partly E t1 q t' why -> partly E t (p ++ q) t' why.
Proof.
  intros H (a & b & -> & Hs & H2). exists (p ++ a), b. rewrite app_assoc. split; [reflexivity|]. split; [eapply spent_trans; eassumption|exact H2].
Qed.
Lemma partly_more E t p q t' why : partly E t p t' why -> partly E t (p ++ q) t' why.
Proof.
  intros (a & b & -> & Hs & H2). exists a, (b ++ q). rewrite app_assoc. split; [reflexivity|]. split; [exact Hs|].
  destruct why; auto. destruct H2 as [H2|(H2 & H3)]; [auto|right]. split; [destruct b; [contradiction|discriminate]|exact H3].
Qed.
Lemma partly_failed E t p t' m : failed E t p t' -> partly E t p t' (ByAction m).
Proof. intros (a & b & H). exists a, b. exact H. Qed.
Lemma partly_here E t p why : match why with Denied _ => no_error t | Broken => E = true | _ => False end -> partly E t p t why.
Proof. intros H. exists [], p. split; [reflexivity|]. split; [apply spent_refl|]. destruct why; auto; contradiction. Qed.

Definition value_text (path : list bytes) (q : seqpos) (v : json) : bytes := mark q (List.length path <? 2) ++ compact v.
Definition value_moves E (path : list bytes) (v : json) (t t' : idt) (st : status) : Prop :=
  no_error t -> resting (seq t) -> ordinary v -> 1 <= List.length path ->
  progress E t (value_text path (seq t) v) t' st (fun q => q = InMiddle \/ (seq t = AfterKey /\ q = AfterKey)).
Definition items_move E (path : list bytes) (vs : list json) (t t' : idt) (st : status) : Prop :=
  no_error t -> seq t = AtBeginning \/ seq t = InMiddle -> fold_right (fun v P => ordinary v /\ P) True vs -> 2 <= List.length path ->
  progress E t (rest_list (seq t) (map compact vs)) t' st (fun q => q = AtBeginning \/ q = InMiddle).
Definition members_move E (path : list bytes) (ms : list (bytes * json)) (t t' : idt) (st : status) : Prop :=
  no_error t -> resting (seq t) -> fold_right (fun '(k, v) P => (ordinary_key k /\ ordinary v) /\ P) True ms -> 1 <= List.length path ->
  progress E t (rest_list (seq t) (map member_text ms)) t' st resting.
Definition member_moves E (path : list bytes) (v : json) (t t' : idt) (st : status) : Prop :=
  no_error t -> resting (seq t) -> ordinary v -> 2 <= List.length path -> (exists k p, path = k :: p /\ ordinary_key k) ->
  progress E t (mark (posture PNone path (seq t)) false ++ compact v) t' st (fun q => q = InMiddle \/ q = AfterKey).
Lemma begin_struct E name path v t t' op : on_begin (idt_behaviour E) name path v t t' op -> no_error t -> resting (seq t) ->
  name = PArray \/ name = PObject ->
  let text := mark (seq t) (List.length path <? 2) ++ match name with PObject => [LBRACE] | _ => [LBRACK] end in
  match op with
  | None | Some ValueIsConsumed => False
  | Some OpNone => wrote t text AtBeginning t'
  | Some (OpError m) => forall more, partly E t (text ++ more) t' (ByAction m)
  end.
Proof.
  intros H Hn (Hr1 & Hr2) Hname text. subst text. specialize (H Hn Hr1 Hr2). destruct Hname as [->| ->]; specialize (H ltac:(discriminate));
    (destruct op as [[| |m]|]; [apply H|destruct H; discriminate|intros more; apply partly_more, partly_failed, H|contradiction]).
Qed.
Lemma end_struct E name path t t' e : on_end (idt_behaviour E) name path t t' e -> no_error t -> name = PArray \/ name = PObject ->
  progress E t (match name with PObject => [RBRACE] | _ => [RBRACK] end) t' (ended e) (fun q => q = InMiddle).
Proof.
  intros H Hn Hname. specialize (H Hn). destruct Hname as [->| ->]; (destruct e as [[[]|m]|]; cbn [ended progress]; [|apply partly_failed, H|contradiction]);
    destruct H as (A & B & C); auto.
Qed.
Lemma progress_after E t p q t1 t' st Q : spent (out t) p (out t1) -> progress E t1 q t' st Q -> progress E t (p ++ q) t' st Q.
Proof.
  intros H. destruct st as [|why]; cbn [progress]; [|apply partly_after, H]. intros (A & B). split; [eapply spent_trans; eassumption|exact B].
Qed.
Lemma progress_weaken E t p t' st (Q R : seqpos -> Prop) : (forall q, Q q -> R q) -> progress E t p t' st Q -> progress E t p t' st R.
Proof. intros H. destruct st; cbn [progress]; [|auto]. intros (A & B & C). auto. Qed.
Lemma resting_at q : q = AtBeginning \/ q = InMiddle \/ q = AfterKey -> resting q.
Proof. intros [->|[->| ->]]; split; discriminate. Qed.

Lemma idt_walk E d :
  (forall path v t t' st, walk_value (idt_behaviour E) d E path v t t' st -> value_moves E path v t t' st) /\
  (forall path vs t t' st, walk_items (idt_behaviour E) d E path vs t t' st -> items_move E path vs t t' st) /\
  (forall path ms t t' st, walk_members (idt_behaviour E) d E path ms t t' st -> members_move E path ms t t' st) /\
  (forall path v t t' st, walk_member (idt_behaviour E) d E path v t t' st -> member_moves E path v t t' st).
Proof.
  apply (walk_ind _ (idt_behaviour E) d E (value_moves E) (items_move E) (members_move E) (member_moves E)).
  - intros path v u HE Hn Hr Ho Hp. apply partly_here, HE.
  - intros path v u u' op Ha Hb Hn (Hr1 & Hr2) Ho Hp. specialize (Hb Hn Hr1 Hr2 ltac:(discriminate)). cbv zeta in Hb. cbn [posture] in Hb.
    destruct op as [[| |m]|]; cbn [halt].
    + destruct Hb as (Hb & _). contradiction.
    + destruct Hb as (_ & Hs & Hq & Hne). split; [exact Hs|]. split; [exact Hne|]. rewrite Hq. destruct (seq u); cbn; auto.
    + apply partly_failed, Hb.
    + contradiction.
  - intros path v u u' HE Ha Hb Hn (Hr1 & Hr2) Ho Hp. specialize (Hb Hn Hr1 Hr2 ltac:(discriminate)). destruct Hb as (Hb & _). contradiction.
  - intros path vs u u' op why Hb Hw Hn Hr Ho Hp. apply begin_struct in Hb; auto. destruct op as [[| |m]|]; try contradiction; [discriminate|].
    injection Hw as <-. cbn [progress]. unfold value_text. cbn [compact]. specialize (Hb (join (map compact vs) ++ [RBRACK])). rewrite <- app_assoc in Hb. exact Hb.
  - intros path vs u u' Hb Hn Hr Ho Hp. apply begin_struct in Hb; auto. contradiction.
  - intros path vs u u' x Hb Hx Hn Hr Ho Hp. apply begin_struct in Hb; auto. destruct Hb as (Hs & Hq & Hne). cbn [progress]. unfold value_text. cbn [compact].
    change (LBRACK :: join (map compact vs) ++ [RBRACK]) with ([LBRACK] ++ join (map compact vs) ++ [RBRACK]). rewrite app_assoc.
    eapply partly_after; [exact Hs|]. apply partly_here, Hne.
  - intros path vs u u1 u2 why Hb Hx _ IH Hn Hr Ho Hp. apply begin_struct in Hb; auto. destruct Hb as (Hs & Hq & Hne). cbn [progress]. unfold value_text. cbn [compact].
    change (LBRACK :: join (map compact vs) ++ [RBRACK]) with ([LBRACK] ++ join (map compact vs) ++ [RBRACK]). rewrite app_assoc.
    eapply partly_after; [exact Hs|]. apply partly_more. specialize (IH Hne (or_introl Hq) Ho ltac:(cbn; lia)). rewrite Hq in IH. exact IH.
  - intros path vs u u1 u2 u3 e Hb Hx _ IH He Hn Hr Ho Hp. apply begin_struct in Hb; auto. destruct Hb as (Hs & Hq & Hne). unfold value_text. cbn [compact].
    change (LBRACK :: join (map compact vs) ++ [RBRACK]) with ([LBRACK] ++ join (map compact vs) ++ [RBRACK]). rewrite app_assoc.
    specialize (IH Hne (or_introl Hq) Ho ltac:(cbn; lia)). rewrite Hq in IH. destruct IH as (Hs2 & Hne2 & _).
    eapply progress_after; [exact Hs|]. eapply progress_after; [exact Hs2|]. apply end_struct in He; auto. eapply progress_weaken; [|exact He]. auto.
  - intros path vs u u' op why Hb Hw Hn Hr Ho Hp. apply begin_struct in Hb; auto. destruct op as [[| |m]|]; try contradiction; [discriminate|].
    injection Hw as <-. cbn [progress]. unfold value_text. cbn [compact]. specialize (Hb (join (map member_text vs) ++ [RBRACE])). rewrite <- app_assoc in Hb. exact Hb.
  - intros path vs u u' Hb Hn Hr Ho Hp. apply begin_struct in Hb; auto. contradiction.
  - intros path vs u u1 u2 why Hb _ IH Hn Hr Ho Hp. apply begin_struct in Hb; auto. destruct Hb as (Hs & Hq & Hne). cbn [progress]. unfold value_text.
    change (compact (JObject vs)) with ([LBRACE] ++ join (map member_text vs) ++ [RBRACE]). rewrite app_assoc.
    eapply partly_after; [exact Hs|]. apply partly_more. specialize (IH Hne (resting_at (seq u1) (or_introl Hq)) Ho Hp). rewrite Hq in IH. exact IH.
  - intros path vs u u1 u2 u3 e Hb _ IH He Hn Hr Ho Hp. apply begin_struct in Hb; auto. destruct Hb as (Hs & Hq & Hne). unfold value_text.
    change (compact (JObject vs)) with ([LBRACE] ++ join (map member_text vs) ++ [RBRACE]). rewrite app_assoc.
    specialize (IH Hne (resting_at (seq u1) (or_introl Hq)) Ho Hp). rewrite Hq in IH. destruct IH as (Hs2 & Hne2 & _).
    eapply progress_after; [exact Hs|]. eapply progress_after; [exact Hs2|]. apply end_struct in He; auto. eapply progress_weaken; [|exact He]. auto.
  - intros path vs u HE Hn Hr Ho Hp. apply partly_here, HE.
  - intros path u Hn Hr Ho Hp. split; [destruct Hr as [-> | ->]; apply spent_refl|auto].
  - intros path v vs u u' why _ IH Hn Hr (Ho & _) Hp. specialize (IH Hn (resting_at (seq u) ltac:(tauto)) Ho ltac:(lia)).
    cbn [progress] in *. unfold value_text in IH. replace (List.length path <? 2) with false in IH by (symmetry; apply Nat.ltb_ge; lia).
    cbn [map]. destruct Hr as [Hr|Hr]; rewrite Hr in *; cbn [mark rest_list] in *.
    + rewrite join_cons. apply partly_more, IH.
    + apply (partly_more _ _ (COMMA :: compact v)), IH.
  - intros path v vs u u1 u2 st _ IH _ IH2 Hn Hr (Ho & Ho2) Hp. specialize (IH Hn (resting_at (seq u) ltac:(tauto)) Ho ltac:(lia)).
    destruct IH as (Hs & Hne & Hq). unfold value_text in Hs. replace (List.length path <? 2) with false in Hs by (symmetry; apply Nat.ltb_ge; lia).
    assert (Hq1 : seq u1 = InMiddle) by (destruct Hq as [Hq|(Hq & _)]; [exact Hq|destruct Hr; congruence]).
    specialize (IH2 Hne (or_intror Hq1) Ho2 Hp). rewrite Hq1 in IH2. cbn [rest_list] in IH2.
    cbn [map]. destruct Hr as [Hr|Hr]; rewrite Hr in *; cbn [mark rest_list] in *.
    + rewrite join_cons. eapply progress_after; [exact Hs|exact IH2].
    + apply (progress_after _ _ (COMMA :: compact v) _ _ _ _ _ Hs IH2).
  - intros path vs u HE Hn Hr Ho Hp. apply partly_here, HE.
  - intros path u Hn Hr Ho Hp. split; [destruct (seq u); apply spent_refl|auto].
  - intros path k v ms u x Hx Hn Hr Ho Hp. apply partly_here, Hn.
  - intros path k v ms u u' why Hx _ IH Hn Hr ((Hk & Ho) & _) Hp. specialize (IH Hn Hr Ho ltac:(cbn; lia) ltac:(eauto)).
    cbn [progress] in *. cbn [map]. destruct (seq u) as [| |k'|k'|] eqn:Eq; try (destruct Hr as (R1 & R2); congruence); cbn [posture mark rest_list] in *.
    + rewrite join_cons. apply partly_more. cbn [member_text]. cbn [app] in IH. rewrite <- app_assoc in IH. exact IH.
    + apply (partly_more _ _ (COMMA :: member_text (k, v))). cbn [member_text]. cbn [app] in IH. rewrite <- app_assoc in IH. exact IH.
    + apply (partly_more _ _ (COMMA :: member_text (k, v))). cbn [member_text]. cbn [app] in IH. rewrite <- app_assoc in IH. exact IH.
  - intros path k v ms u u1 u2 st Hx _ IH _ IH2 Hn Hr ((Hk & Ho) & Ho2) Hp. specialize (IH Hn Hr Ho ltac:(cbn; lia) ltac:(eauto)).
    destruct IH as (Hs & Hne & Hq). specialize (IH2 Hne (resting_at (seq u1) (or_intror Hq)) Ho2 Hp).
    assert (progress E u1 (flat_map (cons COMMA) (map member_text ms)) u2 st resting) as IH3 by (destruct Hq as [Hq|Hq]; rewrite Hq in IH2; exact IH2).
    cbn [map]. destruct (seq u) as [| |k'|k'|] eqn:Eq; try (destruct Hr as (R1 & R2); congruence); cbn [posture mark rest_list] in *.
    + rewrite join_cons. eapply progress_after; [|exact IH3]. cbn [member_text]. cbn [app] in Hs. rewrite <- app_assoc in Hs. exact Hs.
    + apply (progress_after _ _ (COMMA :: member_text (k, v)) _ u1); [|exact IH3]. cbn [member_text]. cbn [app] in Hs. rewrite <- app_assoc in Hs. exact Hs.
    + apply (progress_after _ _ (COMMA :: member_text (k, v)) _ u1); [|exact IH3]. cbn [member_text]. cbn [app] in Hs. rewrite <- app_assoc in Hs. exact Hs.
  - intros path v u u' op why Hb Hw Hn (R1 & R2) Ho Hp Hk. specialize (Hb Hn R1 R2 ltac:(auto)). cbv zeta in Hb. rewrite app_nil_r in Hb.
    destruct op as [[| |m]|]; try discriminate; [|contradiction]. injection Hw as <-. apply partly_more, partly_failed. cbn [progress]. destruct path as [|k path]; [cbn in Hp; lia|].
    destruct (seq u); exact Hb.
  - intros path v u u1 u2 e Hb He Hn (R1 & R2) Ho Hp Hk. specialize (Hb Hn R1 R2 ltac:(auto)). destruct Hb as (Hb & _). discriminate.
  - intros path v u u1 u2 why Hb _ IH Hn (R1 & R2) Ho Hp Hk. specialize (Hb Hn R1 R2 ltac:(auto)). cbv zeta in Hb. rewrite app_nil_r in Hb.
    destruct Hb as (_ & Hs & Hq & Hne). specialize (IH Hne (resting_at (seq u1) ltac:(auto)) Ho ltac:(lia)). unfold value_text in IH. rewrite Hq in IH. cbn [mark app] in IH.
    eapply progress_after; [|exact IH]. destruct path as [|k path]; [cbn in Hp; lia|]. destruct (seq u); exact Hs.
  - intros path v u u1 u2 u3 e Hb _ IH He Hn (R1 & R2) Ho Hp Hk. specialize (Hb Hn R1 R2 ltac:(auto)). cbv zeta in Hb. rewrite app_nil_r in Hb.
    destruct Hb as (_ & Hs & Hq & Hne). specialize (IH Hne (resting_at (seq u1) ltac:(auto)) Ho ltac:(lia)). unfold value_text in IH. rewrite Hq in IH. cbn [mark app] in IH.
    destruct IH as (Hs2 & Hne2 & Hq2). specialize (He Hne2). cbv zeta in He.
    assert (Hs' : spent (out u) (mark (posture PNone path (seq u)) false) (out u1)) by (destruct path as [|k path]; [cbn in Hp; lia|]; destruct (seq u); exact Hs).
    eapply progress_after; [exact Hs'|]. rewrite <- (app_nil_r (compact v)). eapply progress_after; [exact Hs2|].
    destruct e as [[[]|m]|]; cbn [ended progress]; [|apply partly_failed, He|contradiction]. destruct He as (A & B & C). rewrite B. split; [exact A|]. split; [exact C|]. destruct Hq2 as [?|(_ & ?)]; auto.
Qed.

(** ** Where there is room for all names, none is refused *)
Definition accepted (t : trace) (st : status) : Prop := snd t = None -> forall x, st <> Stopped (Denied x).
Lemma accepted_chain_l a b st : accepted a st -> accepted (chain a b) st.
Proof. intros H Hc. apply H. destruct a as [l [x|]]; [discriminate|reflexivity]. Qed.
Lemma accepted_chain_r a b st : accepted b st -> accepted (chain a b) st.
Proof. intros H Hc. apply H. destruct a as [l [x|]]; [discriminate|exact Hc]. Qed.
Lemma accepted_room d path k t st : admit_name d path k = None -> accepted t st -> accepted (room d path k t) st.
Proof. unfold room. intros ->. auto. Qed.
Lemma accepted_denied d path k t x st : admit_name d path k = Some x -> accepted (room d path k t) st.
Proof. unfold room. intros ->. discriminate. Qed.
Lemma accepted_plain t st : (forall x, st <> Stopped (Denied x)) -> accepted t st.
Proof. intros H _. exact H. Qed.
Lemma walk_accepted {B} (beh : behaviour B) d E :
  (forall path v t t' st, walk_value beh d E path v t t' st -> accepted (trace_value d path v) st) /\
  (forall path vs t t' st, walk_items beh d E path vs t t' st -> accepted (trace_values d path vs) st) /\
  (forall path ms t t' st, walk_members beh d E path ms t t' st -> accepted (members_trace d path ms) st) /\
  (forall path v t t' st, walk_member beh d E path v t t' st -> accepted (member_trace d path v) st).
Proof.
  assert (HH : forall op why, halt op = Some why -> forall x, Stopped why <> Stopped (Denied x)) by (intros [[| |m]|] why H x; inversion H; discriminate).
  assert (HE : forall e x, ended e <> Stopped (Denied x)) by (intros [[|]|]; discriminate).
  apply (walk_ind _ beh d E (fun path v t t' st => accepted (trace_value d path v) st) (fun path v t t' st => accepted (trace_values d path v) st)
    (fun path v t t' st => accepted (members_trace d path v) st) (fun path v t t' st => accepted (member_trace d path v) st)); intros;
    try (apply accepted_plain; (discriminate || apply HE || (eapply HH; eassumption))).
  - apply accepted_plain. destruct (halt op) eqn:Eh; [eapply HH; eassumption|discriminate].
  - cbn [trace_value]. apply accepted_chain_r. eapply accepted_denied; eassumption.
  - cbn [trace_value]. apply accepted_chain_r, accepted_room; [assumption|]. apply accepted_chain_l. assumption.
  - cbn [trace_value]. apply accepted_chain_r, accepted_chain_l. assumption.
  - apply accepted_chain_l. assumption.
  - apply accepted_chain_r. assumption.
  - apply accepted_chain_l. eapply accepted_denied; eassumption.
  - apply accepted_chain_l, accepted_room; assumption.
  - apply accepted_chain_r. assumption.
  - apply accepted_chain_r, accepted_chain_l. assumption.
Qed.
Lemma has_room_top d v : has_room d v -> admit_name d [] (bs "#top") = None.
Proof.
  intros (H1 & H2 & H3). unfold admit_name. cbn [List.length weight map list_sum fold_right]. destruct (N.leb_spec (slices d) (N.of_nat 0)); [lia|].
  change (len (bs "#top")) with 4. destruct (Nat.ltb_spec (space_for d) (0 + 5)); [lia|]. reflexivity.
Qed.
Lemma has_room_trace d v : has_room d v -> snd (trace_value d [bs "#top"] v) = None.
Proof.
  intros (H1 & H2 & H3). rewrite trace_deep.
  - unfold too_deep. cbn [List.length]. destruct (N.ltb_spec (slices d) (N.of_nat (1 + depth v))); [lia|reflexivity].
  - split; assumption.
  - cbn [List.length]. lia.
Qed.

(** ** idtransform *)
Lemma eventually_map {X Y} (F : nat -> X) (g : X -> Y) v : eventually F v -> eventually (fun n => g (F n)) (g v).
Proof. intros (n & H). exists n. intros fuel Hf. rewrite H; auto. Qed.
Lemma idt_run m d v r w p l : sane m -> ordinary v -> start m r -> document (layout m) v (rest r) l -> fresh d p ->
  exists r' w' p' res a b, eventually (fun fuel => idtransform fuel r w p) (Done (r', w', p', res)) /\ compact v = a ++ b /\ spent w a w' /\
    match res with
    | Ok _ => b = [] /\ between m r' /\ rest r' = l
    | Err e => may_fail m = true \/ (b <> [] /\ exists k, exhausted w' k /\ e = IOError k) \/
        (~ has_room d v /\ ((exists n, e = MaxNestingExceeded (current_index r') n) \/ (exists m, e = InternalError (current_index r') m)))
    end.
Proof.
  intros HM Ho HS HD HF.
  destruct (prop_single idt_callbacks (idt_behaviour (may_fail m)) m d (mkOptions [] true) (mkS r (idt_new w) p) v l) as (u & st & Hw & Hout);
    auto; [apply (idt_respects _ _ _ _ (setting_facts m HM))|]. cbn [user] in Hw.
  assert (HN : forall x, st = Stopped (Denied x) -> ~ has_room d v).
  { intros x -> Hr. unfold walk_top in Hw. rewrite (has_room_top _ _ Hr) in Hw.
    apply (proj1 (walk_accepted _ d (may_fail m)) _ _ _ _ _ Hw (has_room_trace _ _ Hr) x eq_refl). }
  assert (HP : progress (may_fail m) (idt_new w) (compact v) u st (fun _ => True)).
  { unfold walk_top in Hw. destruct (admit_name d [] (bs "#top")) as [x|] eqn:Ex.
    - destruct Hw as (-> & ->). apply partly_here. repeat split.
    - apply (proj1 (idt_walk (may_fail m) d)) in Hw. eapply progress_weaken; [|apply Hw]; [auto|repeat split|apply resting_at; auto|exact Ho|cbn; lia]. }
  assert (HE : forall s e, eventually (fun fuel => scan idt_callbacks (mkOptions [] true) fuel (mkS r (idt_new w) p)) (Done (s, Err e)) -> user s = u ->
    eventually (fun fuel => idtransform fuel r w p) (Done (parser s, out u, stack s,
      match io_error u, rjiter_error u, stored_scan_error u with
            | Some k, _, _ => Err (IOError k)
            | None, Some e', _ => Err (RJiterError e')
            | None, None, Some e' => Err e'
            | None, None, None => Err e
            end))).
  { intros s e (n & Hn) <-. exists n. intros fuel Hf. unfold idtransform. rewrite (Hn fuel Hf). reflexivity. }
  destruct st as [|why]; cbn [outcome_is progress] in *.
  - destruct Hout as (s & (n & Hn) & Hu & Hb & Hr). destruct HP as (Hs & _). exists (parser s), (out u), (stack s), (Ok tt), (compact v), [].
    rewrite app_nil_r. split; [|split; [reflexivity|split; [exact Hs|auto]]].
    exists n. intros fuel Hf. unfold idtransform. rewrite (Hn fuel Hf). cbn [obind]. rewrite Hu. reflexivity.
  - destruct HP as (a & b & Hab & Hs & Hy). destruct why as [msg| |x|]; [|contradiction| |].
    + destruct Hout as (s & e & Hev & Hu & _). specialize (HE s e Hev Hu). eexists _, _, _, _, a, b. split; [exact HE|]. split; [exact Hab|]. split; [exact Hs|].
      destruct Hy as [Hy|(Hb & k & Hk & Hi)].
      * destruct (io_error u); [left; exact Hy|]. destruct (rjiter_error u); [left; exact Hy|]. destruct (stored_scan_error u); left; exact Hy.
      * rewrite Hi. right. left. eauto.
    + destruct Hout as (s & e & Hev & Hu & Hrep). specialize (HE s e Hev Hu). eexists _, _, _, _, a, b. split; [exact HE|]. split; [exact Hab|]. split; [exact Hs|].
      destruct Hy as (Hy1 & Hy2 & Hy3). rewrite Hy1, Hy2, Hy3. right. right. split; [eapply HN; reflexivity|]. destruct x; [left; exists level; exact Hrep|exact Hrep].
    + destruct Hout as (s & e & Hev & Hu & _). specialize (HE s e Hev Hu). eexists _, _, _, _, a, b. split; [exact HE|]. split; [exact Hab|]. split; [exact Hs|].
      destruct (io_error u); [left; exact Hy|]. destruct (rjiter_error u); [left; exact Hy|]. destruct (stored_scan_error u); left; exact Hy.
Qed.
Lemma eventually_same {X} (F : nat -> X) v w : eventually F v -> eventually F w -> v = w.
Proof. intros (n & Hn) (k & Hk). rewrite <- (Hn (n + k)) by lia. apply Hk. lia. Qed.
Lemma spent_open w a w' : spent w a w' -> wfail w = None -> wfail w' = None.
Proof. intros (_ & _ & _ & x & _ & _ & B) H. rewrite H in B. exact B. Qed.
Lemma worn_open w a w' k : worn w a w' k -> wfail w = None -> False.
Proof. intros (w1 & j & Hs & Hk & _) H. apply spent_open in Hs; [|exact H]. unfold exhausted in Hk. congruence. Qed.
Lemma spent_plain d a w' : spent (mkWriter d None) a w' -> w' = mkWriter (d ++ a) None.
Proof. intros (A & B & _ & x & C & D & F). destruct (D eq_refl) as (-> & G). destruct w'. cbn in *. subst. reflexivity. Qed.
Lemma spent_budget w a w' n k : spent w a w' -> wcap w = 0 -> wfail w = Some (n, k) -> len a <= n /\ wfail w' = Some (n - len a, k).
Proof. intros (_ & _ & _ & x & _ & D & B) H E. destruct (D H) as (-> & _). rewrite E in B. exact B. Qed.
Lemma idt_compact m d v r w p l : sane m -> may_fail m = false -> ordinary v -> has_room d v -> wfail w = None ->
  start m r -> document (layout m) v (rest r) l -> fresh d p ->
  exists r' w' p', eventually (fun fuel => idtransform fuel r w p) (Done (r', w', p', Ok tt)) /\ spent w (compact v) w' /\
    between m r' /\ rest r' = l.
Proof.
  intros HM HF Ho HR Hw HS HD Hf. destruct (idt_run m d v r w p l HM Ho HS HD Hf) as (r' & w' & p' & res & a & b & Hev & Hab & Hs & H).
  pose proof (spent_open _ _ _ Hs Hw) as Hw'. destruct res as [[]|e].
  - destruct H as (-> & H). rewrite app_nil_r in Hab. rewrite Hab. exists r', w', p'. auto.
  - destruct H as [H|[(_ & k & Hk & _)|(H & _)]]; [congruence|unfold exhausted in Hk; congruence|contradiction].
Qed.
Lemma idt_writer m d v r w p l n k : sane m -> may_fail m = false -> ordinary v -> has_room d v -> wcap w = 0 -> wfail w = Some (n, k) ->
  start m r -> document (layout m) v (rest r) l -> fresh d p ->
  exists r' p' w' res, eventually (fun fuel => idtransform fuel r w p) (Done (r', w', p', res)) /\
    written w' = written w ++ firstn n (compact v) /\
    res = (if n <? len (compact v) then Err (IOError k) else Ok tt).
Proof.
  intros HM HF Ho HR Hcap Hw HS HD Hf. destruct (idt_run m d v r w p l HM Ho HS HD Hf) as (r' & w' & p' & res & a & b & Hev & Hab & Hs & H).
  exists r', p', w', res. split; [exact Hev|]. destruct (spent_budget _ _ _ _ _ Hs Hcap Hw) as (Hn & Hk). destruct Hs as (Hs & _). destruct res as [[]|e].
  - destruct H as (-> & _). rewrite app_nil_r in Hab. rewrite Hab, firstn_all2 by exact Hn. split; [exact Hs|].
    destruct (Nat.ltb_spec n (len a)); [lia|reflexivity].
  - destruct H as [H|[(Hb & k' & Hk' & ->)|(H & _)]]; [congruence| |contradiction].
    unfold exhausted in Hk'. rewrite Hk in Hk'. injection Hk' as Hz <-. assert (n = len a) as -> by lia. rewrite Hab, firstn_app, Nat.sub_diag, firstn_all, app_nil_r.
    split; [exact Hs|]. rewrite app_length. destruct b as [|x b]; [contradiction|]. cbn [len List.length]. destruct (Nat.ltb_spec (len a) (len a + S (len b))); [reflexivity|lia].
Qed.
Lemma scan_loop_mono {B} (cb : callbacks B) o n : forall fuel progressed p s x, scan_loop cb o fuel progressed p s = x -> x <> Diverge ->
  scan_loop cb o (fuel + n) progressed p s = x.
Proof.
  induction fuel as [|fuel IH]; intros progressed p s x H Hx; [cbn in H; congruence|]. cbn [scan_loop Nat.add] in *.
  destruct (progressed && stop_early o && pos_eqb p Top); [exact H|].
  destruct (scan_iter cb o p s) as [[s1 [p'|v]]| |]; auto.
Qed.
Lemma scan_mono {B} (cb : callbacks B) o n fuel s x : scan cb o fuel s = x -> x <> Diverge -> scan cb o (fuel + n) s = x.
Proof.
  unfold scan. destruct (push_assoc (stack s) pos_ty [pos_code Top] (bs "#top")) as [[p [v|e]]| |]; cbn [obind]; auto.
  apply scan_loop_mono.
Qed.
Lemma idt_mono fuel n r w p x : idtransform fuel r w p = x -> x <> Diverge -> idtransform (fuel + n) r w p = x.
Proof.
  unfold idtransform. intros H Hx. destruct (scan idt_callbacks (mkOptions [] true) fuel (mkS r (idt_new w) p)) as [[s v]| |] eqn:E; cbn [obind] in H.
  - rewrite (scan_mono _ _ n _ _ _ E); [exact H|discriminate].
  - rewrite (scan_mono _ _ n _ _ _ E); [exact H|discriminate].
  - congruence.
Qed.
Lemma idt_eventually fuel r w p x y : idtransform fuel r w p = x -> x <> Diverge -> eventually (fun fuel => idtransform fuel r w p) y -> x = y.
Proof.
  intros H Hx (n & Hn). rewrite <- (Hn (fuel + n)) by lia. symmetry. apply idt_mono; assumption.
Qed.
Lemma idt_honest c clean d v r w p l r' w' p' fuel : 8 <= c -> ordinary v -> loose c clean r -> document (loose_layout c clean) v (rest r) l -> fresh d p ->
  idtransform fuel r w p = Done (r', w', p', Ok tt) -> written w' = written w ++ compact v /\ rest r' = l.
Proof.
  intros Hc Ho HS HD Hf Hrun.
  destruct (idt_run (Anyhow c clean) d v r w p l Hc Ho HS HD Hf) as (r1 & w1 & p1 & res & a & b & Hev & Hab & Hs & H).
  apply (idt_eventually _ _ _ _ _ _ Hrun) in Hev; [|discriminate]. injection Hev as <- <- <- <-. destruct H as (-> & _ & Hr).
  rewrite app_nil_r in Hab. rewrite Hab. split; [apply Hs|exact Hr].
Qed.
Lemma idt_prefix m d v r w p l r' w' p' res fuel : sane m -> ordinary v -> start m r -> document (layout m) v (rest r) l -> fresh d p ->
  idtransform fuel r w p = Done (r', w', p', res) -> exists a b, compact v = a ++ b /\ written w' = written w ++ a.
Proof.
  intros Hc Ho HS HD Hf Hrun.
  destruct (idt_run m d v r w p l Hc Ho HS HD Hf) as (r1 & w1 & p1 & res1 & a & b & Hev & Hab & Hs & H).
  apply (idt_eventually _ _ _ _ _ _ Hrun) in Hev; [|discriminate]. injection Hev as <- <- <- <-. exists a, b. split; [exact Hab|apply Hs].
Qed.
(** ** Texts that are no values *)
Lemma no_value v r : ~ document any_layout v [] r.
Proof.
  intros (w & l & E & _ & H). symmetry in E. apply app_eq_nil in E as (-> & ->). destruct (value_head _ _ _ _ _ H) as (x & l0 & E & _). discriminate.
Qed.
Lemma solid_spaces w x l w' y l' : spaces w -> solid x -> spaces w' -> solid y -> w ++ x :: l = w' ++ y :: l' -> w = w' /\ x = y /\ l = l'.
Proof.
  intros Hw Hx. revert w'. induction Hw as [|z w Hz Hw IH]; intros w' Hw' Hy E.
  - destruct Hw' as [|z' w' Hz' Hw']; cbn in E; injection E as -> ->; [auto|]. apply space_ascii in Hz'. unfold solid in Hx. congruence.
  - destruct Hw' as [|z' w' Hz' Hw']; cbn in E; injection E as -> E; [apply space_ascii in Hz; unfold solid in Hy; congruence|].
    destruct (IH w' Hw' Hy E) as (-> & -> & ->). auto.
Qed.
Lemma two_braces v r : ~ document any_layout v (bs "{{}") r.
Proof.
  intros (w & l & E & Hw & H). destruct (value_head _ _ _ _ _ H) as (x & l0 & El & Hx & _). rewrite El in E.
  apply (solid_spaces [] LBRACE [LBRACE; RBRACE]) in E as (<- & <- & <-); auto; [|reflexivity]. clear Hx. subst l.
  inversion H; subst; try discriminate.
  - destruct (number_head t H1) as (x & q & -> & Hx). injection H0 as -> _. destruct Hx as [Hx|Hx]; [discriminate|]. destruct Hx as (A & B). vm_compute in B. congruence.
  - match goal with E : _ ++ RBRACE :: _ = [LBRACE; RBRACE] |- _ => apply (solid_spaces _ RBRACE _ [] LBRACE [RBRACE]) in E as (_ & E & _) end; auto; try reflexivity. discriminate.
  - match goal with E : _ ++ QUOTE :: _ = [LBRACE; RBRACE] |- _ => apply (solid_spaces _ QUOTE _ [] LBRACE [RBRACE]) in E as (_ & E & _) end; auto; try reflexivity. discriminate.
Qed.
