(** Soundness of scan, of the observer and of idtransform; when the text read is plain JSON. *)
From Verif Require Import Base U8Pool Buffer BufferSpec Jiter RJiter RJiterSpec Scan ScanSpec ScanTokens ScanParser ScanStack ScanProofs ScanTop.
From Verif Require Import RJiterLookProofs ScanSse IdTransform IdSpec IdProofs SoundSpec SoundParser ScanSound.

(** ** scan *)
Lemma home_top : housed [(pos_code Top, bs "#top")] Top.
Proof. split; [do 3 eexists; split; reflexivity|auto]. Qed.
Lemma sound_calm {B} (cb : callbacks B) beh calm whole c d o fuel s s' :
  2 <= c -> heeds_calm calm whole c cb beh -> sse_tokens o = [] -> stop_early o = false -> before whole c (parser s) -> (calm = true -> rquiet (parser s) = true) ->
  fresh d (stack s) -> scan cb o fuel s = Done (s', Ok tt) ->
  exists vs r, lax_documents whole true vs (rest (parser s)) r /\ blanks r /\ walk_items beh d false [bs "#top"] vs (user s) (user s') Through.
Proof.
  intros H2 HH HS He Hb Hq0 Hf E. destruct (scan_inv cb o d fuel s s' (stack_fresh _ _ Hf) E) as (_ & q & Hq & E').
  apply (top_all cb o beh d calm whole c H2 HH HS s' He fuel true false [(pos_code Top, bs "#top")] (user s) (mkS (parser s) (user s) q) home_top); [|exact E'].
  split; [split; [exact Hb|exact Hq0]|]. split; [discriminate|]. split; [reflexivity|exact Hq].
Qed.
Lemma sound_all {B} (cb : callbacks B) beh whole c d o fuel s s' :
  2 <= c -> heeds whole c cb beh -> sse_tokens o = [] -> stop_early o = false -> before whole c (parser s) -> fresh d (stack s) ->
  scan cb o fuel s = Done (s', Ok tt) ->
  exists vs r, lax_documents whole true vs (rest (parser s)) r /\ blanks r /\ walk_items beh d false [bs "#top"] vs (user s) (user s') Through.
Proof.
  intros H2 HH HS He Hb Hf E. apply (sound_calm cb beh false whole c d o fuel s s'); auto; [apply heeds_any, HH|discriminate].
Qed.
Lemma sound_first {B} (cb : callbacks B) beh whole c d o fuel s s' :
  2 <= c -> heeds whole c cb beh -> sse_tokens o = [] -> stop_early o = true -> before whole c (parser s) -> fresh d (stack s) ->
  scan cb o fuel s = Done (s', Ok tt) ->
  (blanks (rest (parser s)) /\ user s' = user s) \/
  exists v, lax_document whole true v (rest (parser s)) (rest (parser s')) /\ walk_value beh d false [bs "#top"] v (user s) (user s') Through.
Proof.
  intros H2 HH HS He Hb Hf E. destruct (scan_inv cb o d fuel s s' (stack_fresh _ _ Hf) E) as (_ & q & Hq & E').
  destruct (top_first cb o beh d false whole c H2 (heeds_any _ _ _ _ HH) HS s' He fuel true [(pos_code Top, bs "#top")] (user s) (mkS (parser s) (user s) q) home_top) as [(A1 & A2 & _)|[(_ & _ & X & _)|(v & Hv & Hw & _)]]; auto; [|discriminate|].
  { split; [split; [exact Hb|discriminate]|]. split; [discriminate|]. split; [reflexivity|exact Hq]. }
  right. exists v. auto.
Qed.

(** ** The observer *)
Lemma observer_heeds whole c : heeds whole c observer observer_behaviour.
Proof.
  split; cbn.
  - intros name b path s u Hn HG Hb s' u' op E. injection E as <- <- <-. auto.
  - intros path s u HG Hb s' u' op E. injection E as <- <- <-. split; [auto|]. split; [exact HG|]. split; [auto|]. exists []. split; [constructor|reflexivity].
  - intros name path u Hn u' e E. injection E as <- <-. auto.
Qed.
Lemma observed_all whole c d o fuel s s' :
  2 <= c -> sse_tokens o = [] -> stop_early o = false -> before whole c (parser s) -> fresh d (stack s) ->
  scan observer o fuel s = Done (s', Ok tt) ->
  exists vs r, lax_documents whole true vs (rest (parser s)) r /\ blanks r /\ user s' = user s ++ fst (trace_values d [bs "#top"] vs).
Proof.
  intros H2 HS He Hb Hf E. destruct (sound_all observer observer_behaviour whole c d o fuel s s' H2 (observer_heeds _ _) HS He Hb Hf E) as (vs & r & Hl & Hr & Hw).
  exists vs, r. split; [exact Hl|]. split; [exact Hr|]. apply (proj1 (proj2 (observer_walk d))) in Hw. apply Hw.
Qed.
Lemma observed_first whole c d o fuel s s' :
  2 <= c -> sse_tokens o = [] -> stop_early o = true -> before whole c (parser s) -> fresh d (stack s) ->
  scan observer o fuel s = Done (s', Ok tt) ->
  (blanks (rest (parser s)) /\ user s' = user s) \/
  exists v, lax_document whole true v (rest (parser s)) (rest (parser s')) /\ user s' = user s ++ fst (trace_value d [bs "#top"] v).
Proof.
  intros H2 HS He Hb Hf E. destruct (sound_first observer observer_behaviour whole c d o fuel s s' H2 (observer_heeds _ _) HS He Hb Hf E) as [H|(v & Hl & Hw)]; [left; exact H|right].
  exists v. split; [exact Hl|]. apply (proj1 (observer_walk d)) in Hw. apply Hw.
Qed.

(** ** idtransform *)
Section Id.
Context (whole : bool) (c : nat) (H2 : 2 <= c).
Notation G := (after whole c).
Lemma put_ok {X} w d (s s' : rj) w' (e : X) : match write_all w d with (w', Ok _) => Done (s, w', Ok tt) | (w', Err k) => Done (s, w', Err (IOError k)) end = Done (s', w', Ok tt) ->
  s' = s /\ spent w d w'.
Proof.
  destruct (write_all_spent w d) as (w1 & res & -> & H). destruct res as [[]|k]; [|discriminate]. intros E. injection E as <- <-. auto.
Qed.
Lemma copy_atom_read s w s' w' x l b : G s -> rest s = x :: l -> copy_atom x s w = Done (s', w', Ok tt) ->
  G s' /\ 0 < jidx s' /\ exists v, atom v /\ lax_document whole b v (rest s) (rest s') /\ spent w (compact v) w'.
Proof.
  intros HG Hr E. unfold copy_atom in E.
  destruct (N.eqb_spec x QUOTE) as [->|_].
  { destruct (write_all_spent w [QUOTE]) as (w1 & res & Ew & H1). rewrite Ew in E. destruct res as [[]|k]; [|discriminate].
    destruct (write_long_bytes s w1) as [[[s1 w2] [u|e]]| |] eqn:El; cbn [obind] in E; try discriminate.
    destruct (read_long whole c s w1 s1 w2 u l HG Hr El) as (HG1 & Hi & t & Ht & Hs & Hl).
    destruct (put_ok w2 [QUOTE] s1 s' w' tt E) as (-> & H3).
    split; [exact HG1|]. split; [exact Hi|]. exists (JString t). split; [exact I|]. split; [rewrite Ht; apply document_value, lax_string, Hl|].
    cbn [compact]. apply (spent_trans _ [QUOTE] _ _ _ H1). eapply spent_trans; eassumption. }
  destruct (N.eqb_spec x PeekNull) as [->|_].
  { destruct (known_null s) as [[s1 [u|e]]| |] eqn:El; cbn [obind] in E; try discriminate.
    destruct (read_null whole c H2 s s1 u l HG Hr El) as (HG1 & Hi & Ht). destruct (put_ok w _ s1 s' w' tt E) as (-> & H3).
    split; [exact HG1|]. split; [exact Hi|]. exists JNull. split; [exact I|]. split; [rewrite Ht; apply document_value, lax_null|exact H3]. }
  destruct (N.eqb_spec x PeekTrue) as [->|_].
  { destruct (known_bool PeekTrue s) as [[s1 [u|e]]| |] eqn:El; cbn [obind] in E; try discriminate.
    destruct (read_bool whole c H2 PeekTrue s s1 u l (or_introl eq_refl) HG Hr El) as (HG1 & Hi & Ht & _). destruct (put_ok w _ s1 s' w' tt E) as (-> & H3).
    split; [exact HG1|]. split; [exact Hi|]. exists JTrue. split; [exact I|]. split; [rewrite Ht; apply document_value, lax_true|exact H3]. }
  destruct (N.eqb_spec x PeekFalse) as [->|_].
  { destruct (known_bool PeekFalse s) as [[s1 [u|e]]| |] eqn:El; cbn [obind] in E; try discriminate.
    destruct (read_bool whole c H2 PeekFalse s s1 u l (or_intror eq_refl) HG Hr El) as (HG1 & Hi & Ht & _). destruct (put_ok w _ s1 s' w' tt E) as (-> & H3).
    split; [exact HG1|]. split; [exact Hi|]. exists JFalse. split; [exact I|]. split; [rewrite Ht; apply document_value, lax_false|exact H3]. }
  destruct (next_number_bytes s) as [[s1 [t|e]]| |] eqn:El; cbn [obind] in E; try discriminate.
  destruct (read_number whole c H2 s s1 t HG El) as (HG1 & Hi & Hn & b1 & Hb & Ht). destruct (put_ok w _ s1 s' w' tt E) as (-> & H3).
  split; [exact HG1|]. split; [exact Hi|]. exists (JNumber t). split; [exact I|]. split; [|exact H3].
  rewrite Ht. apply document_blanks, document_value, lax_number, Hn. exact Hb.
Qed.
Lemma on_atom_read s t s' t' op b : G s -> on_atom s t = Done (s', t', op) ->
  match op with
  | OpNone => False
  | ValueIsConsumed => G s' /\ 0 < jidx s' /\ exists v, atom v /\ lax_document whole b v (rest s) (rest s') /\
      (no_error t -> wrote t (mark (seq t) (is_top_level t) ++ compact v) (moved (seq t)) t')
  | OpError _ => True
  end.
Proof.
  intros HG E. unfold on_atom in E. destruct (write_seqpos_spent t) as (t1 & res & Ew & _ & H). rewrite Ew in E.
  destruct res as [[]|m]; [|injection E as <- <- <-; exact I]. destruct H as (Hs & Hn & Hq).
  destruct (peek s) as [[s1 [x|e]]| |] eqn:Ep; cbn [obind] in E; try discriminate; [|injection E as <- <- <-; exact I].
  destruct (read_peek_start whole c H2 s s1 x (after_before _ _ _ HG) Ep) as (HG1 & w & l & Hr & Hr1 & Hw).
  destruct (copy_atom x s1 (out t1)) as [[[s2 w2] [[]|e]]| |] eqn:Ec; cbn [obind] in E; try discriminate; [|injection E as <- <- <-; exact I].
  injection E as <- <- <-. destruct (copy_atom_read s1 (out t1) s2 w2 x l b HG1 Hr1 Ec) as (HG2 & Hi & v & Ha & Hd & Hsp).
  split; [exact HG2|]. split; [exact Hi|]. exists v. split; [exact Ha|].
  split; [rewrite Hr; apply document_blanks; [exact Hw|]; rewrite <- Hr1; exact Hd|].
  intros H0. split; [eapply spent_trans; [exact Hs|exact Hsp]|]. split; [exact Hq|apply Hn, H0].
Qed.
Lemma idt_heeds : heeds whole c idt_callbacks (idt_behaviour false).
Proof.
  split.
  - intros name b path s t Hname HG Hb. cbn [find_action idt_callbacks].
    assert (HS : forall d s' u' op, (name = PArray /\ d = [LBRACK]) \/ (name = PObject /\ d = [LBRACE]) ->
      on_struct d s (set_level t (List.length path <? 2)) = Done (s', u', op) ->
      match op with
      | OpNone => (forall v, announces name v -> on_begin (idt_behaviour false) name path v t u' (Some OpNone)) /\ after whole c s' /\ rest s' = rest s /\ (0 < jidx s -> 0 < jidx s')
      | ValueIsConsumed => False
      | OpError _ => True
      end).
    { intros d s' u' op Hd E. destruct (on_struct_does (set_level t (List.length path <? 2)) d s) as (t1 & op' & E' & H). rewrite E' in E. injection E as <- <- <-.
      destruct op' as [| |m]; [|contradiction|exact I]. split; [|auto]. intros v Hv. cbn [on_begin idt_behaviour]. intros Hn _ _ _.
      specialize (H Hn). cbn [seq is_top_level set_level] in H. destruct Hd as [(-> & ->)|(-> & ->)]; (split; [discriminate|exact H]). }
    destruct name; cbn [idt_find_action ctx_len]; [| | |contradiction]; intros s' u' op E.
    + apply HS in E; [|auto]. destruct op; [exact E|contradiction|exact I].
    + apply HS in E; [|auto]. destruct op; [exact E|contradiction|exact I].
    + apply (on_atom_read _ _ _ _ _ b HG) in E. destruct op as [| |m]; [contradiction| |exact I].
      destruct E as (HG' & Hi & v & Ha & Hd & H). exists v. split; [exact Ha|]. split; [|auto]. cbn [on_begin idt_behaviour]. intros Hn _ _ _. split; [reflexivity|]. exact (H Hn).
  - intros path s t HG Hi. cbn [find_action idt_callbacks idt_find_action names].
    destruct path as [|k path].
    { intros v. cbn [on_begin idt_behaviour]. intros _ _ _ H. destruct (H eq_refl) as (? & ? & ? & _). discriminate. }
    destruct (negb (beq k (bs "#top")) && negb (beq k (bs "#array"))) eqn:Ek.
    + intros s' u' op E. unfold on_key in E. set (t0 := set_seq t _) in E. destruct (write_seqpos_spent t0) as (t1 & res & Ew & _ & H). rewrite Ew in E.
      assert (Hm : forall top, mark (seq t0) top = mark (posture PNone (k :: path) (seq t)) (List.length (k :: path) <? 2)) by (intros top; subst t0; cbn; destruct (seq t); reflexivity).
      rewrite Hm in H. destruct res as [[]|m]; injection E as <- <- <-; [|exact I].
      destruct H as (Hs & Hn & Hq). split; [|split; [exact HG|split; [auto|exists []; split; [constructor|reflexivity]]]].
      intros v. cbn [on_begin idt_behaviour]. intros H0 _ _ _. rewrite app_nil_r. split; [discriminate|]. split; [exact Hs|]. split; [reflexivity|apply Hn, H0].
    + intros v. cbn [on_begin idt_behaviour]. intros _ _ _ H. destruct (H eq_refl) as (k' & p' & Hp & (A & B)). injection Hp as <- <-. exfalso.
      destruct (beq k (bs "#top")) eqn:E1; [apply beq_eq in E1; contradiction|]. destruct (beq k (bs "#array")) eqn:E2; [apply beq_eq in E2; contradiction|discriminate].
  - intros name path t Hname. cbn [find_end_action idt_callbacks idt_find_end_action].
    assert (HS : forall d u' e, (name = PArray /\ d = [RBRACK]) \/ (name = PObject /\ d = [RBRACE]) ->
      on_struct_end d t = Done (u', Ok e) -> on_end (idt_behaviour false) name path t u' (Some (Ok tt))).
    { intros d u' e Hd E. unfold on_struct_end in E. change (list byte) with bytes in d.
      destruct (put_all_spent [(d, "IO error writing struct end"%string)] (set_seq t InMiddle)) as (t2 & r & Ep & Hq & _ & H).
      assert (Done (t2, r) = Done (u', Ok e)) as E2 by (rewrite <- E; apply (f_equal Done) in Ep; symmetry; exact Ep). injection E2 as -> ->.
      cbn [map fst List.concat] in H. rewrite app_nil_r in H. cbn [on_end idt_behaviour]. intros Hn. destruct H as (H & Hn2).
      destruct Hd as [(-> & ->)|(-> & ->)]; (split; [exact H|]; split; [exact Hq|apply Hn2, Hn]). }
    destruct name; [intros u' e E; eapply HS; [auto|exact E]|intros u' e E; eapply HS; [auto|exact E]|contradiction|].
    cbn [on_end idt_behaviour]. intros Hn. split; [apply spent_refl|]. split; [reflexivity|exact Hn].
Qed.
Lemma idt_sound d r w p r' w' p' fuel : before whole c r -> fresh d p -> idtransform fuel r w p = Done (r', w', p', Ok tt) ->
  (blanks (rest r) /\ w' = w) \/
  exists v, lax_document whole true v (rest r) (rest r') /\ (ordinary v -> spent w (compact v) w').
Proof.
  intros Hb Hf E. unfold idtransform in E. destruct (scan idt_callbacks (mkOptions [] true) fuel (mkS r (idt_new w) p)) as [[s [[]|e]]| |] eqn:Es; cbn [obind] in E; try discriminate.
  2:{ exfalso. destruct (io_error (user s)); [discriminate|]. destruct (rjiter_error (user s)); [discriminate|]. destruct (stored_scan_error (user s)); discriminate. }
  injection E as <- <- <-. 
  destruct (sound_first idt_callbacks (idt_behaviour false) whole c d (mkOptions [] true) fuel (mkS r (idt_new w) p) s H2 idt_heeds eq_refl eq_refl Hb Hf Es) as [(H & Hu)|(v & Hd & Hw)];
    cbn [parser user] in *.
  - left. rewrite Hu. auto.
  - right. exists v. split; [exact Hd|]. intros Ho. apply (proj1 (idt_walk false d)) in Hw. apply Hw; [repeat split|apply resting_at; auto|exact Ho|cbn; lia].
Qed.
End Id.

(** ** When the text is plain JSON *)
Scheme lax_value_ind' := Minimality for lax_value Sort Prop
  with lax_items_ind' := Minimality for lax_items Sort Prop
  with lax_members_ind' := Minimality for lax_members Sort Prop.
Combined Scheme lax_ind from lax_value_ind', lax_items_ind', lax_members_ind'.
Lemma blanks_spaces w : blanks w -> ~ In 12%N w -> spaces w.
Proof.
  intros H. induction H as [|x w [Hx|Hx] _ IH]; intros Hn; [constructor| |elim Hn; left; auto].
  constructor; [exact Hx|]. apply IH. intros Hi. apply Hn. right. exact Hi.
Qed.
Definition free (l : bytes) : Prop := ~ In 12%N l.
Lemma free_app a b : free (a ++ b) -> free a /\ free b.
Proof. unfold free. intros H. split; intros Hi; apply H, in_or_app; auto. Qed.
Lemma free_cons x l : free (x :: l) -> free l.
Proof. unfold free. intros H Hi. apply H. right. exact Hi. Qed.
Lemma lax_suffix whole :
  (forall b v l r, lax_value whole b v l r -> exists p, l = p ++ r) /\
  (forall vs l r, lax_items whole vs l r -> exists p, l = p ++ r) /\
  (forall ms l r, lax_members whole ms l r -> exists p, l = p ++ r).
Proof.
  assert (HS : forall l l1 r : bytes, (exists p, l = p ++ l1) -> (exists p, l1 = p ++ r) -> exists p, l = p ++ r)
    by (intros l l1 r (p & ->) (q & ->); exists (p ++ q); apply app_assoc).
  assert (HC : forall (x : byte) (l r : bytes), (exists p, l = p ++ r) -> exists p, x :: l = p ++ r) by (intros x l r (p & ->); exists (x :: p); reflexivity).
  assert (HA : forall a l r : bytes, (exists p, l = p ++ r) -> exists p, a ++ l = p ++ r) by (intros a l r (p & ->); exists (a ++ p); apply app_assoc).
  assert (H0 : forall r : bytes, exists p, r = p ++ r) by (intros r; exists []; reflexivity).
  apply (lax_ind whole (fun _ _ l r => exists p, l = p ++ r) (fun _ l r => exists p, l = p ++ r) (fun _ l r => exists p, l = p ++ r)); intros;
    repeat (apply HC || apply HA); eauto.
Qed.
Lemma free_rest b v l r : lax_value true b v l r -> free l -> free r.
Proof. intros H Hf. destruct (proj1 (lax_suffix true) _ _ _ _ H) as (p & ->). apply free_app in Hf. apply Hf. Qed.
Lemma blanks_delimited w x l : blanks w -> number_char x = false -> delimited (w ++ x :: l).
Proof.
  intros Hw Hx. destruct Hw as [|y w [[->|[->|[->| ->]]]| ->] _]; [exact Hx|reflexivity..].
Qed.
Definition number_delimited (v : json) (r : bytes) : Prop := match v with JNumber _ => delimited r | _ => True end.
Lemma delimited_number v r : delimited r -> number_delimited v r.
Proof. destruct v; cbn; auto. Qed.
Lemma strict :
  (forall b v l r, lax_value true b v l r -> free l -> number_delimited v r ->
     exists j l', l = j ++ l' /\ (j = [] \/ (b = true /\ junk j)) /\ forall b', value_at any_layout b' v l' r) /\
  (forall vs l r, lax_items true vs l r -> free l -> delimited l /\ items_at any_layout vs l r) /\
  (forall ms l r, lax_members true ms l r -> free l -> delimited l /\ members_at any_layout ms l r).
Proof.
  assert (HF : forall (b : bool) v l r, (forall b', value_at any_layout b' v l r) -> exists j l', l = j ++ l' /\ (j = [] \/ (b = true /\ junk j)) /\ forall b', value_at any_layout b' v l' r).
  { intros b v l r H. exists [], l. auto. }
  assert (HN : forall v l r, (exists j l', l = j ++ l' /\ (j = [] \/ (false = true /\ junk j)) /\ forall b', value_at any_layout b' v l' r) -> forall b', value_at any_layout b' v l r).
  { intros v l r (j & l' & -> & [->|(E & _)] & H); [exact H|discriminate]. }
  apply (lax_ind true (fun b v l r => free l -> number_delimited v r ->
     exists j l', l = j ++ l' /\ (j = [] \/ (b = true /\ junk j)) /\ forall b', value_at any_layout b' v l' r)
     (fun vs l r => free l -> delimited l /\ items_at any_layout vs l r) (fun ms l r => free l -> delimited l /\ members_at any_layout ms l r)).
  - intros b r _ _. apply HF. intros b'. apply ScanSpec.at_null.
  - intros b r _ _. apply HF. intros b'. apply ScanSpec.at_true.
  - intros b r _ _. apply HF. intros b'. apply ScanSpec.at_false.
  - intros b t r Ht _ Hd. apply HF. intros b'. apply ScanSpec.at_number; [exact Ht|exact Hd|exact I].
  - intros b t r [Ht|(E & _)] _ _; [|discriminate]. apply HF. intros b'. apply ScanSpec.at_string; [exact Ht|exact I].
  - intros b w r Hw Hf _. apply HF. intros b'. apply at_array_empty. apply blanks_spaces; [exact Hw|]. apply free_cons, free_app in Hf. apply Hf.
  - intros b w v vs l l1 r Hw Hv IHv Hi IHi Hf _. apply free_cons, free_app in Hf. destruct Hf as (Hf1 & Hf2). apply HF. intros b'.
    destruct (IHi (free_rest _ _ _ _ Hv Hf2)) as (Hd & Hi'). apply at_array with l1; [apply blanks_spaces; assumption| |exact Hi'].
    apply HN, IHv; [exact Hf2|apply delimited_number, Hd].
  - intros b j w r Hj Hw Hf _. apply free_app in Hf. destruct Hf as (_ & Hf). apply free_cons, free_app in Hf. exists j, (LBRACE :: w ++ RBRACE :: r).
    split; [reflexivity|]. split; [exact Hj|]. intros b'. apply at_object_empty; [apply blanks_spaces; (exact Hw || apply Hf)|exact I].
  - intros b j w k w1 w2 v ms l l1 r Hj Hw Hk Hw1 Hw2 Hv IHv Hm IHm Hf _. apply free_app in Hf. destruct Hf as (_ & Hf).
    apply free_cons, free_app in Hf. destruct Hf as (Hf1 & Hf). apply free_cons, free_app in Hf. destruct Hf as (_ & Hf). apply free_cons, free_app in Hf. destruct Hf as (_ & Hf).
    apply free_cons, free_app in Hf. destruct Hf as (Hf2 & Hf). destruct (IHm (free_rest _ _ _ _ Hv Hf)) as (Hd & Hm').
    eexists j, _. split; [reflexivity|]. split; [exact Hj|]. intros b'.
    apply at_object with l1; auto; [apply blanks_spaces; assumption|exact I|apply blanks_spaces; assumption|exact I|]. apply HN, IHv; [exact Hf|apply delimited_number, Hd].
  - intros w r Hw Hf. apply free_app in Hf. split; [apply blanks_delimited; [exact Hw|reflexivity]|]. apply items_end. apply blanks_spaces; (exact Hw || apply Hf).
  - intros w w2 v vs l l1 r Hw Hw2 Hv IHv Hi IHi Hf. apply free_app in Hf. destruct Hf as (Hf1 & Hf). apply free_cons, free_app in Hf. destruct Hf as (Hf2 & Hf).
    destruct (IHi (free_rest _ _ _ _ Hv Hf)) as (Hd & Hi'). split; [apply blanks_delimited; [exact Hw|reflexivity]|].
    apply items_more with l1; auto; [apply blanks_spaces; assumption..|]. apply HN, IHv; [exact Hf|apply delimited_number, Hd].
  - intros w r Hw Hf. apply free_app in Hf. split; [apply blanks_delimited; [exact Hw|reflexivity]|]. apply members_end. apply blanks_spaces; (exact Hw || apply Hf).
  - intros w w0 k w1 w2 v ms l l1 r Hw Hw0 Hk Hw1 Hw2 Hv IHv Hm IHm Hf. apply free_app in Hf. destruct Hf as (Hf1 & Hf).
    apply free_cons, free_app in Hf. destruct Hf as (Hf0 & Hf). apply free_cons, free_app in Hf. destruct Hf as (_ & Hf). apply free_cons, free_app in Hf. destruct Hf as (_ & Hf).
    apply free_cons, free_app in Hf. destruct Hf as (Hf2 & Hf). destruct (IHm (free_rest _ _ _ _ Hv Hf)) as (Hd & Hm').
    split; [apply blanks_delimited; [exact Hw|reflexivity]|].
    apply members_more with l1; auto; [apply blanks_spaces; assumption..|exact I|apply blanks_spaces; assumption|]. apply HN, IHv; [exact Hf|apply delimited_number, Hd].
Qed.
Lemma strict_document v l r : lax_document true true v l r -> ~ In 12%N l -> (forall t, v = JNumber t -> delimited r) ->
  document any_layout v l r \/ exists w j l', l = w ++ j ++ l' /\ spaces w /\ junk j /\ value_at any_layout false v l' r.
Proof.
  intros (w & l' & -> & Hw & Hv) Hf Hd. apply free_app in Hf. destruct Hf as (Hf1 & Hf2). pose proof (blanks_spaces _ Hw Hf1) as Hs.
  destruct (proj1 strict _ _ _ _ Hv Hf2) as (j & l2 & -> & Hj & H); [destruct v; cbn; try exact I; apply (Hd t eq_refl)|].
  destruct Hj as [->|(_ & Hj)].
  - left. exists w, l2. auto.
  - right. exists w, j, l2. auto.
Qed.
(** Input that is read at once and has no form feed. *)
Lemma idt_strict c d r w p r' w' p' fuel : 2 <= c -> valid r -> rcap r = c -> at_once (bf r) -> ~ In 12%N (rest r) -> delimited (rest r') -> fresh d p ->
  idtransform fuel r w p = Done (r', w', p', Ok tt) ->
  (spaces (rest r) /\ w' = w) \/
  exists v, (ordinary v -> spent w (compact v) w') /\
    (document any_layout v (rest r) (rest r') \/ exists w j l', rest r = w ++ j ++ l' /\ spaces w /\ junk j /\ value_at any_layout false v l' (rest r')).
Proof.
  intros H2 Hv Hc Ho Hf Hd Hp E. destruct (idt_sound true c H2 d r w p r' w' p' fuel) as [(H & ->)|(v & Hl & Hw)]; auto.
  { split; [exact Hv|]. split; [exact Hc|auto]. }
  - left. split; [apply blanks_spaces; assumption|reflexivity].
  - right. exists v. split; [exact Hw|]. apply strict_document; auto.
Qed.
