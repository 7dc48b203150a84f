(** A conversion that succeeds has read values, and has written what it writes for these values. *)
From Verif Require Import Base U8Pool Buffer BufferSpec Jiter RJiter RJiterSpec Scan ScanSpec IdSpec DdbSpec Conv DdbToNormal ConvSpec.
From Verif Require Import RJiterIndexProofs RJiterLookProofs ScanTokens ScanParser ScanStack ScanProofs ScanTop ScanSse IdProofs Transducer ConvProofs D2nProofs ConvResults.
From Verif Require Import SoundSpec SoundParser ScanSound SoundResults.

(** ** A transducer that answers only where it is defined *)
Section Exact.
Context {B M : Type} (outw : B -> writer) (mode : B -> M) (good : B -> Prop).
Context (tb : pseudoname -> list bytes -> json -> M -> option (bytes * M * bool)) (te : pseudoname -> list bytes -> @tstep M).
Notation wrote := (wrote outw mode good).
Definition exact_transducer : behaviour B := mkBehaviour
  (fun name path v t t' op => good t ->
     match op with
     | Some OpNone => exists text m', tb name path v (mode t) = Some (text, m', false) /\ wrote t text m' t'
     | Some ValueIsConsumed => exists text m', tb name path v (mode t) = Some (text, m', true) /\ wrote t text m' t'
     | _ => True
     end)
  (fun name path t t' e => good t ->
     match e with
     | Some (Ok _) => exists text m', te name path (mode t) = Some (text, m') /\ wrote t text m' t'
     | _ => True
     end).
Definition goes_through (f : tstep) (t t' : B) (st : status) : Prop := st = Through -> good t -> exists text m', f (mode t) = Some (text, m') /\ wrote t text m' t'.
Lemma through_then (f g : tstep) t t1 t' : goes_through f t t1 Through -> goes_through g t1 t' Through -> goes_through (t_then f g) t t' Through.
Proof.
  intros Hf Hg _ H. destruct (Hf eq_refl H) as (a & m1 & Ea & Ha). pose proof Ha as (_ & Hm & H1). destruct (Hg eq_refl H1) as (b & m2 & Eb & Hb).
  exists (a ++ b), m2. split; [|eapply wrote_after; eassumption]. unfold t_then. rewrite Ea. rewrite Hm in Eb. rewrite Eb. reflexivity.
Qed.
Lemma begin_then name path v (f : tstep) t t1 t' op : on_begin exact_transducer name path v t t1 (Some op) -> goes_through f t1 t' Through -> good t ->
  match op with OpError _ => False | _ => True end ->
  exists a m1, tb name path v (mode t) = Some (a, m1, match op with ValueIsConsumed => true | _ => false end) /\
    exists text m', t_then (fun _ => Some (a, m1)) f (mode t) = Some (text, m') /\ wrote t text m' t'.
Proof.
  intros Hb Hf Hg Hop. cbn [on_begin exact_transducer] in Hb. specialize (Hb Hg).
  assert (exists a m1, tb name path v (mode t) = Some (a, m1, match op with ValueIsConsumed => true | _ => false end) /\ wrote t a m1 t1) as (a & m1 & Ea & Ha)
    by (destruct op; [exact Hb|exact Hb|contradiction]).
  exists a, m1. split; [exact Ea|]. pose proof Ha as (_ & Hm & H1). destruct (Hf eq_refl H1) as (b & m2 & Eb & Hw). exists (a ++ b), m2.
  split; [|eapply wrote_after; eassumption]. unfold t_then. rewrite Hm in Eb. rewrite Eb. reflexivity.
Qed.
Lemma end_through name path t t' e : on_end exact_transducer name path t t' e -> goes_through (te name path) t t' (ended e).
Proof. intros H He Hg. specialize (H Hg). destruct e as [[[]|m]|]; try discriminate. exact H. Qed.
Notation run_value := (run_value tb te).
Notation run_items := (run_items tb te).
Notation run_members := (run_members tb te).
Notation run_member := (run_member tb te).
Lemma exact_walk d :
  (forall path v t t' st, walk_value exact_transducer d false path v t t' st -> goes_through (run_value path v) t t' st) /\
  (forall path vs t t' st, walk_items exact_transducer d false path vs t t' st -> goes_through (run_items path vs) t t' st) /\
  (forall path ms t t' st, walk_members exact_transducer d false path ms t t' st -> goes_through (run_members path ms) t t' st) /\
  (forall path v t t' st, walk_member exact_transducer d false path v t t' st -> goes_through (run_member path v) t t' st).
Proof.
  apply (walk_ind _ exact_transducer d false (fun path v => goes_through (run_value path v)) (fun path v => goes_through (run_items path v))
    (fun path v => goes_through (run_members path v)) (fun path v => goes_through (run_member path v))).
  - intros path v u H. discriminate.
  - intros path v u u' op Ha Hb Hst Hg. cbn [on_begin exact_transducer] in Hb. specialize (Hb Hg).
    assert (exists a m1 b, tb PAtom path v (mode u) = Some (a, m1, b) /\ wrote u a m1 u') as (a & m1 & b & Ea & Hw).
    { destruct op as [[| |m]|]; cbn [halt] in Hst; try discriminate; destruct Hb as (a & m1 & Ea & Hw); eauto 10. }
    exists a, m1. split; [|exact Hw]. destruct v; try contradiction Ha; cbn [Transducer.run_value]; rewrite Ea; reflexivity.
  - intros path v u u' H. discriminate.
  - intros path vs u u' op why _ _ H. discriminate.
  - intros path vs u u' Hb _ Hg. specialize (Hb Hg). destruct Hb as (a & m1 & Ea & Hw). exists a, m1. rewrite run_array, Ea. auto.
  - intros path vs u u' x _ _ H. discriminate.
  - intros path vs u u1 u2 why _ _ _ _ H. discriminate.
  - intros path vs u u1 u2 u3 e Hb _ _ IH He Hst Hg. apply end_through in He. rewrite Hst in He.
    destruct (begin_then _ _ _ _ _ _ _ _ Hb (through_then _ _ _ _ _ IH He) Hg I) as (a & m1 & Ea & text & m' & Et & Hw).
    exists text, m'. rewrite run_array, Ea. auto.
  - intros path vs u u' op why _ _ H. discriminate.
  - intros path vs u u' Hb _ Hg. specialize (Hb Hg). destruct Hb as (a & m1 & Ea & Hw). exists a, m1. rewrite run_object, Ea. auto.
  - intros path vs u u1 u2 why _ _ _ H. discriminate.
  - intros path vs u u1 u2 u3 e Hb _ IH He Hst Hg. apply end_through in He. rewrite Hst in He.
    destruct (begin_then _ _ _ _ _ _ _ _ Hb (through_then _ _ _ _ _ IH He) Hg I) as (a & m1 & Ea & text & m' & Et & Hw).
    exists text, m'. rewrite run_object, Ea. auto.
  - intros path vs u H. discriminate.
  - intros path u _ Hg. exists [], (mode u). split; [reflexivity|]. split; [apply spent_refl|auto].
  - intros path v vs u u' why _ _ H. discriminate.
  - intros path v vs u u1 u2 st _ IH _ IH2 ->. exact (through_then _ _ _ _ _ IH IH2 eq_refl).
  - intros path vs u H. discriminate.
  - intros path u _ Hg. exists [], (mode u). split; [reflexivity|]. split; [apply spent_refl|auto].
  - intros path k v ms u x _ H. discriminate.
  - intros path k v ms u u' why _ _ _ H. discriminate.
  - intros path k v ms u u1 u2 st _ _ IH _ IH2 ->. exact (through_then _ _ _ _ _ IH IH2 eq_refl).
  - intros path v u u' op why _ _ H. discriminate.
  - intros path v u u1 u2 e Hb He Hst Hg. apply end_through in He. rewrite Hst in He.
    destruct (begin_then _ _ _ _ _ _ _ _ Hb He Hg I) as (a & m1 & Ea & text & m' & Et & Hw).
    exists text, m'. unfold Transducer.run_member, t_begin. rewrite Ea. auto.
  - intros path v u u1 u2 why _ _ _ H. discriminate.
  - intros path v u u1 u2 u3 e Hb _ IH He Hst Hg. apply end_through in He. rewrite Hst in He.
    destruct (begin_then _ _ _ _ _ _ _ _ Hb (through_then _ _ _ _ _ IH He) Hg I) as (a & m1 & Ea & text & m' & Et & Hw).
    exists text, m'. unfold Transducer.run_member, t_begin. rewrite Ea. auto.
Qed.

(** ** Steps *)
Definition obeys (f : step B) (t : tstep) : Prop := forall c c', good c -> f c = Done (c', Ok tt) -> exists text m', t (mode c) = Some (text, m') /\ wrote c text m' c'.
Lemma obeys_then f g s t : obeys f s -> obeys g t -> obeys (f ;; g) (t_then s t).
Proof.
  intros Hf Hg c c' Hc E. unfold and_then in E. destruct (f c) as [[c1 [[]|m]]| |] eqn:Ef; cbn [obind] in E; try discriminate.
  destruct (Hf _ _ Hc Ef) as (a & m1 & Ea & Ha). pose proof Ha as (_ & Hm & H1). destruct (Hg _ _ H1 E) as (b & m2 & Eb & Hw).
  exists (a ++ b), m2. split; [|eapply wrote_after; eassumption]. unfold t_then. rewrite Ea. rewrite Hm in Eb. rewrite Eb. reflexivity.
Qed.
Lemma obeys_does noted E f t : does outw mode good noted E f t -> (forall c, good c -> t (mode c) = None -> forall c', f c <> Done (c', Ok tt)) -> obeys f t.
Proof.
  intros Hd Hn c c' Hc Ef. destruct (t (mode c)) as [[text m']|] eqn:Et; [|elim (Hn c Hc Et c' Ef)].
  destruct (Hd c Hc _ _ Et) as (c1 & res & E1 & H). rewrite Ef in E1. injection E1 as <- <-. eauto.
Qed.
End Exact.

(** ** From DynamoDB *)
Section D2n.
Context (pr : bool) (mode : wrapper_mode) (whole : bool) (c : nat) (H2 : 2 <= c).
Notation G := (after whole c).
Notation cobeys := (obeys cout cmode (cgood pr)).
Notation obeys := (obeys dout dmode (dgood pr)).
Notation wrote := (wrote dout dmode (dgood pr)).
Notation d2n_tb := (d2n_tb pr mode).
Notation d2n_te := (d2n_te pr mode).
Notation beh := (exact_transducer dout dmode (dgood pr) d2n_tb d2n_te).
Lemma obeys_put d x : cobeys (put d x) (t_put d).
Proof. eapply obeys_does; [apply (does_put pr conv_noted false conv_io)|discriminate]. Qed.
Lemma obeys_skip : cobeys skip t_none.
Proof. eapply obeys_does; [apply (does_skip pr conv_noted false)|discriminate]. Qed.
Lemma obeys_newline : cobeys newline (t_newline pr).
Proof. eapply obeys_does; [apply (does_newline pr conv_noted false conv_io)|discriminate]. Qed.
Lemma obeys_comma : cobeys write_comma (t_comma pr).
Proof. eapply obeys_does; [apply (does_comma pr conv_noted false conv_io)|discriminate]. Qed.
Lemma obeys_indent : cobeys indent (t_indent pr).
Proof. eapply obeys_does; [apply (does_indent pr conv_noted false conv_io)|discriminate]. Qed.
Lemma obeys_comma_is b : cobeys (comma_is b) (t_comma_is b).
Proof. eapply obeys_does; [apply (does_comma_is pr conv_noted false)|discriminate]. Qed.
Lemma obeys_deeper : cobeys deeper t_deeper.
Proof. eapply obeys_does; [apply (does_deeper pr conv_noted false)|discriminate]. Qed.
Lemma obeys_level n : cobeys (change_to (fun c => set_level c n)) (fun m => Some ([], (fst m, n))).
Proof. eapply obeys_does; [apply (does_level pr conv_noted false)|discriminate]. Qed.
Lemma obeys_shallower : cobeys shallower t_shallower.
Proof.
  eapply obeys_does; [apply (does_shallower pr conv_noted false)|]. intros b _ Ht b' E. unfold shallower in E. unfold t_shallower, cmode in Ht. cbn [snd] in Ht.
  destruct (level b); discriminate.
Qed.
Lemma obeys_lift f t : cobeys f t -> obeys (on_base f) (lift t).
Proof.
  intros H b b' Hg E. unfold on_base in E. destruct (f (base b)) as [[c1 v]| |] eqn:Ef; cbn [obind] in E; try discriminate. injection E as <- ->.
  destruct (H _ _ Hg Ef) as (text & m' & Et & Hs & Hm & Hg'). exists text, (m', at_phase b, current_type b).
  split; [unfold lift, dmode; rewrite Et; reflexivity|]. split; [exact Hs|]. split; [unfold dmode; cbn; rewrite Hm; reflexivity|exact Hg'].
Qed.
Lemma obeys_phase p : obeys (phase_is p) (t_phase p).
Proof. eapply obeys_does; [apply (does_phase pr false)|]. intros b _ Ht. discriminate. Qed.
Lemma obeys_type t : obeys (type_is t) (t_type t).
Proof. eapply obeys_does; [apply (does_type pr false)|]. intros b _ Ht. discriminate. Qed.
Ltac csteps := repeat first
  [ apply obeys_then | apply obeys_put | apply obeys_newline | apply obeys_comma | apply obeys_indent | apply obeys_deeper | apply obeys_shallower
  | apply obeys_comma_is | apply obeys_level | apply obeys_skip ].
Ltac steps := repeat first [ apply obeys_lift; csteps | apply obeys_phase | apply obeys_type | apply obeys_then ].

(** A value read by a handler, and what was written for it. *)
Definition wrote_step (t : @tstep dm) (b b' : d2n) : Prop := exists text m', t (dmode b) = Some (text, m') /\ wrote b text m' b'.
Lemma wrote_step_then s t b b1 b' : wrote_step s b b1 -> wrote_step t b1 b' -> wrote_step (t_then s t) b b'.
Proof.
  intros (a & m1 & Ea & Ha) (x & m2 & Ex & Hx). exists (a ++ x), m2. pose proof Ha as (_ & Hm & _). split; [|eapply wrote_after; eassumption].
  unfold t_then. rewrite Ea. rewrite Hm in Ex. rewrite Ex. reflexivity.
Qed.
Lemma string_read q x y s b s' b' op : G s -> write_string_value q x y s b = Done (s', b', op) ->
  match op with
  | OpNone => False
  | ValueIsConsumed => G s' /\ 0 < jidx s' /\ exists t, (forall j, lax_document whole j (JString t) (rest s) (rest s')) /\ (dgood pr b -> wrote_step (t_string pr q t) b b')
  | OpError _ => True
  end.
Proof.
  intros HG E. unfold write_string_value in E.
  destruct (peek s) as [[s1 [p|e]]| |] eqn:Ep; cbn [obind] in E; try discriminate; [|injection E as <- <- <-; exact I].
  destruct (N.eqb_spec p QUOTE) as [->|_]; cbn [negb] in E; [|injection E as <- <- <-; exact I].
  destruct (read_peek_start whole c H2 s s1 QUOTE (after_before _ _ _ HG) Ep) as (HG1 & w & l & Hr & Hr1 & Hw).
  set (f := on_base (write_comma ;; (if q then put [QUOTE] "writing opening quote" else skip))) in E.
  assert (Hf : obeys f (lift (t_comma pr ;> t_quotes q))).
  { subst f. apply obeys_lift, obeys_then; [csteps|]. destruct q; csteps. }
  destruct (f b) as [[b1 [[]|m]]| |] eqn:Ef; cbn [obind] in E; try discriminate; [|injection E as <- <- <-; exact I].
  destruct (write_long_bytes s1 (cout (base b1))) as [[[s2 w2] [u|e]]| |] eqn:El; cbn [obind] in E; try discriminate; [|injection E as <- <- <-; exact I].
  destruct (read_long whole c s1 (cout (base b1)) s2 w2 u l HG1 Hr1 El) as (HG2 & Hi & t & Ht & Hs & Hl).
  unfold act_of in E. set (g := on_base _) in E. set (b2 := set_base b1 _) in E.
  assert (Hg : obeys g (lift (t_quotes q ;> t_comma_is true))).
  { subst g. apply obeys_lift, obeys_then; [|csteps]. destruct q; csteps. }
  destruct (g b2) as [[b3 [[]|m]]| |] eqn:Eg; cbn [obind] in E; try discriminate; injection E as <- <- <-; [|exact I].
  split; [exact HG2|]. split; [exact Hi|]. exists t. split.
  { intros j. rewrite Hr. apply document_blanks; [exact Hw|]. rewrite <- Hr1, Ht. apply document_value, lax_string, Hl. }
  intros Hb. pose proof (Hf _ _ Hb Ef) as H1. pose proof H1 as (_ & _ & _ & _ & _ & Hb1). assert (Hb2 : dgood pr b2) by exact Hb1. pose proof (Hg _ _ Hb2 Eg) as H3.
  assert (Hm : wrote_step (lift (t_put t)) b1 b2).
  { exists t, (dmode b1). split; [reflexivity|]. split; [exact Hs|]. split; [reflexivity|exact Hb2]. }
  apply (wrote_step_then _ _ _ _ _ H1).
  destruct (wrote_step_then _ _ _ _ _ Hm H3) as (text & m' & Et & Hw'). exists text, m'. split; [|exact Hw']. rewrite <- Et.
  unfold lift, t_then, dmode, t_put. destruct (t_quotes q (cmode (base b1))) as [[z m1]|]; [|reflexivity]. destruct (t_comma_is true m1) as [[z2 m2]|]; reflexivity.
Qed.
Lemma bool_read (validate : byte -> result bytes string) x s b s' b' op : G s ->
  (forall p t, validate p = Ok t -> p = PeekTrue \/ p = PeekFalse) ->
  handle_bool_based_type validate x s b = Done (s', b', op) ->
  match op with
  | OpNone => False
  | ValueIsConsumed => G s' /\ 0 < jidx s' /\ exists (z : bool) word, validate (if z then PeekTrue else PeekFalse) = Ok word /\
      (forall j, lax_document whole j (if z then JTrue else JFalse) (rest s) (rest s')) /\
      (dgood pr b -> wrote_step (lift (t_comma pr) ;> lift (t_put word ;> t_comma_is true) ;> t_type None) b b')
  | OpError _ => True
  end.
Proof.
  intros HG Hv E. unfold handle_bool_based_type in E.
  destruct (peek s) as [[s1 [p|e]]| |] eqn:Ep; cbn [obind] in E; try discriminate; [|injection E as <- <- <-; exact I].
  destruct (validate p) as [word|m] eqn:Ev; [|injection E as <- <- <-; exact I]. pose proof (Hv _ _ Ev) as Hp.
  destruct (read_peek_start whole c H2 s s1 p (after_before _ _ _ HG) Ep) as (HG1 & w & l & Hr & Hr1 & Hw).
  assert (Hc : obeys (on_base write_comma) (lift (t_comma pr))) by (apply obeys_lift; csteps).
  destruct (on_base write_comma b) as [[b1 [[]|m]]| |] eqn:Ef; cbn [obind] in E; try discriminate; [|injection E as <- <- <-; exact I].
  destruct (known_bool p s1) as [[s2 [u|e]]| |] eqn:El; cbn [obind] in E; try discriminate; [|injection E as <- <- <-; exact I].
  destruct (read_bool whole c H2 p s1 s2 u l Hp HG1 Hr1 El) as (HG2 & Hi & Ht & _).
  unfold act_of in E. set (g := on_base _ ;; _) in E.
  assert (Hg : obeys g (lift (t_put word ;> t_comma_is true) ;> t_type None)) by (subst g; steps).
  destruct (g b1) as [[b3 [[]|m]]| |] eqn:Eg; cbn [obind] in E; try discriminate; injection E as <- <- <-; [|exact I].
  split; [exact HG2|]. split; [exact Hi|]. exists (N.eqb p PeekTrue), word.
  assert (Ep' : (if N.eqb p PeekTrue then PeekTrue else PeekFalse) = p) by (destruct Hp as [-> | ->]; reflexivity). rewrite Ep'.
  split; [exact Ev|]. split.
  - intros j. rewrite Hr. apply document_blanks; [exact Hw|]. rewrite <- Hr1, Ht. apply document_value. destruct Hp as [-> | ->]; [apply lax_true|apply lax_false].
  - intros Hb. pose proof (Hc _ _ Hb Ef) as H1. pose proof H1 as (_ & _ & _ & _ & _ & Hb1). apply (wrote_step_then _ _ _ _ _ H1), (Hg _ _ Hb1 Eg).
Qed.

(** Handlers: what they answer. *)
Definition told (name : pseudoname) (v : json) : Prop := name = PNone \/ announces name v.
Definition heeded (name : pseudoname) (path : list bytes) (j : bool) (b : d2n) (s s' : rj) (b' : d2n) (op : stream_op) : Prop :=
  match op with
  | OpNone => s' = s /\ forall v, told name v -> on_begin beh name path v b b' (Some OpNone)
  | ValueIsConsumed => exists v, told name v /\ on_begin beh name path v b b' (Some ValueIsConsumed) /\ G s' /\ 0 < jidx s' /\ lax_document whole j v (rest s) (rest s')
  | OpError _ => True
  end.
Lemma heeded_goes name path j b b1 f g s s' b' op : (forall v, told name v -> d2n_tb name path v (dmode b) = goes f (dmode b)) -> alike pr b b1 -> obeys g f ->
  act_of g OpNone s b1 = Done (s', b', op) -> heeded name path j b s s' b' op.
Proof.
  intros Ht (Am & Ao & Ag) Hg E. unfold act_of in E. destruct (g b1) as [[b2 [[]|m]]| |] eqn:Eg; cbn [obind] in E; try discriminate; injection E as <- <- <-; [|exact I].
  split; [reflexivity|]. intros v Hv Hb. destruct (Hg _ _ (Ag Hb) Eg) as (text & m' & Et & Hw). exists text, m'. rewrite (Ht v Hv). unfold goes. rewrite <- Am, Et.
  split; [reflexivity|]. destruct Hw as (A & R). rewrite Ao in A. split; assumption.
Qed.
Lemma heeded_takes name path v j b b1 b2 f s s' : d2n_tb name path v (dmode b) = takes f (dmode b) -> told name v -> alike pr b b1 ->
  (dgood pr b1 -> wrote_step f b1 b2) -> G s' -> 0 < jidx s' -> lax_document whole j v (rest s) (rest s') -> heeded name path j b s s' b2 ValueIsConsumed.
Proof.
  intros Ht Hv (Am & Ao & Ag) Hw HG Hi Hl. exists v. split; [exact Hv|]. split; [|auto]. intros Hb. destruct (Hw (Ag Hb)) as (text & m' & Et & A & R). exists text, m'.
  rewrite Ht. unfold takes. rewrite <- Am, Et. split; [reflexivity|]. rewrite Ao in A. split; assumption.
Qed.
Lemma finally_step (f : d2n -> d2n) (t : @tstep dm) s b b' : wrote_step s b b' -> dout (f b') = dout b' -> (dgood pr b' -> dgood pr (f b')) -> t (dmode b') = Some ([], dmode (f b')) ->
  wrote_step (s ;> t) b (f b').
Proof.
  intros H Ho Hg Ht. apply (wrote_step_then _ _ _ _ _ H). destruct H as (_ & _ & _ & _ & _ & Hb'). exists [], (dmode (f b')). split; [exact Ht|].
  split; [rewrite Ho; apply spent_refl|]. split; [reflexivity|apply Hg, Hb'].
Qed.
Lemma type_key_heeded path j b key s s' b' op : G s -> (forall v, d2n_tb PNone path v (dmode b) = t_type_key pr key v (dmode b)) ->
  on_type_key s (note b key) = Done (s', b', op) -> heeded PNone path j b s s' b' op.
Proof.
  intros HG Ht E. unfold on_type_key in E. cbn [note base set_base set_field field] in E. fold (note b key) in E.
  assert (HS : forall q x y, (forall t, d2n_tb PNone path (JString t) (dmode b) = takes (t_string pr q t ;> t_type None ;> t_phase ExpectingValue) (dmode b)) ->
    finally (fun c => set_phase (set_type c None) ExpectingValue) (write_string_value q x y) s (note b key) = Done (s', b', op) -> heeded PNone path j b s s' b' op).
  { intros q x y HX EF. unfold finally in EF. destruct (write_string_value q x y s (note b key)) as [[[s1 b1] op1]| |] eqn:EW; cbn [obind] in EF; try discriminate.
    injection EF as <- <- <-. pose proof (string_read q x y s _ _ _ _ HG EW) as H. destruct op1 as [| |m]; [contradiction| |exact I].
    destruct H as (HG1 & Hi & t & Hl & Hw). eapply (heeded_takes PNone path (JString t)); eauto; [left; reflexivity|apply note_alike|].
    intros Hb. apply (finally_step (fun c => set_phase (set_type c None) ExpectingValue)); auto. }
  assert (HB : forall (validate : byte -> result bytes string) name (words : bool -> string),
    (forall z : bool, validate (if z then PeekTrue else PeekFalse) = Ok (bs (words z)) \/ exists m, validate (if z then PeekTrue else PeekFalse) = Err m) ->
    (forall p t, validate p = Ok t -> p = PeekTrue \/ p = PeekFalse) ->
    (forall (z : bool) w, validate (if z then PeekTrue else PeekFalse) = Ok w -> w = bs (words z) -> d2n_tb PNone path (if z then JTrue else JFalse) (dmode b) = takes (t_word pr (words z) ;> t_phase ExpectingValue) (dmode b)) ->
    finally (fun c => set_phase c ExpectingValue) (handle_bool_based_type validate name) s (note b key) = Done (s', b', op) -> heeded PNone path j b s s' b' op).
  { intros validate name words Hwords Hval HX EF. unfold finally in EF. destruct (handle_bool_based_type validate name s (note b key)) as [[[s1 b1] op1]| |] eqn:EW; cbn [obind] in EF; try discriminate.
    injection EF as <- <- <-. pose proof (bool_read validate name s _ _ _ _ HG Hval EW) as H. destruct op1 as [| |m]; [contradiction| |exact I].
    destruct H as (HG1 & Hi & z & word & Hword & Hl & Hw). destruct (Hwords z) as [Hz|(m & Hz)]; [|congruence]. assert (word = bs (words z)) as -> by congruence.
    eapply (heeded_takes PNone path (if z then JTrue else JFalse)); eauto; [left; reflexivity|apply note_alike|].
    intros Hb. apply (finally_step (fun c => set_phase c ExpectingValue)); auto. }
  assert (HG' : forall f g, obeys g f -> (forall v, t_type_key pr key v (dmode b) = goes f (dmode b)) -> act_of g OpNone s (note b key) = Done (s', b', op) -> heeded PNone path j b s s' b' op).
  { intros f g Hg HX EA. eapply heeded_goes; [intros v _; rewrite Ht; apply HX|apply note_alike|exact Hg|exact EA]. }
  unfold t_type_key in *.
  destruct (beq key (bs "S") || beq key (bs "B")); [apply HS in E; [exact E|intros t; apply Ht]|].
  destruct (beq key (bs "N")); [apply HS in E; [exact E|intros t; apply Ht]|].
  destruct (beq key (bs "BOOL")).
  { apply (HB _ _ (fun z : bool => if z then "true" else "false")%string) in E; [exact E| | |].
    - intros [|]; left; reflexivity.
    - intros p o. unfold bool_output. destruct (N.eqb_spec p PeekTrue); [auto|]. destruct (N.eqb_spec p PeekFalse); [auto|discriminate].
    - intros [|] w _ _; apply Ht. }
  destruct (beq key (bs "NULL")).
  { apply (HB _ _ (fun z : bool => "null")%string) in E; [exact E| | |].
    - intros [|]; [left; reflexivity|right; eexists; reflexivity].
    - intros p o. unfold null_output. destruct (N.eqb_spec p PeekTrue); [auto|discriminate].
    - intros [|] w Hw _; [apply Ht|discriminate]. }
  destruct (beq key (bs "SS") || beq key (bs "BS")); [eapply HG'; [|intros v; reflexivity|exact E]; steps|].
  destruct (beq key (bs "NS")); [eapply HG'; [|intros v; reflexivity|exact E]; steps|].
  destruct (beq key (bs "L")); [eapply HG'; [|intros v; reflexivity|exact E]; steps|].
  destruct (beq key (bs "M")); [eapply HG'; [|intros v; reflexivity|exact E]; steps|].
  injection E as <- <- <-. exact I.
Qed.
Lemma heeded_silent name path v b b' f m' : (d2n_tb name path v (dmode b) = goes f (dmode b)) -> f (dmode b) = Some ([], m') -> dmode b' = m' -> dout b' = dout b ->
  (dgood pr b -> dgood pr b') -> on_begin beh name path v b b' (Some OpNone).
Proof. intros Ht Hf Hm Ho Hg Hb. exists [], m'. rewrite Ht. unfold goes. rewrite Hf. split; [reflexivity|]. split; [rewrite Ho; apply spent_refl|auto]. Qed.
Lemma obeys_end name path f t b b' : obeys f t -> d2n_te name path (dmode b) = t (dmode b) -> f b = Done (b', Ok tt) -> on_end beh name path b b' (Some (Ok tt)).
Proof. intros Hf Ht E Hb. destruct (Hf _ _ Hb E) as (text & m' & Et & Hw). exists text, m'. rewrite Ht. auto. Qed.
Lemma silent_end name path b : d2n_te name path (dmode b) = t_none (dmode b) -> on_end beh name path b b (Some (Ok tt)).
Proof. intros Ht Hb. exists [], (dmode b). rewrite Ht. split; [reflexivity|]. split; [apply spent_refl|auto]. Qed.
Lemma d2n_heeds : heeds whole c (d2n_callbacks mode) beh.
Proof.
  split.
  - intros name j path s b Hname HG Hj. cbn [find_action d2n_callbacks].
    assert (HA : forall s' b' op, heeded name path j b s s' b' op ->
      match op with
      | OpNone => (forall v, announces name v -> on_begin beh name path v b b' (Some OpNone)) /\ after whole c s' /\ rest s' = rest s /\ (0 < jidx s -> 0 < jidx s')
      | ValueIsConsumed => exists v, announces name v /\ on_begin beh name path v b b' (Some ValueIsConsumed) /\ after whole c s' /\ 0 < jidx s' /\ lax_document whole j v (rest s) (rest s')
      | OpError _ => True
      end).
    { intros s' b' op H. destruct op as [| |m]; [| |exact I].
      - destruct H as (-> & H). split; [intros v Hv; apply H; right; exact Hv|auto].
      - destruct H as (v & [Hv|Hv] & H); [contradiction|eauto]. }
    destruct name; unfold d2n_find_action; cbn [names ctx_len]; [| | |contradiction].
    + unfold find_action_array. destruct (current_type b) as [[| | |]|] eqn:Et; try (intros s' b' op E; injection E as <- <- <-; exact I).
      * intros v _. eapply (heeded_silent PArray path v b b t_none); [|reflexivity|reflexivity|reflexivity|auto]. unfold dmode; cbn [D2nProofs.d2n_tb]; rewrite Et; reflexivity.
      * intros v _. eapply (heeded_silent PArray path v b b t_none); [|reflexivity|reflexivity|reflexivity|auto]. unfold dmode; cbn [D2nProofs.d2n_tb]; rewrite Et; reflexivity.
      * intros v _. eapply (heeded_silent PArray path v b (set_type b None) (t_type None)); [|reflexivity|reflexivity|reflexivity|auto]. unfold dmode; cbn [D2nProofs.d2n_tb]; rewrite Et; reflexivity.
    + unfold find_action_object.
      assert (HT : forall v, d2n_tb PObject path v (dmode b) =
        if level (base b) =? 0 then goes (t_begin_root pr) (dmode b)
        else match at_phase b with
             | ExpectingValue => None
             | ExpectingTypeKey => match current_type b with Some TL => None | _ => goes t_none (dmode b) end
             | ExpectingField => goes t_none (dmode b)
             | TypeKeyConsumed => if parent_is (bs "#array") path then goes t_none (dmode b) else None
             end) by reflexivity.
      destruct (level (base b) =? 0) eqn:E0.
      { intros s' b' op E. apply HA. unfold on_root_object_begin in E. refine (heeded_goes _ _ _ _ _ _ _ _ _ _ _ _ _ _ E); [intros v _; apply HT|split; [reflexivity|]; split; [reflexivity|]; intros H; exact H|unfold t_begin_root; steps]. }
      assert (HN : (forall v, d2n_tb PObject path v (dmode b) = goes t_none (dmode b)) -> forall v, announces PObject v -> on_begin beh PObject path v b b (Some OpNone)).
      { intros HX v _. eapply heeded_silent; [apply HX|reflexivity|reflexivity|reflexivity|auto]. }
      destruct (at_phase b) eqn:Ep.
      * apply HN, HT.
      * destruct (current_type b) as [[| | |]|] eqn:Et; try (apply HN, HT). intros s' b' op E. injection E as <- <- <-. exact I.
      * intros s' b' op E. injection E as <- <- <-. exact I.
      * destruct (parent_is (bs "#array") path); [apply HN, HT|]. intros s' b' op E. injection E as <- <- <-. exact I.
    + unfold find_action_atom. destruct (at_phase b) eqn:Ep; try (intros s' b' op E; injection E as <- <- <-; exact I).
      destruct (parent_is (bs "#array") path) eqn:Epa; [|intros s' b' op E; injection E as <- <- <-; exact I].
      assert (HE : forall q x y s' b' op, (forall t, d2n_tb PAtom path (JString t) (dmode b) = takes (t_string pr q t) (dmode b)) ->
        write_string_value q x y s b = Done (s', b', op) -> heeded PAtom path j b s s' b' op).
      { intros q x y s' b' op HX E. pose proof (string_read q x y s b _ _ _ HG E) as H. destruct op as [| |m]; [contradiction| |exact I].
        destruct H as (HG1 & Hi & t & Hl & Hw). eapply (heeded_takes PAtom path (JString t)); eauto; [right; exact I|].
        split; [reflexivity|]. split; [reflexivity|]. intros H; exact H. }
      destruct (current_type b) as [[| | |]|] eqn:Et; try (intros s' b' op E; injection E as <- <- <-; exact I).
      * unfold on_set_string_element, on_set_number_element. intros s' b' op E. apply HA. refine (HE _ _ _ _ _ _ _ E). intros t. unfold dmode; cbn [D2nProofs.d2n_tb]. rewrite Ep, Epa, Et. reflexivity.
      * unfold on_set_string_element, on_set_number_element. intros s' b' op E. apply HA. refine (HE _ _ _ _ _ _ _ E). intros t. unfold dmode; cbn [D2nProofs.d2n_tb]. rewrite Ep, Epa, Et. reflexivity.
  - intros path s b HG Hi. cbn [find_action d2n_callbacks]. unfold d2n_find_action. cbn [names].
    assert (HA : forall s' b' op, heeded PNone path (negb whole) b s s' b' op ->
      match op with
      | OpNone => (forall v, on_begin beh PNone path v b b' (Some OpNone)) /\ after whole c s' /\ (whole = true -> 0 < jidx s') /\ exists w, blanks w /\ rest s = w ++ rest s'
      | ValueIsConsumed => exists v, on_begin beh PNone path v b b' (Some ValueIsConsumed) /\ after whole c s' /\ 0 < jidx s' /\ lax_document whole (negb whole) v (rest s) (rest s')
      | OpError _ => True
      end).
    { intros s' b' op H. destruct op as [| |m]; [| |exact I].
      - destruct H as (-> & H). split; [intros v; apply H; left; reflexivity|]. split; [exact HG|]. split; [auto|]. exists []. split; [constructor|reflexivity].
      - destruct H as (v & _ & H). eauto. }
    unfold find_action_key. destruct path as [|key path].
    { intros v. eapply (heeded_silent PNone [] v b b t_none); reflexivity || auto. }
    assert (HT : forall v, d2n_tb PNone (key :: path) v (dmode b) =
      match at_phase b with
      | ExpectingField => if is_wrapper mode key path then goes t_none (dmode b) else goes (t_field pr key) (dmode b)
      | ExpectingTypeKey => t_type_key pr key v (dmode b)
      | ExpectingValue => if in_set (current_type b) then t_type_key pr key v (dmode b) else None
      | TypeKeyConsumed => goes (t_field pr key) (dmode b)
      end) by reflexivity.
    assert (HFK : forall s' b' op, (forall v, d2n_tb PNone (key :: path) v (dmode b) = goes (t_field pr key) (dmode b)) -> on_field_key s (note b key) = Done (s', b', op) ->
      heeded PNone (key :: path) (negb whole) b s s' b' op).
    { intros s' b' op HX E. unfold on_field_key in E. cbn [note base set_base set_field field] in E.
      refine (heeded_goes _ _ _ _ _ _ _ _ _ _ _ _ _ _ E); [intros v _; apply HX|apply note_alike|unfold t_field; steps]. }
    destruct (at_phase b) eqn:Ep.
    + fold (is_wrapper mode key path). destruct (is_wrapper mode key path) eqn:Ew.
      * intros v. eapply (heeded_silent PNone (key :: path) v b b t_none); [apply HT|reflexivity|reflexivity|reflexivity|auto].
      * intros s' b' op E. apply HA, HFK; [exact HT|exact E].
    + intros s' b' op E. apply HA. eapply type_key_heeded; [exact HG|exact HT|exact E].
    + destruct (in_set (current_type b)) eqn:Es.
      * intros s' b' op E. apply HA. eapply type_key_heeded; [exact HG|exact HT|exact E].
      * intros s' b' op E. injection E as <- <- <-. exact I.
    + intros s' b' op E. apply HA, HFK; [exact HT|exact E].
  - intros name path b Hname. cbn [find_end_action d2n_callbacks d2n_find_end_action].
    destruct name; [| |contradiction|].
    + destruct (at_phase b) eqn:Ep.
      * apply silent_end. unfold dmode; cbn [D2nProofs.d2n_te]; rewrite Ep; reflexivity.
      * intros b' [] E. unfold on_list_end in E. rewrite Ep in E. revert E.
        apply (obeys_end PArray path _ (t_list_end)); [unfold t_list_end; steps|]. unfold dmode; cbn [D2nProofs.d2n_te]; rewrite Ep; reflexivity.
      * intros b' [] E. revert E. apply (obeys_end PArray path _ (t_set_end)); [unfold t_set_end, on_set_end; steps|]. unfold dmode; cbn [D2nProofs.d2n_te]; rewrite Ep; reflexivity.
      * apply silent_end. unfold dmode; cbn [D2nProofs.d2n_te]; rewrite Ep; reflexivity.
    + cbn [ctx_len]. destruct (List.length path =? 1) eqn:E1.
      * intros b' [] E. revert E. apply (obeys_end PObject path _ (t_root_end pr)); [unfold t_root_end, on_root_object_end; steps|]. unfold dmode; cbn [D2nProofs.d2n_te]; rewrite E1; reflexivity.
      * apply silent_end. unfold dmode; cbn [D2nProofs.d2n_te]; rewrite E1; reflexivity.
    + unfold find_end_action_key. destruct path as [|key path]; cbn [names].
      { apply silent_end. unfold dmode; cbn [D2nProofs.d2n_te]; reflexivity. }
      destruct (at_phase b) eqn:Ep.
      * assert (Hiw : beq key (bs "Item") && parent_is (bs "#top") path && match mode with AsWrapper => true | AsField => false end = is_wrapper mode key path).
        { unfold is_wrapper. destruct (beq key (bs "Item")), (parent_is (bs "#top") path), mode; reflexivity. }
        rewrite Hiw. destruct (is_wrapper mode key path) eqn:Ew.
        { apply silent_end. unfold dmode; cbn [D2nProofs.d2n_te]. rewrite Ep, Ew. reflexivity. }
        set (parents := if beq key (bs "Item") then tl path else path). intros b' [] E.
        destruct (parent_is (bs "#array") parents) eqn:Epa; revert E.
        -- apply (obeys_end PNone (key :: path) _ (t_map_end pr ;> t_phase ExpectingTypeKey)); [unfold t_map_end, on_map_end_in_array, on_map_end; steps|].
           unfold dmode; cbn [D2nProofs.d2n_te]. fold parents. rewrite Ep, Ew, Epa. reflexivity.
        -- apply (obeys_end PNone (key :: path) _ (t_map_end pr)); [unfold t_map_end, on_map_end; steps|].
           unfold dmode; cbn [D2nProofs.d2n_te]. fold parents. rewrite Ep, Ew, Epa. reflexivity.
      * destruct (is_container key) eqn:Ec.
        { apply silent_end. unfold dmode; cbn [D2nProofs.d2n_te]. rewrite Ep, Ec. reflexivity. }
        intros b' [] E. revert E. apply (obeys_end PNone (key :: path) _ (t_phase TypeKeyConsumed)); [unfold on_transition_to_type_key_consumed; steps|].
        unfold dmode; cbn [D2nProofs.d2n_te]. rewrite Ep, Ec. reflexivity.
      * intros b' [] E. revert E. apply (obeys_end PNone (key :: path) _ (t_phase (if parent_is (bs "#array") path then ExpectingTypeKey else TypeKeyConsumed))).
        { destruct (parent_is (bs "#array") path); [unfold on_type_key_end_in_array|unfold on_transition_to_type_key_consumed]; steps. }
        unfold dmode; cbn [D2nProofs.d2n_te]. rewrite Ep. reflexivity.
      * intros b' [] E. revert E. apply (obeys_end PNone (key :: path) _ (t_phase (if parent_is (bs "#array") path then ExpectingTypeKey else ExpectingField))).
        { destruct (parent_is (bs "#array") path); [unfold on_type_key_end_in_array|unfold on_type_key_end]; steps. }
        unfold dmode; cbn [D2nProofs.d2n_te]. rewrite Ep. reflexivity.
Qed.
End D2n.

(** ** The converter *)
Section Convert.
Context {B M : Type} (outw : B -> writer) (mode : B -> M) (good : B -> Prop).
Context (tb : pseudoname -> list bytes -> json -> M -> option (bytes * M * bool)) (te : pseudoname -> list bytes -> @tstep M).
Context (cb : callbacks B) (base : B -> conv) (slots : N) (whole : bool) (rb : bytes).
Context (H2 : 2 <= len rb) (HH : heeds whole (len rb) cb (exact_transducer outw mode good tb te)) (Hslots : (slots * 4 + 1 < usize_modulus)%N).
Lemma convert_sound fuel rd xb u u' : (whole = true -> sched rd = [] /\ len (src rd) <= len rb) -> good u ->
  convert cb base slots fuel rd rb xb u = Done (u', Ok tt) ->
  exists vs r, lax_documents whole true vs (src rd) r /\ blanks r /\
    exists text m', run_items tb te [bs "#top"] vs (mode u) = Some (text, m') /\ wrote outw mode good u text m' u'.
Proof.
  intros Hw Hg E. unfold convert in E. destruct (pool_new true xb slots) as [[p|e]| |] eqn:Ep; cbn [obind] in E; try discriminate.
  destruct (scan cb (mkOptions [] false) fuel (mkS (rj_new rd rb) u p)) as [[s [[]|e]]| |] eqn:Es; cbn [obind] in E; try discriminate. injection E as <-.
  assert (HF : fresh (pool_dims slots xb) p) by (exists true, xb; split; [exact Ep|]; split; [exact Hslots|reflexivity]).
  destruct (sound_all cb _ whole (len rb) (pool_dims slots xb) (mkOptions [] false) fuel (mkS (rj_new rd rb) u p) s H2 HH eq_refl eq_refl) as (vs & r & Hl & Hr & Hwalk); auto.
  - split; [apply valid_new|]. split; [reflexivity|]. intros Hwh. right. destruct (Hw Hwh) as (A & C). split; [exact A|]. split; [reflexivity|exact C].
  - exists vs, r. split; [exact Hl|]. split; [exact Hr|]. apply (proj1 (proj2 (exact_walk outw mode good tb te _))) in Hwalk. exact (Hwalk eq_refl Hg).
Qed.
End Convert.
Lemma d2n_only whole rb pr mode fuel rd w xb w' : 2 <= len rb -> (whole = true -> sched rd = [] /\ len (src rd) <= len rb) ->
  convert_ddb_to_normal fuel rd w rb xb pr mode = Done (w', Ok tt) ->
  exists vs r, lax_documents whole true vs (src rd) r /\ blanks r /\
    exists text m', run_items (d2n_tb pr mode) (d2n_te pr mode) [bs "#top"] vs ((false, 0), ExpectingField, None) = Some (text, m') /\ spent w text w'.
Proof.
  intros H2 Hw E. unfold convert_ddb_to_normal in E. destruct (convert _ _ _ _ _ _ _ _) as [[u v]| |] eqn:Ec; cbn [obind] in E; try discriminate. injection E as <- ->.
  destruct (convert_sound dout dmode (dgood pr) (d2n_tb pr mode) (d2n_te pr mode) (d2n_callbacks mode) base 68 whole rb H2 (d2n_heeds pr mode whole (len rb) H2) ltac:(reflexivity)
    fuel rd xb (d2n_new w pr) u Hw) as (vs & r & Hl & Hr & text & m' & Ht & Hs & _); [split; reflexivity|exact Ec|].
  exists vs, r. split; [exact Hl|]. split; [exact Hr|]. exists text, m'. split; [exact Ht|exact Hs].
Qed.
Lemma d2n_no_atoms pr mode : forall vs m text m', run_items (d2n_tb pr mode) (d2n_te pr mode) [bs "#top"] vs m = Some (text, m') -> Forall (fun v => ~ atom v) vs.
Proof.
  induction vs as [|v vs IH]; intros m text m' E; [constructor|]. cbn [Transducer.run_items] in E. unfold t_then in E.
  destruct (run_value _ _ _ v m) as [[x m1]|] eqn:Ev; [|discriminate]. destruct (run_items _ _ _ vs m1) as [[y m2]|] eqn:Er; [|discriminate].
  constructor; [|exact (IH _ _ _ Er)]. intros Ha. destruct m as [[c [| | |]] ty]; destruct v; try contradiction; discriminate Ev.
Qed.
Lemma d2n_sound pr mode : exists converted : list json -> option bytes,
  (forall items : item_stream, Forall (fit mode) items -> Forall (fun x => well_formed_item (snd x)) items ->
     exists text, converted (map item_of items) = Some text /\ documents any_layout (map (fun x => plain_item (snd x)) items) text /\
       (pr = false -> text = lines (map (fun x => plain_item (snd x)) items))) /\
  forall whole fuel rd w rb xb w', 2 <= len rb -> (whole = true -> sched rd = [] /\ len (src rd) <= len rb) ->
    convert_ddb_to_normal fuel rd w rb xb pr mode = Done (w', Ok tt) ->
    exists vs r text, lax_documents whole true vs (src rd) r /\ blanks r /\ Forall (fun v => ~ atom v) vs /\ converted vs = Some text /\ spent w text w'.
Proof.
  exists (fun vs => option_map fst (run_items (d2n_tb pr mode) (d2n_te pr mode) [bs "#top"] vs ((false, 0), ExpectingField, None))). split.
  - intros items Hf Hw. destruct (run_item_list pr mode items (fit_eq _ _ Hf) None ltac:(discriminate)) as (ty & Ht). rewrite items_eq in Ht. rewrite Ht.
    eexists. split; [reflexivity|]. replace (List.concat _) with (d2n_text pr items); [exact (d2n_text_facts pr items Hw)|].
    unfold d2n_text. rewrite map_map. f_equal. apply map_ext. intros [? ?]. reflexivity.
  - intros whole fuel rd w rb xb w' H2 Hw E. destruct (d2n_only _ _ _ _ _ _ _ _ _ H2 Hw E) as (vs & r & Hl & Hr & text & m' & Ht & Hs).
    exists vs, r, text. split; [exact Hl|]. split; [exact Hr|]. split; [exact (d2n_no_atoms _ _ _ _ _ _ Ht)|]. rewrite Ht. split; [reflexivity|exact Hs].
Qed.
