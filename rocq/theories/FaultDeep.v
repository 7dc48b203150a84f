(** Proofs about [idtransform] in front of an atom that is wrong within arrays and objects. *)
From Verif Require Import Base U8Pool Buffer BufferSpec Jiter RJiter RJiterSpec Scan ScanSpec IdTransform IdSpec FaultDeepSpec.
From Verif Require Import RJiterLookProofs RJiterProofs RJiterIndexProofs RJiterInvProofs ScanTokens ScanParser ScanStack ScanProofs ScanTop ScanSse IdProofs.

Scheme value_into_ind' := Minimality for value_into Sort Prop
  with items_into_ind' := Minimality for items_into Sort Prop
  with members_into_ind' := Minimality for members_into Sort Prop.
Combined Scheme into_ind from value_into_ind', items_into_ind', members_into_ind'.

Section Deep.
Context (d : dims) (G0 G : rj -> Prop) (P : profile) (PF : parser_facts G0 G P false).
Context (z : place) (x : byte) (fl : bytes) (Ea : scan_error -> Prop) (W : writer -> writer -> Prop) (Q : rj -> Prop) (Hx : solid x).
Context (HX : z = AtValue -> x <> LBRACK /\ x <> LBRACE /\ x <> RBRACK).
Context (HA : z = AtValue -> forall s w, G s -> wfail w = None -> rest s = x :: fl ->
  exists s' w' e, copy_atom x s w = Done (s', w', Err e) /\ Ea e /\ W w w' /\ Q s').
Context (HW : z <> AtValue -> forall w, W w w).
Context (HI : z = BehindElement -> forall s w, G s -> spaces w -> rest s = w ++ x :: fl -> exists s' e, array_step s = Done (s', Err e) /\ Ea (RJiterError e) /\ Q s').
Context (HM : z = BehindMember -> forall s w, G s -> spaces w -> rest s = w ++ x :: fl -> exists s' e, next_key_bytes s = Done (s', Err e) /\ Ea (RJiterError e) /\ Q s').
Context (HIO : forall e', Ea (RJiterError e') -> is_io e' = false).
Notation cb := idt_callbacks.
Notation op := (mkOptions [] true).
Notation path := path_of.

Definition reported (t : idt) (e : scan_error) : scan_error :=
  match io_error t, rjiter_error t, stored_scan_error t with
  | Some k, _, _ => IOError k
  | None, Some e', _ => RJiterError e'
  | None, None, Some e' => e'
  | None, None, None => e
  end.
Definition breaks (F : nat -> sres idt unit) (w : writer) (text : bytes) : Prop :=
  exists n s' e w1, (forall k, F (n + k) = Done (s', Err e)) /\ Ea (reported (user s') e) /\ W w1 (out (user s')) /\ spent w text w1 /\ Q (parser s').
Lemma breaks_leads F F' w text : leads F F' -> breaks F' w text -> breaks F w text.
Proof. intros (n & H) (m & s' & e & q & K & L). exists (n + m), s', e, q. split; [|exact L]. intros k. rewrite <- Nat.add_assoc, H, K. reflexivity. Qed.
Lemma breaks_after F w p w1 text : spent w p w1 -> breaks F w1 text -> breaks F w (p ++ text).
Proof. intros H (m & s' & e & q & K & L & M & N & O). exists m, s', e, q. split; [exact K|]. split; [exact L|]. split; [exact M|]. split; [eapply spent_trans; eauto|exact O]. Qed.
Definition calm (t : idt) : Prop := no_error t /\ resting (seq t) /\ wfail (out t) = None.
Lemma not_failed t p t' : failed false t p t' -> wfail (out t) = None -> False.
Proof.
  intros (a & b & _ & Hs & [H|(_ & k & Hk & _)]) Hw; [discriminate|]. apply spent_open in Hs; [|exact Hw]. unfold exhausted in Hk. congruence.
Qed.
Lemma wrote_calm t p q t' : wrote t p q t' -> wfail (out t) = None -> q = AtBeginning \/ q = InMiddle \/ q = AfterKey -> calm t'.
Proof. intros (Hs & Hq & Hn) Hw H. split; [exact Hn|]. split; [rewrite Hq; apply resting_at, H|]. eapply spent_open; eauto. Qed.

(** ** Callbacks *)
Lemma begins name dd es t s : (name = PArray /\ dd = [LBRACK]) \/ (name = PObject /\ dd = [LBRACE]) -> on_stack d es t s -> calm t ->
  exists t', run_begin cb name s = Done (mkS (parser s) t' (stack s), Ok false) /\ wrote t (mark (seq t) (List.length es <? 2) ++ dd) AtBeginning t'.
Proof.
  intros Hd (Hu & Hst) (Hn & Hr & Hw). unfold run_begin. rewrite (stack_context _ _ _ Hst), Hu. cbn [obind].
  destruct (on_struct_does (set_level t (List.length es <? 2)) dd (parser s)) as (t' & r & E & H). cbn [seq is_top_level set_level out] in H.
  exists t'. destruct Hd as [(-> & ->)|(-> & ->)]; cbn [find_action idt_callbacks idt_find_action ctx_len]; rewrite E; cbn [obind];
    (destruct r; [|contradiction|exfalso; eapply not_failed; [exact H|exact Hw]]); (split; [reflexivity|exact (H Hn)]).
Qed.
Lemma begins_key k es t s : ordinary_key k -> on_stack d (key_entry k :: es) t s -> calm t ->
  exists t', run_begin cb PNone s = Done (mkS (parser s) t' (stack s), Ok false) /\
    wrote t ((match seq t with AtBeginning => [] | _ => [COMMA] end) ++ QUOTE :: k ++ [QUOTE; COLON]) AfterKey t'.
Proof.
  intros (K1 & K2) (Hu & Hst) (Hn & Hr & Hw). unfold run_begin. rewrite (stack_context _ _ _ Hst), Hu. cbn [obind].
  cbn [find_action idt_callbacks idt_find_action names path_of map key_entry snd].
  destruct (beq k (bs "#top")) eqn:E1; [apply beq_eq in E1; contradiction|]. destruct (beq k (bs "#array")) eqn:E2; [apply beq_eq in E2; contradiction|]. cbn [negb andb].
  unfold on_key. set (t0 := set_seq t _). destruct (write_seqpos_spent t0) as (t1 & res & -> & _ & H).
  assert (Hm : forall top, mark (seq t0) top = (match seq t with AtBeginning => [] | _ => [COMMA] end) ++ QUOTE :: k ++ [QUOTE; COLON])
    by (intros top; subst t0; cbn; destruct (seq t); reflexivity).
  rewrite Hm in H. destruct res as [[]|m]; [|exfalso; eapply not_failed; [exact H|exact Hw]].
  destruct H as (Hs & Hn1 & Hq). exists (set_seq t1 AfterKey). split; [reflexivity|]. split; [exact Hs|]. split; [reflexivity|apply Hn1, Hn].
Qed.

(** ** The place itself *)
Lemma break_atom es p0 t s : z = AtValue -> at_ d G es t (x :: fl) s -> calm t -> breaks (value_run cb op p0 x s) (out t) (mark (seq t) (List.length es <? 2)).
Proof.
  intros Ez (HG & HR & Hu & Hst) (Hn & Hr & Hw). destruct (HX Ez) as (X1 & X2 & _). unfold value_run, scan_value. rewrite (proj2 (N.eqb_neq _ _) X1), (proj2 (N.eqb_neq _ _) X2).
  unfold run_begin. rewrite (stack_context _ _ _ Hst), Hu. cbn [obind find_action idt_callbacks idt_find_action ctx_len].
  unfold on_atom. destruct (write_seqpos_spent (set_level t (List.length es <? 2))) as (t1 & res & -> & _ & H). cbn [seq is_top_level set_level out] in H.
  destruct res as [[]|m]; [|exfalso; eapply not_failed; [exact H|exact Hw]]. destruct H as (Hs & Hn1 & Hq). specialize (Hn1 Hn).
  destruct (pf_peek _ _ _ _ PF (parser s) [] x fl (pf_start _ _ _ _ PF _ HG) HR) as (s1 & res & -> & Hp); [constructor|exact Hx|].
  destruct res as [y|e]; [|destruct Hp; discriminate]. destruct Hp as (-> & R1 & G1). cbn [obind].
  destruct (HA Ez s1 (out t1) G1 (spent_open _ _ _ Hs Hw) R1) as (s2 & w2 & e & -> & He & HWq & HQ). cbn [obind]. destruct Hn1 as (N1 & N2 & N3). destruct t1 as [t1o t1q t1l t1i t1r t1s]. cbn in N1, N2, N3, Hs, HWq. subst.
  unfold breaks. pose proof HIO as HIO'. destruct e as [e'| | | | | |]; try (eexists 0, _, _, t1o; split; [intros ?; reflexivity|]; split; [exact He|]; split; [exact HWq|]; split; [exact Hs|exact HQ]).
  specialize (HIO' e' He). destruct e' as [[] ix]; cbn in HIO'; try discriminate;
    (eexists 0, _, _, t1o; split; [intros ?; reflexivity|]; split; [exact He|]; split; [exact HWq|]; split; [exact Hs|exact HQ]).
Qed.

(** ** What is in order *)
Lemma passes b v l r es p p0 t s y l0 : value_at P b v l r -> ordinary v -> home es p -> settle p0 = p -> at_ d G es t l s -> l = y :: l0 ->
  (b = true -> 0 < jidx (parser s)) -> calm t -> 1 <= List.length es -> (N.of_nat (List.length es + depth v) <= slices d)%N -> fits_bytes d (weight (path es) + mass v) ->
  exists t', reaches cb op d G (value_run cb op p0 y s) es p t' r /\ spent (out t) (mark (seq t) (List.length es <? 2) ++ compact v) (out t') /\ calm t' /\
    (seq t' = InMiddle \/ (seq t = AfterKey /\ seq t' = AfterKey)).
Proof.
  intros Hv Ho Hh Hp Hat El Hb (Hn & Hr & Hw) He Hs Hf.
  destruct (proj1 (simulation cb op (idt_behaviour false) d G0 G P false PF (idt_respects _ _ _ _ PF) ltac:(discriminate)) b v l r Hv es p p0 t s y l0 Hh Hp Hat El Hb) as (u & st & A & C).
  pose proof (proj1 (idt_walk false d) _ _ _ _ _ A Hn Hr Ho) as M. rewrite path_length in M. specialize (M He).
  assert (HN : forall c, st <> Stopped (Denied c)).
  { apply (proj1 (walk_accepted _ d false) _ _ _ _ _ A). rewrite trace_deep; [|exact Hf|rewrite path_length; lia].
    unfold too_deep. rewrite path_length. destruct (N.ltb_spec (slices d) (N.of_nat (List.length es + depth v))); [lia|reflexivity]. }
  destruct st as [|why]; cbn [progress ends_as] in *.
  - destruct M as (Ms & Mn & Mq). exists u. split; [exact C|]. unfold value_text in Ms. rewrite path_length in Ms. split; [exact Ms|]. split; [|exact Mq]. split; [exact Mn|].
    split; [apply resting_at; destruct Mq as [->|(_ & ->)]; auto|]. eapply spent_open; eauto.
  - exfalso. destruct M as (a & c & _ & Ms & Mw). destruct why as [msg| |cc|]; [|contradiction|eapply HN; reflexivity|discriminate].
    destruct Mw as [Mw|(_ & k & Mk & _)]; [discriminate|]. apply spent_open in Ms; [|exact Hw]. unfold exhausted in Mk. congruence.
Qed.
Lemma into_head b l o n m : value_into P z (x :: fl) b l o n m -> exists y l0, l = y :: l0 /\ solid y /\ y <> RBRACK.
Proof. destruct 1; eexists _, _; (split; [reflexivity|]); (split; [assumption || reflexivity|discriminate || (apply HX; assumption)]). Qed.
Lemma fits_admits (es : list entry) k m : (N.of_nat (S (List.length es)) <= slices d)%N -> fits_bytes d (weight (path es) + (S (len k) + m)) ->
  admit_name d (path es) k = None.
Proof.
  intros H (F1 & F2). unfold admit_name. rewrite path_length. destruct (N.leb_spec (slices d) (N.of_nat (List.length es))); [lia|].
  destruct (Nat.ltb_spec (space_for d) (weight (path es) + S (len k))); [lia|]. rewrite !(proj2 (N.ltb_ge _ _)) by lia. reflexivity.
Qed.

(** ** Arrays *)
Lemma array_run q s s1 y : q (parser s) = Done (s1, Ok (Some y)) ->
  leads (fun k => finish_iter cb op k (step_run cb op q s)) (value_run cb op ArrayMiddle y (mkS s1 (user s) (stack s))).
Proof. intros E. apply leads_eq. intros k. unfold value_run, step_run, parse. rewrite E. reflexivity. Qed.
Lemma break_array l o es p0 t s : at_ d G es t (LBRACK :: l) s -> calm t -> 1 <= List.length es ->
  (N.of_nat (S (List.length es)) <= slices d)%N -> fits_bytes d (weight (path es) + 7) ->
  (forall t' s', at_ d G (array_entry :: es) t' (LBRACK :: l) s' -> calm t' -> seq t' = AtBeginning ->
     breaks (fun k => finish_iter cb op k (step_run cb op known_array s')) (out t') o) ->
  breaks (value_run cb op p0 LBRACK s) (out t) (mark (seq t) (List.length es <? 2) ++ LBRACK :: o).
Proof.
  intros (HG & HR & Hst) Ht He Hs Hf IH.
  assert (HL : leads (value_run cb op p0 LBRACK s) (fun k => finish_iter cb op k (scan_iter cb op ArrayBegin s))).
  { eapply leads_trans; [|apply (loop_step cb op ArrayBegin s); discriminate]. apply leads_eq. reflexivity. }
  eapply breaks_leads; [exact HL|]. cbn [scan_iter]. unfold handle_array. change (pos_eqb ArrayBegin ArrayBegin) with true. cbv beta zeta iota.
  destruct (begins PArray [LBRACK] es t s (or_introl (conj eq_refl eq_refl)) Hst Ht) as (t' & -> & Hw). cbn [sbind].
  cbn [stack user parser]. destruct (stack_push d (stack s) es (pos_code ArrayMiddle) (bs "#array") (proj2 Hst)) as (q & res & -> & H). cbn [obind].
  rewrite (fits_admits es (bs "#array") 0 Hs) in H by (change (S (len (bs "#array")) + 0) with 7; exact Hf). destruct H as (-> & Hq).
  replace (LBRACK :: o) with ([LBRACK] ++ o) by reflexivity. rewrite app_assoc. eapply breaks_after; [apply Hw|].
  apply (IH t' (mkS (parser s) t' q)); [repeat split; auto| |apply Hw]. eapply wrote_calm; [exact Hw|apply Ht|auto].
Qed.

(** ** Objects *)
Lemma break_peeked w l b o n m es p0 t s : spaces w -> value_into P z (x :: fl) b l o n m -> p0 = ObjectBetweenKV \/ p0 = Top ->
  G0 (parser s) -> rest (parser s) = w ++ l -> on_stack d es t s ->
  (forall y l0 s', l = y :: l0 -> at_ d G es t l s' -> breaks (value_run cb op p0 y s') (out t) o) ->
  breaks (fun k => finish_iter cb op k (scan_iter cb op p0 s)) (out t) o.
Proof.
  intros Hw Hi Hp0 HG HR Hst IH. destruct (into_head _ _ _ _ _ Hi) as (y & l0 & El & Hy & _).
  destruct (pf_peek _ _ _ _ PF (parser s) w y l0 HG) as (s1 & res & Ep & H); [rewrite HR, El; reflexivity|exact Hw|exact Hy|].
  destruct res as [c|e]; [|destruct H; discriminate]. destruct H as (-> & R1 & G1).
  replace (scan_iter cb op p0 s) with (scan_value cb op p0 y (mkS s1 (user s) (stack s))) by (destruct Hp0 as [-> | ->]; cbn [scan_iter]; rewrite Ep; reflexivity).
  apply (IH y l0 (mkS s1 (user s) (stack s)) El). split; [exact G1|]. split; [rewrite El; exact R1|exact Hst].
Qed.
(** Behind a key. *)
Lemma key_read q k s s1 es t : q (parser s) = Done (s1, Ok (Some k)) -> G s1 -> on_stack d es t s -> calm t -> ordinary_key k ->
  (N.of_nat (S (List.length es)) <= slices d)%N -> fits_bytes d (weight (path es) + S (len k)) ->
  exists t' s', leads (then_go cb op (object_run cb q s)) (loop_at cb op ObjectBetweenKV s') /\ at_ d G (key_entry k :: es) t' (rest s1) s' /\ calm t' /\
    wrote t ((match seq t with AtBeginning => [] | _ => [COMMA] end) ++ QUOTE :: k ++ [QUOTE; COLON]) AfterKey t'.
Proof.
  intros E G1 (Hu & Hst) Ht Hk Hs Hf. unfold then_go, object_run, parse. rewrite E. cbn [obind sbind]. unfold key_run. cbn [stack user parser].
  destruct (stack_push d (stack s) es (pos_code ObjectMiddle) k Hst) as (qq & res & -> & H). cbn [obind].
  rewrite (fits_admits es k 0 Hs) in H by (rewrite Nat.add_0_r; exact Hf). destruct H as (-> & Hq).
  destruct (begins_key k es t (mkS s1 (user s) qq) Hk (conj Hu Hq) Ht) as (t' & -> & Hw). cbn [sbind vbind parser stack].
  exists t', (mkS s1 t' qq). split; [apply leads_refl|]. split; [repeat split; auto|]. split; [|exact Hw]. eapply wrote_calm; [exact Hw|apply Ht|auto].
Qed.
Lemma next_member k l es t s : at_ d G (key_entry k :: es) t l s ->
  exists s', at_ d G es t l s' /\ leads (loop_at cb op ObjectMiddle s) (then_go cb op (object_run cb next_key_bytes s')).
Proof.
  intros (HG & HR & Hu & Hst).
  assert (HL : leads (loop_at cb op ObjectMiddle s) (fun k => finish_iter cb op k (scan_iter cb op ObjectMiddle s))) by (apply loop_step; discriminate).
  cbn [scan_iter] in HL. unfold handle_object in HL. change (pos_eqb ObjectMiddle ObjectBegin) with false in HL. cbv beta zeta iota in HL.
  unfold look_up_end in HL. rewrite (stack_context _ _ _ Hst) in HL. cbn [obind find_end_action idt_callbacks idt_find_end_action stack user parser] in HL.
  destruct (stack_pop _ _ _ _ _ Hst) as (q & Ep & Hq). rewrite Ep in HL. cbn [obind run_end_action sbind] in HL.
  exists (mkS (parser s) (user s) q). split; [repeat split; auto|]. exact HL.
Qed.
Lemma break_object l o es p0 t s : at_ d G es t (LBRACE :: l) s -> calm t -> 1 <= List.length es ->
  (forall t' s', at_ d G es t' (LBRACE :: l) s' -> jidx (parser s') = jidx (parser s) -> calm t' -> seq t' = AtBeginning ->
     breaks (then_go cb op (object_run cb next_object_bytes s')) (out t') o) ->
  breaks (value_run cb op p0 LBRACE s) (out t) (mark (seq t) (List.length es <? 2) ++ LBRACE :: o).
Proof.
  intros (HG & HR & Hst) Ht He IH.
  assert (HL : leads (value_run cb op p0 LBRACE s) (fun k => finish_iter cb op k (scan_iter cb op ObjectBegin s))).
  { eapply leads_trans; [|apply (loop_step cb op ObjectBegin s); discriminate]. apply leads_eq. reflexivity. }
  eapply breaks_leads; [exact HL|]. cbn [scan_iter]. unfold handle_object. change (pos_eqb ObjectBegin ObjectBegin) with true. cbv beta zeta iota.
  destruct (begins PObject [LBRACE] es t s (or_intror (conj eq_refl eq_refl)) Hst Ht) as (t' & -> & Hw). cbn [sbind].
  replace (LBRACE :: o) with ([LBRACE] ++ o) by reflexivity. rewrite app_assoc. eapply breaks_after; [apply Hw|].
  apply (IH t' (mkS (parser s) t' (stack s))); [repeat split; auto; apply Hst|reflexivity| |apply Hw]. eapply wrote_calm; [exact Hw|apply Ht|auto].
Qed.
(** ** All of them *)
Definition value_breaks (b : bool) (l o : bytes) (n m : nat) : Prop :=
  forall es p p0 t s y l0, home es p -> settle p0 = p -> at_ d G es t l s -> l = y :: l0 -> (b = true -> 0 < jidx (parser s)) -> calm t -> 1 <= List.length es ->
    (N.of_nat (List.length es + n) <= slices d)%N -> fits_bytes d (weight (path es) + m) ->
    breaks (value_run cb op p0 y s) (out t) (mark (seq t) (List.length es <? 2) ++ o).
Definition items_break (l o : bytes) (n m : nat) : Prop :=
  forall es t s, at_ d G (array_entry :: es) t l s -> calm t -> seq t = InMiddle -> 1 <= List.length es ->
    (N.of_nat (S (List.length es) + n) <= slices d)%N -> fits_bytes d (weight (path (array_entry :: es)) + m) ->
    breaks (loop_at cb op ArrayMiddle s) (out t) o.
Definition members_break (l o : bytes) (n m : nat) : Prop :=
  forall k es t s, at_ d G (key_entry k :: es) t l s -> calm t -> seq t <> AtBeginning -> 1 <= List.length es ->
    (N.of_nat (List.length es + n) <= slices d)%N -> fits_bytes d (weight (path es) + m) ->
    breaks (loop_at cb op ObjectMiddle s) (out t) o.
Lemma weight_array es : weight (path (array_entry :: es)) = 7 + weight (path es).
Proof. reflexivity. Qed.
Lemma weight_key k es : weight (path (key_entry k :: es)) = S (len k) + weight (path es).
Proof. reflexivity. Qed.

(** An element of an array that is in order, and then the place. *)
Lemma element_then q v l l1 o n m es t s s1 y l0 : q (parser s) = Done (s1, Ok (Some y)) -> rest s1 = y :: l0 -> 0 < jidx s1 -> G s1 -> l = y :: l0 ->
  value_at P true v l l1 -> ordinary v -> items_break l1 o n m -> on_stack d (array_entry :: es) t s -> calm t -> 1 <= List.length es ->
  (N.of_nat (S (List.length es) + Nat.max (depth v) n) <= slices d)%N -> fits_bytes d (weight (path (array_entry :: es)) + Nat.max (mass v) m) -> seq t <> AfterKey ->
  breaks (fun k => finish_iter cb op k (step_run cb op q s)) (out t) (mark (seq t) false ++ compact v ++ o).
Proof.
  intros E R1 J1 G1 El Hv Ho IH Hst Ht He Hs Hf Hk. eapply breaks_leads; [apply (array_run q s s1 y E)|].
  destruct (passes true v l l1 (array_entry :: es) ArrayMiddle ArrayMiddle t (mkS s1 (user s) (stack s)) y l0 Hv Ho (home_array es) eq_refl) as (t' & (s' & HL & Hat) & Hsp & Ht' & Hq); auto.
  - rewrite El. repeat split; auto; apply Hst.
  - cbn [List.length]; lia.
  - cbn [List.length] in *. lia.
  - unfold fits_bytes in *. lia.
  - replace (List.length (array_entry :: es) <? 2) with false in Hsp by (symmetry; apply Nat.ltb_ge; cbn [List.length]; lia).
    rewrite app_assoc. eapply breaks_after; [exact Hsp|]. eapply breaks_leads; [exact HL|]. apply (IH es t' s' Hat Ht'); auto.
    + destruct Hq as [Hq|(Hq & _)]; [exact Hq|contradiction].
    + lia.
    + unfold fits_bytes in *. lia.
Qed.
Lemma element_into q l o n m es t s s1 y l0 : q (parser s) = Done (s1, Ok (Some y)) -> rest s1 = y :: l0 -> 0 < jidx s1 -> G s1 -> l = y :: l0 ->
  value_breaks true l o n m -> on_stack d (array_entry :: es) t s -> calm t -> 1 <= List.length es ->
  (N.of_nat (S (List.length es) + n) <= slices d)%N -> fits_bytes d (weight (path (array_entry :: es)) + m) ->
  breaks (fun k => finish_iter cb op k (step_run cb op q s)) (out t) (mark (seq t) false ++ o).
Proof.
  intros E R1 J1 G1 El IH Hst Ht He Hs Hf. eapply breaks_leads; [apply (array_run q s s1 y E)|].
  assert (H : breaks (value_run cb op ArrayMiddle y (mkS s1 (user s) (stack s))) (out t) (mark (seq t) (List.length (array_entry :: es) <? 2) ++ o)).
  { apply (IH (array_entry :: es) ArrayMiddle ArrayMiddle t (mkS s1 (user s) (stack s)) y l0 (home_array es) eq_refl); auto; [rewrite El; repeat split; auto; apply Hst|cbn [List.length]; lia]. }
  replace (List.length (array_entry :: es) <? 2) with false in H by (symmetry; apply Nat.ltb_ge; cbn [List.length]; lia). exact H.
Qed.
(** The same for members. *)
Definition comma (q : seqpos) : bytes := match q with AtBeginning => [] | _ => [COMMA] end.
Lemma member_then q k v w2 l l1 o n m es t s s1 : q (parser s) = Done (s1, Ok (Some k)) -> rest s1 = w2 ++ l -> G s1 -> spaces w2 ->
  value_at P false v l l1 -> ordinary v -> ordinary_key k -> members_break l1 o n m -> on_stack d es t s -> calm t -> 1 <= List.length es ->
  (N.of_nat (List.length es + Nat.max (S (depth v)) n) <= slices d)%N -> fits_bytes d (weight (path es) + Nat.max (S (len k) + mass v) m) ->
  breaks (then_go cb op (object_run cb q s)) (out t) (comma (seq t) ++ QUOTE :: k ++ QUOTE :: COLON :: compact v ++ o).
Proof.
  intros E R1 G1 Hw2 Hv Ho Hk IH Hst Ht He Hs Hf.
  destruct (key_read q k s s1 es t E G1 Hst Ht Hk) as (t1 & s2 & HL & (G2 & R2 & Hst2) & Ht1 & (Hw & Hq & _)); [lia|unfold fits_bytes in *; lia|].
  replace (comma (seq t) ++ QUOTE :: k ++ QUOTE :: COLON :: compact v ++ o) with ((comma (seq t) ++ QUOTE :: k ++ [QUOTE; COLON]) ++ compact v ++ o)
    by (rewrite <- !app_assoc; cbn [app]; rewrite <- !app_assoc; reflexivity).
  eapply breaks_after; [exact Hw|]. eapply breaks_leads; [exact HL|]. eapply breaks_leads; [apply loop_step; discriminate|].
  destruct (value_head _ _ _ _ _ Hv) as (y & l0 & El & Hy & _).
  destruct (pf_peek _ _ _ _ PF (parser s2) w2 y l0 (pf_start _ _ _ _ PF _ G2)) as (s3 & res & Ep & H); [rewrite R2, R1, El; reflexivity|exact Hw2|exact Hy|].
  destruct res as [c|e]; [|destruct H; discriminate]. destruct H as (-> & R3 & G3).
  replace (scan_iter cb op ObjectBetweenKV s2) with (scan_value cb op ObjectBetweenKV y (mkS s3 (user s2) (stack s2))) by (cbn [scan_iter]; rewrite Ep; reflexivity).
  destruct (passes false v l l1 (key_entry k :: es) ObjectMiddle ObjectBetweenKV t1 (mkS s3 (user s2) (stack s2)) y l0 Hv Ho (home_key k es) eq_refl) as (t' & (s' & HL' & Hat) & Hsp & Ht' & Hq'); auto.
  - rewrite El. repeat split; auto; apply Hst2.
  - discriminate.
  - cbn [List.length]; lia.
  - cbn [List.length] in *. lia.
  - rewrite weight_key. unfold fits_bytes in *. lia.
  - rewrite Hq in Hsp. cbn [mark app] in Hsp. eapply breaks_after; [exact Hsp|]. eapply breaks_leads; [exact HL'|]. apply (IH k es t' s' Hat Ht'); auto.
    + destruct Hq' as [->|(_ & ->)]; discriminate.
    + lia.
    + unfold fits_bytes in *. lia.
Qed.
Lemma member_into q k w2 l o n m es t s s1 : q (parser s) = Done (s1, Ok (Some k)) -> rest s1 = w2 ++ l -> G s1 -> spaces w2 ->
  value_into P z (x :: fl) false l o n m -> value_breaks false l o n m -> ordinary_key k -> on_stack d es t s -> calm t -> 1 <= List.length es ->
  (N.of_nat (List.length es + S n) <= slices d)%N -> fits_bytes d (weight (path es) + (S (len k) + m)) ->
  breaks (then_go cb op (object_run cb q s)) (out t) (comma (seq t) ++ QUOTE :: k ++ QUOTE :: COLON :: o).
Proof.
  intros E R1 G1 Hw2 Hi IH Hk Hst Ht He Hs Hf.
  destruct (key_read q k s s1 es t E G1 Hst Ht Hk) as (t1 & s2 & HL & (G2 & R2 & Hst2) & Ht1 & (Hw & Hq & _)); [lia|unfold fits_bytes in *; lia|].
  replace (comma (seq t) ++ QUOTE :: k ++ QUOTE :: COLON :: o) with ((comma (seq t) ++ QUOTE :: k ++ [QUOTE; COLON]) ++ o)
    by (rewrite <- !app_assoc; cbn [app]; rewrite <- !app_assoc; reflexivity).
  eapply breaks_after; [exact Hw|]. eapply breaks_leads; [exact HL|]. eapply breaks_leads; [apply loop_step; discriminate|].
  eapply (break_peeked w2 l false); eauto; [apply (pf_start _ _ _ _ PF), G2|rewrite R2; exact R1|].
  intros y l0 s' El Hat. assert (H : breaks (value_run cb op ObjectBetweenKV y s') (out t1) (mark (seq t1) (List.length (key_entry k :: es) <? 2) ++ o)).
  { apply (IH (key_entry k :: es) ObjectMiddle ObjectBetweenKV t1 s' y l0 (home_key k es) eq_refl); auto; [discriminate|cbn [List.length]; lia|cbn [List.length]; lia|rewrite weight_key; unfold fits_bytes in *; lia]. }
  rewrite Hq in H. exact H.
Qed.

Lemma into_breaks :
  (forall b l o n m, value_into P z (x :: fl) b l o n m -> value_breaks b l o n m) /\
  (forall l o n m, items_into P z (x :: fl) l o n m -> items_break l o n m) /\
  (forall l o n m, members_into P z (x :: fl) l o n m -> members_break l o n m).
Proof.
  apply (into_ind P z (x :: fl) value_breaks items_break members_break).
  - intros b Ez es p p0 t s y l0 Hh Hp Hat El Hb Ht He Hs Hf. injection El as <- <-. rewrite app_nil_r. apply break_atom; assumption.
  - intros b w l o n m Hw Hi IH es p p0 t s y l0 Hh Hp Hat El Hb Ht He Hs Hf. injection El as <- <-.
    apply (break_array (w ++ l)); auto; [lia|unfold fits_bytes in *; lia|]. intros t' s' (G' & R' & Hst') Ht' Hq.
    destruct (into_head _ _ _ _ _ Hi) as (c & k0 & El & Hz & Hn). rewrite El in R'.
    destruct (pf_array _ _ _ _ PF (parser s') w c k0 G' R' Hw Hz Hn) as (s1 & res & E & H). destruct res as [u|]; [|discriminate]. destruct H as (-> & R1 & J1 & G1).
    assert (B : breaks (fun k => finish_iter cb op k (step_run cb op known_array s')) (out t') (mark (seq t') false ++ o)).
    { apply (element_into known_array l o n m es t' s' s1 c k0); try assumption; [lia|]. rewrite weight_array. unfold fits_bytes in *. lia. }
    rewrite Hq in B. exact B.
  - intros b w v l l1 o n m Hw Hv Ho Hi IH es p p0 t s y l0 Hh Hp Hat El Hb Ht He Hs Hf. injection El as <- <-.
    apply (break_array (w ++ l)); auto; [lia|unfold fits_bytes in *; lia|]. intros t' s' (G' & R' & Hst') Ht' Hq.
    destruct (value_head _ _ _ _ _ Hv) as (c & k0 & El & Hz & Hn & _). rewrite El in R'.
    destruct (pf_array _ _ _ _ PF (parser s') w c k0 G' R' Hw Hz Hn) as (s1 & res & E & H). destruct res as [u|]; [|discriminate]. destruct H as (-> & R1 & J1 & G1).
    assert (B : breaks (fun k => finish_iter cb op k (step_run cb op known_array s')) (out t') (mark (seq t') false ++ compact v ++ o)).
    { apply (element_then known_array v l l1 o n m es t' s' s1 c k0); try assumption; [lia| |congruence]. rewrite weight_array. unfold fits_bytes in *. lia. }
    rewrite Hq in B. exact B.
  - intros b w k w1 w2 l o n m Hw Hk Hok Hw1 Hkey Hw2 Hopen Hi IH es p p0 t s y l0 Hh Hp Hat El Hb Ht He Hs Hf. injection El as <- <-.
    apply (break_object (w ++ QUOTE :: k ++ QUOTE :: w1 ++ COLON :: w2 ++ l)); auto. intros t' s' (G' & R' & Hst') J' Ht' Hq.
    destruct (pf_object _ _ _ _ PF b (parser s') w k w1 (w2 ++ l) G' R' Hw Hk Hw1 Hkey) as (s1 & res & E & H); [rewrite J'; exact Hb|exact Hopen|].
    destruct res as [u|]; [|discriminate]. destruct H as (-> & R1 & G1).
    assert (B : breaks (then_go cb op (object_run cb next_object_bytes s')) (out t') (comma (seq t') ++ QUOTE :: k ++ QUOTE :: COLON :: o)) by (eapply member_into; eauto).
    rewrite Hq in B. exact B.
  - intros b w k w1 w2 v l l1 o n m Hw Hk Hok Hw1 Hkey Hw2 Hopen Hv Ho Hi IH es p p0 t s y l0 Hh Hp Hat El Hb Ht He Hs Hf. injection El as <- <-.
    apply (break_object (w ++ QUOTE :: k ++ QUOTE :: w1 ++ COLON :: w2 ++ l)); auto. intros t' s' (G' & R' & Hst') J' Ht' Hq.
    destruct (pf_object _ _ _ _ PF b (parser s') w k w1 (w2 ++ l) G' R' Hw Hk Hw1 Hkey) as (s1 & res & E & H); [rewrite J'; exact Hb|exact Hopen|].
    destruct res as [u|]; [|discriminate]. destruct H as (-> & R1 & G1).
    assert (B : breaks (then_go cb op (object_run cb next_object_bytes s')) (out t') (comma (seq t') ++ QUOTE :: k ++ QUOTE :: COLON :: compact v ++ o)) by (eapply member_then; eauto).
    rewrite Hq in B. exact B.
  - intros w Ez Hw es t s (G' & R' & Hu' & Hst') (Hn & _) Hq He Hs Hf. eapply breaks_leads; [apply loop_step; discriminate|].
    destruct (HI Ez (parser s) w G' Hw R') as (s' & e & E & EE & HQ). exists 0, (mkS s' (user s) (stack s)), (RJiterError e), (out t).
    split; [intros k; cbn [Nat.add]; change (scan_iter cb op ArrayMiddle s) with (step_run cb op array_step s); unfold step_run, parse; rewrite E; reflexivity|].
    cbn [user parser]. rewrite Hu'. split; [destruct Hn as (N1 & N2 & N3); unfold reported; rewrite N1, N2, N3; exact EE|]. split; [apply HW; rewrite Ez; discriminate|]. split; [apply spent_refl|exact HQ].
  - intros w w2 l o n m Hw Hw2 Hi IH es t s (G' & R' & Hst') Ht Hq He Hs Hf. eapply breaks_leads; [apply loop_step; discriminate|].
    destruct (into_head _ _ _ _ _ Hi) as (c & k0 & El & Hz & Hn). rewrite El in R'.
    destruct (pf_step _ _ _ _ PF (parser s) w w2 c k0 G' R' Hw Hw2 Hz Hn) as (s1 & res & E & H). destruct res as [u|]; [|discriminate]. destruct H as (-> & R1 & J1 & G1).
    assert (B : breaks (fun k => finish_iter cb op k (step_run cb op array_step s)) (out t) (mark (seq t) false ++ o)) by (apply (element_into array_step l o n m es t s s1 c k0); assumption).
    rewrite Hq in B. exact B.
  - intros w w2 v l l1 o n m Hw Hw2 Hv Ho Hi IH es t s (G' & R' & Hst') Ht Hq He Hs Hf. eapply breaks_leads; [apply loop_step; discriminate|].
    destruct (value_head _ _ _ _ _ Hv) as (c & k0 & El & Hz & Hn & _). rewrite El in R'.
    destruct (pf_step _ _ _ _ PF (parser s) w w2 c k0 G' R' Hw Hw2 Hz Hn) as (s1 & res & E & H). destruct res as [u|]; [|discriminate]. destruct H as (-> & R1 & J1 & G1).
    assert (B : breaks (fun k => finish_iter cb op k (step_run cb op array_step s)) (out t) (mark (seq t) false ++ compact v ++ o)) by (apply (element_then array_step v l l1 o n m es t s s1 c k0); try assumption; congruence).
    rewrite Hq in B. exact B.
  - intros w Ez Hw k' es t s Hat (Hn & _) Hq He Hs Hf.
    destruct (next_member _ _ _ _ _ Hat) as (s1 & (G' & R' & Hu' & Hst') & HL). eapply breaks_leads; [exact HL|].
    destruct (HM Ez (parser s1) w G' Hw R') as (s' & e & E & EE & HQ). exists 0, (mkS s' (user s1) (stack s1)), (RJiterError e), (out t).
    split; [intros k; cbn [Nat.add]; unfold then_go, object_run, parse; rewrite E; reflexivity|].
    cbn [user parser]. rewrite Hu'. split; [destruct Hn as (N1 & N2 & N3); unfold reported; rewrite N1, N2, N3; exact EE|]. split; [apply HW; rewrite Ez; discriminate|]. split; [apply spent_refl|exact HQ].
  - intros w w0 k w1 w2 l o n m Hw Hw0 Hk Hok Hw1 Hkey Hw2 Hi IH k' es t s Hat Ht Hq He Hs Hf.
    destruct (next_member _ _ _ _ _ Hat) as (s' & (G' & R' & Hst') & HL). eapply breaks_leads; [exact HL|].
    destruct (pf_key _ _ _ _ PF (parser s') w w0 k w1 (w2 ++ l) G' R' Hw Hw0 Hk Hw1 Hkey) as (s1 & res & E & H). destruct res as [u|]; [|discriminate]. destruct H as (-> & R1 & G1).
    replace (COMMA :: QUOTE :: k ++ QUOTE :: COLON :: o) with (comma (seq t) ++ QUOTE :: k ++ QUOTE :: COLON :: o) by (destruct (seq t); try reflexivity; congruence).
    eapply member_into; eauto.
  - intros w w0 k w1 w2 v l l1 o n m Hw Hw0 Hk Hok Hw1 Hkey Hw2 Hv Ho Hi IH k' es t s Hat Ht Hq He Hs Hf.
    destruct (next_member _ _ _ _ _ Hat) as (s' & (G' & R' & Hst') & HL). eapply breaks_leads; [exact HL|].
    destruct (pf_key _ _ _ _ PF (parser s') w w0 k w1 (w2 ++ l) G' R' Hw Hw0 Hk Hw1 Hkey) as (s1 & res & E & H). destruct res as [u|]; [|discriminate]. destruct H as (-> & R1 & G1).
    replace (COMMA :: QUOTE :: k ++ QUOTE :: COLON :: compact v ++ o) with (comma (seq t) ++ QUOTE :: k ++ QUOTE :: COLON :: compact v ++ o) by (destruct (seq t); try reflexivity; congruence).
    eapply member_then; eauto.
Qed.

Lemma deep_run_any r w p ws l o n m : G0 r -> rest r = ws ++ l -> spaces ws -> value_into P z (x :: fl) false l o n m -> wfail w = None ->
  fresh d p -> (N.of_nat (1 + n) <= slices d)%N -> fits_bytes d (5 + m) ->
  exists r' w1 w' p' e, eventually (fun fuel => idtransform fuel r w p) (Done (r', w', p', Err e)) /\ Ea e /\ spent w o w1 /\ W w1 w' /\ Q r'.
Proof.
  intros HG HR Hws Hi Hw Hp Hs Hf.
  destruct (scan_enters cb op d (mkS r (idt_new w) p) [] (stack_fresh _ _ Hp)) as (q & H).
  assert (A : admit_name d (path_of []) (bs "#top") = None).
  { unfold admit_name. cbn [path_of map List.length weight list_sum fold_right]. destruct (N.leb_spec (slices d) (N.of_nat 0)); [lia|].
    unfold fits_bytes in Hf. change (len (bs "#top")) with 4. destruct (Nat.ltb_spec (space_for d) (0 + 5)); [lia|]. reflexivity. }
  rewrite A in H. destruct H as (Hst & Hsc). cbn [parser user] in Hsc.
  set (s0 := mkS r (idt_new w) q).
  assert (B : breaks (fun k => finish_iter cb op k (scan_iter cb op Top s0)) (out (idt_new w)) o).
  { eapply (break_peeked ws l false); eauto; [split; [reflexivity|exact Hst]|].
    intros y l0 s' El Hat. assert (B : breaks (value_run cb op Top y s') (out (idt_new w)) (mark (seq (idt_new w)) (List.length [top_entry] <? 2) ++ o)).
    { apply (proj1 into_breaks false l o n m Hi [top_entry] Top Top (idt_new w) s' y l0 (home_top []) eq_refl); auto; [discriminate|].
      split; [repeat split|]. split; [apply resting_at; auto|exact Hw]. }
    exact B. }
  destruct B as (n0 & s' & e & q0 & B & Hrep & HWq & Hsp & HQ).
  exists (parser s'), q0, (out (user s')), (stack s'), (reported (user s') e). split; [|auto]. exists (S n0). intros fuel Hfuel. unfold idtransform. rewrite Hsc.
  destruct fuel as [|fuel]; [lia|]. cbn [scan_loop andb]. specialize (B (fuel - n0)). replace (n0 + (fuel - n0)) with fuel in B by lia. unfold finish_iter in B. fold s0.
  rewrite B. cbn [obind]. unfold reported. destruct (io_error (user s')), (rjiter_error (user s')), (stored_scan_error (user s')); reflexivity.
Qed.
End Deep.

(** The error is known, and nothing is written at the place. *)
Lemma deep_run d G0 G P (PF : parser_facts G0 G P false) z x fl Ea (Q : rj -> Prop) : solid x ->
  (z = AtValue -> x <> LBRACK /\ x <> LBRACE /\ x <> RBRACK) ->
  (z = AtValue -> forall s w, G s -> rest s = x :: fl -> exists s', copy_atom x s w = Done (s', w, Err Ea) /\ Q s') ->
  (z = BehindElement -> forall s w, G s -> spaces w -> rest s = w ++ x :: fl -> exists s' e, array_step s = Done (s', Err e) /\ Ea = RJiterError e /\ Q s') ->
  (z = BehindMember -> forall s w, G s -> spaces w -> rest s = w ++ x :: fl -> exists s' e, next_key_bytes s = Done (s', Err e) /\ Ea = RJiterError e /\ Q s') ->
  (forall e', Ea = RJiterError e' -> is_io e' = false) ->
  forall r w p ws l o n m, G0 r -> rest r = ws ++ l -> spaces ws -> value_into P z (x :: fl) false l o n m -> wfail w = None ->
  fresh d p -> (N.of_nat (1 + n) <= slices d)%N -> fits_bytes d (5 + m) ->
  exists r' w' p', eventually (fun fuel => idtransform fuel r w p) (Done (r', w', p', Err Ea)) /\ spent w o w' /\ Q r'.
Proof.
  intros Hx HX HA HI HM HIO r w p ws l o n m HG HR Hws Hi Hw Hp Hs Hf.
  destruct (deep_run_any d G0 G P PF z x fl (fun e => e = Ea) eq Q Hx HX) with (r := r) (w := w) (p := p) (ws := ws) (l := l) (o := o) (n := n) (m := m)
    as (r' & w1 & w' & p' & e & E & -> & Hsp & <- & HQ); auto.
  - intros Ez s w0 Gs _ Rs. destruct (HA Ez s w0 Gs Rs) as (s' & Ec & Hq). exists s', w0, Ea. auto.
  - intros Ez s w0 Gs Hw0 Rs. destruct (HI Ez s w0 Gs Hw0 Rs) as (s' & e & Ec & Ee & Hq). exists s', e. auto.
  - intros Ez s w0 Gs Hw0 Rs. destruct (HM Ez s w0 Gs Hw0 Rs) as (s' & e & Ec & Ee & Hq). exists s', e. auto.
  - exists r', w1, p'. auto.
Qed.
