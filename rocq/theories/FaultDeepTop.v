(** Proofs about [idtransform] in front of a faulty atom: what the error is. *)
From Verif Require Import Base U8Pool Buffer BufferSpec Jiter RJiter RJiterSpec Scan ScanSpec IdTransform IdSpec SoundSpec UnicodeSpec FaultSpec FaultWordSpec FaultNumberSpec FaultAtomSpec FaultKeySpec ReadsSpec FaultDeepSpec.
From Verif Require Import RJiterLookProofs RJiterProofs RJiterIndexProofs RJiterInvProofs ScanTokens ScanParser ScanStack ScanProofs ScanTop IdProofs FlushResults FaultAtom FaultTop FaultComma FaultDeep.

Lemma start_reads m r : sane m -> may_fail m = false -> start m r -> valid r /\ 2 <= rcap r /\ rquiet r = true.
Proof.
  intros HM HF. destruct m; cbn in *; try discriminate.
  - intros (V & <- & _ & Q). split; [exact V|]. split; [lia|exact Q].
  - intros (V & <- & _ & Q). split; [exact V|]. split; [lia|exact Q].
  - intros ((V & <- & _ & Q) & _). split; [exact V|]. split; [lia|]. unfold rquiet, quiet. rewrite Q. reflexivity.
Qed.
Lemma between_cap m r : sane m -> may_fail m = false -> between m r -> valid r /\ rquiet r = true /\ forall r0, start m r0 -> rcap r = rcap r0.
Proof.
  intros HM HF. destruct m; cbn in *; try discriminate.
  - intros (V & C & _ & Q). split; [exact V|]. split; [exact Q|]. intros r0 (_ & C0 & _). congruence.
  - intros (V & C & _ & Q). split; [exact V|]. split; [exact Q|]. intros r0 (_ & C0 & _). congruence.
  - intros ((V & C & _ & Q) & _). split; [exact V|]. split; [unfold rquiet, quiet; rewrite Q; reflexivity|]. intros r0 ((_ & C0 & _) & _). congruence.
Qed.

(** The length of the input is kept. *)
Lemma counted_facts m T : sane m -> may_fail m = false ->
  parser_facts (fun s => start m s /\ total s = T) (fun s => between m s /\ total s = T) (layout m) false.
Proof.
  intros HM HF. pose proof (setting_facts m HM) as PF. rewrite HF in PF.
  assert (HK : forall s s', start m s -> rstep s s' -> total s' = total s).
  { intros s s' Hs Hr. destruct (start_reads m s HM HF Hs) as (V & C & _). apply (rstep_spec s s' V C Hr). }
  assert (HL : forall s s', between m s -> rstep s s' -> total s' = total s) by (intros s s' Hs; apply HK, (pf_start _ _ _ _ PF), Hs).
  assert (HT : forall A k known token f (op : rj -> outcome (rj * result A rerror)) s (Z : rj -> A -> Prop), method k known token f op -> between m s -> total s = T ->
    tried false (op s) Z -> tried false (op s) (fun s' v => Z s' v /\ total s' = T)).
  { intros A k known token f op s Z M Hs Ht (s' & r & E & H). exists s', r. split; [exact E|]. destruct r as [v|]; [|exact H]. split; [exact H|].
    rewrite <- Ht. apply HL; [exact Hs|]. eapply st_method; eassumption. }
  split.
  - intros s (H & Ht). split; [apply (pf_start _ _ _ _ PF), H|exact Ht].
  - intros s w x l (H & Ht) HR Hw Hx. destruct (pf_peek _ _ _ _ PF s w x l H HR Hw Hx) as (s' & r & E & Hr). exists s', r. split; [exact E|].
    destruct r as [v|e]; [|exact Hr]. destruct Hr as (-> & R & B). split; [reflexivity|]. split; [exact R|]. split; [exact B|].
    rewrite <- Ht. apply HK; [exact H|]. eapply st_method; [apply m_peek|exact E].
  - intros s (H & Ht) Hb. destruct (pf_end _ _ _ _ PF s H Hb) as (s' & e & E & [(He & s2 & r & Ef & Hr)|(He & Hr)]); [|discriminate].
    exists s', e. split; [exact E|]. left. split; [exact He|]. exists s2, r. split; [exact Ef|]. destruct r as [v|]; [|exact Hr]. destruct Hr as (R2 & S2). split; [exact R2|]. split; [exact S2|].
    destruct (start_reads m s HM HF H) as (V & C & Qs).
    destruct (peek_blank s V C (jw_blank _ Hb)) as (s1 & e1 & E1 & H1).
    rewrite E in E1. injection E1 as <- <-. destruct H1 as [(_ & H1)|(_ & V1 & _ & C1 & T1 & _)]; [congruence|].
    rewrite <- Ht, <- T1. apply (rstep_spec s' s2 V1 ltac:(lia)). eapply st_finish; exact Ef.
  - intros s w r (H & Ht) HR Hw. destruct (HT _ _ _ _ _ _ s _ m_known_array H Ht (pf_array_empty _ _ _ _ PF s w r H HR Hw)) as (s' & v & E & Z). exists s', v. split; [exact E|]. destruct v; [|exact Z]. tauto.
  - intros s w x l (H & Ht) HR Hw Hx Hn. destruct (HT _ _ _ _ _ _ s _ m_known_array H Ht (pf_array _ _ _ _ PF s w x l H HR Hw Hx Hn)) as (s' & v & E & Z). exists s', v. split; [exact E|]. destruct v; [|exact Z]. tauto.
  - intros s w r (H & Ht) HR Hw. destruct (HT _ _ _ _ _ _ s _ m_array_step H Ht (pf_step_end _ _ _ _ PF s w r H HR Hw)) as (s' & v & E & Z). exists s', v. split; [exact E|]. destruct v; [|exact Z]. tauto.
  - intros s w w2 x l (H & Ht) HR Hw Hw2 Hx Hn. destruct (HT _ _ _ _ _ _ s _ m_array_step H Ht (pf_step _ _ _ _ PF s w w2 x l H HR Hw Hw2 Hx Hn)) as (s' & v & E & Z). exists s', v. split; [exact E|]. destruct v; [|exact Z]. tauto.
  - intros b s w r (H & Ht) HR Hw Hb Ho. destruct (HT _ _ _ _ _ _ s _ m_next_object_bytes H Ht (pf_object_empty _ _ _ _ PF b s w r H HR Hw Hb Ho)) as (s' & v & E & Z). exists s', v. split; [exact E|]. destruct v; [|exact Z]. tauto.
  - intros b s w k w1 l (H & Ht) HR Hw Hk Hw1 Hy Hb Ho. destruct (HT _ _ _ _ _ _ s _ m_next_object_bytes H Ht (pf_object _ _ _ _ PF b s w k w1 l H HR Hw Hk Hw1 Hy Hb Ho)) as (s' & v & E & Z). exists s', v. split; [exact E|]. destruct v; [|exact Z]. tauto.
  - intros s w r (H & Ht) HR Hw. destruct (HT _ _ _ _ _ _ s _ m_next_key_bytes H Ht (pf_key_end _ _ _ _ PF s w r H HR Hw)) as (s' & v & E & Z). exists s', v. split; [exact E|]. destruct v; [|exact Z]. tauto.
  - intros s w w0 k w1 l (H & Ht) HR Hw Hw0 Hk Hw1 Hy. destruct (HT _ _ _ _ _ _ s _ m_next_key_bytes H Ht (pf_key _ _ _ _ PF s w w0 k w1 l H HR Hw Hw0 Hk Hw1 Hy)) as (s' & v & E & Z). exists s', v. split; [exact E|]. destruct v; [|exact Z]. tauto.
  - intros s r (H & Ht) HR. destruct (HT _ _ _ _ _ _ s _ m_known_null H Ht (pf_null _ _ _ _ PF s r H HR)) as (s' & v & E & Z). exists s', v. split; [exact E|]. destruct v; [|exact Z]. tauto.
  - intros s r (H & Ht) HR. destruct (HT _ _ _ _ _ _ s _ (m_known_bool PeekTrue) H Ht (pf_true _ _ _ _ PF s r H HR)) as (s' & v & E & Z). exists s', v. split; [exact E|]. destruct v; [|exact Z]. tauto.
  - intros s r (H & Ht) HR. destruct (HT _ _ _ _ _ _ s _ (m_known_bool PeekFalse) H Ht (pf_false _ _ _ _ PF s r H HR)) as (s' & v & E & Z). exists s', v. split; [exact E|]. destruct v; [|exact Z]. tauto.
  - intros s t r (H & Ht) HR Hn Hd Ho. destruct (HT _ _ _ _ _ _ s _ m_next_number_bytes H Ht (pf_number _ _ _ _ PF s t r H HR Hn Hd Ho)) as (s' & v & E & Z). exists s', v. split; [exact E|]. destruct v; [|exact Z]. tauto.
  - intros s w t r (H & Ht) HR Hx Ho. destruct (pf_string _ _ _ _ PF s w t r H HR Hx Ho) as (s' & w' & res & p & q & E & A & B & C). exists s', w', res, p, q. split; [exact E|]. split; [exact A|]. split; [exact B|].
    destruct res as [u|]; [|exact C]. destruct C as (C1 & C2 & C3). split; [exact C1|]. split; [exact C2|]. split; [exact C3|]. rewrite <- Ht. apply HL; [exact H|]. eapply st_long_bytes; exact E.
Qed.

Lemma deep_literal m d r w p ws l o n b x t fl e k : sane m -> may_fail m = false -> start m r -> 5 <= rcap r -> rest r = ws ++ l -> spaces ws ->
  value_into (layout m) AtValue (x :: fl) false l o n b -> literal x t -> word_wrong t fl e k -> wfail w = None ->
  fresh d p -> (N.of_nat (1 + n) <= slices d)%N -> 5 + b <= space_for d -> (N.of_nat (5 + b) <= 65535)%N ->
  exists r' w' p', eventually (fun fuel => idtransform fuel r w p) (Done (r', w', p', Err (RJiterError (mkErr (JsonError e) (total r - len (x :: fl) + (1 + k)))))) /\
    RJiter.written w' = RJiter.written w ++ o /\ wfail w' = None /\ valid r' /\ rest r' = x :: fl.
Proof.
  intros HM HF HS Hc HR Hws Hi Hlit Hx Hw Hp H1 H2 H3.
  assert (Sx : solid x /\ x <> LBRACK /\ x <> LBRACE /\ x <> RBRACK) by (destruct Hlit as [E|[E|E]]; injection E as -> _; repeat split; discriminate).
  destruct Sx as (Sx & X1 & X2 & X3).
  destruct (deep_run d _ _ _ (counted_facts m (total r) HM HF) AtValue x fl (RJiterError (mkErr (JsonError e) (total r - len (x :: fl) + (1 + k))))
    (fun r' => valid r' /\ rest r' = x :: fl) Sx (fun _ => conj X1 (conj X2 X3))) with (r := r) (w := w) (p := p) (ws := ws) (l := l) (o := o) (n := n) (m := b) as (r' & w' & p' & E & Hsp & HQ); auto.
  - intros _ s w0 (Hs & Ht) Rs. destruct (between_cap m s HM HF Hs) as (V & Q & C). specialize (C r HS).
    destruct (literal_atom s w0 x t fl e k Hlit V) as (s' & er & Ec & Z); auto; [lia|].
    destruct Z as [(_ & Z)|(-> & V3 & R3)]; [congruence|]. rewrite Ht in Ec. exists s'. auto.
  - discriminate.
  - discriminate.
  - intros e' E. injection E as <-. reflexivity.
  - split; assumption.
  - exists r', w', p'. split; [exact E|]. split; [apply spent_written, Hsp|]. split; [eapply spent_open; eauto|exact HQ].
Qed.
Lemma deep_number m d r w p ws l o n b x fl K : sane m -> may_fail m = false -> start m r -> K <= rcap r -> rest r = ws ++ l -> spaces ws ->
  value_into (layout m) AtValue (x :: fl) false l o n b -> no_number (x :: fl) K -> x <> LBRACK -> x <> LBRACE -> x <> RBRACK -> wfail w = None ->
  fresh d p -> (N.of_nat (1 + n) <= slices d)%N -> 5 + b <= space_for d -> (N.of_nat (5 + b) <= 65535)%N ->
  exists r' w' p', eventually (fun fuel => idtransform fuel r w p) (Done (r', w', p', Err (UnhandledPeek x (total r - len (x :: fl))))) /\
    RJiter.written w' = RJiter.written w ++ o /\ wfail w' = None /\ valid r' /\ rest r' = x :: fl.
Proof.
  intros HM HF HS Hc HR Hws Hi Hn X1 X2 X3 Hw Hp H1 H2 H3.
  destruct (deep_run d _ _ _ (counted_facts m (total r) HM HF) AtValue x fl (UnhandledPeek x (total r - len (x :: fl)))
    (fun r' => valid r' /\ rest r' = x :: fl) (no_number_solid _ _ _ Hn) (fun _ => conj X1 (conj X2 X3))) with (r := r) (w := w) (p := p) (ws := ws) (l := l) (o := o) (n := n) (m := b) as (r' & w' & p' & E & Hsp & HQ); auto.
  - intros _ s w0 (Hs & Ht) Rs. destruct (between_cap m s HM HF Hs) as (V & Q & C). specialize (C r HS). destruct (start_reads m r HM HF HS) as (_ & C2 & _).
    destruct (number_atom s w0 x fl K Hn V) as (s' & i & Ec & Z); auto; [lia..|].
    destruct (Z Q) as (-> & V3 & R3). rewrite Ht in Ec. exists s'. auto.
  - discriminate.
  - discriminate.
  - discriminate.
  - split; assumption.
  - exists r', w', p'. split; [exact E|]. split; [apply spent_written, Hsp|]. split; [eapply spent_open; eauto|exact HQ].
Qed.
Lemma solid_other x : solid x -> ~ blank x.
Proof. unfold solid, blank, space, is_ascii_whitespace. intros H [[->|[->|[->| ->]]]| ->]; discriminate H. Qed.
Lemma spaces_blanks w : spaces w -> blanks w.
Proof. apply Forall_impl. intros a H. left. exact H. Qed.
Lemma deep_comma m d r w p ws l o n b x fl z closing e : sane m -> may_fail m = false -> start m r -> rest r = ws ++ l -> spaces ws ->
  value_into (layout m) z (x :: fl) false l o n b -> ends_place z closing e -> ~ blank x -> x <> COMMA -> x <> closing -> wfail w = None ->
  fresh d p -> (N.of_nat (1 + n) <= slices d)%N -> 5 + b <= space_for d -> (N.of_nat (5 + b) <= 65535)%N ->
  exists r' w' p', eventually (fun fuel => idtransform fuel r w p) (Done (r', w', p', Err (RJiterError (mkErr (JsonError e) (total r - len (x :: fl)))))) /\
    RJiter.written w' = RJiter.written w ++ o /\ wfail w' = None.
Proof.
  intros HM HF HS HR Hws Hi Hz Hb X1 X2 Hw Hp H1 H2 H3.
  assert (Sx : solid x).
  { unfold solid, is_ascii_whitespace.
    assert (x <> 32 /\ x <> 9 /\ x <> 10 /\ x <> 13 /\ x <> 12)%N as (A1 & A2 & A3 & A4 & A5) by (repeat split; intros ->; apply Hb; unfold blank, space; auto 10).
    apply N.eqb_neq in A1, A2, A3, A4, A5. rewrite A1, A2, A3, A4, A5. reflexivity. }
  assert (HC : forall A (op : rj -> outcome (rj * result A rerror)) s w0, step_method COMMA closing e op -> between m s -> total s = total r -> spaces w0 -> rest s = w0 ++ x :: fl ->
    exists s', op s = Done (s', Err (mkErr (JsonError e) (total r - len (x :: fl))))).
  { intros A op s w0 Hm Hs Ht Hw0 Rs. destruct (between_cap m s HM HF Hs) as (V & Q & C). specialize (C r HS). destruct (start_reads m r HM HF HS) as (_ & C2 & _).
    destruct (comma_place COMMA closing e op s w0 x fl Hm V) as (s' & er & E & Z); auto; [lia|apply spaces_blanks, Hw0|].
    destruct Z as [(_ & Z)|(Z1 & Z2)]; [congruence|]. destruct er as [et ei]. cbn in Z1, Z2. subst. rewrite Ht in E. eauto. }
  destruct (deep_run d _ _ _ (counted_facts m (total r) HM HF) z x fl (RJiterError (mkErr (JsonError e) (total r - len (x :: fl))))
    (fun r' => True) Sx) with (r := r) (w := w) (p := p) (ws := ws) (l := l) (o := o) (n := n) (m := b) as (r' & w' & p' & E & Hsp & HQ); auto.
  - intros ->. inversion Hz.
  - intros ->. inversion Hz.
  - intros -> s w0 (Hs & Ht) Hw0 Rs. inversion Hz; subst. destruct (HC _ array_step s w0 step_array Hs Ht Hw0 Rs) as (s' & E). eauto.
  - intros -> s w0 (Hs & Ht) Hw0 Rs. inversion Hz; subst. destruct (HC _ next_key_bytes s w0 step_key_bytes Hs Ht Hw0 Rs) as (s' & E). eauto.
  - intros e' E. injection E as <-. reflexivity.
  - split; assumption.
  - exists r', w', p'. split; [exact E|]. split; [apply spent_written, Hsp|]. eapply spent_open; eauto.
Qed.
Lemma deep_string m d r w p ws l o n b T f e k after : sane m -> may_fail m = false -> start m r -> 8 <= rcap r -> rest r = ws ++ l -> spaces ws ->
  value_into (layout m) AtValue (QUOTE :: T ++ f ++ after) false l o n b -> fault f e k -> len f <= 6 -> faultless T -> front_text m T -> wfail w = None ->
  fresh d p -> (N.of_nat (1 + n) <= slices d)%N -> 5 + b <= space_for d -> (N.of_nat (5 + b) <= 65535)%N ->
  exists r' w' p' i a c, eventually (fun fuel => idtransform fuel r w p) (Done (r', w', p', Err (RJiterError (mkErr (JsonError e) i)))) /\
    total r - len (f ++ after) + k <= i /\ T = a ++ c /\ RJiter.written w' = RJiter.written w ++ o ++ QUOTE :: a /\ wfail w' = None.
Proof.
  intros HM HF HS Hc HR Hws Hi Hf Hlf HT Hm Hw Hp H1 H2 H3.
  destruct (deep_run_any d _ _ _ (counted_facts m (total r) HM HF) AtValue QUOTE (T ++ f ++ after)
    (fun e' => exists i, e' = RJiterError (mkErr (JsonError e) i) /\ total r - len (f ++ after) + k <= i)
    (fun w1 w2 => wfail w1 = None -> exists a c, T = a ++ c /\ RJiter.written w2 = RJiter.written w1 ++ QUOTE :: a /\ wfail w2 = None)
    (fun _ => True)) with (r := r) (w := w) (p := p) (ws := ws) (l := l) (o := o) (n := n) (m := b) as (r' & w1 & w' & p' & e' & E & (i & -> & Hi') & Hsp & HW & _); auto.
  - reflexivity.
  - intros _. repeat split; discriminate.
  - intros _ s w0 (Hs & Ht) Hw0 Rs. destruct (between_cap m s HM HF Hs) as (V & Q & C). specialize (C r HS).
    destruct (string_atom s w0 T f e k after) as (s' & w2 & er & a & c & Ec & ET & EW & Ef & Z); auto; [lia| |].
    + destruct Hm as [Hm|((c0 & b0 & n0 & ->) & Hm)]; [left; left; exact Hm|right]. split; [|exact Hm]. destruct Hs as ((_ & _ & _ & Hq) & _). exact Hq.
    + exists s', w2, (RJiterError er). split; [exact Ec|]. split; [|split; [intros _; exists a, c; auto|exact I]].
      destruct Z as [(_ & Z)|Z]; [congruence|]. rewrite Z, Ht. eexists. split; [reflexivity|lia].
  - intros H. contradiction.
  - discriminate.
  - discriminate.
  - intros e' (i & E & _). injection E as ->. reflexivity.
  - split; assumption.
  - destruct HW as (a & c & ET & EW & Ef); [eapply spent_open; eauto|]. exists r', w', p', i, a, c. split; [exact E|]. split; [exact Hi'|]. split; [exact ET|]. split; [|exact Ef].
    rewrite EW, (spent_written _ _ _ Hsp), <- app_assoc. reflexivity.
Qed.
