(** idtransform and the converter from DynamoDB write no more than a multiple of the input. *)
From Verif Require Import Base U8Pool PoolSpec PoolProofs Buffer BufferSpec BufferProofs Jiter JiterProofs RJiter RJiterSpec RJiterProofs RJiterOpProofs RJiterIndexProofs RJiterInvProofs.
From Verif Require Import Scan ScanSpec ScanParser RJiterEndProofs ScanStack ScanProofs ScanTop EndsSpec ScanBalance ScanEnds Thrift.
From Verif Require Import IdTransform Conv DdbToNormal EndResults Wrapping WrapProofs.

(** ** idtransform *)
Section Identity.
Context (c : nat) (q : bool) (Hc : 8 <= c).
(** No key is remembered between the callbacks. *)
Definition keyless (n : nat) (t : idt) : Prop := match seq t with AtBeginningKey _ | InMiddleKey _ => False | _ => True end.
Fixpoint put_weight (l : list (bytes * string)) : nat := match l with [] => 0 | (d, _) :: l => len d + put_weight l end.
Lemma put_all_size l : forall t t' r, put_all t l = (t', r) -> size (out t') <= size (out t) + put_weight l /\ (forall v, r = Ok v -> seq t' = seq t).
Proof.
  induction l as [|[d m] l IH]; intros t t' r E; cbn [put_all] in E.
  - injection E as <- <-. split; [cbn; lia|reflexivity].
  - cbn [put_weight]. destruct (write_all (out t) d) as [w [v|k]] eqn:Ew; apply write_size in Ew.
    + apply IH in E as (H1 & H2). cbn [out set_out seq] in *. split; [lia|exact H2].
    + injection E as <- <-. cbn [out set_out set_io]. split; [lia|discriminate].
Qed.
Definition seq_weight (t : idt) : nat :=
  match seq t with AtBeginning | AfterKey => 0 | InMiddle => 1 | AtBeginningKey k => 3 + len k | InMiddleKey k => 4 + len k end.
Lemma seqpos_size t t' r : write_seqpos t = (t', r) -> size (out t') <= size (out t) + seq_weight t /\ (forall v, r = Ok v -> keyless 0 t').
Proof.
  unfold write_seqpos, seq_weight.
  assert (HT : forall l, (let then_middle x := match x with (t, Ok tt) => (set_seq t InMiddle, Ok tt) | (t, Err m) => (t, Err m) end in then_middle (put_all t l)) = (t', r) ->
    size (out t') <= size (out t) + put_weight l /\ (forall v, r = Ok v -> keyless 0 t')).
  { intros l. cbv zeta. destruct (put_all t l) as [t1 [[]|m]] eqn:E; apply put_all_size in E as (H1 & H2); intros X; injection X as <- <-.
    - split; [exact H1|]. intros v _. exact I.
    - split; [exact H1|discriminate]. }
  destruct (seq t) eqn:Es.
  - intros X. injection X as <- <-. split; [cbn; lia|]. intros v _. exact I.
  - intros X. apply HT in X as (H1 & H2). split; [|exact H2]. destruct (is_top_level t); exact H1.
  - intros X. apply HT in X as (H1 & H2). split; [|exact H2]. cbn in H1. lia.
  - intros X. apply HT in X as (H1 & H2). split; [|exact H2]. cbn in H1. lia.
  - intros X. injection X as <- <-. split; [lia|]. intros v _. unfold keyless. rewrite Es. exact I.
Qed.
Lemma copy_size x r w r' w' v : ready c q r -> copy_atom x r w = Done (r', w', v) ->
  size w' <= size w + left r + 5 /\ match v with Ok _ => size w' + left r' <= size w + left r + 5 | Err _ => True end.
Proof.
  intros HR. unfold copy_atom.
  assert (HL : forall X k known token (f : jop X) op d, method k known token f op -> len d <= 5 ->
    (do (r', v) <- op r;
      match v with Ok _ => match write_all w d with (w', Ok _) => Done (r', w', Ok tt) | (w', Err e) => Done (r', w', Err (IOError e)) end
      | Err e => Done (r', w, Err (RJiterError e)) end) = Done (r', w', v) ->
    size w' <= size w + left r + 5 /\ match v with Ok _ => size w' + left r' <= size w + left r + 5 | Err _ => True end).
  { intros X k known token f op d M Hd. destruct (method_ready c q k known token f op r M ltac:(lia) HR) as (r1 & x1 & E & P). rewrite E. cbn [obind].
    destruct x1 as [x1|e]; [|intros Y; injection Y as <- <- <-; split; [lia|exact I]]. destruct P as (P1 & P2 & P3).
    destruct (write_all w d) as [w2 [u|e]] eqn:Ew; apply write_size in Ew; intros Y; injection Y as <- <- <-; split; try exact I; lia. }
  destruct (N.eqb x QUOTE).
  { destruct (write_all w [QUOTE]) as [w1 [u|e]] eqn:Ew; apply write_size in Ew; cbn [List.length] in Ew; [|intros Y; injection Y as <- <- <-; split; [lia|exact I]].
    destruct (write_long_bytes r w1) as [[[r1 w2] v2]| |] eqn:El; cbn [obind]; try discriminate. apply write_long_size in El as (L1 & L2); [|apply HR].
    destruct v2 as [v2|e]; [|intros Y; injection Y as <- <- <-; split; [lia|exact I]].
    destruct (write_all w2 [QUOTE]) as [w3 [u3|e]] eqn:Ew3; apply write_size in Ew3; cbn [List.length] in Ew3; intros Y; injection Y as <- <- <-; split; try exact I; lia. }
  destruct (N.eqb x PeekNull); [apply (HL _ _ _ _ _ _ _ m_known_null); cbn; lia|].
  destruct (N.eqb x PeekTrue); [apply (HL _ _ _ _ _ _ _ (m_known_bool x)); cbn; lia|].
  destruct (N.eqb x PeekFalse); [apply (HL _ _ _ _ _ _ _ (m_known_bool x)); cbn; lia|].
  destruct (next_number_bytes r) as [[r1 [number|e]]| |] eqn:E; cbn [obind]; try discriminate; [|intros Y; injection Y as <- <- <-; split; [lia|exact I]].
  pose proof (loop_weight len _ _ _ _ _ r r1 number m_next_number_bytes number_heavy (proj1 HR) ltac:(rewrite (proj1 (proj2 HR)); lia) E) as Hn.
  destruct (write_all w number) as [w2 [u|e]] eqn:Ew; apply write_size in Ew; intros Y; injection Y as <- <- <-; split; try exact I; lia.
Qed.
Lemma id_modest : modest c q (fun t => size (out t)) (fun _ => 6) keyless idt_callbacks.
Proof.
  constructor.
  - intros n name x r u HR HI. cbv zeta. cbn [find_action idt_callbacks]. unfold idt_find_action.
    assert (HW : seq_weight u <= 1) by (unfold keyless in HI; unfold seq_weight; destruct (seq u); lia || contradiction).
    assert (HS : forall d t, len d = 1 -> seq t = seq u -> out t = out u -> modest_result c q (fun t => size (out t)) keyless n (size (out u) + left r + 6 + 0) (on_struct d r t)).
    { intros d t Hd Es Eo. unfold on_struct. assert (Ht : seq_weight t = seq_weight u) by (unfold seq_weight; rewrite Es; reflexivity).
      destruct (write_seqpos t) as [t1 [u1|m]] eqn:E; apply seqpos_size in E as (H1 & H2); rewrite Eo in H1; [|cbn; lia].
      destruct (put_all t1 _) as [t2 [u2|m]] eqn:E2; apply put_all_size in E2 as (H3 & H4); cbn [put_weight] in H3; cbn [modest_result]; cbn [out set_seq]; [|lia].
      split; [exact HR|]. split; [lia|exact I]. }
    destruct name; [apply HS; reflexivity|apply HS; reflexivity| |].
    + unfold on_atom. set (t := IdTransform.set_level u _). assert (Ht : seq_weight t = seq_weight u) by reflexivity. assert (Eo : out t = out u) by reflexivity. clearbody t.
      destruct (write_seqpos t) as [t1 [u1|m]] eqn:E; apply seqpos_size in E as (H1 & H2); rewrite Eo in H1; [|cbn; lia].
      destruct (method_ready c q _ _ _ _ _ r m_peek ltac:(lia) HR) as (r1 & v & Ep & P). rewrite Ep. cbn [obind].
      destruct v as [y|e]; [|destruct (err_type e); cbn; lia]. destruct P as (P1 & P2 & _).
      destruct (copy_ends c q Hc y r1 (out t1) P1) as (r2 & w2 & v & E2 & P3). rewrite E2. cbn [obind]. apply (copy_size y r1) in E2 as (H3 & H4); [|exact P1].
      destruct v as [v|e].
      * cbn [modest_result out set_out]. split; [apply P3|]. split; [lia|]. unfold keyless. cbn [set_out seq]. apply (H2 u1 eq_refl).
      * destruct e; cbn [modest_result set_out out set_io set_rj set_scan]; try (destruct (err_type _)); cbn; lia.
    + cbn [names]. destruct (names x) as [|key l] eqn:En; [split; [cbn; lia|exact HI]|]. cbn [hd]. destruct (_ && _)%bool; [|split; [lia|exact HI]]. unfold on_key.
      set (t := set_seq u _). assert (Ht : seq_weight t <= 4 + len key) by (unfold t, seq_weight; cbn [seq set_seq]; destruct (seq u); lia). assert (Eo : out t = out u) by reflexivity. clearbody t.
      destruct (write_seqpos t) as [t1 [u1|m]] eqn:E; apply seqpos_size in E as (H1 & H2); rewrite Eo in H1; cbn [modest_result out set_seq]; [|lia].
      split; [exact HR|]. split; [lia|exact I].
  - intros n name x u HI. cbn [find_end_action idt_callbacks idt_find_end_action]. unfold idt_find_end_action.
    destruct name; try (split; [lia|exact HI]); unfold on_struct_end;
      (match goal with |- context [put_all ?t ?l] => destruct (put_all t l) as [t1 [v|m]] eqn:E end; apply put_all_size in E as (H3 & H4); cbn [put_weight List.length out set_seq] in H3; [|lia];
       split; [lia|]; unfold keyless; rewrite (H4 _ eq_refl); exact I).
Qed.
End Identity.

(** ** DynamoDB JSON to normal JSON *)
Section ToNormal.
(** [indenting]: pretty-printing, with overflow checks. Then the depth is not more than the number of callbacks. *)
Context (indenting : bool).
Definition shallow (n : nat) (u : conv) : Prop := pretty u = true -> indenting = true /\ level u <= n.
Definition breaks : nat := if indenting then 1 else 0.
Definition spends (a b k : nat) (f : step conv) : Prop := forall u u' v, shallow a u -> f u = Done (u', v) ->
  size (cout u') <= size (cout u) + k /\ match v with Ok _ => shallow b u' | Err _ => True end.
Lemma spends_then a b e k l f g : spends a b k f -> spends b e l g -> spends a e (k + l) (f ;; g).
Proof.
  intros Hf Hg u u' v Hu. unfold and_then. destruct (f u) as [[u1 [x|m]]| |] eqn:E; cbn [obind]; try discriminate; destruct (Hf _ _ _ Hu E) as (H1 & H2).
  - intros E2. destruct (Hg _ _ _ H2 E2) as (H3 & H4). split; [lia|exact H4].
  - intros Y. injection Y as <- <-. split; [lia|exact I].
Qed.
Lemma spends_weaken a b k l f : spends a b k f -> k <= l -> spends a b l f.
Proof. intros Hf H u u' v Hu E. destruct (Hf _ _ _ Hu E). split; [lia|assumption]. Qed.
Lemma spends_put a d m : spends a a (len d) (put d m).
Proof.
  intros u u' v Hu. unfold put. destruct (write_all (cout u) d) as [w [x|e]] eqn:Ew; apply write_size in Ew; intros Y; injection Y as <- <-; (split; [exact Ew|]); [exact Hu|exact I].
Qed.
Lemma spends_skip a : spends a a 0 skip.
Proof. intros u u' v Hu Y. injection Y as <- <-. split; [lia|exact Hu]. Qed.
Lemma spends_newline a : spends a a breaks newline.
Proof.
  intros u u' v Hu. unfold newline, breaks. destruct (pretty u) eqn:Ep.
  - destruct (Hu Ep) as (-> & _). apply (spends_put a [10%N]). exact Hu.
  - intros Y. injection Y as <- <-. split; [lia|exact Hu].
Qed.
Lemma spends_comma_is a b : spends a a 0 (comma_is b).
Proof. intros u u' v Hu Y. injection Y as <- <-. split; [cbn; lia|exact Hu]. Qed.
Lemma spends_write_comma a : spends a a (1 + breaks) write_comma.
Proof.
  intros u u' v Hu. unfold write_comma. destruct (pending u).
  - refine (_ u u' v Hu). eapply spends_weaken; [eapply spends_then; [apply spends_put|eapply spends_then; [apply spends_newline|apply (spends_comma_is _ false)]]|]. cbn [List.length]. lia.
  - intros Y. injection Y as <- <-. split; [lia|exact Hu].
Qed.
Lemma spends_indents a n : spends a a (2 * n) (indents n).
Proof.
  induction n as [|n IH]; [apply spends_skip|]. cbn [indents]. eapply spends_weaken; [eapply spends_then; [apply spends_put|exact IH]|]. cbn [List.length]. lia.
Qed.
Lemma spends_indent a : spends a a (breaks * (2 * a)) indent.
Proof.
  intros u u' v Hu. unfold indent, breaks. destruct (pretty u) eqn:Ep.
  - destruct (Hu Ep) as (-> & Hl). intros E. destruct (spends_indents a (level u) u u' v Hu E). split; [lia|assumption].
  - intros Y. injection Y as <- <-. split; [lia|exact Hu].
Qed.
Lemma spends_deeper a : spends a (S a) 0 deeper.
Proof. intros u u' v Hu Y. injection Y as <- <-. split; [cbn; lia|]. intros Hp. destruct (Hu Hp). split; [assumption|]. cbn. lia. Qed.
Lemma spends_level a n : n <= 1 -> spends a (S a) 0 (change_to (fun c => Conv.set_level c n)).
Proof. intros Hn u u' v Hu Y. injection Y as <- <-. split; [cbn; lia|]. intros Hp. destruct (Hu Hp). split; [assumption|]. cbn. lia. Qed.
Lemma spends_shallower a : spends a a 0 shallower.
Proof.
  intros u u' v Hu. unfold shallower. destruct (level u) as [|n] eqn:E; [discriminate|]. intros Y. injection Y as <- <-. split; [cbn; lia|].
  intros Hp. destruct (Hu Hp). split; [assumption|]. cbn. lia.
Qed.
Lemma spends_shallower_wrapping top a : indenting = false -> spends a a 0 (shallower_wrapping top).
Proof. intros Hi u u' v Hu Y. injection Y as <- <-. split; [cbn; lia|]. intros Hp. destruct (Hu Hp). congruence. Qed.
(** The steps of the whole converter. *)
Definition shallow_all (n : nat) (u : d2n) : Prop := shallow n (base u).
Definition spends_all (a b k : nat) (f : step d2n) : Prop := forall u u' v, shallow_all a u -> f u = Done (u', v) ->
  size (cout (base u')) <= size (cout (base u)) + k /\ match v with Ok _ => shallow_all b u' | Err _ => True end.
Lemma all_then a b e k l f g : spends_all a b k f -> spends_all b e l g -> spends_all a e (k + l) (f ;; g).
Proof.
  intros Hf Hg u u' v Hu. unfold and_then. destruct (f u) as [[u1 [x|m]]| |] eqn:E; cbn [obind]; try discriminate; destruct (Hf _ _ _ Hu E) as (H1 & H2).
  - intros E2. destruct (Hg _ _ _ H2 E2) as (H3 & H4). split; [lia|exact H4].
  - intros Y. injection Y as <- <-. split; [lia|exact I].
Qed.
Lemma all_base a b k f : spends a b k f -> spends_all a b k (on_base f).
Proof.
  intros Hf u u' v Hu. unfold on_base. destruct (f (base u)) as [[b1 x]| |] eqn:E; cbn [obind]; try discriminate. intros Y. injection Y as <- <-. exact (Hf _ _ _ Hu E).
Qed.
Lemma all_phase a p : spends_all a a 0 (phase_is p).
Proof. intros u u' v Hu Y. injection Y as <- <-. split; [cbn; lia|exact Hu]. Qed.
Lemma all_type a t : spends_all a a 0 (type_is t).
Proof. intros u u' v Hu Y. injection Y as <- <-. split; [cbn; lia|exact Hu]. Qed.
Lemma all_weaken a b k b' l f : spends_all a b k f -> k <= l -> b <= b' -> spends_all a b' l f.
Proof.
  intros Hf H Hb u u' v Hu E. destruct (Hf _ _ _ Hu E) as (H1 & H2). split; [lia|]. destruct v; [|exact I]. intros Hp. destruct (H2 Hp). split; [assumption|lia].
Qed.
Ltac spending := repeat first
  [ apply spends_put | apply spends_newline | apply spends_comma_is | apply spends_write_comma | apply spends_indent | apply spends_deeper | apply spends_skip
  | apply spends_shallower | apply spends_level; lia | apply all_phase | apply all_type | eapply spends_then | apply all_base | eapply all_then ].

Definition cost_of (n : nat) : nat := 6 + breaks * (2 + 2 * n).
Context (mode : wrapper_mode) (c : nat) (q : bool) (Hc : 8 <= c).
Notation amount := (fun u : d2n => size (cout (base u))).
Notation result n w x := (modest_result c q amount shallow_all n w x).
Lemma spends_act n b k f op r u w : spends_all n b k f -> b <= S n -> shallow_all n u -> ready c q r -> amount u + left r + k <= w -> result n w (act_of f op r u).
Proof.
  intros Hf Hb Hu HR Hw. apply (all_weaken _ _ _ (S n) k _) in Hf; [|lia|exact Hb]. unfold act_of. destruct (f u) as [[u1 v]| |] eqn:E; cbn [obind]; try exact I.
  destruct (Hf _ _ _ Hu E) as (H1 & H2). destruct v as [v|m]; [|cbn; lia]. destruct op as [| |m]; cbn [modest_result]; try (split; [exact HR|]; split; [lia|exact H2]). lia.
Qed.
Lemma shallow_up n u : shallow_all n u -> shallow_all (S n) u.
Proof. intros H Hp. destruct (H Hp). split; [assumption|lia]. Qed.
Lemma string_modest n b m1 m2 r u w : ready c q r -> shallow_all n u -> amount u + left r + 3 + breaks <= w -> result n w (write_string_value b m1 m2 r u).
Proof.
  intros HR Hu Hw. unfold write_string_value. destruct (method_ready c q _ _ _ _ _ r m_peek ltac:(lia) HR) as (r1 & v & E & HP). rewrite E. cbn [obind].
  destruct v as [x|e]; [|cbn; lia]. destruct HP as (R1 & L1 & _). destruct (negb (N.eqb x QUOTE)); [cbn; lia|].
  assert (Hs : spends_all n n (1 + breaks + 1) (on_base (write_comma ;; if b then put [QUOTE] "writing opening quote" else skip))).
  { apply all_base. eapply spends_then; [apply spends_write_comma|]. destruct b; [apply (spends_put n [QUOTE])|eapply spends_weaken; [apply spends_skip|lia]]. }
  destruct (on_base _ u) as [[u1 v]| |] eqn:E1; cbn [obind]; try exact I. destruct (Hs _ _ _ Hu E1) as (H1 & H2). destruct v as [v|m]; [|cbn; lia].
  destruct (long_ready c q r1 (cout (base u1)) Hc R1) as (r2 & w2 & v2 & E3 & P3). rewrite E3. cbn [obind]. apply write_long_size in E3 as (L3 & L4); [|apply R1].
  destruct v2 as [v2|e]; [|cbn; lia]. destruct P3 as (R2 & L2).
  eapply (spends_act n n 1); [|lia|exact H2|exact R2|cbn; lia]. apply all_base. eapply spends_weaken; [eapply spends_then; [|apply spends_comma_is]|].
  - destruct b; [apply (spends_put n [QUOTE])|eapply spends_weaken; [apply spends_skip|]]; cbn; apply Nat.le_0_l.
  - cbn. lia.
Qed.
Lemma bool_modest n validate m r u w : (forall x o, validate x = Ok o -> len o <= 5) -> ready c q r -> shallow_all n u -> amount u + left r + 6 + breaks <= w ->
  result n w (handle_bool_based_type validate m r u).
Proof.
  intros Hv HR Hu Hw. unfold handle_bool_based_type. destruct (method_ready c q _ _ _ _ _ r m_peek ltac:(lia) HR) as (r1 & v & E & HP). rewrite E. cbn [obind].
  destruct v as [x|e]; [|cbn; lia]. destruct HP as (R1 & L1 & _). destruct (validate x) as [o|e] eqn:Eo; [|cbn; lia]. apply Hv in Eo.
  destruct (on_base write_comma u) as [[u1 v]| |] eqn:E1; cbn [obind]; try exact I. destruct (all_base _ _ _ _ (spends_write_comma n) _ _ _ Hu E1) as (H1 & H2). destruct v as [v|e]; [|cbn; lia].
  destruct (method_ready c q _ _ _ _ _ r1 (m_known_bool x) ltac:(lia) R1) as (r2 & v2 & E2 & P2). rewrite E2. cbn [obind]. destruct v2 as [v2|e]; [|cbn; lia].
  destruct P2 as (R2 & L2 & L3). eapply spends_act; [spending| |exact H2|exact R2|]; [lia|]. lia.
Qed.
Lemma finally_modest n w f a r u : (forall u, base (f u) = base u) -> result n w (a r u) -> result n w (finally f a r u).
Proof.
  intros Hf. unfold finally. destruct (a r u) as [[[r1 u1] [| |m]]| |]; cbn [obind modest_result]; auto; unfold shallow_all; rewrite Hf; auto.
Qed.
Lemma type_key_modest n r u w : ready c q r -> shallow_all n u -> amount u + left r + 6 + 2 * breaks <= w -> result n w (on_type_key r u).
Proof.
  intros HR Hu Hw. unfold on_type_key. destruct (field (base u)) as [key|]; [|cbn; lia].
  destruct (beq key (bs "S") || beq key (bs "B"))%bool; [apply finally_modest; [reflexivity|]; apply string_modest; auto; lia|].
  destruct (beq key (bs "N")); [apply finally_modest; [reflexivity|]; apply string_modest; auto; lia|].
  assert (Hb : forall x o, bool_output x = Ok o -> len o <= 5).
  { intros x o. unfold bool_output. destruct (N.eqb x PeekTrue); [intros Y; injection Y as <-; cbn; lia|]. destruct (N.eqb x PeekFalse); [intros Y; injection Y as <-; cbn; lia|discriminate]. }
  assert (Hn : forall x o, null_output x = Ok o -> len o <= 5).
  { intros x o. unfold null_output. destruct (N.eqb x PeekTrue); [intros Y; injection Y as <-; cbn; lia|discriminate]. }
  destruct (beq key (bs "BOOL")); [apply finally_modest; [reflexivity|]; apply bool_modest; auto; lia|].
  destruct (beq key (bs "NULL")); [apply finally_modest; [reflexivity|]; apply bool_modest; auto; lia|].
  assert (HA : forall f b k, spends_all n b k f -> b <= S n -> k <= 6 + 2 * breaks -> result n w (act_of f OpNone r u)).
  { intros f b k Hf Hb' Hk. eapply spends_act; eauto. lia. }
  destruct (beq key (bs "SS") || beq key (bs "BS"))%bool; [eapply HA; [spending|lia|cbn; lia]|].
  destruct (beq key (bs "NS")); [eapply HA; [spending|lia|cbn; lia]|].
  destruct (beq key (bs "L")); [eapply HA; [spending|lia|cbn; lia]|].
  destruct (beq key (bs "M")); [eapply HA; [spending|lia|cbn; lia]|]. cbn. lia.
Qed.
Lemma field_key_modest n r u w : ready c q r -> shallow_all n u ->
  amount u + left r + cost_of n + match field (base u) with Some k => len k | None => 0 end <= w -> result n w (on_field_key r u).
Proof.
  intros HR Hu Hw. unfold on_field_key, cost_of in *. destruct (field (base u)) as [key|]; [|cbn; lia]. eapply spends_act; [spending|lia|exact Hu|exact HR|]. cbn [List.length bs]. cbn. lia.
Qed.
Lemma begin_modest n name x r u : ready c q r -> shallow_all n u ->
  let w := amount u + left r + cost_of n + match name with PNone => len (hd [] (names x)) | _ => 0 end in
  let '(u1, a) := d2n_find_action mode name x u in
  match a with
  | None => amount u1 + left r <= w /\ shallow_all (S n) u1
  | Some act => result n w (act r u1)
  end.
Proof.
  intros HR Hu. cbv zeta. set (w := _ + _ + _ + _). assert (Hw : amount u + left r + cost_of n + 0 <= w) by (subst w; destruct name; lia).
  assert (HN : forall u1, base u1 = base u -> amount u1 + left r <= w /\ shallow_all (S n) u1).
  { intros u1 E. rewrite E. split; [lia|]. unfold shallow_all. rewrite E. apply shallow_up, Hu. }
  assert (HE : forall s o, result n w (on_error r (store_parse_error u s o))) by (intros s o; cbn; lia).
  unfold cost_of in Hw. destruct name; cbn [d2n_find_action].
  - unfold find_action_array. destruct (current_type u) as [[| | |]|]; try apply HE; apply HN; reflexivity.
  - unfold find_action_object. destruct (level (base u) =? 0).
    + unfold on_root_object_begin. eapply spends_act; [spending|lia|exact Hu|exact HR|]. cbn [List.length]. lia.
    + destruct (at_phase u); try apply HE; try (apply HN; reflexivity).
      * destruct (current_type u) as [[| | |]|]; try apply HE; apply HN; reflexivity.
      * destruct (parent_is _ _); [apply HN; reflexivity|apply HE].
  - unfold find_action_atom. destruct (at_phase u); try apply HE. destruct (parent_is _ _); [|apply HE].
    destruct (current_type u) as [[| | |]|]; try apply HE; apply string_modest; auto; lia.
  - unfold find_action_key. subst w. destruct (names x) as [|key path]; [apply HN; reflexivity|]. cbn [hd] in *.
    set (u1 := set_base u (set_field (base u) key)).
    assert (Hu1 : shallow_all n u1) by exact Hu. assert (Ha1 : amount u1 = amount u) by reflexivity. assert (Hf1 : field (base u1) = Some key) by reflexivity.
    assert (HF : result n (amount u + left r + cost_of n + len key) (on_field_key r u1)).
    { apply field_key_modest; [exact HR|exact Hu1|]. rewrite Hf1, Ha1. lia. }
    assert (HT : result n (amount u + left r + cost_of n + len key) (on_type_key r u1)).
    { apply type_key_modest; [exact HR|exact Hu1|]. rewrite Ha1. unfold cost_of. lia. }
    clearbody u1. destruct (at_phase u).
    + destruct (_ && _)%bool; [apply HN; reflexivity|exact HF].
    + exact HT.
    + destruct (in_set _); [exact HT|apply HE].
    + exact HF.
Qed.
Definition ends_modestly (n : nat) (u : d2n) (a : option (end_action d2n)) : Prop :=
  match a with
  | None => amount u <= amount u + cost_of n /\ shallow_all (S n) u
  | Some act =>
      match act u with
      | Done (u', Ok _) => amount u' <= amount u + cost_of n /\ shallow_all (S n) u'
      | Done (u', Err _) => amount u' <= amount u + cost_of n
      | _ => True
      end
  end.
Lemma spends_end n b k f u : spends_all n b k f -> b <= S n -> k <= cost_of n -> shallow_all n u -> ends_modestly n u (Some f).
Proof.
  intros Hf Hb Hk Hu. apply (all_weaken _ _ _ (S n) (cost_of n)) in Hf; [|exact Hk|exact Hb]. cbn [ends_modestly]. destruct (f u) as [[u' v]| |] eqn:E; auto.
  destruct (Hf _ _ _ Hu E). destruct v; auto.
Qed.
Lemma end_modest n name x u : shallow_all n u -> name <> PNone -> ends_modestly n u (snd (d2n_find_end_action mode name x u)).
Proof.
  intros Hu Hname. assert (HN : ends_modestly n u None) by (split; [lia|apply shallow_up, Hu]).
  assert (HS : forall f b k, spends_all n b k f -> b <= S n -> k <= cost_of n -> ends_modestly n u (Some f)) by (intros; eapply spends_end; eauto).
  unfold cost_of in *. destruct name; cbn [d2n_find_end_action snd]; [| |exact HN|contradiction].
  - destruct (at_phase u) eqn:Ep; try exact HN.
    + assert (HL : ends_modestly n u (Some (on_base (put [RBRACK] "writing L closing bracket" ;; comma_is true) ;; phase_is ExpectingValue ;; type_is None))).
      { eapply HS; [spending|lia|cbn [List.length]; lia]. }
      cbn [ends_modestly] in *. unfold on_list_end. rewrite Ep. exact HL.
    + eapply HS; [unfold on_set_end; spending|lia|cbn [List.length]; lia].
  - destruct (_ =? 1); [|exact HN]. eapply HS; [unfold on_root_object_end; spending|lia|cbn [List.length]; lia].
Qed.
Lemma key_end_modest n path u : shallow_all n u -> ends_modestly n u (find_end_action_key mode path u).
Proof.
  intros Hu. assert (HN : ends_modestly n u None) by (split; [lia|apply shallow_up, Hu]).
  assert (HS : forall f b k, spends_all n b k f -> b <= S n -> k <= cost_of n -> ends_modestly n u (Some f)) by (intros; eapply spends_end; eauto).
  unfold cost_of in *. unfold find_end_action_key. destruct path as [|key path]; [exact HN|].
  assert (HP : forall p, ends_modestly n u (Some (phase_is p))) by (intros p; eapply HS; [apply all_phase|lia|lia]).
  destruct (at_phase u).
  - destruct (_ && _)%bool; [exact HN|]. destruct (parent_is _ _); (eapply HS; [unfold on_map_end_in_array, on_map_end; spending|lia|cbn [List.length]; lia]).
  - destruct (is_container key); [exact HN|apply HP].
  - destruct (parent_is _ _); apply HP.
  - destruct (parent_is _ _); apply HP.
Qed.
Lemma d2n_modest : modest c q amount cost_of shallow_all (d2n_callbacks mode).
Proof.
  constructor; [exact begin_modest|]. intros n name x u Hu. change (ends_modestly n u (snd (d2n_find_end_action mode name x u))).
  destruct name; [apply end_modest; [exact Hu|discriminate]..|]. apply key_end_modest, Hu.
Qed.
(** In a build without overflow checks. *)
Lemma key_end_wrapping_modest top n path u : indenting = false -> shallow_all n u -> ends_modestly n u (find_end_action_key_wrapping top mode path u).
Proof.
  intros Hi Hu. assert (HN : ends_modestly n u None) by (split; [lia|apply shallow_up, Hu]).
  assert (HS : forall f b k, spends_all n b k f -> b <= S n -> k <= cost_of n -> ends_modestly n u (Some f)) by (intros; eapply spends_end; eauto).
  unfold cost_of in *. unfold find_end_action_key_wrapping. destruct path as [|key path]; [exact HN|].
  assert (HP : forall p, ends_modestly n u (Some (phase_is p))) by (intros p; eapply HS; [apply all_phase|lia|lia]).
  pose proof (fun a => spends_shallower_wrapping top a Hi) as HW.
  destruct (at_phase u).
  - destruct (_ && _)%bool; [exact HN|]. destruct (parent_is _ _); (eapply HS; [unfold on_map_end_in_array_wrapping, on_map_end_wrapping; repeat first [apply HW|progress spending]|lia|cbn [List.length]; lia]).
  - destruct (is_container key); [exact HN|apply HP].
  - destruct (parent_is _ _); apply HP.
  - destruct (parent_is _ _); apply HP.
Qed.
Lemma wrapping_modest top : indenting = false -> modest c q amount cost_of shallow_all (wrapping_callbacks top mode).
Proof.
  intros Hi. constructor.
  - intros n name x r u HR Hu. pose proof (begin_modest n name x r u HR Hu) as H. cbv zeta in *. cbn [find_action wrapping_callbacks]. unfold find_action_wrapping.
    destruct (d2n_find_action mode name x u) as [u1 [a|]]; cbn [option_map]; [|exact H]. unfold finally.
    assert (Hwr : forall u, size (cout (base (wrap top u))) = size (cout (base u)) /\ (forall m, shallow_all m u -> shallow_all m (wrap top u))).
    { intros u2. unfold wrap. destruct (_ <=? _); [auto|]. split; [reflexivity|]. intros m Hm Hp. destruct (Hm Hp). congruence. }
    destruct (a r u1) as [[[r1 u2] op]| |]; cbn [obind]; try exact I. destruct (Hwr u2) as (E1 & E2). destruct op as [| |m]; cbn [modest_result] in *; rewrite E1; [| |exact H];
      (destruct H as (H1 & H2 & H3); split; [exact H1|split; [exact H2|apply E2, H3]]).
  - intros n name x u Hu. destruct name.
    4: { cbn [find_end_action wrapping_callbacks find_end_action_wrapping]. exact (key_end_wrapping_modest top n (names x) u Hi Hu). }
    all: match goal with |- context [find_end_action _ ?nm] => change (ends_modestly n u (snd (d2n_find_end_action mode nm x u))) end; apply end_modest; [exact Hu|discriminate].
Qed.
End ToNormal.

(** ** The entry points *)
Lemma cost_mono indenting n m : n <= m -> cost_of indenting n <= cost_of indenting m.
Proof. intros H. unfold cost_of, breaks. destruct indenting; lia. Qed.
Lemma shallow_mono indenting n m u : n <= m -> shallow_all indenting n u -> shallow_all indenting m u.
Proof. intros H Hu Hp. destruct (Hu Hp). split; [assumption|lia]. Qed.
Lemma convert_size {B} (amount : B -> nat) cost J steady K (cb : callbacks B) of_base slots fuel rd rb xb u u' v :
  modest (len rb) false amount cost J cb -> (forall n m, n <= m -> cost n <= cost m) -> (forall n m u, n <= m -> J n u -> J m u) ->
  cooperative (len rb) false true steady no_halt K cb -> 8 <= len rb -> (slots * 4 + 1 < usize_modulus)%N -> K Between [top_entry] u -> J 0 u ->
  convert cb of_base slots fuel rd rb xb u = Done (u', v) ->
  amount u' <= amount u + len (src rd) + (2 * len (src rd) + 2) * (2 * cost (2 * (2 * len (src rd) + 2))).
Proof.
  intros Hmo Hm1 Hm2 Hco H8 Hs Hk Hj. unfold convert. destruct (proj1 (proj2 (new_exact true xb slots Hs))) as (p & E). rewrite E. cbn [obind].
  destruct p as [p|e]; [|intros Y; injection Y as <- <-; lia].
  pose proof (keeps_scan (len rb) false amount cost J cb Hmo Hm1 Hm2 (mkOptions [] false) _ [] H8 (Forall_nil _) (or_introl eq_refl) steady K Hco fuel
    (mkS (rj_new rd rb) u p) 0 (amount u + len (src rd)) (stack_new _ _ _ _ E Hs)) as H.
  cbn [parser user] in H. specialize (H ltac:(split; [apply new_ready|split; [cbn [parser user]; unfold left; rewrite new_rest; apply le_n|exact Hj]]) Hk).
  unfold left in H. rewrite new_rest in H.
  destruct (scan _ _ _ _) as [[s x]| |]; cbn [obind]; try discriminate. intros Y. injection Y as <- <-. exact H.
Qed.
Lemma from_ddb_size fuel rd w rb xb is_pretty mode w' v : 8 <= len rb -> convert_ddb_to_normal fuel rd w rb xb is_pretty mode = Done (w', v) ->
  size w' <= size w + len (src rd) + (2 * len (src rd) + 2) * (2 * cost_of is_pretty (2 * (2 * len (src rd) + 2))).
Proof.
  intros H8. unfold convert_ddb_to_normal. destruct (convert _ _ _ _ _ _ _ _) as [[u x]| |] eqn:E; cbn [obind]; try discriminate. intros Y. injection Y as <- <-.
  apply (convert_size (fun u : d2n => size (cout (base u))) (cost_of is_pretty) (shallow_all is_pretty) false (fun _ _ _ => True)) in E; auto.
  - apply d2n_modest, H8.
  - apply cost_mono.
  - apply shallow_mono.
  - apply d2n_cooperative, H8.
  - reflexivity.
  - intros Hp. cbn in *. auto.
Qed.
Lemma from_ddb_compact_size fuel rd w rb xb mode w' v : 8 <= len rb -> convert_ddb_to_normal fuel rd w rb xb false mode = Done (w', v) ->
  len (written w') <= len (written w) + 25 * len (src rd) + 24.
Proof. intros H8 E. apply from_ddb_size in E; [|exact H8]. unfold size, cost_of, breaks in E. lia. Qed.
Lemma from_ddb_pretty_size fuel rd w rb xb mode w' v : 8 <= len rb -> convert_ddb_to_normal fuel rd w rb xb true mode = Done (w', v) ->
  let n := len (src rd) in len (written w') <= len (written w) + 32 * n * n + 97 * n + 64.
Proof. intros H8 E. apply from_ddb_size in E; [|exact H8]. cbv zeta. unfold size, cost_of, breaks in E. nia. Qed.
Lemma release_compact_size top fuel rd w rb xb mode w' v : 8 <= len rb -> convert_ddb_to_normal_wrapping top fuel rd w rb xb false mode = Done (w', v) ->
  len (written w') <= len (written w) + 25 * len (src rd) + 24.
Proof.
  intros H8. unfold convert_ddb_to_normal_wrapping. destruct (convert _ _ _ _ _ _ _ _) as [[u x]| |] eqn:E; cbn [obind]; try discriminate. intros Y. injection Y as <- <-.
  apply (convert_size (fun u : d2n => size (cout (base u))) (cost_of false) (shallow_all false) true (fun _ _ _ => True)) in E; auto.
  - unfold size, cost_of, breaks in E. cbn [base d2n_new conv_new cout] in E. lia.
  - apply wrapping_modest; [exact H8|reflexivity].
  - apply shallow_mono.
  - apply wrapping_cooperative, H8.
  - reflexivity.
  - intros Hp. cbn in *. discriminate.
Qed.
Lemma idtransform_size fuel r w p d r' w' p' v : valid r -> 8 <= rcap r -> stack_of d p [] -> idtransform fuel r w p = Done (r', w', p', v) ->
  len (written w') <= len (written w) + 25 * len (rest r) + 24.
Proof.
  intros V H8 Hst. unfold idtransform.
  pose proof (keeps_scan (rcap r) false (fun t => size (out t)) (fun _ => 6) keyless idt_callbacks (id_modest _ _ H8) (fun _ _ _ => le_n _) (fun _ _ _ _ H => H) (mkOptions [] true) d []
    H8 (Forall_nil _) (or_introl eq_refl) true _ (dutiful_cooperative _ _ _ (id_dutiful (rcap r) false H8)) fuel (mkS r (idt_new w) p) 0 (size w + left r) Hst) as H.
  cbn [parser user] in H. specialize (H ltac:(split; [split; [exact V|split; [reflexivity|discriminate]]|split; [apply le_n|exact I]]) I).
  destruct (scan _ _ _ _) as [[s x]| |]; cbn [obind]; try discriminate. intros Y. injection Y as <- <- <- <-. unfold size, left in H. lia.
Qed.
