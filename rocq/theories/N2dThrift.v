(** The converter to DynamoDB writes no more than a multiple of the input, if it ends, the reader does not fail and the writer takes everything. *)
From Verif Require Import Base U8Pool PoolSpec PoolProofs Buffer BufferSpec BufferProofs Jiter JiterProofs RJiter RJiterSpec RJiterProofs RJiterOpProofs RJiterIndexProofs RJiterInvProofs.
From Verif Require Import Scan ScanSpec ScanParser RJiterEndProofs RJiterLongProofs ScanStack ScanProofs ScanTop EndsSpec ScanBalance ScanEnds Thrift ThriftConv.
From Verif Require Import Conv NormalToDdb ConvSpec EndResults SoundSpec ScanSound N2dHang TwinConv N2dSound.

(** ** Writers that take everything *)
Lemma write_none w d w' r : write_all w d = (w', r) -> wfail w = None -> wfail w' = None.
Proof. intros E. destruct (write_all_spec w d) as (w2 & r2 & E2 & H & _). rewrite E in E2. injection E2 as <- <-. exact H. Qed.
Lemma long_none parser segment fuel : forall s w s' w' v, handle_long fuel parser segment s w = Done (s', w', v) -> wfail w = None -> wfail w' = None.
Proof.
  induction fuel as [|fuel IH]; intros s w s' w' r E Hn; [discriminate|]. cbn [handle_long] in E.
  destruct (jcall parser s) as [s0 [v|er]].
  { destruct (write_all w v) as [w2 [u|e]] eqn:Ew; pose proof (write_none _ _ _ _ Ew Hn); injection E as _ <- _; assumption. }
  destruct (can_retry (fst er)); [|injection E as _ <- _; exact Hn].
  set (s2 := if 0 <? jidx s0 then _ else s0) in E. clearbody s2. destruct (find_leading _ _) as [e|]; [|discriminate].
  assert (HR : forall s3 w3, wfail w3 = None -> match read_more (bf s3) with
      | (b, Err e) => Done (with_bf s3 b, w3, Err e)
      | (b, Ok 0) => let s4 := with_bf s3 b in Done (s4, w3, Err (from_jiter_error (current_index s4) er))
      | (b, Ok _) => handle_long fuel parser segment (create_new_jiter (with_bf s3 b)) w3 end = Done (s', w', r) -> wfail w' = None).
  { intros s3 w3 H3. destruct (read_more (bf s3)) as [b [[|k]|e']]; intros Y; [injection Y as _ <- _; exact H3|exact (IH _ _ _ _ _ Y H3)|injection Y as _ <- _; exact H3]. }
  destruct (1 <? e); [|exact (HR _ _ Hn E)]. destruct (segment _ e) as [x|e']; [|injection E as _ <- _; exact Hn].
  destruct (write_all w x) as [w2 [u|e']] eqn:Ew; pose proof (write_none _ _ _ _ Ew Hn) as H2; [exact (HR _ _ H2 E)|injection E as _ <- _; exact H2].
Qed.
Definition open (u : conv) : Prop := wfail (cout u) = None.
Definition opens (f : step conv) : Prop := forall u u' v, f u = Done (u', v) -> open u -> open u'.
Lemma opens_then f g : opens f -> opens g -> opens (f ;; g).
Proof.
  intros Hf Hg u u' v. unfold and_then. destruct (f u) as [[u1 [x|m]]| |] eqn:E; cbn [obind]; try discriminate; intros Y Ho.
  - exact (Hg _ _ _ Y (Hf _ _ _ E Ho)).
  - injection Y as <- _. exact (Hf _ _ _ E Ho).
Qed.
Lemma opens_put d m : opens (put d m).
Proof. intros u u' v. unfold put. destruct (write_all (cout u) d) as [w [x|e]] eqn:E; intros Y; injection Y as <- <-; exact (write_none _ _ _ _ E). Qed.
Lemma opens_skip : opens skip. Proof. intros u u' v Y. injection Y as <- _. auto. Qed.
Lemma opens_newline : opens newline.
Proof. intros u u' v. unfold newline. destruct (pretty u); [apply opens_put|intros Y; injection Y as <- _; auto]. Qed.
Lemma opens_comma_is b : opens (comma_is b). Proof. intros u u' v Y. injection Y as <- _. auto. Qed.
Lemma opens_deeper : opens deeper. Proof. intros u u' v Y. injection Y as <- _. auto. Qed.
Lemma opens_shallower : opens shallower.
Proof. intros u u' v. unfold shallower. destruct (level u); [discriminate|]. intros Y. injection Y as <- _. auto. Qed.
Lemma opens_indents n : opens (indents n).
Proof. induction n as [|n IH]; [apply opens_skip|]. cbn [indents]. apply opens_then; [apply opens_put|exact IH]. Qed.
Lemma opens_indent : opens indent.
Proof. intros u u' v. unfold indent. destruct (pretty u); [apply opens_indents|intros Y; injection Y as <- _; auto]. Qed.
Lemma opens_write_comma : opens write_comma.
Proof. intros u u' v. unfold write_comma. destruct (pending u); [|intros Y; injection Y as <- _; auto]. revert u u' v. repeat first [apply opens_put | apply opens_newline | apply (opens_comma_is false) | apply opens_then]. Qed.
Ltac opening := repeat first [apply opens_put | apply opens_newline | apply opens_comma_is | apply opens_write_comma | apply opens_indent | apply opens_deeper | apply opens_shallower | apply opens_skip | apply opens_then].

(** ** What the callbacks write *)
Section ToDdb.
Context (indenting wrapper : bool) (c : nat) (q : bool) (Hc : 8 <= c).
Notation b := (breaks indenting).
Definition cost_to (n : nat) : nat := 16 + b * (12 + 8 * n).
Definition fits (n : nat) (u : conv) : Prop := shallow indenting (2 * n) u /\ open u.
Notation amount := (fun u : conv => size (cout u)).
Notation result n w x := (modest_result c q amount fits n w x).
Ltac spending := repeat first
  [ apply spends_put | apply spends_newline | apply spends_comma_is | apply spends_write_comma | apply spends_indent | apply spends_deeper | apply spends_skip
  | apply spends_shallower | eapply spends_then ].
Lemma shallow_le n m u : n <= m -> shallow indenting n u -> shallow indenting m u.
Proof. intros H Hs Hp. destruct (Hs Hp). split; [assumption|lia]. Qed.
Lemma to_act n a e k f op r u w : spends indenting a e k f -> opens f -> e <= 2 * S n -> shallow indenting a u -> open u -> ready c q r -> amount u + left r + k <= w ->
  result n w (act_of f op r u).
Proof.
  intros Hf Ho He Hu Hop HR Hw. unfold act_of. destruct (f u) as [[u1 v]| |] eqn:E; cbn [obind]; try exact I.
  destruct (Hf _ _ _ Hu E) as (H1 & H2). pose proof (Ho _ _ _ E Hop) as H3. destruct v as [v|m]; [|cbn; lia].
  assert (HF : fits (S n) u1) by (split; [eapply shallow_le; [exact He|exact H2]|exact H3]).
  destruct op as [| |m]; cbn [modest_result]; try (split; [exact HR|]; split; [lia|exact HF]). lia.
Qed.
Lemma close_spends a : spends indenting a a (1 + b * (1 + 2 * a)) close_atom.
Proof. eapply spends_weaken; [unfold close_atom; spending|]. cbn [List.length]. lia. Qed.
Lemma close_opens : opens close_atom.
Proof. unfold close_atom. opening. Qed.
(** [a]: the greatest level at the beginning. *)
Lemma atom_modest n a r u w : ready c q r -> a <= 2 * S n -> shallow indenting a u -> open u -> amount u + left r + 14 + b * (2 + 4 * a) <= w -> result n w (on_atom_value r u).
Proof.
  intros HR Ha Hu Hop Hw. unfold on_atom_value. destruct (write_comma u) as [[u1 v]| |] eqn:E1; cbn [obind]; try exact I.
  destruct (spends_write_comma indenting a _ _ _ Hu E1) as (H1 & H2). pose proof (opens_write_comma _ _ _ E1 Hop) as O1. destruct v as [v|m]; [|cbn; nia].
  destruct (method_ready c q _ _ _ _ _ r m_peek ltac:(lia) HR) as (r1 & v1 & E & HP). rewrite E. cbn [obind]. destruct v1 as [x|e]; [|cbn; nia].
  destruct HP as (R1 & L1 & _). apply peek_view in E as (l1 & Ev).
  assert (Hclose : forall f r2 u2 k, spends indenting a a k f -> opens f -> shallow indenting a u2 -> open u2 -> ready c q r2 -> amount u2 + left r2 + k <= amount u1 + left r + 12 + b * (2 * a) ->
    result n w (act_of (f ;; close_atom) ValueIsConsumed r2 u2)).
  { intros f r2 u2 k Hf Hof Hs Ho2 HR2 Hk. eapply (to_act n a a (k + (1 + b * (1 + 2 * a)))); auto; [eapply spends_then; [exact Hf|apply close_spends]|apply opens_then; [exact Hof|apply close_opens]|nia]. }
  destruct (N.eqb x QUOTE).
  { unfold on_string_value.
    assert (Ho : spends indenting a a (b * (2 * a) + 5) (indent ;; put (bs """S"":""") "writing S type opening")) by (eapply spends_then; [apply spends_indent|apply spends_put]).
    destruct ((indent ;; put (bs """S"":""") "writing S type opening") u1) as [[u2 v2]| |] eqn:E2; cbn [obind]; try exact I. destruct (Ho _ _ _ H2 E2) as (H3 & H4).
    assert (O2 : open u2) by (revert E2 O1; apply opens_then; [apply opens_indent|apply opens_put]). destruct v2 as [v2|m]; [|cbn; nia].
    destruct (long_ready c q r1 (cout u2) Hc R1) as (r2 & w2 & v3 & E3 & P3). rewrite E3. cbn [obind].
    pose proof (long_none _ _ _ _ _ _ _ _ E3 O2) as O3. apply write_long_size in E3 as (L3 & L4); [|apply R1].
    destruct v3 as [v3|e]; [|cbn; nia]. destruct P3 as (R2 & L2).
    apply (Hclose _ r2 (set_cout u2 w2) 1); [apply (spends_put indenting a [QUOTE])|apply opens_put|exact H4|exact O3|exact R2|]. cbn [cout set_cout]. lia. }
  destruct (N.eqb x PeekTrue || N.eqb x PeekFalse)%bool eqn:Eb.
  { unfold on_bool_value. destruct (method_ready c q _ _ _ _ _ r1 m_peek ltac:(lia) R1) as (r2 & v2 & E2 & HP2). rewrite E2. cbn [obind]. destruct v2 as [y|e]; [|cbn; nia].
    destruct HP2 as (R2 & L2 & _). apply peek_view in E2 as (l2 & Ev2).
    destruct (indent u1) as [[u2 v2]| |] eqn:E3; cbn [obind]; try exact I. destruct (spends_indent indenting a _ _ _ H2 E3) as (H3 & H4). pose proof (opens_indent _ _ _ E3 O1) as O2.
    destruct v2 as [v2|m]; [|cbn; nia].
    assert (Hbool : is_ascii_whitespace y = false -> exists r3 w, known_bool y r2 = Done (r3, w) /\ ready c q r3 /\ left r3 <= left r2).
    { intros Hy. destruct (method_ready c q _ _ _ _ _ r2 (m_known_bool y) ltac:(lia) R2) as (r3 & w0 & E4 & HP4). exists r3, w0. split; [exact E4|].
      destruct w0 as [w0|e]; [split; apply HP4|]. eapply (method_failed c q _ _ _ _ _ r2 r3 e (m_known_bool y)); [apply inert_reined, known_bool_inert|lia|exact R2|exact E4|].
      right. right. split; [reflexivity|]. unfold poised. rewrite Ev2. exact Hy. }
    destruct (N.eqb_spec y PeekTrue) as [->|_]; [|destruct (N.eqb_spec y PeekFalse) as [->|_]; [|cbn; nia]];
      (destruct Hbool as (r3 & w0 & E4 & R3 & L3); [reflexivity|]; rewrite E4; cbn [obind];
       eapply Hclose; [apply spends_put|apply opens_put|exact H4|exact O2|exact R3|cbn [List.length bs list_byte_of_string]; cbn; lia]). }
  destruct (N.eqb x PeekNull).
  { unfold on_null_value. destruct (method_ready c q _ _ _ _ _ r1 m_peek ltac:(lia) R1) as (r2 & v2 & E2 & HP2). rewrite E2. cbn [obind]. destruct v2 as [y|e]; [|cbn; nia].
    destruct HP2 as (R2 & L2 & _). apply peek_view in E2 as (l2 & Ev2). destruct (N.eqb_spec y PeekNull) as [->|_]; [|cbn; nia].
    destruct (method_ready c q _ _ _ _ _ r2 m_known_null ltac:(lia) R2) as (r3 & w0 & E4 & HP4). rewrite E4. cbn [obind].
    assert (R3 : ready c q r3 /\ left r3 <= left r2).
    { destruct w0 as [w0|e]; [split; apply HP4|]. eapply (method_failed c q _ _ _ _ _ r2 r3 e m_known_null); [apply inert_reined, ident_inert|lia|exact R2|exact E4|].
      right. right. split; [reflexivity|]. unfold poised. rewrite Ev2. reflexivity. }
    destruct R3 as (R3 & L3). eapply to_act; [eapply spends_then; [apply spends_indent|eapply spends_then; [apply spends_put|apply close_spends]]| |exact Ha|exact H2|exact O1|exact R3|].
    - apply opens_then; [apply opens_indent|apply opens_then; [apply opens_put|apply close_opens]].
    - cbn [List.length bs]. cbn. nia. }
  destruct (method_ready c q _ _ _ _ _ r1 m_next_number_bytes ltac:(lia) R1) as (r2 & v2 & E2 & HP2). rewrite E2. cbn [obind]. destruct v2 as [number|e]; [|cbn; nia].
  destruct HP2 as (R2 & L2 & _). pose proof (loop_weight len _ _ _ _ _ r1 r2 number m_next_number_bytes number_heavy ltac:(apply R1) ltac:(destruct R1 as (_ & -> & _); lia) E2) as Hwt.
  eapply to_act; [eapply spends_then; [apply spends_indent|eapply spends_then; [apply spends_put|eapply spends_then; [apply spends_put|eapply spends_then; [apply spends_put|apply close_spends]]]]|
    |exact Ha|exact H2|exact O1|exact R2|].
  - opening.
  - rewrite firstn_length. pose proof (Nat.le_min_r 32 (len number)). set (k := Nat.min 32 (len number)) in *. clearbody k. change (len (bs """N"":""")) with 5. cbn [List.length]. nia.
Qed.
Lemma to_begin n name x r u : ready c q r -> fits n u ->
  let w := amount u + left r + cost_to n + match name with PNone => len (hd [] (names x)) | _ => 0 end in
  let '(u1, a) := n2d_find_action wrapper name x u in
  match a with
  | None => amount u1 + left r <= w /\ fits (S n) u1
  | Some act => result n w (act r u1)
  end.
Proof.
  intros HR (Hu & Ho). cbv zeta. set (w := _ + _ + _ + _). assert (Hw : amount u + left r + (16 + b * (12 + 8 * n)) + 0 <= w) by (subst w; unfold cost_to; destruct name; lia).
  assert (HN : amount u + left r <= w /\ fits (S n) u) by (split; [lia|]; split; [eapply shallow_le; [|exact Hu]; lia|exact Ho]).
  assert (HA : forall f e k, spends indenting (2 * n) e k f -> opens f -> e <= 2 * S n -> k <= 16 + b * (12 + 8 * n) -> result n w (act_of f OpNone r u)).
  { intros f e k Hf Hof He Hk. eapply to_act; [exact Hf|exact Hof|exact He|exact Hu|exact Ho|exact HR|lia]. }
  assert (HV : result n w (on_atom_value r u)) by (eapply (atom_modest n (2 * n)); auto; [lia|nia]).
  assert (HArr : result n w (on_array_begin r u)) by (eapply HA; [unfold array_begin; spending|unfold array_begin; opening|lia|cbn; nia]).
  unfold n2d_find_action. destruct (names x) as [|parent path] eqn:En.
  { destruct name; auto. }
  destruct (beq parent (bs "#top")).
  - destruct name; auto.
    + eapply HA; [unfold array_begin; spending|unfold array_begin; opening|lia|cbn; nia].
    + unfold on_root_object_begin. destruct wrapper; (eapply HA; [spending|opening|lia|cbn; nia]).
    + unfold on_root_literal. destruct ((put [LBRACE] "writing root literal opening brace" ;; deeper) u) as [[u1 v]| |] eqn:E; cbn [obind]; try exact I.
      assert (Hs : spends indenting (2 * n) (S (2 * n)) 1 (put [LBRACE] "writing root literal opening brace" ;; deeper)) by (eapply spends_weaken; [spending|cbn; lia]).
      destruct (Hs _ _ _ Hu E) as (H1 & H2). assert (O1 : open u1) by (revert E Ho; opening). destruct v as [v|m]; [|cbn; nia].
      pose proof (atom_modest n (S (2 * n)) r u1 (amount u + left r + 15 + b * (12 + 8 * n)) HR ltac:(lia) H2 O1 ltac:(nia)) as HM.
      destruct (on_atom_value r u1) as [[[r2 u2] op]| |]; cbn [obind]; try exact I.
      destruct op as [| |m]; cbn [modest_result] in HM.
      * destruct HM as (A1 & A2 & A3 & A4). eapply to_act; [spending|opening|apply le_n|exact A3|exact A4|exact A1|cbn; lia].
      * destruct HM as (A1 & A2 & A3 & A4). eapply to_act; [spending|opening|apply le_n|exact A3|exact A4|exact A1|cbn; lia].
      * unfold act_of, and_then, put. destruct (write_all (cout u2) [10%N]) as [w2 [y|e]] eqn:Ew; apply write_size in Ew; cbn [obind comma_is change_to modest_result cout set_cout set_pending List.length] in *; unfold size in *; cbn [cout set_pending set_cout set_error] in *; lia.
  - destruct name; destruct (beq parent (bs "#array")); auto.
    + eapply HA; [unfold element_begin, array_begin; spending|unfold element_begin, array_begin; opening|lia|cbn; nia].
    + eapply HA; [unfold element_begin, nested_object_begin; spending|unfold element_begin, nested_object_begin; opening|lia|cbn; nia].
    + eapply HA; [unfold nested_object_begin; spending|unfold nested_object_begin; opening|lia|cbn; nia].
    + unfold on_array_element_atom. destruct (element_begin u) as [[u1 v]| |] eqn:E; cbn [obind]; try exact I.
      assert (Hs : spends indenting (2 * n) (S (2 * n)) (2 + 2 * b) element_begin) by (eapply spends_weaken; [unfold element_begin; spending|cbn; lia]).
      destruct (Hs _ _ _ Hu E) as (H1 & H2). assert (O1 : open u1) by (revert E Ho; unfold element_begin; opening). destruct v as [v|m]; [|cbn; nia].
      apply (atom_modest n (S (2 * n))); auto; [lia|nia].
    + unfold on_field_key. cbn [field set_field]. subst w. cbn [hd]. eapply (to_act n (2 * n)); [spending|opening|lia|exact Hu|exact Ho|exact HR|].
      unfold cost_to. cbn [cout set_field List.length bs]. cbn. nia.
    + unfold on_field_key. cbn [field set_field]. subst w. cbn [hd]. eapply (to_act n (2 * n)); [spending|opening|lia|exact Hu|exact Ho|exact HR|].
      unfold cost_to. cbn [cout set_field List.length bs]. cbn. nia.
Qed.
Lemma to_end n name x u : fits n u ->
  let '(u1, a) := n2d_find_end_action wrapper name x u in
  match a with
  | None => amount u1 <= amount u + cost_to n /\ fits (S n) u1
  | Some act =>
      match act u1 with
      | Done (u', Ok _) => amount u' <= amount u + cost_to n /\ fits (S n) u'
      | Done (u', Err _) => amount u' <= amount u + cost_to n
      | _ => True
      end
  end.
Proof.
  intros (Hu & Ho). unfold n2d_find_end_action.
  assert (HN : amount u <= amount u + cost_to n /\ fits (S n) u) by (split; [lia|]; split; [eapply shallow_le; [|exact Hu]; lia|exact Ho]).
  assert (HA : forall f e k, spends indenting (2 * n) e k f -> opens f -> e <= 2 * S n -> k <= 16 + b * (12 + 8 * n) ->
    match f u with
    | Done (u', Ok _) => amount u' <= amount u + cost_to n /\ fits (S n) u'
    | Done (u', Err _) => amount u' <= amount u + cost_to n
    | _ => True
    end).
  { intros f e k Hf Hof He Hk. destruct (f u) as [[u' v]| |] eqn:E; auto. destruct (Hf _ _ _ Hu E) as (H1 & H2). unfold cost_to. destruct v; [|lia]. split; [lia|].
    split; [eapply shallow_le; [exact He|exact H2]|exact (Hof _ _ _ E Ho)]. }
  assert (HAE : match on_array_end u with
    | Done (u', Ok _) => amount u' <= amount u + cost_to n /\ fits (S n) u'
    | Done (u', Err _) => amount u' <= amount u + cost_to n
    | _ => True end) by (eapply HA; [unfold on_array_end; spending|unfold on_array_end; opening|lia|cbn; nia]).
  assert (HOE : match on_nested_object_end u with
    | Done (u', Ok _) => amount u' <= amount u + cost_to n /\ fits (S n) u'
    | Done (u', Err _) => amount u' <= amount u + cost_to n
    | _ => True end) by (eapply HA; [unfold on_nested_object_end; spending|unfold on_nested_object_end; opening|lia|cbn; nia]).
  assert (HSE : match on_array_element_end u with
    | Done (u', Ok _) => amount u' <= amount u + cost_to n /\ fits (S n) u'
    | Done (u', Err _) => amount u' <= amount u + cost_to n
    | _ => True end) by exact HN.
  destruct (names x) as [|parent path]; [exact HN|]. destruct (beq parent (bs "#top")).
  - destruct name; auto.
    + eapply HA; [unfold on_root_array_end, on_array_end; spending|unfold on_root_array_end, on_array_end; opening|lia|cbn; nia].
    + unfold on_root_object_end. destruct wrapper; (eapply HA; [spending|opening|lia|cbn; nia]).
  - destruct name; auto. destruct (beq parent (bs "#array")); auto. destruct path as [|g path]; auto. destruct (beq g (bs "L")); auto.
Qed.
Lemma n2d_modest : modest c q amount cost_to fits (n2d_callbacks wrapper).
Proof. constructor; [apply to_begin|apply to_end]. Qed.
End ToDdb.

(** ** Runs *)
Section Run.
Context (indenting wrapper : bool) (c : nat) (Hc : 8 <= c) (d : dims).
Notation cb := (n2d_callbacks wrapper).
Notation o0 := (mkOptions [] false).
Notation o1 := (mkOptions [] true).
Notation amount := (fun u : conv => size (cout u)).
Notation cost := (cost_to indenting).
Notation holds n w s := (holds_to c true amount (fits indenting) n w s).
Lemma cost_to_mono n m : n <= m -> cost n <= cost m.
Proof. intros H. unfold cost_to. nia. Qed.
Lemma fits_mono n m u : n <= m -> fits indenting n u -> fits indenting m u.
Proof. intros H (A & B). split; [intros Hp; destruct (A Hp); split; [assumption|lia]|exact B]. Qed.
Lemma to_iter n w pos s : stands (kept wrapper) d [] pos s -> holds n w s -> verdict_keeps c true amount (fits indenting) (2 + n) (w + 2 * cost (S n)) (scan_iter cb o0 pos s).
Proof.
  intros Hst H. apply (keeps_iter c true amount cost (fits indenting) cb (n2d_modest indenting wrapper c true Hc) cost_to_mono fits_mono o0 d [] Hc (Forall_nil _) (or_introl eq_refl)); [|exact H].
  exact (stands_placed d [] (kept wrapper) _ _ Hst).
Qed.
Lemma halted_return p s : stands (kept wrapper) d [] p s -> ready c true (parser s) -> p = ObjectMiddle \/ p = ArrayMiddle -> halts c (parser s) ->
  forall s' p', scan_iter cb o0 p s <> Done (s', Continue p').
Proof.
  intros Hst HR Hp Hh s' p' E.
  apply (halted_ends c true true true (halts c) (kept wrapper) cb (n2d_steady indenting wrapper c Hc) o1 d [] Hc (or_introl eq_refl) (or_introl eq_refl) 0 p s Hst HR); [unfold settled; tauto|exact Hh|].
  cbn [scan_loop stop_early]. replace (true && true && pos_eqb p Top)%bool with false by (destruct Hp as [-> | ->]; reflexivity).
  rewrite <- (iter_same wrapper). rewrite E. reflexivity.
Qed.
Lemma to_loop fuel : forall pg pos s n w m, stands (kept wrapper) d [] pos s -> holds n w s -> weighs pos (left (parser s)) < m ->
  match scan_loop cb o0 fuel pg pos s with Done (s', _) => amount (user s') <= w + m * (2 * cost (n + 2 * m)) | _ => True end.
Proof.
  induction fuel as [|fuel IH]; intros pg pos s n w m Hst H Hm; [exact Logic.I|]. cbn [scan_loop stop_early]. rewrite andb_false_r. cbn [andb].
  pose proof (iter_goes c true true true (halts c) (kept wrapper) cb (n2d_steady indenting wrapper c Hc) o1 d [] Hc (Forall_nil _) (or_introl eq_refl) (or_introl eq_refl)
    pos s (left (parser s)) Hst ltac:(split; [apply H|apply le_n])) as Hi. rewrite <- (iter_same wrapper) in Hi.
  pose proof (to_iter n w pos s Hst H) as Hk. pose proof (cost_to_mono (S n) (n + 2 * m) ltac:(lia)) as Hle.
  destruct m as [|m]; [lia|].
  destruct (scan_iter cb o0 pos s) as [[s1 [p|r]]| |]; cbn [advances verdict_keeps] in *; [| |exact Logic.I|exact Logic.I].
  - destruct Hi as (H1 & H2 & H3). destruct (H3 eq_refl) as [H4|(Hm1 & Hp & H4)].
    + specialize (IH true p s1 (2 + n) (w + 2 * cost (S n)) m H1 Hk ltac:(lia)). destruct (scan_loop cb o0 fuel true p s1) as [[s2 v]| |]; auto.
      replace (2 + n + 2 * m) with (n + 2 * S m) in IH by lia. lia.
    + destruct fuel as [|fuel]; [exact Logic.I|]. destruct Hp as [-> | Hp].
      * destruct H1 as (es & (Hin & Hf) & Hn & _). cbn in Hf. subst es. destruct H4 as (HG & Hs).
        rewrite (cut_forever c Hc wrapper d (S fuel) true s1 [] (rest (parser s1)) HG eq_refl (Forall_nil _) Hs Hn); [exact Logic.I|]. apply Hk.
      * cbn [scan_loop stop_early]. rewrite andb_false_r. cbn [andb]. pose proof (to_iter (2 + n) (w + 2 * cost (S n)) p s1 H1 Hk) as Hk2.
        pose proof (halted_return p s1 H1 H2 Hp H4) as Hno. pose proof (cost_to_mono (S (2 + n)) (n + 2 * S m) ltac:(lia)) as Hle2.
        destruct (scan_iter cb o0 p s1) as [[s2 [p2|r]]| |]; cbn [verdict_keeps] in *; [destruct (Hno _ _ eq_refl)| |exact Logic.I|exact Logic.I].
        destruct m as [|m]; [lia|]. destruct r; lia.
  - destruct r; lia.
Qed.
End Run.
Lemma to_ddb_open fuel rd w rb xb pr wr w' v : 8 <= len rb -> (forall e, ~ In (Fail e) (sched rd)) -> wfail w = None ->
  convert_normal_to_ddb fuel rd w rb xb pr wr = Done (w', v) ->
  size w' <= size w + len (src rd) + (2 * len (src rd) + 2) * (2 * cost_to pr (2 * (2 * len (src rd) + 2))).
Proof.
  intros H8 Hq Hn. unfold convert_normal_to_ddb, convert. assert (Hs : (34 * 4 + 1 < usize_modulus)%N) by reflexivity.
  destruct (proj1 (proj2 (new_exact true xb 34 Hs))) as (p & E). rewrite E. cbn [obind].
  destruct p as [p|e]; [|cbn [obind]; intros Y; injection Y as <- <-; cbn; lia].
  pose proof (stack_new _ _ _ _ E Hs) as Hst.
  destruct (scan_enters (n2d_callbacks wr) (mkOptions [] false) _ (mkS (rj_new rd rb) (conv_new w pr) p) [] Hst) as (p' & Ee). cbn [parser user] in Ee.
  destruct (admit_name _ _ _).
  { rewrite Ee. cbn [obind]. intros Y. injection Y as <- <-. cbn. lia. }
  destruct Ee as (Hp & Ee). rewrite Ee.
  pose proof (to_loop pr wr (len rb) H8 (mkDims 34 (len xb - N.to_nat (34 * 4))) fuel false Top (mkS (rj_new rd rb) (conv_new w pr) p') 0 (size w + len (src rd)) (2 * len (src rd) + 2)) as H.
  cbn [parser user] in H. unfold left in H. rewrite new_rest in H.
  specialize (H ltac:(exists []; split; [split; [constructor|reflexivity]|]; split; [exact Hp|]; split; [left; reflexivity|cbn; lia])).
  specialize (H ltac:(split; [split; [apply valid_new|split; [reflexivity|intros _; apply quiet_new, Hq]]|split; [cbn [parser user cout conv_new]; unfold left; rewrite new_rest; apply le_n|split; [intros Hp'; cbn in *; auto|exact Hn]]])).
  specialize (H ltac:(cbn; lia)).
  destruct (scan_loop _ _ _ _ _ _) as [[s x]| |]; cbn [obind]; try discriminate. intros Y. cbn [Nat.add] in H. destruct x as [[]|e]; injection Y as <- <-; exact H.
Qed.
(** A writer may also fail later: a conversion that succeeds has not noticed. *)
Lemma to_ddb_size fuel rd w rb xb pr wr w' v : 8 <= len rb -> (forall e, ~ In (Fail e) (sched rd)) -> wfail w = None \/ v = Ok tt ->
  convert_normal_to_ddb fuel rd w rb xb pr wr = Done (w', v) ->
  size w' <= size w + len (src rd) + (2 * len (src rd) + 2) * (2 * cost_to pr (2 * (2 * len (src rd) + 2))).
Proof.
  intros H8 Hq [Hn | ->] E; [eapply to_ddb_open; eauto|].
  pose proof (n2d_twin fuel rd w (mkWriter [] None) rb xb pr wr eq_refl) as T. rewrite E in T. cbn [twin_results] in T.
  destruct (convert_normal_to_ddb fuel rd (mkWriter [] None) rb xb pr wr) as [[w2 v2]| |] eqn:E2; [|destruct T; discriminate|destruct T; discriminate].
  apply to_ddb_open in E2; auto. destruct T as [(T & _)|((e & T) & _)]; [|discriminate].
  destruct T as (p & (Hp & _) & (Hp2 & _)). unfold size in *. rewrite Hp2 in E2. rewrite Hp. rewrite !app_length in *. change (len (written (mkWriter [] None))) with 0 in E2. lia.
Qed.
Lemma to_ddb_compact_size fuel rd w rb xb wr w' v : 8 <= len rb -> (forall e, ~ In (Fail e) (sched rd)) -> wfail w = None \/ v = Ok tt ->
  convert_normal_to_ddb fuel rd w rb xb false wr = Done (w', v) -> len (written w') <= len (written w) + 65 * len (src rd) + 64.
Proof. intros H8 Hq Hn E. apply to_ddb_size in E; auto. unfold size, cost_to, breaks in E. lia. Qed.
Lemma to_ddb_pretty_size fuel rd w rb xb wr w' v : 8 <= len rb -> (forall e, ~ In (Fail e) (sched rd)) -> wfail w = None \/ v = Ok tt ->
  convert_normal_to_ddb fuel rd w rb xb true wr = Done (w', v) -> let n := len (src rd) in len (written w') <= len (written w) + 128 * n * n + 369 * n + 240.
Proof. intros H8 Hq Hn E. apply to_ddb_size in E; auto. cbv zeta. unfold size, cost_to, breaks in E. nia. Qed.
