(** What idtransform and the two converters write is UTF-8, also if they fail. *)
From Verif Require Import Base U8Pool Buffer BufferSpec BufferProofs Jiter JiterProofs RJiter RJiterSpec RJiterProofs RJiterOpProofs RJiterEndProofs RJiterLongProofs RJiterInvProofs Scan ScanSpec SoundSpec SoundParser.
From Verif Require Import ScanTokens ScanParser ScanStack ScanProofs ScanTop ScanSound SoundResults RJiterIndexProofs IdTransform IdSpec IdProofs Conv ConvSpec ConvSound N2dSound UnicodeSpec UnicodeProofs Utf8Spec Utf8Proofs Utf8Always.
From Verif Require NormalToDdb DdbToNormal.
From Verif Require Import Cli.

(** ** idtransform *)
Section Idt.
Context (w0 : writer) (c : nat) (H2 : 2 <= c).
Definition key_fine (q : seqpos) : Prop := match q with AtBeginningKey k | InMiddleKey k => is_utf8 k | _ => True end.
Definition idt_fine (t : idt) : Prop := added w0 (out t) /\ key_fine (seq t).
Lemma put_all_fine parts : forall t t' r, idt_fine t -> Forall (fun x => is_utf8 (fst x)) parts -> put_all t parts = (t', r) -> idt_fine t'.
Proof.
  induction parts as [|(b, m) parts IH]; intros t t' r (Ha & Hk) Hf E; cbn [put_all] in E; [injection E as <- _; split; assumption|].
  inversion Hf as [|? ? Hb Hf']; subst. destruct (write_all (out t) b) as [w v] eqn:Ew. destruct (added_more _ _ _ _ _ Ha Hb Ew) as (Ha' & ->).
  apply (IH _ _ _) in E; [exact E| |exact Hf']. split; [exact Ha'|exact Hk].
Qed.
Lemma seqpos_fine t t' r : idt_fine t -> write_seqpos t = (t', r) -> idt_fine t'.
Proof.
  intros H E. pose proof H as (Ha & Hk).
  assert (K : forall parts, Forall (fun x => is_utf8 (fst x)) parts ->
    match put_all t parts with (t, Ok tt) => (set_seq t InMiddle, Ok tt) | (t, Err m) => (t, Err m) end = (t', r) -> idt_fine t').
  { intros parts Hp X. destruct (put_all t parts) as [t1 v] eqn:Ep. apply (put_all_fine parts t t1 v H Hp) in Ep.
    destruct v as [[]|m]; injection X as <- _; [split; [apply Ep|exact Logic.I]|exact Ep]. }
  unfold write_seqpos in E. destruct (seq t) as [| |k|k|].
  - injection E as <- _. split; [exact Ha|exact Logic.I].
  - apply K in E; [exact E|]. constructor; [|constructor]. cbn [fst]. destruct (is_top_level t); reflexivity.
  - apply K in E; [exact E|]. repeat constructor. exact Hk.
  - apply K in E; [exact E|]. repeat constructor. exact Hk.
  - injection E as <- _. exact H.
Qed.
Lemma copy_atom_added x s w s' w' r l : after false c s -> rest s = x :: l -> is_utf8 (rest s) -> added w0 w -> copy_atom x s w = Done (s', w', r) -> added w0 w'.
Proof.
  intros HG HR Hu Ha E. unfold copy_atom in E.
  assert (L : forall X (op : rj -> outcome (rj * result X rerror)) b, is_utf8 b ->
    (do (r', v) <- op s; match v with
      | Ok _ => match write_all w b with (w', Ok _) => Done (r', w', Ok tt) | (w', Err e) => Done (r', w', Err (IOError e)) end
      | Err e => Done (r', w, Err (RJiterError e)) end) = Done (s', w', r) -> added w0 w').
  { intros X op b Hb X1. destruct (op s) as [[r' [v|e]]| |]; try discriminate; cbn [obind] in X1; [|injection X1 as _ <- _; exact Ha].
    destruct (write_all w b) as [w1 v1] eqn:Ew. destruct (added_more _ _ _ _ _ Ha Hb Ew) as (Ha' & ->). injection X1 as _ <- _. exact Ha'. }
  destruct (N.eqb_spec x QUOTE) as [-> |_].
  { destruct (write_all w [QUOTE]) as [w1 v1] eqn:Ew. destruct (added_more w0 _ [QUOTE] _ _ Ha eq_refl Ew) as (Ha1 & ->).
    destruct (write_long_bytes s w1) as [[[s2 w2] v]| |] eqn:El; try discriminate. cbn [obind] in E. rewrite HR in Hu. apply cons_utf8 in Hu; [|reflexivity].
    pose proof (added_long _ _ _ _ _ _ _ (proj1 HG) HR Hu Ha1 El) as Ha2. destruct v as [v|e]; [|injection E as _ <- _; exact Ha2].
    destruct (write_all w2 [QUOTE]) as [w3 v3] eqn:Ew3. destruct (added_more w0 _ [QUOTE] _ _ Ha2 eq_refl Ew3) as (Ha3 & ->). injection E as _ <- _. exact Ha3. }
  destruct (N.eqb x PeekNull); [exact (L _ _ (bs "null") eq_refl E)|]. destruct (N.eqb x PeekTrue); [exact (L _ _ (bs "true") eq_refl E)|].
  destruct (N.eqb x PeekFalse); [exact (L _ _ (bs "false") eq_refl E)|].
  destruct (next_number_bytes s) as [[r' [t|e]]| |] eqn:En; try discriminate; cbn [obind] in E; [|injection E as _ <- _; exact Ha].
  destruct (read_number false c H2 s r' t HG En) as (_ & _ & Ht & _).
  destruct (write_all w t) as [w1 v1] eqn:Ew. destruct (added_more w0 _ t _ _ Ha (utf8_ascii _ (number_ascii _ Ht)) Ew) as (Ha' & ->). injection E as _ <- _. exact Ha'.
Qed.
Lemma idt_polite : polite false c idt_fine idt_callbacks.
Proof.
  split.
  - intros name path s t Hpa Hp HG HR _ H. cbn [find_action idt_callbacks].
    assert (HS : forall b s' u' op, is_utf8 b -> forall n, on_struct b s (IdTransform.set_level t n) = Done (s', u', op) -> idt_fine u').
    { intros b s' u' op Hb n E. unfold on_struct in E. destruct (write_seqpos _) as [t1 v] eqn:Es. apply seqpos_fine in Es; [|exact H].
      destruct v as [v|m]; [|injection E as _ <- _; exact Es]. destruct (put_all t1 _) as [t2 v2] eqn:Ep. apply put_all_fine in Ep; [|exact Es|repeat constructor; exact Hb].
      destruct v2; injection E as _ <- _; [split; [apply Ep|exact Logic.I]|exact Ep]. }
    destruct name; cbn [idt_find_action ctx_len names].
    + intros s' u' op E. exact (HS [LBRACK] _ _ _ eq_refl _ E).
    + intros s' u' op E. exact (HS [LBRACE] _ _ _ eq_refl _ E).
    + intros s' u' op E. unfold on_atom in E. destruct (write_seqpos _) as [t1 v] eqn:Es. apply seqpos_fine in Es; [|exact H].
      destruct v as [v|m]; [|injection E as _ <- _; exact Es]. destruct (peek s) as [[s1 [x|e]]| |] eqn:Ep; try discriminate; cbn [obind] in E.
      2:{ injection E as _ <- _. destruct (err_type e); exact Es. }
      destruct (calm_peek false false c H2 _ _ _ HG Ep) as (HG1 & w & l & Hr & Hr1 & Hw). rewrite Hr in HR. apply (utf8_behind _ _ (blanks_ascii _ Hw)) in HR. rewrite <- Hr1 in HR.
      destruct (copy_atom x s1 (out t1)) as [[[s2 w2] v2]| |] eqn:Ec; try discriminate. cbn [obind] in E.
      apply (copy_atom_added x s1 (out t1) s2 w2 v2 l (proj1 HG1) Hr1 HR (proj1 Es)) in Ec.
      assert (Hf : idt_fine (set_out t1 w2)) by (split; [exact Ec|apply Es]).
      destruct v2 as [v2|e]; [injection E as _ <- _; exact Hf|]. injection E as _ <- _. destruct e; try exact Hf. destruct (err_type _); exact Hf.
    + destruct path as [|k path]; [exact H|]. destruct (_ && _)%bool; [|exact H]. intros s' u' op E. unfold on_key in E. inversion Hp as [|? ? Hk Hp']; subst.
      destruct (write_seqpos _) as [t1 v] eqn:Es. apply seqpos_fine in Es; [|split; [apply H|cbn; destruct (seq t); exact Hk]].
      destruct v as [v|m]; injection E as _ <- _; [split; [apply Es|exact Logic.I]|exact Es].
  - intros name path t _ H. cbn [find_end_action idt_callbacks idt_find_end_action].
    assert (HS : forall b u' e, is_utf8 b -> on_struct_end b t = Done (u', e) -> idt_fine u').
    { intros b u' e Hb E. unfold on_struct_end in E. assert (Ep : put_all (set_seq t InMiddle) [(b, "IO error writing struct end"%string)] = (u', e)) by congruence. apply put_all_fine in Ep; [exact Ep|split; [apply H|exact Logic.I]|repeat constructor; exact Hb]. }
    destruct name; try exact H; intros u' e E; [exact (HS [RBRACK] _ _ eq_refl E)|exact (HS [RBRACE] _ _ eq_refl E)].
Qed.
End Idt.
Lemma idt_always c d r w p r' w' p' v fuel : 2 <= c -> valid r -> rcap r = c -> fresh d p -> wfail w = None -> characters (rest r) ->
  idtransform fuel r w p = Done (r', w', p', v) -> exists text, RJiter.written w' = RJiter.written w ++ text /\ characters text.
Proof.
  intros H2 V C F W HR E. unfold idtransform in E.
  destruct (scan idt_callbacks (mkOptions [] true) fuel (mkS r (idt_new w) p)) as [[s rr]| |] eqn:Es; try discriminate. cbn [obind] in E. injection E as _ <- _ _.
  apply (always_scan false c (idt_fine w) idt_callbacks (mkOptions [] true) d H2 (heeds_moves _ _ _ _ (heeds_any _ _ _ _ (idt_heeds false c H2))) (idt_polite w c H2) eq_refl) in Es; auto.
  - destruct Es as ((_ & _ & a & Ha & Hw) & _). exists a. split; [exact Hw|]. apply characters_eq, Ha.
  - apply wild. split; [exact V|]. split; [exact C|discriminate].
  - apply characters_eq, HR.
  - split; [apply added_same, W|exact Logic.I].
Qed.

(** ** The converters *)
Section Steps.
Context (w0 : writer).
Definition conv_fine (c : conv) : Prop := added w0 (cout c) /\ match field c with Some k => is_utf8 k | None => True end.
(** A step that writes UTF-8 only. *)
Definition clean_step {B} (U : B -> Prop) (f : step B) : Prop := forall c c' v, U c -> f c = Done (c', v) -> U c'.
Lemma clean_then {B} (U : B -> Prop) (f g : step B) : clean_step U f -> clean_step U g -> clean_step U (f ;; g).
Proof.
  intros Hf Hg c c' v Hc E. unfold and_then in E. destruct (f c) as [[c1 [v1|m]]| |] eqn:Ef; try discriminate; cbn [obind] in E; apply (Hf _ _ _ Hc) in Ef.
  - exact (Hg _ _ _ Ef E).
  - injection E as <- _. exact Ef.
Qed.
Lemma clean_skip {B} (U : B -> Prop) : clean_step U skip.
Proof. intros c c' v Hc E. injection E as <- _. exact Hc. Qed.
Lemma clean_change {B} (U : B -> Prop) f : (forall c, U c -> U (f c)) -> clean_step U (change_to f).
Proof. intros Hf c c' v Hc E. injection E as <- _. exact (Hf c Hc). Qed.
Lemma clean_put b m : is_utf8 b -> clean_step conv_fine (put b m).
Proof.
  intros Hb c c' v (Ha & Hk) E. unfold put in E. destruct (write_all (cout c) b) as [w r] eqn:Ew. destruct (added_more _ _ _ _ _ Ha Hb Ew) as (Ha' & ->).
  injection E as <- _. split; assumption.
Qed.
Lemma clean_newline : clean_step conv_fine newline.
Proof. intros c c' v Hc E. unfold newline in E. destruct (pretty c); [exact (clean_put [10%N] _ eq_refl _ _ _ Hc E)|exact (clean_skip _ _ _ _ Hc E)]. Qed.
Lemma clean_comma_is b : clean_step conv_fine (comma_is b).
Proof. apply clean_change. intros c H. exact H. Qed.
Lemma clean_deeper : clean_step conv_fine deeper.
Proof. apply clean_change. intros c H. exact H. Qed.
Lemma clean_level n : clean_step conv_fine (change_to (fun c => set_level c n)).
Proof. apply clean_change. intros c H. exact H. Qed.
Lemma clean_shallower : clean_step conv_fine shallower.
Proof. intros c c' v Hc E. unfold shallower in E. destruct (level c); [discriminate|]. injection E as <- _. exact Hc. Qed.
Lemma clean_comma : clean_step conv_fine write_comma.
Proof.
  intros c c' v Hc E. unfold write_comma in E. destruct (pending c); [|exact (clean_skip _ _ _ _ Hc E)].
  refine (clean_then _ _ _ (clean_put [COMMA] _ eq_refl) (clean_then _ _ _ clean_newline _) _ _ _ Hc E). exact (clean_comma_is false).
Qed.
Lemma clean_indents n : clean_step conv_fine (indents n).
Proof. induction n as [|n IH]; cbn [indents]; [apply clean_skip|]. apply clean_then; [apply clean_put; reflexivity|exact IH]. Qed.
Lemma clean_indent : clean_step conv_fine indent.
Proof. intros c c' v Hc E. unfold indent in E. destruct (pretty c); [exact (clean_indents _ _ _ _ Hc E)|exact (clean_skip _ _ _ _ Hc E)]. Qed.
Definition clean_act {B} (U : B -> Prop) (a : action B) (s : rj) : Prop := forall c s' c' op, U c -> a s c = Done (s', c', op) -> U c'.
Lemma clean_act_of {B} (U : B -> Prop) (f : step B) op s : clean_step U f -> clean_act U (act_of f op) s.
Proof. intros Hf c s' c' op' Hc E. unfold act_of in E. destruct (f c) as [[c1 v]| |] eqn:Ef; try discriminate. cbn [obind] in E. injection E as _ <- _. exact (Hf _ _ _ Hc Ef). Qed.
End Steps.
Ltac clean :=
  lazymatch goal with
  | |- clean_step _ (_ ;; _) => apply clean_then; clean
  | |- clean_step _ skip => apply clean_skip
  | |- clean_step _ newline => apply clean_newline
  | |- clean_step _ write_comma => apply clean_comma
  | |- clean_step _ indent => apply clean_indent
  | |- clean_step _ (comma_is _) => apply clean_comma_is
  | |- clean_step _ deeper => apply clean_deeper
  | |- clean_step _ shallower => apply clean_shallower
  | |- clean_step _ (put _ _) => apply clean_put; first [reflexivity|assumption|idtac]
  | |- clean_step _ (change_to (fun c => set_level c _)) => apply clean_level
  | |- clean_step _ (if ?b then _ else _) => destruct b; clean
  | |- clean_act _ (act_of _ _) _ => apply clean_act_of; clean
  | |- _ => idtac
  end.
Import NormalToDdb.
(** ** What the converter to DynamoDB JSON does to the parser, whether or not the reader fails *)
Lemma poised_kept {A} k known (f : jop A) op s s' e x l : method k known None f op -> eager_of k = false -> inert f -> valid s -> 2 <= rcap s -> poised s ->
  rest s = x :: l -> is_ascii_whitespace x = false -> op s = Done (s', Err e) -> rest s' = rest s.
Proof.
  intros M Hk Hi V Hc Hq HR Hx E. apply method_facts in M as [-> Hw Hb He Hl Hbl Hd]. rewrite Hk in E. unfold loop_until_success, jcall in E. pose proof V as (W & J & I').
  destruct (f (jview s)) as [[v|[er o]] a] eqn:Ef; [discriminate|]. pose proof (Hi _ _ _ Ef) as ->. rewrite Nat.add_0_r in E.
  set (s1 := mkRj (bf s) (jlen s) (jidx s)) in *.
  destruct (feeding_spec s1 (jidx s) None W I' Hc) as (s2 & r2 & E2 & P2).
  destruct (feeding_poised s 0 V Hq) as (s3 & E3). rewrite Nat.add_0_r in E3. fold s1 in E3. rewrite E2 in E3. injection E3 as <- ->.
  rewrite E2 in E. destruct P2 as (W2 & C2 & Q2 & T2 & S2 & P2). change (skipn (jidx s) (stream (bf s1))) with (rest s) in S2.
  assert (S3 : stream (bf s2) = rest s).
  { rewrite S2, HR. unfold strip, skip_aw. cbn [run_length]. rewrite Hx. reflexivity. }
  assert (J2 : jidx s2 = 0) by (destruct P2 as [(_ & P2)|(P2 & _ & _ & _ & P3)]; [exact P2|]; cbn [s1 jidx] in P3; congruence).
  apply (retry_kept f Hi) in E; [|split; [exact W2|]|exact J2].
  - rewrite E. unfold rest at 1. rewrite J2. exact S3.
  - destruct P2 as [[P2 P3]|(P2 & P3 & P4 & P5 & P6)]; [split; [exact P2|lia]|]. rewrite J2, P4, P5. cbn [s1 jlen bf] in *. split; [exact J|lia].
Qed.
Section ToDdbMoves.
Context (wr : bool) (c : nat) (H2 : 2 <= c).
Notation G := (calmly false false c).
Lemma peek_poised s s1 x l : G s1 -> peek s = Done (s1, Ok x) -> rest s1 = x :: l -> is_ascii_whitespace x = false -> poised s1.
Proof. intros _ E _ Hx. destruct (peek_view _ _ _ E) as (q & Hv). unfold poised. rewrite Hv. exact Hx. Qed.
Lemma poised_failed {A} (f : jop A) op s s' e x l : method Plain true None f op -> inert f -> G s -> poised s -> rest s = x :: l -> is_ascii_whitespace x = false ->
  op s = Done (s', Err e) -> G s' /\ rest s' = rest s.
Proof.
  intros M Hi ((V & C & HJ) & _) HP HR Hx E. split; [|eapply (poised_kept Plain true f op s s' e x l M); eauto; lia].
  destruct (method_failed c false _ _ _ _ _ s s' e M (inert_reined _ Hi) H2 ltac:(split; [exact V|]; split; [exact C|discriminate]) E ltac:(auto)) as ((V' & C' & Q') & _).
  split; [|discriminate]. split; [exact V'|]. split; [exact C'|]. exact (closed_method _ (closed_after false) _ _ _ _ _ _ _ _ M E HJ).
Qed.
Definition atom_moved (s s' : rj) (op : stream_op) : Prop :=
  match op with
  | OpNone => False
  | ValueIsConsumed => G s' /\ ((exists v, 0 < jidx s' /\ lax_document false true v (rest s) (rest s')) \/ (literal_ahead (rest s') /\ exists w, blanks w /\ rest s = w ++ rest s'))
  | OpError _ => True
  end.
Lemma act_moved (g : step conv) op s b s' b' op' : act_of g op s b = Done (s', b', op') -> (exists m, op' = OpError m) \/ (op' = op /\ s' = s).
Proof. intros E. unfold act_of in E. destruct (g b) as [[b1 [[]|m]]| |] eqn:Eg; cbn [obind] in E; try discriminate; injection E as <- <- <-; eauto. Qed.
Lemma moved_blanks s s1 s' op w : rest s = w ++ rest s1 -> blanks w -> atom_moved s1 s' op -> atom_moved s s' op.
Proof.
  intros Hr Hw H. destruct op; [exact H| |exact Logic.I]. destruct H as (HG & [(v & Hj & Hd)|(Hk & w1 & Hw1 & Hr1)]); (split; [exact HG|]); [left|right].
  - exists v. split; [exact Hj|]. rewrite Hr. apply document_blanks; assumption.
  - split; [exact Hk|]. exists (w ++ w1). rewrite Hr, Hr1, app_assoc. split; [apply blanks_app; assumption|reflexivity].
Qed.
Lemma string_moved s l b s' b' op : G s -> rest s = QUOTE :: l -> on_string_value s b = Done (s', b', op) -> atom_moved s s' op.
Proof.
  intros HG HR E. unfold on_string_value in E. destruct ((indent ;; _) b) as [[b1 [[]|m]]| |]; cbn [obind] in E; try discriminate; [|injection E as <- <- <-; exact Logic.I].
  destruct (write_long_bytes s (cout b1)) as [[[s2 w2] [u|e]]| |] eqn:El; cbn [obind] in E; try discriminate; [|injection E as <- <- <-; exact Logic.I].
  destruct (calm_long false false c s (cout b1) s2 w2 u l HG HR El) as (HG2 & Hi & t & Ht & Hs & Hl).
  apply act_moved in E as [(m & ->)|(-> & ->)]; [exact Logic.I|]. split; [exact HG2|]. left. exists (JString t). split; [exact Hi|]. rewrite Ht. apply document_value, lax_string, Hl.
Qed.
Lemma peek_same s s1 x y l : G s -> rest s = x :: l -> is_ascii_whitespace x = false -> peek s = Done (s1, Ok y) -> G s1 /\ y = x /\ rest s1 = x :: l.
Proof.
  intros HG HR Hx E. destruct (calm_peek false false c H2 s s1 y HG E) as (HG1 & w & m & Hr & Hr1 & Hw). rewrite HR in Hr.
  pose proof (head_kept w x y l m Hw Hr Hx) as H. split; [exact HG1|]. rewrite Hr1, H. injection H as -> ->. auto.
Qed.
Lemma bool_moved s x l b s' b' op : G s -> rest s = x :: l -> x = PeekTrue \/ x = PeekFalse -> on_bool_value s b = Done (s', b', op) -> atom_moved s s' op.
Proof.
  intros HG HR Hx E. unfold on_bool_value in E. pose proof (literal_solid x ltac:(tauto)) as Hs.
  destruct (peek s) as [[s1 [p|e]]| |] eqn:Ep; cbn [obind] in E; try discriminate; [|injection E as <- <- <-; exact Logic.I].
  destruct (peek_same s s1 x p l HG HR Hs Ep) as (HG1 & -> & HR1).
  destruct (indent b) as [[b1 [[]|m]]| |] eqn:Ei; cbn [obind] in E; try discriminate; [|injection E as <- <- <-; exact Logic.I].
  assert (K : forall g : step conv, (do (r, _) <- known_bool x s1; act_of g ValueIsConsumed r b1) = Done (s', b', op) -> atom_moved s s' op).
  { intros g E1. destruct (known_bool x s1) as [[s2 v]| |] eqn:Ek; cbn [obind] in E1; try discriminate.
    apply act_moved in E1 as [(m & ->)|(-> & ->)]; [exact Logic.I|]. destruct v as [v|e].
    - destruct (calm_bool false false c H2 x s1 s2 v l Hx HG1 HR1 Ek) as (HG2 & Hi & Hr & _). split; [exact HG2|]. left.
      exists (if N.eqb x PeekTrue then JTrue else JFalse). split; [exact Hi|]. rewrite HR, <- HR1, Hr. apply document_value. destruct (N.eqb x PeekTrue); constructor.
    - destruct (poised_failed _ _ s1 s2 e x l (m_known_bool x) (known_bool_inert x) HG1 (peek_poised _ _ _ _ HG1 Ep HR1 Hs) HR1 Hs Ek) as (HG2 & Hr).
      split; [exact HG2|]. right. split; [exists x, l; split; [congruence|tauto]|]. exists []. split; [constructor|]. cbn [app]. congruence. }
  destruct (N.eqb_spec x PeekTrue) as [Hz|Hz]; [exact (K _ E)|]. destruct (N.eqb_spec x PeekFalse) as [Hy|Hy]; [exact (K _ E)|].
  injection E as <- <- <-. exact Logic.I.
Qed.
Lemma null_moved s l b s' b' op : G s -> rest s = PeekNull :: l -> on_null_value s b = Done (s', b', op) -> atom_moved s s' op.
Proof.
  intros HG HR E. unfold on_null_value in E.
  destruct (peek s) as [[s1 [p|e]]| |] eqn:Ep; cbn [obind] in E; try discriminate; [|injection E as <- <- <-; exact Logic.I].
  destruct (peek_same s s1 PeekNull p l HG HR eq_refl Ep) as (HG1 & -> & HR1). rewrite N.eqb_refl in E.
  destruct (known_null s1) as [[s2 v]| |] eqn:Ek; cbn [obind] in E; try discriminate.
  apply act_moved in E as [(m & ->)|(-> & ->)]; [exact Logic.I|]. destruct v as [v|e].
  - destruct (calm_null false false c H2 s1 s2 v l HG1 HR1 Ek) as (HG2 & Hi & Hr). split; [exact HG2|]. left.
    exists JNull. split; [exact Hi|]. rewrite HR, <- HR1, Hr. apply document_value, lax_null.
  - destruct (poised_failed _ _ s1 s2 e PeekNull l m_known_null (ident_inert _ _) HG1 (peek_poised _ _ _ _ HG1 Ep HR1 eq_refl) HR1 eq_refl Ek) as (HG2 & Hr).
    split; [exact HG2|]. right. split; [exists PeekNull, l; split; [congruence|tauto]|]. exists []. split; [constructor|]. cbn [app]. congruence.
Qed.
Lemma value_moved s b s' b' op : G s -> on_atom_value s b = Done (s', b', op) -> atom_moved s s' op.
Proof.
  intros HG E. unfold on_atom_value in E.
  destruct (write_comma b) as [[b1 [[]|m]]| |] eqn:Ec; cbn [obind] in E; try discriminate; [|injection E as <- <- <-; exact Logic.I].
  destruct (peek s) as [[s1 [x|e]]| |] eqn:Ep; cbn [obind] in E; try discriminate; [|injection E as <- <- <-; exact Logic.I].
  destruct (calm_peek false false c H2 s s1 x HG Ep) as (HG1 & w & l & Hr & Hr1 & Hw). rewrite <- Hr1 in Hr.
  apply (moved_blanks s s1 s' op w Hr Hw).
  destruct (N.eqb_spec x QUOTE) as [->|_]; [exact (string_moved s1 l b1 s' b' op HG1 Hr1 E)|].
  destruct (N.eqb_spec x PeekTrue) as [->|_]; [exact (bool_moved s1 PeekTrue l b1 s' b' op HG1 Hr1 ltac:(auto) E)|].
  destruct (N.eqb_spec x PeekFalse) as [->|_]; [exact (bool_moved s1 PeekFalse l b1 s' b' op HG1 Hr1 ltac:(auto) E)|].
  destruct (N.eqb_spec x PeekNull) as [->|_]; [exact (null_moved s1 l b1 s' b' op HG1 Hr1 E)|]. cbn [orb] in E.
  destruct (next_number_bytes s1) as [[s2 [t|e]]| |] eqn:En; cbn [obind] in E; try discriminate; [|injection E as <- <- <-; exact Logic.I].
  destruct (calm_number false false c H2 s1 s2 t HG1 En) as (HG2 & Hi & Ht & w2 & Hw2 & Hr2).
  apply act_moved in E as [(m & ->)|(-> & ->)]; [exact Logic.I|]. split; [exact HG2|]. left. exists (JNumber t). split; [exact Hi|].
  rewrite Hr2. apply document_blanks; [exact Hw2|]. apply document_value, lax_number, Ht.
Qed.
Lemma root_moved s b s' b' op : G s -> on_root_literal s b = Done (s', b', op) -> atom_moved s s' op.
Proof.
  intros HG E. unfold on_root_literal in E. destruct ((_ ;; deeper) b) as [[b1 [[]|m]]| |]; cbn [obind] in E; try discriminate; [|injection E as <- <- <-; exact Logic.I].
  destruct (on_atom_value s b1) as [[[s1 b2] op1]| |] eqn:Ea; cbn [obind] in E; try discriminate. pose proof (value_moved s b1 s1 b2 op1 HG Ea) as H.
  apply act_moved in E as [(m & ->)|(-> & ->)]; [exact Logic.I|exact H].
Qed.
Lemma element_moved s b s' b' op : G s -> on_array_element_atom s b = Done (s', b', op) -> atom_moved s s' op.
Proof.
  intros HG E. unfold on_array_element_atom in E. destruct (element_begin b) as [[b1 [[]|m]]| |]; cbn [obind] in E; try discriminate; [|injection E as <- <- <-; exact Logic.I].
  exact (value_moved s b1 s' b' op HG E).
Qed.
Lemma n2d_moves : moves false c (n2d_callbacks wr).
Proof.
  split.
  - intros name path s b Hname Hpath HG. cbn [find_action n2d_callbacks]. destruct path as [|parent path]; [contradiction|].
    assert (HA : forall (g : step conv) s' u' op, act_of g OpNone s b = Done (s', u', op) ->
      match op with
      | OpNone => G s' /\ rest s' = rest s
      | ValueIsConsumed => G s' /\ ((exists v, 0 < jidx s' /\ lax_document false true v (rest s) (rest s')) \/
           (name = PAtom /\ literal_ahead (rest s') /\ exists w, blanks w /\ rest s = w ++ rest s'))
      | OpError _ => True
      end).
    { intros g s' u' op E. apply act_moved in E as [(m & ->)|(-> & ->)]; [exact Logic.I|]. auto. }
    assert (HT : forall s' op, name = PAtom -> atom_moved s s' op ->
      match op with
      | OpNone => G s' /\ rest s' = rest s
      | ValueIsConsumed => G s' /\ ((exists v, 0 < jidx s' /\ lax_document false true v (rest s) (rest s')) \/
           (name = PAtom /\ literal_ahead (rest s') /\ exists w, blanks w /\ rest s = w ++ rest s'))
      | OpError _ => True
      end).
    { intros s' op -> H. destruct op; [contradiction| |exact Logic.I]. destruct H as (HG' & [H|H]); auto. }
    unfold n2d_find_action. cbn [names]. destruct (beq parent (bs "#top")).
    + destruct name; [| | |contradiction]; intros s' u' op E; [exact (HA _ _ _ _ E)|exact (HA _ _ _ _ E)|]. apply HT; [reflexivity|]. exact (root_moved _ _ _ _ _ HG E).
    + destruct name; [| | |contradiction]; intros s' u' op E; destruct (beq parent (bs "#array")); try exact (HA _ _ _ _ E); (apply HT; [reflexivity|]).
      * exact (element_moved _ _ _ _ _ HG E).
      * exact (value_moved _ _ _ _ _ HG E).
  - intros path s b Hpath HG Hi. cbn [find_action n2d_callbacks]. destruct path as [|parent path]; [contradiction|].
    unfold n2d_find_action. cbn [names]. destruct (beq parent (bs "#top")); [exact Logic.I|]. intros s' u' op E. unfold on_field_key in E. cbn [snd fst set_field field] in E.
    apply act_moved in E as [(m & ->)|(-> & ->)]; [exact Logic.I|]. split; [exact HG|]. exists []. split; [constructor|reflexivity].
Qed.
End ToDdbMoves.
Section ToDdb.
Context (w0 : writer) (wr : bool) (c : nat) (H2 : 2 <= c).
Notation fine := (conv_fine w0).
Notation G := (calmly false false c).
Lemma clean_close : clean_step fine close_atom.
Proof. unfold close_atom. clean. Qed.
Lemma clean_string s l : G s -> rest s = QUOTE :: l -> is_utf8 l -> clean_act fine on_string_value s.
Proof.
  intros HG HR Hl b s' b' op Hb E. unfold on_string_value in E. destruct ((indent ;; _) b) as [[b1 v]| |] eqn:E1; try discriminate.
  apply (clean_then fine _ _ (clean_indent w0) (clean_put w0 (bs """S"":""") _ eq_refl) _ _ _ Hb) in E1. cbn [obind] in E.
  destruct v as [v|m]; [|injection E as _ <- _; exact E1].
  destruct (write_long_bytes s (cout b1)) as [[[s2 w2] v2]| |] eqn:El; try discriminate. cbn [obind] in E. destruct E1 as (Ha & Hk).
  apply (added_long w0 _ _ _ _ _ _ (proj1 (proj1 HG)) HR Hl Ha) in El. destruct v2 as [v2|e]; [|injection E as _ <- _; split; assumption].
  revert E. apply clean_act_of; [clean; apply clean_close|]. split; assumption.
Qed.
Lemma clean_bool s : clean_act fine on_bool_value s.
Proof.
  intros b s' b' op Hb E. unfold on_bool_value in E. destruct (peek s) as [[s1 [x|e]]| |]; try discriminate; cbn [obind] in E; [|injection E as _ <- _; exact Hb].
  destruct (indent b) as [[b1 v]| |] eqn:E1; try discriminate. apply (clean_indent w0 _ _ _ Hb) in E1. cbn [obind] in E. destruct v as [v|m]; [|injection E as _ <- _; exact E1].
  destruct (N.eqb x PeekTrue); [|destruct (N.eqb x PeekFalse); [|injection E as _ <- _; exact E1]].
  - destruct (known_bool x s1) as [[s2 v2]| |]; try discriminate. cbn [obind] in E. revert E. apply clean_act_of; [clean; apply clean_close|exact E1].
  - destruct (known_bool x s1) as [[s2 v2]| |]; try discriminate. cbn [obind] in E. revert E. apply clean_act_of; [clean; apply clean_close|exact E1].
Qed.
Lemma clean_null s : clean_act fine on_null_value s.
Proof.
  intros b s' b' op Hb E. unfold on_null_value in E. destruct (peek s) as [[s1 [x|e]]| |]; try discriminate; cbn [obind] in E; [|injection E as _ <- _; exact Hb].
  destruct (N.eqb x PeekNull); [|injection E as _ <- _; exact Hb].
  destruct (known_null s1) as [[s2 v2]| |]; try discriminate. cbn [obind] in E. revert E. apply clean_act_of; [clean; apply clean_close|exact Hb].
Qed.
Lemma clean_atom s : G s -> is_utf8 (rest s) -> clean_act fine on_atom_value s.
Proof.
  intros HG HR b s' b' op Hb E. unfold on_atom_value in E. destruct (write_comma b) as [[b1 v]| |] eqn:E1; try discriminate. apply (clean_comma w0 _ _ _ Hb) in E1.
  cbn [obind] in E. destruct v as [v|m]; [|injection E as _ <- _; exact E1].
  destruct (peek s) as [[s1 [x|e]]| |] eqn:Ep; try discriminate; cbn [obind] in E; [|injection E as _ <- _; exact E1].
  destruct (calm_peek false false c ltac:(lia) _ _ _ HG Ep) as (HG1 & w & l & Hr & Hr1 & Hw). rewrite Hr in HR. apply (utf8_behind _ _ (blanks_ascii _ Hw)) in HR.
  destruct (N.eqb_spec x QUOTE) as [-> |_]; [apply cons_utf8 in HR; [|reflexivity]; exact (clean_string s1 l HG1 Hr1 HR _ _ _ _ E1 E)|].
  destruct (_ || _)%bool; [exact (clean_bool _ _ _ _ _ E1 E)|]. destruct (N.eqb x PeekNull); [exact (clean_null _ _ _ _ _ E1 E)|].
  destruct (next_number_bytes s1) as [[s2 [t|e]]| |] eqn:En; try discriminate; cbn [obind] in E; [|injection E as _ <- _; exact E1].
  destruct (calm_number false false c ltac:(lia) s1 s2 t HG1 En) as (_ & _ & Ht & _).
  revert E. apply clean_act_of; [|exact E1]. clean; [|apply clean_close]. apply utf8_ascii. apply number_ascii in Ht. unfold ascii in Ht. rewrite Forall_forall in *.
  intros y Hy. apply Ht. rewrite <- (firstn_skipn 32 t). apply in_or_app. left. exact Hy.
Qed.
Lemma clean_root_literal s : G s -> is_utf8 (rest s) -> clean_act fine on_root_literal s.
Proof.
  intros HG HR b s' b' op Hb E. unfold on_root_literal in E. destruct ((_ ;; deeper) b) as [[b1 v]| |] eqn:E1; try discriminate.
  apply (clean_then fine _ _ (clean_put w0 [LBRACE] _ eq_refl) (clean_deeper w0) _ _ _ Hb) in E1. cbn [obind] in E. destruct v as [v|m]; [|injection E as _ <- _; exact E1].
  destruct (on_atom_value s b1) as [[[s2 b2] op2]| |] eqn:E2; try discriminate. cbn [obind] in E. apply (clean_atom s HG HR _ _ _ _ E1) in E2.
  revert E. apply clean_act_of; [clean|exact E2].
Qed.
Lemma clean_array_begin : clean_step fine array_begin.
Proof. unfold array_begin. clean. Qed.
Lemma clean_element_begin : clean_step fine element_begin.
Proof. unfold element_begin. clean. Qed.
Lemma clean_nested : clean_step fine nested_object_begin.
Proof. unfold nested_object_begin. clean. Qed.
Lemma clean_element_atom s : G s -> is_utf8 (rest s) -> clean_act fine on_array_element_atom s.
Proof.
  intros HG HR b s' b' op Hb E. unfold on_array_element_atom in E. destruct (element_begin b) as [[b1 v]| |] eqn:E1; try discriminate. apply (clean_element_begin _ _ _ Hb) in E1.
  cbn [obind] in E. destruct v as [v|m]; [exact (clean_atom s HG HR _ _ _ _ E1 E)|injection E as _ <- _; exact E1].
Qed.
Lemma clean_field_key s : clean_act fine on_field_key s.
Proof.
  intros b s' b' op Hb E. unfold on_field_key in E. destruct (field b) as [k|] eqn:Ek; [|injection E as _ <- _; exact Hb].
  pose proof (proj2 Hb) as Hk. rewrite Ek in Hk. revert E. apply clean_act_of; [clean|exact Hb].
Qed.
Lemma clean_array_end : clean_step fine on_array_end.
Proof. unfold on_array_end. clean. Qed.
Lemma n2d_polite : polite false c fine (n2d_callbacks wr).
Proof.
  split.
  - intros name path s b Hpa Hp HG HR _ Hb. cbn [find_action n2d_callbacks]. unfold n2d_find_action. cbn [names].
    destruct path as [|parent path]; [contradiction|]. inversion Hp as [|? ? Hk Hp']; subst. destruct (beq parent (bs "#top")).
    + destruct name; try exact Hb; intros s' b' op E; revert E.
      * apply clean_act_of; [clean; apply clean_array_begin|exact Hb].
      * apply clean_act_of; [clean|exact Hb].
      * apply clean_root_literal; assumption.
    + assert (Hf : fine (set_field b parent)) by (split; [apply Hb|exact Hk]). destruct name; intros s' b' op E; revert E.
      * destruct (beq parent _); (apply clean_act_of; [clean; first [apply clean_array_begin|apply clean_element_begin]|exact Hb]).
      * destruct (beq parent _); (apply clean_act_of; [clean; first [apply clean_nested|apply clean_element_begin]|exact Hb]).
      * destruct (beq parent _); [apply clean_element_atom|apply clean_atom]; assumption.
      * apply clean_field_key; assumption.
  - intros name path b _ Hb. cbn [find_end_action n2d_callbacks]. unfold n2d_find_end_action. cbn [names].
    destruct path as [|parent path]; [exact Hb|]. destruct (beq parent (bs "#top")).
    + destruct name; try exact Hb; intros b' e E; revert E.
      * apply (clean_then fine); [apply clean_array_end|clean|exact Hb].
      * enough (H : clean_step fine (on_root_object_end wr)) by exact (H b b' e Hb). unfold on_root_object_end. clean.
    + destruct name; try exact Hb.
      * intros b' e. exact (clean_array_end b b' e Hb).
      * intros b' e. enough (H : clean_step fine on_nested_object_end) by exact (H b b' e Hb). unfold on_nested_object_end. clean.
      * destruct (beq parent _); [|exact Hb]. destruct path as [|g path]; [exact Hb|]. destruct (beq g _); [|exact Hb]. intros b' e E. exact (clean_skip fine b b' e Hb E).
Qed.
End ToDdb.
Lemma to_ddb_added fuel rd w rb xb pr wr w' v : 2 <= len rb -> wfail w = None -> characters (src rd) ->
  convert_normal_to_ddb fuel rd w rb xb pr wr = Done (w', v) -> added w w'.
Proof.
  intros H2 W HR E. unfold convert_normal_to_ddb, convert in E. destruct (pool_new true xb 34) as [[p|e]| |] eqn:Ep; try discriminate; cbn [obind] in E.
  2:{ injection E as <- _. apply added_same, W. }
  destruct (scan (n2d_callbacks wr) (mkOptions [] false) fuel (mkS (rj_new rd rb) (conv_new w pr) p)) as [[s vv]| |] eqn:Es; try discriminate. cbn [obind] in E. injection E as <- _.
  assert (HF : fresh (pool_dims 34 xb) p) by (exists true, xb; split; [exact Ep|]; split; reflexivity).
  apply (always_scan false (len rb) (conv_fine w) (n2d_callbacks wr) (mkOptions [] false) (pool_dims 34 xb) H2 (n2d_moves wr (len rb) H2) (n2d_polite w wr (len rb) H2) eq_refl) in Es; auto.
  - apply Es.
  - split; [|discriminate]. split; [apply valid_new|]. split; [reflexivity|discriminate].
  - apply characters_eq, HR.
  - split; [apply added_same, W|exact Logic.I].
Qed.
Lemma to_ddb_always fuel rd w rb xb pr wr w' v : 2 <= len rb -> wfail w = None -> characters (src rd) ->
  convert_normal_to_ddb fuel rd w rb xb pr wr = Done (w', v) -> exists text, RJiter.written w' = RJiter.written w ++ text /\ characters text.
Proof. intros H2 W HR E. destruct (to_ddb_added _ _ _ _ _ _ _ _ _ H2 W HR E) as (_ & _ & a & Ha & Hw). exists a. split; [exact Hw|]. apply characters_eq, Ha. Qed.
Import DdbToNormal.
Section FromDdb.
Context (w0 : writer) (mode : wrapper_mode) (c : nat) (H2 : 2 <= c).
Notation fine := (conv_fine w0).
Definition d2n_fine (b : d2n) : Prop := fine (base b).
Notation G := (calmly false false c).
Lemma clean_on_base f : clean_step fine f -> clean_step d2n_fine (on_base f).
Proof. intros Hf b b' v Hb E. unfold on_base in E. destruct (f (base b)) as [[b1 v1]| |] eqn:Ef; try discriminate. cbn [obind] in E. injection E as <- _. exact (Hf _ _ _ Hb Ef). Qed.
Lemma clean_phase p : clean_step d2n_fine (phase_is p).
Proof. apply clean_change. intros b H. exact H. Qed.
Lemma clean_type t : clean_step d2n_fine (type_is t).
Proof. apply clean_change. intros b H. exact H. Qed.
Ltac clean2 :=
  lazymatch goal with
  | |- clean_step _ (on_base _) => apply clean_on_base; clean
  | |- clean_step _ (phase_is _) => apply clean_phase
  | |- clean_step _ (type_is _) => apply clean_type
  | |- clean_step _ (_ ;; _) => apply clean_then; clean2
  | |- clean_step _ skip => apply clean_skip
  | |- clean_act _ (act_of _ _) _ => apply clean_act_of; clean2
  | |- _ => idtac
  end.
Lemma clean_field s : clean_act d2n_fine on_field_key s.
Proof.
  intros b s' b' op Hb E. unfold on_field_key in E. destruct (field (base b)) as [k|] eqn:Ek; [|injection E as _ <- _; exact Hb].
  pose proof (proj2 Hb) as Hk. rewrite Ek in Hk. revert E. apply clean_act_of; [clean2|exact Hb].
Qed.
Lemma clean_string_value q m1 m2 s : G s -> is_utf8 (rest s) -> clean_act d2n_fine (write_string_value q m1 m2) s.
Proof.
  intros HG HR b s' b' op Hb E. unfold write_string_value in E.
  destruct (peek s) as [[s1 [x|e]]| |] eqn:Ep; try discriminate; cbn [obind] in E; [|injection E as _ <- _; exact Hb].
  destruct (calm_peek false false c H2 _ _ _ HG Ep) as (HG1 & w & l & Hr & Hr1 & Hw). rewrite Hr in HR. apply (utf8_behind _ _ (blanks_ascii _ Hw)) in HR.
  destruct (N.eqb_spec x QUOTE) as [-> |_]; cbn [negb] in E; [|injection E as _ <- _; exact Hb]. apply cons_utf8 in HR; [|reflexivity].
  destruct (on_base _ b) as [[b1 v]| |] eqn:E1; try discriminate. assert (Hb1 : d2n_fine b1) by (revert E1; apply clean_on_base; [clean|exact Hb]).
  cbn [obind] in E. destruct v as [v|m]; [|injection E as _ <- _; exact Hb1].
  destruct (write_long_bytes s1 (cout (base b1))) as [[[s2 w2] v2]| |] eqn:El; try discriminate. cbn [obind] in E. destruct Hb1 as (Ha & Hk).
  apply (added_long w0 _ _ _ _ _ _ (proj1 (proj1 HG1)) Hr1 HR Ha) in El. destruct v2 as [v2|e]; [|injection E as _ <- _; split; assumption].
  revert E. apply clean_act_of; [clean2|]. split; assumption.
Qed.
Lemma clean_bool_based validate m s : (forall x b, validate x = Ok b -> is_utf8 b) -> clean_act d2n_fine (handle_bool_based_type validate m) s.
Proof.
  intros Hv b s' b' op Hb E. unfold handle_bool_based_type in E. destruct (peek s) as [[s1 [x|e]]| |]; try discriminate; cbn [obind] in E; [|injection E as _ <- _; exact Hb].
  destruct (validate x) as [t|e] eqn:Ev; [|injection E as _ <- _; exact Hb]. apply Hv in Ev.
  destruct (on_base write_comma b) as [[b1 v]| |] eqn:E1; try discriminate. assert (Hb1 : d2n_fine b1) by (revert E1; apply clean_on_base; [clean|exact Hb]).
  cbn [obind] in E. destruct v as [v|e]; [|injection E as _ <- _; exact Hb1].
  destruct (known_bool x s1) as [[s2 [v2|e]]| |]; try discriminate; cbn [obind] in E; [|injection E as _ <- _; exact Hb1].
  revert E. apply clean_act_of; [clean2|exact Hb1].
Qed.
Lemma clean_finally f a s : (forall b, d2n_fine b -> d2n_fine (f b)) -> clean_act d2n_fine a s -> clean_act d2n_fine (finally f a) s.
Proof.
  intros Hf Ha b s' b' op Hb E. unfold finally in E. destruct (a s b) as [[[s1 b1] op1]| |] eqn:Ea; try discriminate. cbn [obind] in E. injection E as _ <- _.
  exact (Hf _ (Ha _ _ _ _ Hb Ea)).
Qed.
Lemma clean_type_key s : G s -> is_utf8 (rest s) -> clean_act d2n_fine on_type_key s.
Proof.
  intros HG HR b s' b' op Hb E. unfold on_type_key in E. destruct (field (base b)) as [k|]; [|injection E as _ <- _; exact Hb]. revert E.
  repeat match goal with |- (if ?x then _ else _) = _ -> _ => destruct x end; [| | | | | | | |intros E; injection E as _ <- _; exact Hb].
  - apply clean_finally; [auto|apply clean_string_value; assumption|exact Hb].
  - apply clean_finally; [auto|apply clean_string_value; assumption|exact Hb].
  - apply clean_finally; [auto| |exact Hb]. apply clean_bool_based. intros x t. unfold bool_output.
    destruct (N.eqb x PeekTrue); [intros E; injection E as <-; reflexivity|]. destruct (N.eqb x PeekFalse); [intros E; injection E as <-; reflexivity|discriminate].
  - apply clean_finally; [auto| |exact Hb]. apply clean_bool_based. intros x t. unfold null_output.
    destruct (N.eqb x PeekTrue); [intros E; injection E as <-; reflexivity|discriminate].
  - apply clean_act_of; [clean2|exact Hb].
  - apply clean_act_of; [clean2|exact Hb].
  - apply clean_act_of; [clean2|exact Hb].
  - apply clean_act_of; [clean2|exact Hb].
Qed.
Lemma clean_error s : clean_act d2n_fine on_error s.
Proof. intros b s' b' op Hb E. injection E as _ <- _. exact Hb. Qed.
Lemma clean_map_end : clean_step d2n_fine on_map_end.
Proof. unfold on_map_end. clean2. Qed.
Lemma d2n_polite : polite false c d2n_fine (d2n_callbacks mode).
Proof.
  split.
  - intros name path s b Hpa Hp HG HR _ Hb. cbn [find_action d2n_callbacks]. unfold d2n_find_action. cbn [names].
    assert (HE : forall m u, forall s' u' op, on_error s (store_parse_error b m u) = Done (s', u', op) -> d2n_fine u').
    { intros m u s' u' op. apply clean_error. exact Hb. }
    destruct name.
    + unfold find_action_array. destruct (current_type b) as [[]|]; try exact Hb; intros s' u' op; apply HE.
    + unfold find_action_object. destruct (level (base b) =? 0).
      * intros s' u' op. apply clean_act_of; [clean2|exact Hb].
      * destruct (at_phase b); try exact Hb.
        -- destruct (current_type b) as [[]|]; try exact Hb. intros s' u' op; apply HE.
        -- intros s' u' op; apply HE.
        -- destruct (parent_is _ _); [exact Hb|]. intros s' u' op; apply HE.
    + unfold find_action_atom. destruct (at_phase b); try (intros s' u' op; apply HE). destruct (parent_is _ _); [|intros s' u' op; apply HE].
      destruct (current_type b) as [[]|]; intros s' u' op; try apply HE; apply clean_string_value; assumption.
    + unfold find_action_key. destruct path as [|k path]; [contradiction|]. inversion Hp as [|? ? Hk Hp']; subst.
      assert (Hn : d2n_fine (set_base b (set_field (base b) k))) by (split; [apply Hb|exact Hk]). destruct (at_phase b).
      * destruct (_ && _)%bool; [exact Hb|]. intros s' u' op. apply clean_field; exact Hn.
      * intros s' u' op. apply clean_type_key; assumption.
      * destruct (in_set _); intros s' u' op; [apply clean_type_key; assumption|apply HE].
      * intros s' u' op. apply clean_field; exact Hn.
  - intros name path b _ Hb. cbn [find_end_action d2n_callbacks]. unfold d2n_find_end_action. cbn [names ctx_len].
    assert (HC : forall f : end_action d2n, clean_step d2n_fine f -> forall u' e, f b = Done (u', e) -> d2n_fine u') by (intros f Hf u' e E; exact (Hf _ _ _ Hb E)).
    destruct name; [| |exact Hb|].
    + destruct (at_phase b) eqn:Eph; try exact Hb; intros u' e.
      * unfold on_list_end. rewrite Eph. apply (HC (_ ;; _)). clean2.
      * unfold on_set_end. apply HC. clean2.
    + destruct (_ =? 1); [|exact Hb]. apply HC. unfold on_root_object_end. clean2.
    + unfold find_end_action_key. destruct path as [|k path]; [exact Hb|]. destruct (at_phase b).
      * destruct (_ && _ && _)%bool; [exact Hb|]. destruct (parent_is _ _); apply HC; [unfold on_map_end_in_array; apply clean_then; [|clean2]|]; apply clean_map_end.
      * destruct (is_container k); [exact Hb|]. apply HC, clean_phase.
      * destruct (parent_is _ _); apply HC, clean_phase.
      * destruct (parent_is _ _); apply HC, clean_phase.
Qed.
End FromDdb.
Lemma from_ddb_added fuel rd w rb xb pr mode w' v : 2 <= len rb -> wfail w = None -> characters (src rd) ->
  convert_ddb_to_normal fuel rd w rb xb pr mode = Done (w', v) -> added w w'.
Proof.
  intros H2 W HR E. unfold convert_ddb_to_normal, convert in E. destruct (pool_new true xb 68) as [[p|e]| |] eqn:Ep; try discriminate; cbn [obind] in E.
  2:{ injection E as <- _. apply added_same, W. }
  destruct (scan (d2n_callbacks mode) (mkOptions [] false) fuel (mkS (rj_new rd rb) (d2n_new w pr) p)) as [[s vv]| |] eqn:Es; try discriminate. cbn [obind] in E. injection E as <- _.
  assert (HF : fresh (pool_dims 68 xb) p) by (exists true, xb; split; [exact Ep|]; split; reflexivity).
  apply (always_scan false (len rb) (d2n_fine w) (d2n_callbacks mode) (mkOptions [] false) (pool_dims 68 xb) H2 (heeds_moves _ _ _ _ (heeds_any _ _ _ _ (d2n_heeds pr mode false (len rb) H2))) (d2n_polite w mode (len rb) H2) eq_refl) in Es; auto.
  - apply Es.
  - apply wild. split; [apply valid_new|]. split; [reflexivity|discriminate].
  - apply characters_eq, HR.
  - split; [apply added_same, W|exact Logic.I].
Qed.
Lemma from_ddb_always fuel rd w rb xb pr mode w' v : 2 <= len rb -> wfail w = None -> characters (src rd) ->
  convert_ddb_to_normal fuel rd w rb xb pr mode = Done (w', v) -> exists text, RJiter.written w' = RJiter.written w ++ text /\ characters text.
Proof. intros H2 W HR E. destruct (from_ddb_added _ _ _ _ _ _ _ _ _ H2 W HR E) as (_ & _ & a & Ha & Hw). exists a. split; [exact Hw|]. apply characters_eq, Ha. Qed.
(** ** The program *)
Lemma whole_empty cap f : whole (mkBuffered [] [] cap f).
Proof. split; reflexivity. Qed.
Lemma two_bytes : 2 <= len rjiter_buffer.
Proof. unfold rjiter_buffer, zeros. rewrite repeat_length. lia. Qed.
Lemma run_utf8 a fuel rd d v : characters (src rd) -> run a fuel rd None = Done (d, v) -> characters d.
Proof.
  intros HR E. unfold run in E. set (w := mkBuffered _ _ _ None) in E. destruct (conversion a fuel rd w) as [[w' r]| |] eqn:Ec; try discriminate. cbn [obind] in E.
  assert (H : added w w').
  { unfold conversion in Ec. destruct (to_convert a); [eapply from_ddb_added in Ec|eapply to_ddb_added in Ec]; eauto using two_bytes. }
  destruct H as (Hf & Hw & _). destruct (Hw (whole_empty _ _)) as (H1 & H2). apply characters_eq. destruct r as [u|[e i]]; injection E as <- _; [|exact H1].
  unfold flush_held, deliver. rewrite Hf. cbn [fst delivered]. apply utf8_both; assumption.
Qed.
