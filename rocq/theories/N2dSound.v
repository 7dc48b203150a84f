(** A conversion to DynamoDB JSON that succeeds has read values, if the reader does not fail. *)
From Verif Require Import Base U8Pool Buffer BufferSpec Jiter RJiter RJiterSpec Scan ScanSpec IdSpec DdbSpec Conv NormalToDdb ConvSpec.
From Verif Require Import BufferProofs JiterProofs RJiterProofs RJiterIndexProofs RJiterOpProofs RJiterInvProofs RJiterEndProofs RJiterLookProofs ScanTokens ScanParser ScanStack ScanProofs ScanTop ScanSse IdProofs Transducer ConvProofs N2dProofs ConvResults.
From Verif Require Import SoundSpec SoundParser ScanSound SoundResults ConvSound.

(** ** A literal that is not there *)
Lemma retry_kept {A} (f : jop A) : inert f -> forall fuel s s' e, valid s -> jidx s = 0 -> retry_loop fuel f false s = Done (s', Err e) -> rest s' = rest s.
Proof.
  intros Hi. induction fuel as [|fuel IH]; intros s s' e V J0 E; [discriminate|]. cbn [retry_loop] in E. unfold jcall in E.
  destruct (f (jview s)) as [[v|er] a] eqn:Ef; [discriminate|]. pose proof (Hi _ _ _ Ef) as ->. destruct er as [er o]. rewrite Nat.add_0_r in E. pose proof V as (W & J & I').
  assert (Hmore : forall r1 : jres A, match read_more (bf s) with
        | (b, Err e) => Done (with_bf (mkRj (bf s) (jlen s) (jidx s)) b, Err e)
        | (b, Ok 0) => Done (with_bf (mkRj (bf s) (jlen s) (jidx s)) b, match r1 with Ok v => Ok v | Err e => Err (from_jiter_error (current_index (with_bf (mkRj (bf s) (jlen s) (jidx s)) b)) e) end)
        | (b, Ok _) => retry_loop fuel f false (create_new_jiter (with_bf (mkRj (bf s) (jlen s) (jidx s)) b))
        end = Done (s', Err e) -> rest s' = rest s).
  { intros r1 X. destruct (read_more (bf s)) as [b [[|n]|e1]] eqn:Er; destruct (read_more_spec _ _ _ W Er) as (C & Sh & Q & N'); pose proof (cut_nil_stream _ _ _ C) as Hs.
    - injection X as <- _. unfold rest. cbn [with_bf bf jidx]. rewrite Hs. reflexivity.
    - apply IH in X; [|split; [apply (cut_wf _ _ _ _ C)|]; cbn [create_new_jiter with_bf bf jlen jidx]; split; [reflexivity|lia]|reflexivity].
      rewrite X. unfold rest. cbn [create_new_jiter with_bf bf jidx]. rewrite Hs, J0. reflexivity.
    - injection X as <- _. unfold rest. cbn [with_bf bf jidx]. rewrite Hs. reflexivity. }
  cbn [bf fst] in E. destruct (can_retry er).
  - exact (Hmore (Err (er, jidx s + o)) E).
  - injection E as <- _. reflexivity.
Qed.
Lemma literal_kept {A} k known (f : jop A) op s s' e x l : method k known None f op -> eager_of k = false -> inert f -> valid s -> 2 <= rcap s -> rquiet s = true ->
  rest s = x :: l -> is_ascii_whitespace x = false -> op s = Done (s', Err e) -> rest s' = rest s.
Proof.
  intros M Hk Hi V Hc Hq HR Hx E. apply method_facts in M as [-> Hw Hb He Hl Hbl Hd]. rewrite Hk in E. unfold loop_until_success, jcall in E. pose proof V as (W & J & I').
  destruct (f (jview s)) as [[v|[er o]] a] eqn:Ef; [discriminate|]. pose proof (Hi _ _ _ Ef) as ->. rewrite Nat.add_0_r in E.
  set (s1 := mkRj (bf s) (jlen s) (jidx s)) in *.
  destruct (feeding_spec s1 (jidx s) None W I' Hc) as (s2 & r2 & E2 & P2). rewrite E2 in E. destruct r2 as [[]|e2].
  2:{ destruct P2 as (P2 & _). change (rquiet s1) with (rquiet s) in P2. congruence. }
  destruct P2 as (W2 & C2 & Q2 & T2 & S2 & P2). change (skipn (jidx s) (stream (bf s1))) with (rest s) in S2.
  assert (S3 : stream (bf s2) = rest s).
  { rewrite S2, HR. unfold strip, skip_aw. cbn [run_length]. rewrite Hx. reflexivity. }
  assert (J2 : jidx s2 = 0) by (destruct P2 as [(_ & P2)|(P2 & _ & _ & _ & P3)]; [exact P2|]; cbn [s1 jidx] in P3; congruence).
  apply (retry_kept f Hi) in E; [|split; [exact W2|]|exact J2].
  - rewrite E. unfold rest at 1. rewrite J2. exact S3.
  - destruct P2 as [[P2 P3]|(P2 & P3 & P4 & P5 & P6)]; [split; [exact P2|lia]|]. rewrite J2, P4, P5. cbn [s1 jlen bf] in *. split; [exact J|lia].
Qed.

Section Literals.
Context (whole : bool) (c : nat) (H8 : 8 <= c).
Notation G := (calmly true whole c).
Lemma chunked_calm s : G s -> chunked c false s.
Proof. intros ((V & C & _) & Q). split; [exact V|]. split; [exact C|]. split; [discriminate|exact (Q eq_refl)]. Qed.
Lemma lax_literal b v w x l r : atom v -> lax_document w b v (x :: l) r -> x = PeekTrue \/ x = PeekFalse \/ x = PeekNull ->
  (x = PeekTrue /\ x :: l = bs "true" ++ r) \/ (x = PeekFalse /\ x :: l = bs "false" ++ r) \/ (x = PeekNull /\ x :: l = bs "null" ++ r).
Proof.
  intros Ha (w1 & l' & E & Hw & Hv) Hx. pose proof (literal_solid x Hx) as Hs.
  assert (w1 = []) as -> by (destruct w1 as [|y w1]; [reflexivity|]; injection E as <- _; apply Forall_inv in Hw; apply blank_ascii in Hw; congruence).
  cbn [app] in E. subst l'. destruct v; try contradiction; inversion Hv; subst.
  - right. right. split; [reflexivity|]. reflexivity.
  - left. split; reflexivity.
  - right. left. split; reflexivity.
  - exfalso. match goal with H : number_text _ |- _ => destruct (number_head _ H) as (y & q & -> & Hy) end. cbn [app] in *.
    match goal with H : _ :: _ = x :: l |- _ => injection H as -> _ end. destruct Hx as [-> |[-> | ->]], Hy as [Hy|Hy]; try discriminate; red in Hy; cbv in Hy; destruct Hy as (? & Hy); try (apply Hy; reflexivity).
  - exfalso. destruct Hx as [X|[X|X]]; discriminate.
Qed.
Lemma known_failed {A} (f : jop A) op s s' e x l : method Plain true None f op -> inert f -> G s -> rest s = x :: l -> x = PeekTrue \/ x = PeekFalse \/ x = PeekNull ->
  op s = Done (s', Err e) ->
  (x = PeekTrue -> forall r, rest s <> bs "true" ++ r) -> (x = PeekFalse -> forall r, rest s <> bs "false" ++ r) -> (x = PeekNull -> forall r, rest s <> bs "null" ++ r) ->
  G s' /\ stuck (rest s') /\ rest s' = rest s.
Proof.
  intros M Hi ((V & C & HJ) & Q) HR Hx E Ht Hf Hn. specialize (Q eq_refl).
  assert (Hr : rest s' = rest s) by (eapply (literal_kept Plain true f op s s' e x l M); eauto; [lia|apply literal_solid, Hx]).
  destruct (method_failed c true _ _ _ _ _ s s' e M (inert_reined _ Hi) ltac:(lia) ltac:(split; [exact V|]; split; [exact C|auto]) E ltac:(auto)) as ((V' & C' & Q') & _).
  split; [|split; [|exact Hr]].
  - split; [|exact Q']. split; [exact V'|]. split; [exact C'|]. exact (closed_method _ (closed_after whole) _ _ _ _ _ _ _ _ M E HJ).
  - rewrite Hr, HR. split; [eauto|]. intros w b v r Ha Hd. rewrite <- HR in Hd. rewrite HR in Hd.
    destruct (lax_literal b v w x l r Ha Hd Hx) as [(X & Y)|[(X & Y)|(X & Y)]]; rewrite <- HR in Y; [exact (Ht X r Y)|exact (Hf X r Y)|exact (Hn X r Y)].
Qed.
Lemma bool_failed x s s' e l : x = PeekTrue \/ x = PeekFalse -> G s -> rest s = x :: l -> known_bool x s = Done (s', Err e) -> G s' /\ stuck (rest s') /\ rest s' = rest s.
Proof.
  intros Hx HG HR E. pose proof (chunked_calm s HG) as HC. pose proof (chunked_facts c false H8) as PF.
  apply (known_failed (j_known_bool x) (known_bool x) s s' e x l (m_known_bool x) (known_bool_inert x) HG HR ltac:(tauto) E).
  - intros -> r Hr. destruct (pf_true _ _ _ _ PF s r HC Hr) as (s1 & v & E1 & Hv). rewrite E in E1. injection E1 as _ <-. discriminate.
  - intros -> r Hr. destruct (pf_false _ _ _ _ PF s r HC Hr) as (s1 & v & E1 & Hv). rewrite E in E1. injection E1 as _ <-. discriminate.
  - intros ->. destruct Hx; discriminate.
Qed.
Lemma null_failed s s' e l : G s -> rest s = PeekNull :: l -> known_null s = Done (s', Err e) -> G s' /\ stuck (rest s') /\ rest s' = rest s.
Proof.
  intros HG HR E. pose proof (chunked_calm s HG) as HC. pose proof (chunked_facts c false H8) as PF.
  apply (known_failed _ known_null s s' e PeekNull l m_known_null (ident_inert _ _) HG HR ltac:(tauto) E); try discriminate.
  intros _ r Hr. destruct (pf_null _ _ _ _ PF s r HC Hr) as (s1 & v & E1 & Hv). rewrite E in E1. injection E1 as _ <-. discriminate.
Qed.
End Literals.

(** ** The handlers *)
Section N2d.
Context (pr wr whole : bool) (c : nat) (H8 : 8 <= c).
Notation G := (calmly true whole c).
Notation obeys := (obeys cout cmode (cgood pr)).
Notation wrote := (wrote cout cmode (cgood pr)).
Notation n2d_tb := (n2d_tb pr wr).
Notation n2d_te := (n2d_te pr wr).
Notation beh := (exact_transducer cout cmode (cgood pr) n2d_tb n2d_te).
Notation Step := (@tstep (bool * nat)).
Notation t_comma := (t_comma pr).
Notation t_indent := (t_indent pr).
Notation t_atom := (t_atom pr).
Notation t_close := (t_close pr).
Ltac steps := repeat first
  [ apply obeys_then | apply obeys_put | apply obeys_newline | apply obeys_comma | apply obeys_indent | apply obeys_deeper | apply obeys_shallower
  | apply obeys_comma_is | apply obeys_skip ].
Lemma obeys_ext f (s t : Step) : (forall m, s m = t m) -> obeys f s -> obeys f t.
Proof. intros H Hf b b' Hb E. destruct (Hf b b' Hb E) as (text & m' & Et & Hw). exists text, m'. rewrite <- H. auto. Qed.
Definition wrote_step (t : Step) (b b' : conv) : Prop := exists text m', t (cmode b) = Some (text, m') /\ wrote b text m' b'.
Lemma wrote_step_then s t b b1 b' : wrote_step s b b1 -> wrote_step t b1 b' -> wrote_step (s ;> t) b b'.
Proof.
  intros (a & m1 & Ea & Ha) (x & m2 & Ex & Hx). exists (a ++ x), m2. pose proof Ha as (_ & Hm & _). split; [|eapply wrote_after; eassumption].
  unfold t_then. rewrite Ea. rewrite Hm in Ex. rewrite Ex. reflexivity.
Qed.
Lemma wrote_step_ext (s t : Step) b b' : s (cmode b) = t (cmode b) -> wrote_step s b b' -> wrote_step t b b'.
Proof. intros H (text & m' & Et & Hw). exists text, m'. rewrite <- H. auto. Qed.
Lemma wrote_good t b b' : wrote_step t b b' -> cgood pr b'.
Proof. intros (_ & _ & _ & _ & _ & H). exact H. Qed.
Lemma obeys_close : obeys close_atom t_close.
Proof. unfold close_atom, N2dProofs.t_close. steps. Qed.

(** An atom: read, or not there. *)
Definition atom_taken (f : json -> Step) (s : rj) (b : conv) (s' : rj) (b' : conv) (op : stream_op) : Prop :=
  match op with
  | OpNone => False
  | ValueIsConsumed =>
      (G s' /\ 0 < jidx s' /\ exists v, atom v /\ (forall j, lax_document whole j v (rest s) (rest s')) /\ (cgood pr b -> wrote_step (f v) b b')) \/
      (G s' /\ stuck (rest s') /\ (exists w, blanks w /\ rest s = w ++ rest s') /\ exists v, atom v /\ (cgood pr b -> wrote_step (f v) b b'))
  | OpError _ => True
  end.
Lemma act_inv (g : step conv) (t : Step) op s b s' b' op' : obeys g t -> act_of g op s b = Done (s', b', op') ->
  (exists m, op' = OpError m) \/ (op' = op /\ s' = s /\ (cgood pr b -> wrote_step t b b')).
Proof.
  intros Hg E. unfold act_of in E. destruct (g b) as [[b1 [[]|m]]| |] eqn:Eg; cbn [obind] in E; try discriminate; injection E as <- <- <-; [right|left; eauto].
  split; [reflexivity|]. split; [reflexivity|]. intros Hb. exact (Hg _ _ Hb Eg).
Qed.
Lemma peek_again s s1 x y l : G s -> rest s = x :: l -> is_ascii_whitespace x = false -> peek s = Done (s1, Ok y) -> G s1 /\ y = x /\ rest s1 = x :: l.
Proof.
  intros HG HR Hx E. destruct (calm_peek true whole c ltac:(lia) s s1 y HG E) as (HG1 & w & m & Hr & Hr1 & Hw). rewrite HR in Hr.
  pose proof (head_kept w x y l m Hw Hr Hx) as H. split; [exact HG1|]. rewrite Hr1, H. injection H as -> ->. auto.
Qed.
Definition t_body (v : json) : Step := t_indent ;> t_put (atom_text v) ;> t_close.
Lemma string_taken s l b s' b' op : G s -> rest s = QUOTE :: l -> on_string_value s b = Done (s', b', op) -> atom_taken t_body s b s' b' op.
Proof.
  intros HG HR E. unfold on_string_value in E. set (f := indent ;; put (bs """S"":""") "writing S type opening") in E.
  assert (Hf : obeys f (t_indent ;> t_put (bs """S"":"""))) by (subst f; steps).
  destruct (f b) as [[b1 [[]|m]]| |] eqn:Ef; cbn [obind] in E; try discriminate; [|injection E as <- <- <-; exact I].
  destruct (write_long_bytes s (cout b1)) as [[[s2 w2] [u|e]]| |] eqn:El; cbn [obind] in E; try discriminate; [|injection E as <- <- <-; exact I].
  destruct (calm_long true whole c s (cout b1) s2 w2 u l HG HR El) as (HG2 & Hi & t & Ht & Hs & Hl).
  apply (act_inv _ (t_put [QUOTE] ;> t_close)) in E; [|apply obeys_then; [steps|apply obeys_close]]. destruct E as [(m & ->)|(-> & -> & Hg)]; [exact I|].
  left. split; [exact HG2|]. split; [exact Hi|]. exists (JString t). split; [exact I|]. split; [intros j; rewrite Ht; apply document_value, lax_string, Hl|].
  intros Hb. pose proof (Hf _ _ Hb Ef) as H1. assert (Hb2 : cgood pr (set_cout b1 w2)) by exact (wrote_good _ _ _ H1). specialize (Hg Hb2).
  assert (Hm : wrote_step (t_put t) b1 (set_cout b1 w2)).
  { exists t, (cmode b1). split; [reflexivity|]. split; [exact Hs|]. split; [reflexivity|exact Hb2]. }
  pose proof (wrote_step_then _ _ _ _ _ H1 (wrote_step_then _ _ _ _ _ Hm Hg)) as H. revert H. apply wrote_step_ext.
  rewrite then_assoc. unfold t_body. apply then_ext. intros m. cbn [atom_text]. rewrite put_then. apply then_ext. intros m1. rewrite put_then. reflexivity.
Qed.
Lemma bool_taken s x l b s' b' op : G s -> rest s = x :: l -> x = PeekTrue \/ x = PeekFalse -> on_bool_value s b = Done (s', b', op) -> atom_taken t_body s b s' b' op.
Proof.
  intros HG HR Hx E. unfold on_bool_value in E. pose proof (literal_solid x ltac:(tauto)) as Hs.
  destruct (peek s) as [[s1 [p|e]]| |] eqn:Ep; cbn [obind] in E; try discriminate; [|injection E as <- <- <-; exact I].
  destruct (peek_again s s1 x p l HG HR Hs Ep) as (HG1 & -> & HR1).
  destruct (indent b) as [[b1 [[]|m]]| |] eqn:Ei; cbn [obind] in E; try discriminate; [|injection E as <- <- <-; exact I].
  assert (HI : cgood pr b -> wrote_step t_indent b b1) by (intros Hb; exact (obeys_indent pr _ _ Hb Ei)).
  assert (K : forall (z : bool), x = (if z then PeekTrue else PeekFalse) -> forall why,
    (do (r, _) <- known_bool x s1; act_of (put (atom_text (if z then JTrue else JFalse)) why ;; close_atom) ValueIsConsumed r b1) = Done (s', b', op) -> atom_taken t_body s b s' b' op).
  { intros z Hz why E1. destruct (known_bool x s1) as [[s2 v]| |] eqn:Ek; cbn [obind] in E1; try discriminate.
    apply (act_inv _ (t_put (atom_text (if z then JTrue else JFalse)) ;> t_close)) in E1; [|apply obeys_then; [steps|apply obeys_close]].
    destruct E1 as [(m & ->)|(-> & -> & Hg)]; [exact I|]. destruct v as [v|e].
    - destruct (calm_bool true whole c ltac:(lia) x s1 s2 v l Hx HG1 HR1 Ek) as (HG2 & Hi & Hr & _). left. split; [exact HG2|]. split; [exact Hi|].
      exists (if z then JTrue else JFalse). split; [destruct z; exact I|]. split.
      + intros j. rewrite HR, <- HR1, Hr. apply document_value. subst x. destruct z; [apply lax_true|apply lax_false].
      + intros Hb. pose proof (HI Hb) as H1. exact (wrote_step_then _ _ _ _ _ H1 (Hg (wrote_good _ _ _ H1))).
    - right. destruct (bool_failed whole c H8 x s1 s2 e l Hx HG1 HR1 Ek) as (A1 & A2 & A3). split; [exact A1|]. split; [exact A2|].
      split; [exists []; split; [constructor|]; cbn [app]; congruence|]. exists (if z then JTrue else JFalse). split; [destruct z; exact I|].
      intros Hb. pose proof (HI Hb) as H1. exact (wrote_step_then _ _ _ _ _ H1 (Hg (wrote_good _ _ _ H1))). }
  destruct (N.eqb_spec x PeekTrue) as [Hz|Hz]; [exact (K true Hz _ E)|]. destruct (N.eqb_spec x PeekFalse) as [Hy|Hy]; [exact (K false Hy _ E)|].
  injection E as <- <- <-. exact I.
Qed.
Lemma null_taken s l b s' b' op : G s -> rest s = PeekNull :: l -> on_null_value s b = Done (s', b', op) -> atom_taken t_body s b s' b' op.
Proof.
  intros HG HR E. unfold on_null_value in E.
  destruct (peek s) as [[s1 [p|e]]| |] eqn:Ep; cbn [obind] in E; try discriminate; [|injection E as <- <- <-; exact I].
  destruct (peek_again s s1 PeekNull p l HG HR eq_refl Ep) as (HG1 & -> & HR1). rewrite N.eqb_refl in E.
  destruct (known_null s1) as [[s2 v]| |] eqn:Ek; cbn [obind] in E; try discriminate.
  apply (act_inv _ (t_body JNull)) in E; [|unfold t_body; repeat apply obeys_then; steps; apply obeys_close].
  destruct E as [(m & ->)|(-> & -> & Hg)]; [exact I|]. destruct v as [v|e].
  - destruct (calm_null true whole c ltac:(lia) s1 s2 v l HG1 HR1 Ek) as (HG2 & Hi & Hr). left. split; [exact HG2|]. split; [exact Hi|].
    exists JNull. split; [exact I|]. split; [|exact Hg]. intros j. rewrite HR, <- HR1, Hr. apply document_value, lax_null.
  - right. destruct (null_failed whole c H8 s1 s2 e l HG1 HR1 Ek) as (A1 & A2 & A3). split; [exact A1|]. split; [exact A2|].
    split; [exists []; split; [constructor|]; cbn [app]; congruence|]. exists JNull. split; [exact I|exact Hg].
Qed.
Lemma taken_weaken (f g : json -> Step) s s1 b b1 s' b' op t w : (forall v, g v (cmode b) = (t ;> f v) (cmode b)) -> (cgood pr b -> wrote_step t b b1) ->
  rest s = w ++ rest s1 -> blanks w -> atom_taken f s1 b1 s' b' op -> atom_taken g s b s' b' op.
Proof.
  intros Hfg Ht Hr Hw H. destruct op as [| |m]; [exact H| |exact I]. destruct H as [(HG & Hi & v & Ha & Hd & Hf)|(HG & Hk & (w1 & Hw1 & Hr1) & v & Ha & Hf)]; [left|right].
  2:{ split; [exact HG|]. split; [exact Hk|]. split; [exists (w ++ w1); rewrite Hr, Hr1, app_assoc; split; [apply blanks_app; assumption|reflexivity]|].
      exists v. split; [exact Ha|]. intros Hb. pose proof (Ht Hb) as H1. apply (wrote_step_ext (t ;> f v)); [symmetry; apply Hfg|]. exact (wrote_step_then _ _ _ _ _ H1 (Hf (wrote_good _ _ _ H1))). }
  split; [exact HG|]. split; [exact Hi|]. exists v. split; [exact Ha|]. split; [intros j; rewrite Hr; apply document_blanks; [exact Hw|apply Hd]|].
  intros Hb. pose proof (Ht Hb) as H1. apply (wrote_step_ext (t ;> f v)); [symmetry; apply Hfg|]. exact (wrote_step_then _ _ _ _ _ H1 (Hf (wrote_good _ _ _ H1))).
Qed.
Lemma atom_read s b s' b' op : G s -> on_atom_value s b = Done (s', b', op) -> atom_taken t_atom s b s' b' op.
Proof.
  intros HG E. unfold on_atom_value in E.
  destruct (write_comma b) as [[b1 [[]|m]]| |] eqn:Ec; cbn [obind] in E; try discriminate; [|injection E as <- <- <-; exact I].
  assert (HC : cgood pr b -> wrote_step t_comma b b1) by (intros Hb; exact (obeys_comma pr _ _ Hb Ec)).
  destruct (peek s) as [[s1 [x|e]]| |] eqn:Ep; cbn [obind] in E; try discriminate; [|injection E as <- <- <-; exact I].
  destruct (calm_peek true whole c ltac:(lia) s s1 x HG Ep) as (HG1 & w & l & Hr & Hr1 & Hw). rewrite <- Hr1 in Hr.
  apply (taken_weaken t_body t_atom s s1 b b1 s' b' op t_comma w); [reflexivity|exact HC|exact Hr|exact Hw|].
  destruct (N.eqb_spec x QUOTE) as [->|_]; [exact (string_taken s1 l b1 s' b' op HG1 Hr1 E)|].
  destruct (N.eqb_spec x PeekTrue) as [->|_]; [exact (bool_taken s1 PeekTrue l b1 s' b' op HG1 Hr1 ltac:(auto) E)|].
  destruct (N.eqb_spec x PeekFalse) as [->|_]; [exact (bool_taken s1 PeekFalse l b1 s' b' op HG1 Hr1 ltac:(auto) E)|].
  destruct (N.eqb_spec x PeekNull) as [->|_]; [exact (null_taken s1 l b1 s' b' op HG1 Hr1 E)|]. cbn [orb] in E.
  destruct (next_number_bytes s1) as [[s2 [t|e]]| |] eqn:En; cbn [obind] in E; try discriminate; [|injection E as <- <- <-; exact I].
  destruct (calm_number true whole c ltac:(lia) s1 s2 t HG1 En) as (HG2 & Hi & Ht & w2 & Hw2 & Hr2).
  apply (act_inv _ (t_body (JNumber t))) in E.
  - destruct E as [(m & ->)|(-> & -> & Hg)]; [exact I|]. left. split; [exact HG2|]. split; [exact Hi|]. exists (JNumber t). split; [exact I|]. split; [|exact Hg].
    intros j. rewrite Hr2. apply document_blanks; [exact Hw2|]. apply document_value, lax_number, Ht.
  - apply (obeys_ext _ (t_indent ;> t_put (bs """N"":""") ;> t_put (firstn 32 t) ;> t_put [QUOTE] ;> t_close)).
    + intros m. unfold t_body. apply then_ext. intros m1. cbn [atom_text]. rewrite put_then. apply then_ext. intros m2. rewrite put_then. reflexivity.
    + steps.
Qed.
Lemma root_read s b s' b' op : G s -> on_root_literal s b = Done (s', b', op) -> atom_taken (t_root_literal pr) s b s' b' op.
Proof.
  intros HG E. unfold on_root_literal in E. set (f := put [LBRACE] _ ;; deeper) in E.
  assert (Hf : obeys f (t_put [LBRACE] ;> t_deeper)) by (subst f; steps).
  destruct (f b) as [[b1 [[]|m]]| |] eqn:Ef; cbn [obind] in E; try discriminate; [|injection E as <- <- <-; exact I].
  destruct (on_atom_value s b1) as [[[s1 b2] op1]| |] eqn:Ea; cbn [obind] in E; try discriminate. pose proof (atom_read s b1 s1 b2 op1 HG Ea) as H.
  apply (act_inv _ (t_put [10%N] ;> t_comma_is false)) in E; [|steps]. destruct E as [(m & ->)|(-> & -> & Hg)]; [exact I|].
  apply (taken_weaken (fun v => t_atom v ;> t_put [10%N] ;> t_comma_is false) (t_root_literal pr) s s b b1 s1 b' op1 (t_put [LBRACE] ;> t_deeper) []);
    [reflexivity|intros Hb; exact (Hf _ _ Hb Ef)|reflexivity|constructor|].
  destruct op1 as [| |m]; [exact H| |exact I]. destruct H as [(HG1 & Hi & v & Hav & Hd & Hw)|(HG1 & Hk & Hr & v & Hav & Hw)]; [left|right].
  2:{ split; [exact HG1|]. split; [exact Hk|]. split; [exact Hr|]. exists v. split; [exact Hav|]. intros Hb. pose proof (Hw Hb) as H1. exact (wrote_step_then _ _ _ _ _ H1 (Hg (wrote_good _ _ _ H1))). }
  split; [exact HG1|]. split; [exact Hi|]. exists v. split; [exact Hav|]. split; [exact Hd|]. intros Hb. pose proof (Hw Hb) as H1. exact (wrote_step_then _ _ _ _ _ H1 (Hg (wrote_good _ _ _ H1))).
Qed.
Lemma element_read s b s' b' op : G s -> on_array_element_atom s b = Done (s', b', op) -> atom_taken (fun v => t_element pr ;> t_atom v) s b s' b' op.
Proof.
  intros HG E. unfold on_array_element_atom in E.
  assert (Hf : obeys element_begin (t_element pr)) by (unfold element_begin, t_element; steps).
  destruct (element_begin b) as [[b1 [[]|m]]| |] eqn:Ef; cbn [obind] in E; try discriminate; [|injection E as <- <- <-; exact I].
  pose proof (atom_read s b1 s' b' op HG E) as H.
  apply (taken_weaken t_atom (fun v => t_element pr ;> t_atom v) s s b b1 s' b' op (t_element pr) []); [reflexivity|intros Hb; exact (Hf _ _ Hb Ef)|reflexivity|constructor|exact H].
Qed.

Lemma n2d_heeds : heeds_calm true whole c (n2d_callbacks wr) beh.
Proof.
  split.
  - intros name j path s b Hname Hpath HG Hj. cbn [find_action n2d_callbacks]. destruct path as [|parent path]; [contradiction|].
    assert (HA : forall (g : step conv) (f : Step), (forall v, n2d_tb name (parent :: path) v (cmode b) = goes f (cmode b)) -> obeys g f ->
      forall s' u' op, act_of g OpNone s b = Done (s', u', op) ->
      match op with
      | OpNone => (forall v, announces name v -> on_begin beh name (parent :: path) v b u' (Some OpNone)) /\ G s' /\ rest s' = rest s /\ (0 < jidx s -> 0 < jidx s')
      | ValueIsConsumed => (exists v, announces name v /\ on_begin beh name (parent :: path) v b u' (Some ValueIsConsumed) /\ G s' /\ 0 < jidx s' /\ lax_document whole j v (rest s) (rest s')) \/
          (name = PAtom /\ true = true /\ G s' /\ stuck (rest s') /\ (exists w, blanks w /\ rest s = w ++ rest s') /\
           exists v, atom v /\ on_begin beh name (parent :: path) v b u' (Some ValueIsConsumed))
      | OpError _ => True
      end).
    { intros g f Ht Hg s' u' op E. apply (act_inv _ f) in E; [|exact Hg]. destruct E as [(m & ->)|(-> & -> & H)]; [exact I|].
      split; [|auto]. intros v _ Hb. destruct (H Hb) as (text & m' & Et & Hw). exists text, m'. rewrite Ht. unfold goes. rewrite Et. auto. }
    assert (HT : forall f s' u' op, name = PAtom -> (forall v, n2d_tb name (parent :: path) v (cmode b) = takes (f v) (cmode b)) -> atom_taken f s b s' u' op ->
      match op with
      | OpNone => (forall v, announces name v -> on_begin beh name (parent :: path) v b u' (Some OpNone)) /\ G s' /\ rest s' = rest s /\ (0 < jidx s -> 0 < jidx s')
      | ValueIsConsumed => (exists v, announces name v /\ on_begin beh name (parent :: path) v b u' (Some ValueIsConsumed) /\ G s' /\ 0 < jidx s' /\ lax_document whole j v (rest s) (rest s')) \/
          (name = PAtom /\ true = true /\ G s' /\ stuck (rest s') /\ (exists w, blanks w /\ rest s = w ++ rest s') /\
           exists v, atom v /\ on_begin beh name (parent :: path) v b u' (Some ValueIsConsumed))
      | OpError _ => True
      end).
    { intros f s' u' op Hn Ht H. destruct op as [| |m]; [contradiction| |exact I]. destruct H as [(HG1 & Hi & v & Ha & Hd & Hw)|(HG1 & Hk & Hr & v & Ha & Hw)]; [left|right].
      2:{ do 5 (split; [assumption || reflexivity|]). exists v. split; [exact Ha|]. intros Hb. destruct (Hw Hb) as (text & m' & Et & Hw'). exists text, m'. rewrite Ht. unfold takes. rewrite Et. auto. }
      exists v. split; [subst name; exact Ha|]. split; [|auto]. intros Hb. destruct (Hw Hb) as (text & m' & Et & Hw'). exists text, m'. rewrite Ht. unfold takes. rewrite Et. auto. }
    unfold n2d_find_action. cbn [names]. destruct (beq parent (bs "#top")) eqn:Etop.
    + destruct name; [| | |contradiction].
      * intros s' u' op E. refine (HA _ (t_root_array pr) _ _ s' u' op E); [intros v; cbn [N2dProofs.n2d_tb]; rewrite Etop; reflexivity|unfold t_root_array, t_array; steps].
      * intros s' u' op E. refine (HA _ (t_root_object pr wr) _ _ s' u' op E); [intros v; cbn [N2dProofs.n2d_tb]; rewrite Etop; reflexivity|unfold t_root_object; destruct wr; steps].
      * intros s' u' op E. apply (HT (t_root_literal pr)); [reflexivity|intros v; cbn [N2dProofs.n2d_tb]; rewrite Etop; reflexivity|]. exact (root_read _ _ _ _ _ HG E).
    + destruct name; [| | |contradiction].
      * intros s' u' op E. destruct (beq parent (bs "#array")) eqn:Earr.
        -- refine (HA _ (t_element pr ;> t_array pr) _ _ s' u' op E); [intros v; cbn [N2dProofs.n2d_tb]; rewrite Etop, Earr; reflexivity|].
           apply obeys_then; [unfold element_begin, t_element|unfold array_begin, t_array]; steps.
        -- refine (HA _ (t_array pr) _ _ s' u' op E); [intros v; cbn [N2dProofs.n2d_tb]; rewrite Etop, Earr; reflexivity|]. unfold array_begin, t_array; steps.
      * intros s' u' op E. destruct (beq parent (bs "#array")) eqn:Earr.
        -- refine (HA _ (t_element pr ;> t_object pr) _ _ s' u' op E); [intros v; cbn [N2dProofs.n2d_tb]; rewrite Etop, Earr; reflexivity|].
           apply obeys_then; [unfold element_begin, t_element|unfold nested_object_begin, t_object]; steps.
        -- refine (HA _ (t_object pr) _ _ s' u' op E); [intros v; cbn [N2dProofs.n2d_tb]; rewrite Etop, Earr; reflexivity|]. unfold nested_object_begin, t_object; steps.
      * intros s' u' op E. destruct (beq parent (bs "#array")) eqn:Earr.
        -- apply (HT (fun v => t_element pr ;> t_atom v)); [reflexivity|intros v; cbn [N2dProofs.n2d_tb]; rewrite Etop, Earr; reflexivity|]. exact (element_read _ _ _ _ _ HG E).
        -- apply (HT t_atom); [reflexivity|intros v; cbn [N2dProofs.n2d_tb]; rewrite Etop, Earr; reflexivity|]. exact (atom_read _ _ _ _ _ HG E).
  - intros path s b Hpath HG Hi. cbn [find_action n2d_callbacks]. destruct path as [|parent path]; [contradiction|].
    unfold n2d_find_action. cbn [names]. destruct (beq parent (bs "#top")) eqn:Etop.
    + intros v Hb. exists [], (cmode b). cbn [N2dProofs.n2d_tb]. rewrite Etop. split; [reflexivity|]. split; [apply spent_refl|auto].
    + intros s' u' op E. unfold on_field_key in E. cbn [set_field field] in E.
      apply (act_inv _ (t_field pr parent)) in E; [|unfold t_field; steps]. destruct E as [(m & ->)|(-> & -> & H)]; [exact I|].
      split; [|split; [exact HG|split; [auto|exists []; split; [constructor|reflexivity]]]].
      intros v Hb. destruct (H Hb) as (text & m' & Et & Hw). exists text, m'. cbn [N2dProofs.n2d_tb]. rewrite Etop. unfold goes. change (cmode (set_field b parent)) with (cmode b) in Et. rewrite Et. auto.
  - intros name path b Hname Hpath. cbn [find_end_action n2d_callbacks]. destruct path as [|parent path]; [contradiction|]. unfold n2d_find_end_action. cbn [names].
    assert (HE : forall (g : step conv) (f : Step), n2d_te name (parent :: path) (cmode b) = f (cmode b) -> obeys g f ->
      forall u' (e : unit), g b = Done (u', Ok e) -> on_end beh name (parent :: path) b u' (Some (Ok tt))).
    { intros g f Ht Hg u' [] E Hb. destruct (Hg _ _ Hb E) as (text & m' & Et & Hw). exists text, m'. rewrite Ht. auto. }
    assert (HN : n2d_te name (parent :: path) (cmode b) = t_none (cmode b) -> on_end beh name (parent :: path) b b (Some (Ok tt))).
    { intros Ht Hb. exists [], (cmode b). rewrite Ht. split; [reflexivity|]. split; [apply spent_refl|auto]. }
    destruct (beq parent (bs "#top")) eqn:Etop.
    + destruct name; [| |contradiction|].
      * apply (HE _ (t_root_array_end pr)); [cbn [N2dProofs.n2d_te]; rewrite Etop; reflexivity|]. unfold on_root_array_end, on_array_end, t_root_array_end, t_array_end. steps.
      * apply (HE _ (t_root_object_end pr wr)); [cbn [N2dProofs.n2d_te]; rewrite Etop; reflexivity|]. unfold on_root_object_end, t_root_object_end. destruct wr; steps.
      * apply HN. cbn [N2dProofs.n2d_te]. rewrite Etop. reflexivity.
    + destruct name; [| |contradiction|].
      * apply (HE _ (t_array_end pr)); [cbn [N2dProofs.n2d_te]; rewrite Etop; reflexivity|]. unfold on_array_end, t_array_end. steps.
      * apply (HE _ (t_object_end pr)); [cbn [N2dProofs.n2d_te]; rewrite Etop; reflexivity|]. unfold on_nested_object_end, t_object_end. steps.
      * apply HN. cbn [N2dProofs.n2d_te]. rewrite Etop. reflexivity.
Qed.
End N2d.

(** ** The conversion *)
Lemma quiet_new rd rb : (forall e, ~ In (Fail e) (sched rd)) -> rquiet (rj_new rd rb) = true.
Proof. intros H. apply forallb_forall. intros [k|e] Hx; [reflexivity|]. destruct (H e Hx). Qed.
Lemma n2d_only whole rb pr wr fuel rd w xb w' : 8 <= len rb -> (forall e, ~ In (Fail e) (sched rd)) -> (whole = true -> sched rd = [] /\ len (src rd) <= len rb) ->
  convert_normal_to_ddb fuel rd w rb xb pr wr = Done (w', Ok tt) ->
  exists vs r, lax_documents whole true vs (src rd) r /\ blanks r /\
    exists text m', run_items (n2d_tb pr wr) (n2d_te pr wr) [bs "#top"] vs (false, 0) = Some (text, m') /\ spent w text w'.
Proof.
  intros H8 Hq Hw E. unfold convert_normal_to_ddb in E. destruct (convert _ _ _ _ _ _ _ _) as [[u v]| |] eqn:Ec; cbn [obind] in E; try discriminate. injection E as <- ->.
  unfold convert in Ec. destruct (pool_new true xb 34) as [[p|e]| |] eqn:Ep; cbn [obind] in Ec; try discriminate.
  destruct (scan (n2d_callbacks wr) (mkOptions [] false) fuel (mkS (rj_new rd rb) (conv_new w pr) p)) as [[s [[]|e]]| |] eqn:Es; cbn [obind] in Ec; try discriminate. injection Ec as <-.
  assert (HF : fresh (pool_dims 34 xb) p) by (exists true, xb; split; [exact Ep|]; split; reflexivity).
  destruct (sound_calm (n2d_callbacks wr) _ true whole (len rb) (pool_dims 34 xb) (mkOptions [] false) fuel (mkS (rj_new rd rb) (conv_new w pr) p) s ltac:(lia)
    (n2d_heeds pr wr whole (len rb) H8) eq_refl eq_refl) as (vs & r & Hl & Hr & Hwalk); auto.
  - split; [apply valid_new|]. split; [reflexivity|]. intros Hwh. right. destruct (Hw Hwh) as (A & C). split; [exact A|]. split; [reflexivity|exact C].
  - intros _. apply quiet_new, Hq.
  - exists vs, r. split; [exact Hl|]. split; [exact Hr|]. apply (proj1 (proj2 (exact_walk cout cmode (cgood pr) (n2d_tb pr wr) (n2d_te pr wr) _))) in Hwalk.
    destruct (Hwalk eq_refl) as (text & m' & Ht & Hs & _); [split; reflexivity|]. exists text, m'. split; [exact Ht|exact Hs].
Qed.
Lemma n2d_sound pr wr : exists converted : list json -> option bytes,
  (forall vs, Forall ordinary vs -> atoms_apart false vs -> Forall (numbers_within 32) vs -> Forall (suits any_layout) vs ->
     exists text, converted vs = Some text /\ documents any_layout (map (record wr) vs) text /\ (pr = false -> text = lines (map (record wr) vs))) /\
  forall whole fuel rd w rb xb w', 8 <= len rb -> (forall e, ~ In (Fail e) (sched rd)) -> (whole = true -> sched rd = [] /\ len (src rd) <= len rb) ->
    convert_normal_to_ddb fuel rd w rb xb pr wr = Done (w', Ok tt) ->
    exists vs r text, lax_documents whole true vs (src rd) r /\ blanks r /\ converted vs = Some text /\ spent w text w'.
Proof.
  exists (fun vs => option_map fst (run_items (n2d_tb pr wr) (n2d_te pr wr) [bs "#top"] vs (false, 0))). split.
  - intros vs Ho Ha Hn Hs. destruct (run_roots pr wr vs Ho false Ha) as (p' & Ht). rewrite Ht. eexists. split; [reflexivity|]. split; [exact (roots_any pr wr vs Hs Hn)|].
    intros ->. exact (roots_compact wr vs Hn).
  - intros whole fuel rd w rb xb w' H8 Hq Hw E. destruct (n2d_only _ _ _ _ _ _ _ _ _ H8 Hq Hw E) as (vs & r & Hl & Hr & text & m' & Ht & Hs).
    exists vs, r, text. split; [exact Hl|]. split; [exact Hr|]. rewrite Ht. split; [reflexivity|exact Hs].
Qed.
