(** Proofs about normal_to_ddb.rs. *)
From Verif Require Import Base U8Pool Buffer BufferSpec Jiter RJiter RJiterSpec Scan ScanSpec IdSpec DdbSpec Conv NormalToDdb ConvSpec.
From Verif Require Import RJiterLookProofs ScanTokens ScanParser ScanStack ScanProofs ScanTop ScanSse IdProofs Transducer ConvProofs.

Section N2d.
Context (pr wr : bool).
Notation Step := (@tstep (bool * nat)).
Notation t_newline := (t_newline pr).
Notation t_indent := (t_indent pr).
Notation t_comma := (t_comma pr).
Notation t_put := (@t_put).
(** An error of the writer inside a string is not stored. *)
Definition n2d_noted (c : conv) (k : io_kind) : Prop := (exists x, last_error c = Some (CIo k x)) \/ last_error c = None.
Lemma n2d_io c k x : last_error c = Some (CIo k x) -> n2d_noted c k.
Proof. left. eauto. Qed.
Notation does := (does cout cmode (cgood pr) n2d_noted false).
Notation wrote := (wrote cout cmode (cgood pr)).
Notation torn := (torn cout n2d_noted false).

(** ** What the handlers write *)
Definition t_close : Step := t_newline ;> t_shallower ;> t_indent ;> t_put [RBRACE] ;> t_comma_is true.
Definition atom_text (v : json) : bytes :=
  match v with
  | JNull => bs """NULL"":true"
  | JTrue => bs """BOOL"":true"
  | JFalse => bs """BOOL"":false"
  | JNumber t => bs """N"":""" ++ firstn 32 t ++ [QUOTE]
  | JString t => bs """S"":""" ++ t ++ [QUOTE]
  | _ => []
  end.
Definition t_atom (v : json) : Step := t_comma ;> t_indent ;> t_put (atom_text v) ;> t_close.
Definition t_array : Step := t_indent ;> t_put (bs """L"":[") ;> t_newline ;> t_comma_is false.
Definition t_object : Step := t_indent ;> t_put (bs """M"":{") ;> t_newline ;> t_deeper ;> t_comma_is false.
Definition t_element : Step := t_comma ;> t_put [LBRACE] ;> t_newline ;> t_deeper ;> t_comma_is false.
Definition t_field (k : bytes) : Step :=
  t_comma ;> t_indent ;> t_put [QUOTE] ;> t_put k ;> t_put (bs """:{") ;> t_newline ;> t_deeper ;> t_comma_is false.
Definition t_root_object : Step :=
  if wr then t_put [LBRACE] ;> t_newline ;> t_deeper ;> t_indent ;> t_put (bs """Item"":{") ;> t_newline ;> t_deeper ;> t_comma_is false
  else t_put [LBRACE] ;> t_newline ;> t_deeper ;> t_comma_is false.
Definition t_root_literal (v : json) : Step := (t_put [LBRACE] ;> t_deeper) ;> t_atom v ;> t_put [10%N] ;> t_comma_is false.
Definition t_root_array : Step := t_put [LBRACE] ;> t_newline ;> t_deeper ;> t_array.
Definition t_object_end : Step :=
  t_newline ;> t_shallower ;> t_indent ;> t_put [RBRACE] ;> t_newline ;> t_shallower ;> t_indent ;> t_put [RBRACE] ;> t_comma_is true.
Definition t_array_end : Step := t_newline ;> t_indent ;> t_put [RBRACK] ;> t_newline ;> t_shallower ;> t_indent ;> t_put [RBRACE] ;> t_comma_is true.
Definition t_root_object_end : Step :=
  t_newline ;> t_shallower ;> t_indent ;>
  (if wr then t_put [RBRACE] ;> t_newline ;> t_shallower ;> t_indent ;> t_put [RBRACE] else t_put [RBRACE]) ;> t_put [10%N].
Definition t_root_array_end : Step := t_array_end ;> t_put [10%N].

Definition goes (f : Step) (m : bool * nat) : option (bytes * (bool * nat) * bool) := match f m with Some (a, m') => Some (a, m', false) | None => None end.
Definition takes (f : Step) (m : bool * nat) : option (bytes * (bool * nat) * bool) := match f m with Some (a, m') => Some (a, m', true) | None => None end.
Definition n2d_tb (name : pseudoname) (path : list bytes) (v : json) : bool * nat -> option (bytes * (bool * nat) * bool) :=
  match path with
  | [] => fun _ => None
  | parent :: _ =>
      if beq parent (bs "#top") then
        match name with
        | PObject => goes t_root_object
        | PAtom => takes (t_root_literal v)
        | PArray => goes t_root_array
        | PNone => goes t_none
        end
      else
        let in_array := beq parent (bs "#array") in
        match name with
        | PNone => goes (t_field parent)
        | PAtom => takes (if in_array then t_element ;> t_atom v else t_atom v)
        | PArray => goes (if in_array then t_element ;> t_array else t_array)
        | PObject => goes (if in_array then t_element ;> t_object else t_object)
        end
  end.
Definition n2d_te (name : pseudoname) (path : list bytes) : Step :=
  match path with
  | [] => t_none
  | parent :: _ =>
      if beq parent (bs "#top") then
        match name with
        | PObject => t_root_object_end
        | PArray => t_root_array_end
        | PAtom | PNone => t_none
        end
      else
        match name with
        | PObject => t_object_end
        | PArray => t_array_end
        | PAtom | PNone => t_none
        end
  end.

(** ** The handlers write it *)
Ltac steps := repeat first
  [ apply does_then | apply (does_put _ _ _ n2d_io) | apply (does_newline _ _ _ n2d_io) | apply (does_comma _ _ _ n2d_io)
  | apply (does_indent _ _ _ n2d_io) | apply does_deeper | apply does_shallower | apply does_comma_is | apply does_skip ].
Lemma does_close : does close_atom t_close. Proof. unfold close_atom, t_close. steps. Qed.
Lemma does_array : does array_begin t_array. Proof. unfold array_begin, t_array. steps. Qed.
Lemma does_object : does nested_object_begin t_object. Proof. unfold nested_object_begin, t_object. steps. Qed.
Lemma does_element : does element_begin t_element. Proof. unfold element_begin, t_element. steps. Qed.
Lemma does_object_end : does on_nested_object_end t_object_end. Proof. unfold on_nested_object_end, t_object_end. steps. Qed.
Lemma does_array_end : does on_array_end t_array_end. Proof. unfold on_array_end, t_array_end. steps. Qed.
Lemma does_root_array_end : does on_root_array_end t_root_array_end.
Proof. unfold on_root_array_end, t_root_array_end. apply does_then; [exact does_array_end|steps]. Qed.
Lemma does_root_object_end : does (on_root_object_end wr) t_root_object_end.
Proof. unfold on_root_object_end, t_root_object_end. destruct wr; steps. Qed.

(** Texts that are written in other pieces. *)
Lemma does_ext f (s t : Step) : (forall m, s m = t m) -> does f s -> does f t.
Proof. intros H Hf c Hc text m' Ht. rewrite <- H in Ht. apply (Hf c Hc _ _ Ht). Qed.
Lemma put_then a b (f : Step) m : (t_put (a ++ b) ;> f) m = (t_put a ;> t_put b ;> f) m.
Proof. unfold t_then, t_put. destruct (f m) as [[y m2]|]; [|reflexivity]. rewrite app_assoc. reflexivity. Qed.
Lemma then_assoc (a b c : Step) m : ((a ;> b) ;> c) m = (a ;> b ;> c) m.
Proof.
  unfold t_then. destruct (a m) as [[x m1]|]; [|reflexivity]. destruct (b m1) as [[y m2]|]; [|reflexivity]. destruct (c m2) as [[z m3]|]; [|reflexivity].
  rewrite app_assoc. reflexivity.
Qed.
Lemma then_ext (a b c : Step) m : (forall m, b m = c m) -> (a ;> b) m = (a ;> c) m.
Proof. intros H. unfold t_then. destruct (a m) as [[x m1]|]; [|reflexivity]. rewrite H. reflexivity. Qed.

Section Parser.
Context (G0 G : rj -> Prop) (P : profile) (PF : parser_facts G0 G P false).
Notation handled := (handled cout cmode (cgood pr) n2d_noted false G).
Lemma peeked s w x l : G s -> rest s = w ++ x :: l -> spaces w -> solid x -> exists s', peek s = Done (s', Ok x) /\ rest s' = x :: l /\ G s'.
Proof.
  intros HG Hr Hw Hx. destruct (pf_peek _ _ _ _ PF s w x l (pf_start _ _ _ _ PF _ HG) Hr Hw Hx) as (s' & [v|e] & E & H); [|destruct H; discriminate].
  destruct H as (-> & H1 & H2). eauto.
Qed.
Lemma tried_ok {A} (x : outcome (rj * result A rerror)) Q : tried false x Q -> exists s' v, x = Done (s', Ok v) /\ Q s' v.
Proof. intros (s' & [v|e] & E & H); [eauto|discriminate]. Qed.

Lemma string_handled s t r c text m' : G s -> rest s = QUOTE :: t ++ QUOTE :: r -> string_text t -> string_ok P t -> cgood pr c ->
  (t_indent ;> t_put (atom_text (JString t)) ;> t_close) (cmode c) = Some (text, m') -> handled r ValueIsConsumed c text m' (on_string_value s c).
Proof.
  intros HG Hr Ht Hs Hc HT. unfold on_string_value.
  assert (HT2 : ((t_indent ;> t_put (bs """S"":""")) ;> t_put t ;> t_put [QUOTE] ;> t_close) (cmode c) = Some (text, m')).
  { rewrite then_assoc. rewrite <- HT. apply then_ext. intros m. cbn [atom_text]. rewrite put_then. apply then_ext. intros m1. symmetry. apply put_then. }
  eapply step_handled; [apply does_then; steps|exact Hc|exact HT2|]. clear c text HT HT2 Hc. intros c y Hc Hy.
  apply then_inv in Hy as (p & m1 & q & Hp & Hq & ->). injection Hp as <- <-.
  destruct (pf_string _ _ _ _ PF s (cout c) t r HG Hr Ht Hs) as (s' & w' & res & a & b & -> & Hab & Hsp & Hres). cbn [obind]. destruct res as [[]|e].
  - destruct Hres as (-> & Hr' & HG'). rewrite app_nil_r in Hab. subst a.
    apply (handled_after cout cmode (cgood pr) n2d_noted false G r ValueIsConsumed c t (cmode c) (set_cout c w') q m').
    + split; [exact Hsp|]. split; [reflexivity|exact Hc].
    + apply (act_of_handled cout cmode (cgood pr) n2d_noted false G _ (t_put [QUOTE] ;> t_close)); auto; [|discriminate].
      apply does_then; [steps|exact does_close].
  - apply handled_torn. right. destruct Hres as [Hres|(k & _ & Hk & Hb)]; [discriminate|]. exists a, (b ++ q), k. rewrite Hab, <- app_assoc. split; [reflexivity|].
    split; [destruct b; [contradiction|discriminate]|]. split; [apply worn_now; assumption|]. right. apply Hc.
Qed.
Lemma bool_handled (x : bool) s r c text m' : G s -> rest s = bs (if x then "true" else "false") ++ r -> cgood pr c ->
  (t_indent ;> t_put (atom_text (if x then JTrue else JFalse)) ;> t_close) (cmode c) = Some (text, m') ->
  handled r ValueIsConsumed c text m' (on_bool_value s c).
Proof.
  intros HG Hr Hc HT. unfold on_bool_value.
  destruct (peeked s [] (if x then PeekTrue else PeekFalse) (tl (bs (if x then "true" else "false")) ++ r)) as (s1 & -> & Hr1 & HG1); [exact HG| |constructor| |].
  { rewrite Hr. destruct x; reflexivity. } { destruct x; reflexivity. }
  cbn [obind]. eapply step_handled; [steps|exact Hc|exact HT|]. clear c text HT Hc. intros c y Hc Hy. destruct x.
  - change (N.eqb PeekTrue PeekTrue) with true. cbv iota. destruct (tried_ok _ _ (pf_true _ _ _ _ PF s1 r HG1 Hr1)) as (s2 & v & -> & _ & Hr2 & HG2). cbn [obind].
    apply (act_of_handled cout cmode (cgood pr) n2d_noted false G _ (t_put (bs """BOOL"":true") ;> t_close)); auto; [|discriminate].
    apply does_then; [steps|exact does_close].
  - change (N.eqb PeekFalse PeekTrue) with false. change (N.eqb PeekFalse PeekFalse) with true. cbv iota.
    destruct (tried_ok _ _ (pf_false _ _ _ _ PF s1 r HG1 Hr1)) as (s2 & v & -> & _ & Hr2 & HG2). cbn [obind].
    apply (act_of_handled cout cmode (cgood pr) n2d_noted false G _ (t_put (bs """BOOL"":false") ;> t_close)); auto; [|discriminate].
    apply does_then; [steps|exact does_close].
Qed.
Lemma null_handled s r c text m' : G s -> rest s = bs "null" ++ r -> cgood pr c ->
  (t_indent ;> t_put (atom_text JNull) ;> t_close) (cmode c) = Some (text, m') ->
  handled r ValueIsConsumed c text m' (on_null_value s c).
Proof.
  intros HG Hr Hc HT. unfold on_null_value.
  destruct (peeked s [] PeekNull (tl (bs "null") ++ r)) as (s1 & -> & Hr1 & HG1); [exact HG|exact Hr|constructor|reflexivity|].
  cbn [obind]. change (N.eqb PeekNull PeekNull) with true. cbv iota.
  destruct (tried_ok _ _ (pf_null _ _ _ _ PF s1 r HG1 Hr1)) as (s2 & v & -> & Hr2 & HG2). cbn [obind].
  apply (act_of_handled cout cmode (cgood pr) n2d_noted false G _ (t_indent ;> t_put (bs """NULL"":true") ;> t_close)); auto; [|discriminate].
  apply does_then; [steps|]. apply does_then; [steps|exact does_close].
Qed.
Lemma atom_handled b v l r s c text m' : atom v -> value_at P b v l r -> G s -> rest s = l -> cgood pr c ->
  t_atom v (cmode c) = Some (text, m') -> handled r ValueIsConsumed c text m' (on_atom_value s c).
Proof.
  intros Ha Hv HG Hr Hc HT. unfold on_atom_value. eapply step_handled; [apply (does_comma _ _ _ n2d_io)|exact Hc|exact HT|]. clear c text HT Hc. intros c y Hc HT.
  destruct (value_head _ _ _ _ _ Hv) as (x & l0 & El & Hx & _).
  destruct (peeked s [] x l0 HG) as (s1 & -> & Hr1 & HG1); [rewrite Hr, El; reflexivity|constructor|exact Hx|]. cbn [obind]. clear s HG Hr. rewrite <- El in Hr1.
  destruct Hv; try contradiction Ha.
  - injection El as <- <-. apply null_handled; assumption.
  - injection El as <- <-. apply (bool_handled true); assumption.
  - injection El as <- <-. apply (bool_handled false); assumption.
  - destruct (number_head t H) as (z & q & Et & Hz). assert (x = z) as -> by (rewrite Et in El; injection El; auto).
    assert (Hne : forall y : byte, y = QUOTE \/ y = PeekNull \/ y = PeekTrue \/ y = PeekFalse -> N.eqb z y = false).
    { intros z0 Hz0. apply N.eqb_neq. intros ->. destruct Hz0 as [->|[->|[->| ->]]]; destruct Hz as [Hz|Hz]; try discriminate; destruct Hz as (A & B0); vm_compute in A, B0; congruence. }
    rewrite !Hne by auto. cbn [orb].
    destruct (tried_ok _ _ (pf_number _ _ _ _ PF s1 t r HG1 Hr1 H H0 H1)) as (s' & u & -> & -> & Hr' & HG'). cbn [obind].
    eapply act_of_handled; [|exact Hc| |exact HG'|exact Hr'|discriminate].
    { apply does_then; [steps|]. apply does_then; [steps|]. apply does_then; [steps|]. apply does_then; [steps|exact does_close]. }
    rewrite <- HT. apply then_ext. intros m. cbn [atom_text]. rewrite put_then. apply then_ext. intros m1. rewrite put_then. reflexivity.
  - injection El as <- <-. change (N.eqb QUOTE QUOTE) with true. cbv iota. apply string_handled with (t := t); auto.
Qed.

(** The line feed behind an atom at the top level. *)
Lemma final_handled r c text p m1 q m' x : handled r ValueIsConsumed c p m1 x -> (t_put [10%N] ;> t_comma_is false) m1 = Some (q, m') -> text = p ++ q ->
  handled r ValueIsConsumed c text m' (do (s, c, op) <- x; act_of (put [10%N] "writing final newline" ;; comma_is false) op s c).
Proof.
  intros (s & c' & op & -> & H) Hq ->. cbn [obind]. destruct op as [| |msg]; [destruct H; discriminate| |].
  - destruct H as (_ & HG & Hr & Hw). eapply handled_after; [exact Hw|].
    eapply act_of_handled; [apply does_then; steps|apply Hw| |exact HG|exact Hr|discriminate]. destruct Hw as (_ & -> & _). exact Hq.
  - destruct H as [H|(a & b & k & -> & Hb & Hs & Hn)]; [discriminate|]. unfold act_of, and_then, put.
    destruct (write_all_spent (cout c') [10%N]) as (w' & v & -> & Hv). pose proof (worn_exhausted _ _ _ _ Hs) as Hk.
    assert (exists j, spent (cout c') j w' /\ match v with Ok _ => True | Err k' => k' = k end) as (j & Hj & Hv').
    { destruct v as [u|k']; [eauto|]. destruct Hv as (j & _ & _ & _ & Hj & Hk'). exists j. split; [exact Hj|]. apply (spent_exhausted _ _ _ _ Hk) in Hj as (Hj & _). unfold exhausted in *. congruence. }
    assert (Hw : worn (cout c) a w' k).
    { destruct Hs as (w1 & j1 & Hs1 & Hs2 & Hs3). exists w1, (j1 ++ j). split; [exact Hs1|]. split; [exact Hs2|]. eapply spent_trans; eassumption. }
    assert (HX : forall c2 msg2, cout c2 = w' -> n2d_noted c2 k -> handled r ValueIsConsumed c ((a ++ b) ++ q) m' (Done (s, c2, OpError msg2))).
    { intros c2 msg2 <- Hn2. apply handled_torn. right. exists a, (b ++ q), k. rewrite app_assoc. split; [reflexivity|]. split; [destruct b; [contradiction|discriminate]|]. auto. }
    destruct v as [u|k']; cbn [obind]; [unfold comma_is, change_to; cbn [obind]; apply HX; [reflexivity|exact Hn]|]. subst k'.
    apply HX; [reflexivity|]. left. eexists. reflexivity.
Qed.

(** ** The handlers in every state *)
Ltac calm := repeat first
  [ apply safe_then | apply safe_put | apply safe_newline | apply safe_comma | apply safe_indent | apply safe_deeper
  | apply safe_shallower | apply safe_comma_is | apply safe_skip ].
Notation safely := (safely G).
Lemma string_safely s t r c : G s -> rest s = QUOTE :: t ++ QUOTE :: r -> string_text t -> string_ok P t -> safely r ValueIsConsumed (on_string_value s c).
Proof.
  intros HG Hr Ht Hs. unfold on_string_value. apply safely_step; [calm|]. clear c. intros c.
  destruct (pf_string _ _ _ _ PF s (cout c) t r HG Hr Ht Hs) as (s' & w' & [[]|e] & a & b & -> & _ & _ & Hres); cbn [obind].
  - destruct Hres as (_ & Hr' & HG'). apply safely_act; auto. unfold close_atom. calm.
  - apply safely_error.
Qed.
Lemma bool_safely (x : bool) s r c : G s -> rest s = bs (if x then "true" else "false") ++ r -> safely r ValueIsConsumed (on_bool_value s c).
Proof.
  intros HG Hr. unfold on_bool_value.
  destruct (peeked s [] (if x then PeekTrue else PeekFalse) (tl (bs (if x then "true" else "false")) ++ r)) as (s1 & -> & Hr1 & HG1); [exact HG| |constructor| |].
  { rewrite Hr. destruct x; reflexivity. } { destruct x; reflexivity. }
  cbn [obind]. apply safely_step; [calm|]. clear c. intros c. destruct x.
  - change (N.eqb PeekTrue PeekTrue) with true. cbv iota. destruct (tried_ok _ _ (pf_true _ _ _ _ PF s1 r HG1 Hr1)) as (s2 & v & -> & _ & Hr2 & HG2). cbn [obind].
    apply safely_act; auto. unfold close_atom. calm.
  - change (N.eqb PeekFalse PeekTrue) with false. change (N.eqb PeekFalse PeekFalse) with true. cbv iota.
    destruct (tried_ok _ _ (pf_false _ _ _ _ PF s1 r HG1 Hr1)) as (s2 & v & -> & _ & Hr2 & HG2). cbn [obind].
    apply safely_act; auto. unfold close_atom. calm.
Qed.
Lemma null_safely s r c : G s -> rest s = bs "null" ++ r -> safely r ValueIsConsumed (on_null_value s c).
Proof.
  intros HG Hr. unfold on_null_value.
  destruct (peeked s [] PeekNull (tl (bs "null") ++ r)) as (s1 & -> & Hr1 & HG1); [exact HG|exact Hr|constructor|reflexivity|].
  cbn [obind]. change (N.eqb PeekNull PeekNull) with true. cbv iota.
  destruct (tried_ok _ _ (pf_null _ _ _ _ PF s1 r HG1 Hr1)) as (s2 & v & -> & Hr2 & HG2). cbn [obind].
  apply safely_act; auto. unfold close_atom. calm.
Qed.
Lemma atom_safely b v l r s c : atom v -> value_at P b v l r -> G s -> rest s = l -> safely r ValueIsConsumed (on_atom_value s c).
Proof.
  intros Ha Hv HG Hr. unfold on_atom_value. apply safely_step; [calm|]. clear c. intros c.
  destruct (value_head _ _ _ _ _ Hv) as (x & l0 & El & Hx & _).
  destruct (peeked s [] x l0 HG) as (s1 & -> & Hr1 & HG1); [rewrite Hr, El; reflexivity|constructor|exact Hx|]. cbn [obind]. clear s HG Hr. rewrite <- El in Hr1.
  destruct Hv; try contradiction Ha.
  - injection El as <- <-. apply null_safely; assumption.
  - injection El as <- <-. apply (bool_safely true); assumption.
  - injection El as <- <-. apply (bool_safely false); assumption.
  - destruct (number_head t H) as (z & q & Et & Hz). assert (x = z) as -> by (rewrite Et in El; injection El; auto).
    assert (Hne : forall y : byte, y = QUOTE \/ y = PeekNull \/ y = PeekTrue \/ y = PeekFalse -> N.eqb z y = false).
    { intros z0 Hz0. apply N.eqb_neq. intros ->. destruct Hz0 as [->|[->|[->| ->]]]; destruct Hz as [Hz|Hz]; try discriminate; destruct Hz as (A & B0); vm_compute in A, B0; congruence. }
    rewrite !Hne by auto. cbn [orb].
    destruct (tried_ok _ _ (pf_number _ _ _ _ PF s1 t r HG1 Hr1 H H0 H1)) as (s' & u & -> & -> & Hr' & HG'). cbn [obind].
    apply safely_act; auto. unfold close_atom. calm.
  - injection El as <- <-. change (N.eqb QUOTE QUOTE) with true. cbv iota. apply string_safely with (t := t); auto.
Qed.

Notation beh := (transducer cout cmode (cgood pr) n2d_noted false n2d_tb n2d_te).
(** Both together. *)
Lemma handled_begin name path v b l r l' op (f : Step) c x : n2d_tb name path v (cmode c) = (match op with OpNone => goes f | _ => takes f end) (cmode c) ->
  match op with OpNone => l' = l /\ (forall s' c' o, x = Done (s', c', o) -> b = true -> 0 < jidx s') | ValueIsConsumed => l' = r | OpError _ => False end ->
  (forall text m', f (cmode c) = Some (text, m') -> cgood pr c -> handled l' op c text m' x) -> safely l' op x ->
  (x = Panic /\ exists u', on_begin beh name path v c u' None) \/
  exists s' u' o, x = Done (s', u', o) /\ on_begin beh name path v c u' (Some o) /\
    match o with
    | OpNone => G s' /\ rest s' = l /\ (b = true -> 0 < jidx s')
    | ValueIsConsumed => G s' /\ rest s' = r
    | OpError _ => True
    end.
Proof.
  intros Ht Hop Hh [->|(s' & c' & o & -> & Hs)].
  - left. split; [reflexivity|]. exists c. cbn [on_begin transducer]. intros Hg. rewrite Ht. destruct (f (cmode c)) as [[a m']|] eqn:Ef.
    + destruct (Hh a m' eq_refl Hg) as (? & ? & ? & ? & _). discriminate.
    + destruct op; unfold goes, takes; rewrite Ef; exact I.
  - right. exists s', c', o. split; [reflexivity|]. split.
    + cbn [on_begin transducer]. intros Hg. rewrite Ht. destruct (f (cmode c)) as [[a m']|] eqn:Ef.
      * destruct (Hh a m' eq_refl Hg) as (s1 & c1 & o1 & E1 & H1). injection E1 as <- <- <-.
        destruct op; unfold goes, takes; rewrite Ef; [| |contradiction]; destruct o; try exact H1; destruct H1 as (H1 & _ & _ & H2); try discriminate; auto.
      * destruct op; unfold goes, takes; rewrite Ef; exact I.
    + destruct o as [| |m]; [| |exact I]; destruct Hs as (<- & HG & Hr); [destruct Hop as (-> & Hj)|subst l']; eauto 10.
Qed.
Lemma handled_act name path v b l r (f : Step) g s c : n2d_tb name path v (cmode c) = goes f (cmode c) -> does g f -> safe g ->
  G s -> rest s = l -> (b = true -> 0 < jidx s) ->
  (act_of g OpNone s c = Panic /\ exists u', on_begin beh name path v c u' None) \/
  exists s' u' o, act_of g OpNone s c = Done (s', u', o) /\ on_begin beh name path v c u' (Some o) /\
    match o with
    | OpNone => G s' /\ rest s' = l /\ (b = true -> 0 < jidx s')
    | ValueIsConsumed => G s' /\ rest s' = r
    | OpError _ => True
    end.
Proof.
  intros Ht Hg Hsafe HG Hr Hj. apply (handled_begin name path v b l r l OpNone f); auto.
  - split; [reflexivity|]. intros s' c' o H. unfold act_of in H. destruct (g c) as [[c1 e]| |]; try discriminate. injection H as <- _ _. exact Hj.
  - intros text m' Hf Hc. apply (act_of_handled cout cmode (cgood pr) n2d_noted false G g f); auto. discriminate.
  - apply safely_act; auto.
Qed.

Lemma atom_begin path v b l r s c (Ha : atom v) : value_at P b v l r -> G s -> rest s = l ->
  forall (act : action conv) (f : Step), n2d_tb PAtom path v (cmode c) = takes f (cmode c) ->
  (forall text m', f (cmode c) = Some (text, m') -> cgood pr c -> handled r ValueIsConsumed c text m' (act s c)) -> safely r ValueIsConsumed (act s c) ->
  (act s c = Panic /\ exists u', on_begin beh PAtom path v c u' None) \/
  exists s' u' o, act s c = Done (s', u', o) /\ on_begin beh PAtom path v c u' (Some o) /\
    match o with
    | OpNone => G s' /\ rest s' = l /\ (b = true -> 0 < jidx s')
    | ValueIsConsumed => G s' /\ rest s' = r
    | OpError _ => True
    end.
Proof. intros Hv HG Hr act f Ht Hh Hs. apply (handled_begin PAtom path v b l r r ValueIsConsumed f); auto. Qed.

Lemma n2d_respects : respects G P (n2d_callbacks wr) beh.
Proof.
  split.
  - intros name b v l r path s c Hname HG Hr Hv Hj. cbn [find_action n2d_callbacks]. destruct path as [|parent path].
    + destruct name; cbn [n2d_find_action names]. all: swap 1 2.
      * cbn [on_begin transducer n2d_tb]. intros _. exact I.
      * destruct (safely_act G array_begin OpNone s l c) as [E|(s' & c' & o & E & H)]; auto.
        { unfold array_begin. calm. }
        { left. split; [exact E|]. exists c. cbn. intros _. exact I. }
        right. exists s', c', o. split; [exact E|]. split; [cbn; intros _; exact I|]. destruct o; [|destruct H; discriminate|exact I]. destruct H as (_ & H1 & H2).
        split; [exact H1|]. split; [exact H2|]. unfold act_of in E. destruct (array_begin c) as [[c1 e]| |]; try discriminate. injection E as <- _ _. exact Hj.
      * destruct (atom_safely b v l r s c Hname Hv HG Hr) as [E|(s' & c' & o & E & H)].
        { left. split; [exact E|]. exists c. cbn. intros _. exact I. }
        right. exists s', c', o. split; [exact E|]. split; [cbn; intros _; exact I|]. destruct o; [destruct H; discriminate|exact (proj2 H)|exact I].
      * contradiction Hname.
    + assert (Htb : forall n, n2d_tb n (parent :: path) v = if beq parent (bs "#top") then
        match n with
        | PObject => goes t_root_object
        | PAtom => takes (t_root_literal v)
        | PArray => goes t_root_array
        | PNone => goes t_none
        end
      else
        let in_array := beq parent (bs "#array") in
        match n with
        | PNone => goes (t_field parent)
        | PAtom => takes (if in_array then t_element ;> t_atom v else t_atom v)
        | PArray => goes (if in_array then t_element ;> t_array else t_array)
        | PObject => goes (if in_array then t_element ;> t_object else t_object)
        end) by reflexivity.
      unfold n2d_find_action. cbn [names]. destruct (beq parent (bs "#top")) eqn:Et.
      * destruct name. all: swap 1 2.
        -- apply (handled_act PObject _ v b l r t_root_object); auto; [rewrite Htb; reflexivity| |].
           ++ unfold t_root_object. destruct wr; steps.
           ++ destruct wr; calm.
        -- apply (handled_act PArray _ v b l r t_root_array); auto; [rewrite Htb; reflexivity| |].
           ++ unfold t_root_array, array_begin, t_array. steps.
           ++ unfold array_begin. calm.
        -- apply (atom_begin _ _ _ _ _ _ _ Hname Hv HG Hr on_root_literal (t_root_literal v)); [rewrite Htb; reflexivity| |].
           ++ intros text m' Ht Hc. unfold on_root_literal. eapply step_handled; [|exact Hc|exact Ht|].
              { steps. }
              clear c text Ht Hc. intros c y Hc Hy. assert (Hy2 : (t_atom v ;> t_put [10%N] ;> t_comma_is false) (cmode c) = Some (y, m')) by exact Hy.
              apply then_inv in Hy2 as (p & m1 & q & H1 & H2 & ->).
              eapply final_handled; [eapply atom_handled; eassumption|exact H2|reflexivity].
           ++ unfold on_root_literal. apply safely_step; [calm|]. clear c. intros c. destruct (atom_safely b v l r s c Hname Hv HG Hr) as [->|(s' & c' & o & -> & H)]; cbn [obind].
              { left. reflexivity. }
              destruct o as [| |msg]; [destruct H; discriminate| |].
              { destruct H as (_ & H1 & H2). apply safely_act; auto. calm. }
              { unfold act_of. destruct ((safe_then _ _ (safe_put [10%N] "writing final newline") (safe_comma_is false)) c') as [->|(c2 & [[]|m] & ->)]; cbn [obind];
                  [left; reflexivity|apply safely_error|apply safely_error]. }
        -- contradiction Hname.
      * cbv zeta in Htb. destruct name. all: swap 1 2.
        -- destruct (beq parent (bs "#array")); [apply (handled_act PObject _ v b l r (t_element ;> t_object))|apply (handled_act PObject _ v b l r t_object)]; auto;
             try (rewrite Htb; reflexivity); try exact does_object; try (apply does_then; [exact does_element|exact does_object]);
             unfold element_begin, nested_object_begin; calm.
        -- destruct (beq parent (bs "#array")); [apply (handled_act PArray _ v b l r (t_element ;> t_array))|apply (handled_act PArray _ v b l r t_array)]; auto;
             try (rewrite Htb; reflexivity); try exact does_array; try (apply does_then; [exact does_element|exact does_array]);
             unfold element_begin, array_begin; calm.
        -- destruct (beq parent (bs "#array")).
           ++ apply (atom_begin _ _ _ _ _ _ _ Hname Hv HG Hr on_array_element_atom (t_element ;> t_atom v)); [rewrite Htb; reflexivity| |].
              ** intros text m' Ht Hc. unfold on_array_element_atom. eapply step_handled; [exact does_element|exact Hc|exact Ht|].
                 intros c1 y Hc1 Hy. eapply atom_handled; eassumption.
              ** unfold on_array_element_atom. apply safely_step; [unfold element_begin; calm|]. intros c1. eapply atom_safely; eassumption.
           ++ apply (atom_begin _ _ _ _ _ _ _ Hname Hv HG Hr on_atom_value (t_atom v)); [rewrite Htb; reflexivity| |].
              ** intros text m' Ht Hc. eapply atom_handled; eassumption.
              ** eapply atom_safely; eassumption.
        -- contradiction Hname.
  - intros v w l r path s c HG Hr Hw Hv. cbn [find_action n2d_callbacks]. destruct path as [|parent path].
    + cbn. intros _. exact I.
    + unfold n2d_find_action. cbn [names]. destruct (beq parent (bs "#top")) eqn:Et.
      * cbn [on_begin transducer]. intros Hg. cbn [n2d_tb]. rewrite Et. cbn [goes t_none]. split; [reflexivity|]. split; [apply spent_refl|auto].
      * assert (Hx : (on_field_key s (set_field c parent) = Panic /\ exists u', on_begin beh PNone (parent :: path) v (set_field c parent) u' None) \/
          exists s' u' o, on_field_key s (set_field c parent) = Done (s', u', o) /\ on_begin beh PNone (parent :: path) v (set_field c parent) u' (Some o) /\
            match o with
            | OpNone => G s' /\ rest s' = w ++ l /\ (false = true -> 0 < jidx s')
            | ValueIsConsumed => G s' /\ rest s' = r
            | OpError _ => True
            end).
        { apply (handled_act PNone _ v false (w ++ l) r (t_field parent)); auto; [cbn [n2d_tb]; rewrite Et; reflexivity| | |discriminate].
          - unfold t_field. steps.
          - calm. }
        destruct Hx as [(E & u & H)|(s' & u & o & E & H & H2)]; [left|right]; rewrite E.
        { split; [reflexivity|]. exists u. exact H. }
        exists s', u, o. split; [reflexivity|]. split; [exact H|]. destruct o; [|exact H2|exact I]. destruct H2 as (H3 & H4 & _). eauto.
  - intros name path c Hname. cbn [find_end_action n2d_callbacks]. unfold n2d_find_end_action. cbn [names].
    assert (HX : forall g f, n2d_te name path (cmode c) = f (cmode c) -> does g f -> safe g ->
      (g c = Panic /\ exists u', on_end beh name path c u' None) \/ exists u' e, g c = Done (u', e) /\ on_end beh name path c u' (Some e)).
    { intros g f Ht Hg Hs. destruct (Hs c) as [E|(c' & e & E)].
      - left. split; [exact E|]. exists c. cbn [on_end transducer]. intros Hc. rewrite Ht. destruct (f (cmode c)) as [[a m']|] eqn:Ef; [|exact I].
        destruct (Hg c Hc _ _ Ef) as (? & ? & E2 & _). congruence.
      - right. exists c', e. split; [exact E|]. cbn [on_end transducer]. intros Hc. rewrite Ht. destruct (f (cmode c)) as [[a m']|] eqn:Ef; [|exact I].
        destruct (Hg c Hc _ _ Ef) as (c2 & e2 & E2 & H). rewrite E in E2. injection E2 as <- <-. destruct e as [[]|m]; exact H. }
    assert (HN : n2d_te name path (cmode c) = t_none (cmode c) -> on_end beh name path c c (Some (Ok tt))).
    { intros Ht. cbn [on_end transducer]. intros Hc. rewrite Ht. split; [apply spent_refl|auto]. }
    destruct path as [|parent path]; [apply HN; reflexivity|]. destruct (beq parent (bs "#top")) eqn:Et; destruct name; try (elim (Hname eq_refl)). all: swap 1 2; swap 4 5.
    + apply (HX _ t_root_object_end); [cbn [n2d_te]; rewrite Et; reflexivity|exact does_root_object_end|]. unfold on_root_object_end. destruct wr; calm.
    + apply (HX _ t_root_array_end); [cbn [n2d_te]; rewrite Et; reflexivity|exact does_root_array_end|]. unfold on_root_array_end, on_array_end. calm.
    + apply HN. cbn [n2d_te]. rewrite Et. reflexivity.
    + apply (HX _ t_object_end); [cbn [n2d_te]; rewrite Et; reflexivity|exact does_object_end|]. unfold on_nested_object_end. calm.
    + apply (HX _ t_array_end); [cbn [n2d_te]; rewrite Et; reflexivity|exact does_array_end|]. unfold on_array_end. calm.
    + apply HN. cbn [n2d_te]. rewrite Et. reflexivity.
Qed.
End Parser.

(** ** The text of a value *)
Notation nl := (nl pr).
Notation tab := (tab pr).
Notation lead := (lead pr).
Notation row := (row pr).
Definition foot (n : nat) : bytes := nl ++ tab n ++ [RBRACE].
Fixpoint inner (n : nat) (v : json) : bytes :=
  match v with
  | JArray vs => tab (S n) ++ bs """L"":[" ++ nl ++ row false (map (fun v => LBRACE :: nl ++ inner (S n) v) vs) ++ nl ++ tab (S n) ++ RBRACK :: foot n
  | JObject ms => tab (S n) ++ bs """M"":{" ++ nl ++
      row false (map (fun '(k, v) => tab (S (S n)) ++ QUOTE :: k ++ bs """:{" ++ nl ++ inner (S (S n)) v) ms) ++ nl ++ tab (S n) ++ RBRACE :: foot n
  | v => tab (S n) ++ atom_text v ++ foot n
  end.
Definition fields (n : nat) (p : bool) (ms : list (bytes * json)) : bytes :=
  row p (map (fun '(k, v) => tab n ++ QUOTE :: k ++ bs """:{" ++ nl ++ inner n v) ms).
Definition elements (n : nat) (p : bool) (vs : list json) : bytes := row p (map (fun v => LBRACE :: nl ++ inner n v) vs).

Notation run_value := (run_value n2d_tb n2d_te).
Notation run_items := (run_items n2d_tb n2d_te).
Notation run_member := (run_member n2d_tb n2d_te).
Notation run_members := (run_members n2d_tb n2d_te).
Definition right (v : json) : Prop := forall path n,
  (forall p, run_value (bs "#array" :: path) v (p, n) = Some (lead p ++ LBRACE :: nl ++ inner n v, (true, n))) /\
  (forall k, ordinary_key k -> run_value (k :: path) v (false, S n) = Some (inner n v, (true, n))).
Lemma run_elements vs : Forall right vs -> forall path n p,
  run_items (bs "#array" :: path) vs (p, n) = Some (elements n p vs, (filled p vs, n)).
Proof.
  induction 1 as [|v vs Hv _ IH]; intros path n p; [reflexivity|]. cbn [Transducer.run_items]. unfold t_then. rewrite (proj1 (Hv path n)), IH.
  f_equal. f_equal; [|destruct vs; reflexivity]. unfold elements. cbn [map ConvProofs.row]. rewrite <- !app_assoc. reflexivity.
Qed.
Lemma beq_key k : ordinary_key k -> beq k (bs "#top") = false /\ beq k (bs "#array") = false.
Proof.
  intros (A & B). split; [destruct (beq k (bs "#top")) eqn:E|destruct (beq k (bs "#array")) eqn:E]; auto; apply beq_eq in E; contradiction.
Qed.
Lemma run_fields ms : Forall (fun kv => ordinary_key (fst kv) /\ right (snd kv)) ms -> forall path n p,
  run_members path ms (p, n) = Some (fields n p ms, (filled p ms, n)).
Proof.
  induction 1 as [|[k v] ms (Hk & Hv) _ IH]; intros path n p; [reflexivity|]. cbn [Transducer.run_members]. unfold t_then at 1. cbn [fst snd] in *.
  assert (HE : run_member (k :: path) v (p, n) = Some (lead p ++ tab n ++ QUOTE :: k ++ bs """:{" ++ nl ++ inner n v, (true, n))).
  { unfold Transducer.run_member, t_begin. cbn [n2d_tb]. destruct (beq_key k Hk) as (-> & _). unfold goes.
    unfold t_field, t_then, ConvProofs.t_newline, ConvProofs.t_comma, ConvProofs.t_indent, t_put, t_deeper, t_comma_is. cbn [fst snd].
    rewrite (proj2 (Hv path n) k Hk). cbn [n2d_te]. destruct (beq_key k Hk) as (-> & _). unfold t_none, t_put. f_equal. f_equal. unfold ConvProofs.lead.
    cbn [app]. rewrite ?app_nil_r, <- ?app_assoc. cbn [app]. rewrite <- ?app_assoc. reflexivity. }
  rewrite HE, IH. f_equal. f_equal; [|destruct ms; reflexivity]. unfold fields. cbn [map ConvProofs.row]. rewrite <- ?app_assoc. cbn [app]. rewrite <- ?app_assoc. reflexivity.
Qed.
Ltac unfold_steps := unfold t_root_object, t_root_array, t_root_literal, t_root_object_end, t_root_array_end, t_atom, t_close, t_element, t_array, t_object,
  t_array_end, t_object_end, ConvProofs.t_comma, ConvProofs.t_indent, t_put, ConvProofs.t_newline, t_deeper, t_shallower, t_comma_is, t_none, t_put, t_then.
Ltac same := f_equal; f_equal; unfold ConvProofs.lead, foot; cbn [app]; rewrite ?app_nil_r, <- ?app_assoc; cbn [app]; rewrite <- ?app_assoc; reflexivity.
Lemma run_right v : ordinary v -> right v.
Proof.
  induction v as [v Ha|vs IH|ms IH] using json_induction; intros Ho path n.
  - assert (HV : forall parent m, beq parent (bs "#top") = false -> run_value (parent :: path) v m =
        (if beq parent (bs "#array") then t_element ;> t_atom v else t_atom v) m).
    { intros parent m Hp. destruct v; try contradiction Ha; cbn [Transducer.run_value n2d_tb]; rewrite Hp; unfold takes;
        match goal with |- context[(if ?x then ?f else ?g) m] => destruct ((if x then f else g) m) as [[a m1]|] end; reflexivity. }
    assert (HI : inner n v = tab (S n) ++ atom_text v ++ foot n) by (destruct v; try contradiction Ha; reflexivity).
    rewrite HI. split.
    + intros p. rewrite HV by reflexivity. change (beq (bs "#array") (bs "#array")) with true. cbv iota. unfold_steps. cbn [fst snd]. same.
    + intros k Hk. destruct (beq_key k Hk) as (H1 & H2). rewrite HV by exact H1. rewrite H2. unfold_steps. cbn [fst snd]. same.
  - assert (HF : Forall right vs).
    { cbn [ordinary] in Ho. clear - IH Ho. induction IH as [|v vs Hv _ IH2]; constructor; [apply Hv, Ho|apply IH2, Ho]. }
    split.
    + intros p. rewrite run_array. cbn [n2d_tb]. change (beq (bs "#array") (bs "#array")) with true. change (beq (bs "#array") (bs "#top")) with false. cbv iota zeta. unfold goes, t_then.
      unfold_steps. cbn [fst snd]. rewrite (run_elements vs HF). cbn [n2d_te]. change (beq (bs "#array") (bs "#top")) with false. cbv iota. unfold_steps. cbn [fst snd inner].
      fold (elements (S n) false vs). same.
    + intros k Hk. destruct (beq_key k Hk) as (H1 & H2). rewrite run_array. cbn [n2d_tb]. rewrite H1, H2. cbv iota zeta. unfold goes, t_then.
      unfold_steps. cbn [fst snd]. rewrite (run_elements vs HF). cbn [n2d_te]. rewrite H1. cbv iota. unfold_steps. cbn [fst snd inner].
      fold (elements (S n) false vs). same.
  - assert (HF : Forall (fun kv => ordinary_key (fst kv) /\ right (snd kv)) ms).
    { cbn [ordinary] in Ho. clear - IH Ho. induction IH as [|[k v] ms Hv _ IH2]; constructor; [split; [|apply Hv]; apply Ho|apply IH2, Ho]. }
    split.
    + intros p. rewrite run_object. cbn [n2d_tb]. change (beq (bs "#array") (bs "#array")) with true. change (beq (bs "#array") (bs "#top")) with false. cbv iota zeta. unfold goes, t_then.
      unfold_steps. cbn [fst snd]. rewrite (run_fields ms HF). cbn [n2d_te]. change (beq (bs "#array") (bs "#top")) with false. cbv iota. unfold_steps. cbn [fst snd inner].
      fold (fields (S (S n)) false ms). same.
    + intros k Hk. destruct (beq_key k Hk) as (H1 & H2). rewrite run_object. cbn [n2d_tb]. rewrite H1, H2. cbv iota zeta. unfold goes, t_then.
      unfold_steps. cbn [fst snd]. rewrite (run_fields ms HF). cbn [n2d_te]. rewrite H1. cbv iota. unfold_steps. cbn [fst snd inner].
      fold (fields (S (S n)) false ms). same.
Qed.

(** A record at the top level. *)
Definition root_text (v : json) : bytes :=
  match v with
  | JObject ms =>
      if wr then LBRACE :: nl ++ tab 1 ++ bs """Item"":{" ++ nl ++ fields 2 false ms ++ nl ++ tab 1 ++ RBRACE :: foot 0 ++ [10%N]
      else LBRACE :: nl ++ fields 1 false ms ++ foot 0 ++ [10%N]
  | JArray _ => LBRACE :: nl ++ inner 0 v ++ [10%N]
  | _ => LBRACE :: inner 0 v ++ [10%N]
  end.
Lemma run_root v p : ordinary v -> (p = true -> ~ atom v) ->
  run_value [bs "#top"] v (p, 0) = Some (root_text v, (owes_comma v, 0)).
Proof.
  intros Ho Hp. destruct v as [| | |t|t|vs|ms].
  1-5: destruct p; [elim (Hp eq_refl); exact I|]; cbn [Transducer.run_value n2d_tb]; change (beq (bs "#top") (bs "#top")) with true; cbv iota; unfold takes; unfold_steps; cbn [fst snd root_text inner]; same.
  - rewrite run_array. cbn [n2d_tb]. change (beq (bs "#top") (bs "#top")) with true. cbv iota. unfold goes, t_then. unfold_steps. cbn [fst snd].
    rewrite run_elements. 2: { cbn [ordinary] in Ho. clear - Ho. induction vs; constructor; [apply run_right, Ho|apply IHvs, Ho]. }
    cbn [n2d_te]. change (beq (bs "#top") (bs "#top")) with true. cbv iota. unfold_steps. cbn [fst snd root_text inner]. fold (elements 1 false vs). same.
  - rewrite run_object. cbn [n2d_tb]. change (beq (bs "#top") (bs "#top")) with true. cbv iota. unfold goes, t_then. unfold_steps.
    assert (HF : Forall (fun kv => ordinary_key (fst kv) /\ right (snd kv)) ms).
    { cbn [ordinary] in Ho. clear - Ho. induction ms as [|[k v] ms IH2]; constructor; [split; [|apply run_right]; apply Ho|apply IH2, Ho]. }
    cbn [n2d_te]. change (beq (bs "#top") (bs "#top")) with true. cbv iota. unfold root_text, t_root_object_end.
    destruct wr; cbn [fst snd]; rewrite (run_fields ms HF); unfold_steps; cbn [fst snd root_text inner]; destruct ms; same.
Qed.
Lemma run_roots vs : Forall ordinary vs -> forall p, atoms_apart p vs -> exists p',
  run_items [bs "#top"] vs (p, 0) = Some (List.concat (map root_text vs), (p', 0)).
Proof.
  induction 1 as [|v vs Hv _ IH]; intros p Hp; [exists p; reflexivity|]. cbn [atoms_apart] in Hp. destruct (IH _ (proj2 Hp)) as (p' & E). exists p'.
  cbn [Transducer.run_items]. unfold t_then. rewrite (run_root v p Hv (proj1 Hp)), E. reflexivity.
Qed.
End N2d.

(** ** The text is DynamoDB JSON *)
Lemma inner_compact v : numbers_within 32 v -> forall n, LBRACE :: inner false n v = compact (typed v).
Proof.
  induction v as [v Ha|vs IH|ms IH] using json_induction; intros Hn n.
  - destruct v as [| | |t|t| |]; try contradiction Ha; try reflexivity.
    + cbn [inner typed compact map join atom_text]. unfold foot, tab, nl. rewrite firstn_all2 by exact Hn. do 4 (cbn [app]; rewrite <- ?app_assoc). reflexivity.
  - cbn [inner typed compact map join]. unfold foot, tab, nl. cbn [app]. rewrite row_join0, map_map. rewrite <- app_assoc. cbn [app].
    assert (HM : map (fun v : json => LBRACE :: inner false (S n) v) vs = map (fun x : json => compact (typed x)) vs).
    { cbn [numbers_within] in Hn. clear - IH Hn. induction IH as [|v vs Hv _ IH2]; [reflexivity|]. cbn [map]. rewrite Hv by apply Hn. f_equal. apply IH2, Hn. }
    rewrite HM. do 4 (cbn [app]; rewrite <- ?app_assoc). reflexivity.
  - cbn [inner typed compact map join]. unfold foot, tab, nl. cbn [app]. rewrite row_join0, map_map. rewrite <- app_assoc. cbn [app].
    assert (HM : map (fun '(k, v) => QUOTE :: k ++ bs """:{" ++ inner false (S (S n)) v) ms =
      map (fun x => let '(k, v) := let '(k, v) := x in (k, typed v) in QUOTE :: k ++ QUOTE :: COLON :: compact v) ms).
    { cbn [numbers_within] in Hn. clear - IH Hn. induction IH as [|[k v] ms Hv _ IH2]; [reflexivity|]. cbn [map snd] in *. rewrite <- (Hv (proj1 Hn) (S (S n))). f_equal. apply IH2, Hn. }
    change (list byte) with bytes in *. rewrite HM. do 4 (cbn [app]; rewrite <- ?app_assoc). reflexivity.
Qed.
Lemma fields_compact ms : numbers_within 32 (JObject ms) -> forall n,
  LBRACE :: fields false n false ms ++ [RBRACE] = compact (JObject (map (fun '(k, v) => (k, typed v)) ms)).
Proof.
  intros Hn n. cbn [compact]. unfold fields. rewrite row_join0, map_map.
  assert (HM : map (fun '(k, v) => tab false n ++ QUOTE :: k ++ bs """:{" ++ nl false ++ inner false n v) ms =
    map (fun x => let '(k, v) := let '(k, v) := x in (k, typed v) in QUOTE :: k ++ QUOTE :: COLON :: compact v) ms).
  { cbn [numbers_within] in Hn. clear - Hn. induction ms as [|[k v] ms IH2]; [reflexivity|]. cbn [map]. rewrite <- (inner_compact v (proj1 Hn) n). f_equal. apply IH2, Hn. }
  change (list byte) with bytes in *. rewrite HM. do 4 (cbn [app]; rewrite <- ?app_assoc). reflexivity.
Qed.
Lemma root_compact wr v : numbers_within 32 v -> root_text false wr v = compact (record wr v) ++ [10%N].
Proof.
  intros Hn. destruct v as [| | |t|t|vs|ms].
  1-6: cbn [record]; rewrite <- (inner_compact _ Hn 0); reflexivity.
  cbn [record root_text]. destruct wr.
  - cbn [compact map join]. change (LBRACE :: join _ ++ [RBRACE]) with (compact (JObject (map (fun '(k, v) => (k, typed v)) ms))). rewrite <- (fields_compact ms Hn 2).
    unfold foot, tab, nl, pads. do 4 (cbn [app]; rewrite <- ?app_assoc). reflexivity.
  - rewrite <- (fields_compact ms Hn 1). unfold foot, tab, nl, pads. do 4 (cbn [app]; rewrite <- ?app_assoc). reflexivity.
Qed.

(** With white space it is a text of the same value. *)
Lemma number_string t : number_text t -> string_text t.
Proof.
  intros H. apply number_chars in H. exists t. induction H as [|x t Hx _ IH]; [constructor|]. constructor; auto.
  - intros ->. discriminate.
  - intros ->. discriminate.
  - unfold number_char, is_digit in Hx. rewrite !Bool.orb_true_iff, Bool.andb_true_iff, !N.eqb_eq, !N.leb_le in Hx. lia.
Qed.
Definition own_keys : list bytes := [bs "S"; bs "N"; bs "BOOL"; bs "NULL"; bs "L"; bs "M"; bs "Item"].
Ltac flat := repeat first [rewrite <- app_assoc | progress cbn [app]].
Section Layout.
Context (pr : bool) (P : profile).
Notation nl := (nl pr).
Notation tab := (tab pr).
Notation inner := (inner pr).
Definition opens (l : bytes) : Prop := pr = true -> exists x q, l = x :: q /\ space x.
Context (Hopen : forall b l, opens l -> open_ok P b l).
Context (Hkey : forall k, In k own_keys -> key_ok P k []).
Lemma nl_spaces : spaces nl. Proof. unfold ConvProofs.nl. destruct pr; [constructor; [cbv; auto|constructor]|constructor]. Qed.
Lemma pads_spaces n : spaces (pads n). Proof. induction n; [constructor|]. do 2 (constructor; [cbv; auto|]). exact IHn. Qed.
Lemma tab_spaces n : spaces (tab n). Proof. unfold ConvProofs.tab. destruct pr; [apply pads_spaces|constructor]. Qed.
Lemma spaces_app a b : spaces a -> spaces b -> spaces (a ++ b). Proof. intros. apply Forall_app; auto. Qed.
Hint Resolve nl_spaces tab_spaces spaces_app : spaces.
Lemma foot_spaces n : spaces (nl ++ tab n). Proof. auto with spaces. Qed.
Hint Resolve foot_spaces : spaces.

(** What is behind the indentation. *)
Definition core (n : nat) (v : json) : bytes :=
  match v with
  | JArray vs => bs """L"":[" ++ nl ++ row pr false (map (fun v => LBRACE :: nl ++ inner (S n) v) vs) ++ nl ++ tab (S n) ++ RBRACK :: foot pr n
  | JObject ms => bs """M"":{" ++ nl ++
      row pr false (map (fun '(k, v) => tab (S (S n)) ++ QUOTE :: k ++ bs """:{" ++ nl ++ inner (S (S n)) v) ms) ++ nl ++ tab (S n) ++ RBRACE :: foot pr n
  | v => atom_text v ++ foot pr n
  end.
Lemma inner_core n v : inner n v = tab (S n) ++ core n v.
Proof. destruct v; reflexivity. Qed.
Definition laid (v : json) : Prop := forall n b w r, spaces w -> opens (w ++ QUOTE :: r) -> value_at P b (typed v) (LBRACE :: w ++ core n v ++ r) r.

Lemma opens_app w x y : opens (w ++ QUOTE :: x) -> opens (w ++ y).
Proof.
  intros H Hp. destruct (H Hp) as (z & q & E & Hz). destruct w as [|z' w].
  - injection E as <- _. destruct Hz as [Hz|[Hz|[Hz|Hz]]]; discriminate.
  - injection E as <- _. cbn [app]. eauto.
Qed.
Lemma opens_nl w x : opens (nl ++ w ++ x).
Proof. intros Hp. unfold ConvProofs.nl. rewrite Hp. cbn [app]. exists 10%N. eexists. split; [reflexivity|cbv; auto]. Qed.
(** An object with one member. *)
Lemma single b w k v l r n : spaces w -> opens (w ++ QUOTE :: r) -> In k own_keys -> string_text k ->
  value_at P false v l (foot pr n ++ r) ->
  value_at P b (JObject [(k, v)]) (LBRACE :: w ++ QUOTE :: k ++ QUOTE :: COLON :: l) r.
Proof.
  intros Hw Ho Hk Ht Hv. apply (at_object P b w k [] [] v [] l (foot pr n ++ r) r); [exact Hw|exact Ht|constructor|apply Hkey, Hk|constructor| |exact Hv|].
  - apply Hopen. eapply opens_app. exact Ho.
  - unfold foot. rewrite !app_assoc, <- (app_assoc _ [RBRACE]). cbn [app]. constructor. apply foot_spaces.
Qed.
Lemma descriptor k : In k own_keys -> string_text k.
Proof. intros H. exists k. cbn in H. repeat destruct H as [<-|H]; try contradiction; repeat constructor; try discriminate; cbv; discriminate. Qed.
Lemma items_laid vs : Forall laid vs -> forall n r w, spaces w ->
  items_at P (map typed vs) (row pr true (map (fun v => LBRACE :: nl ++ inner n v) vs) ++ w ++ RBRACK :: r) r.
Proof.
  induction 1 as [|v vs Hv _ IH]; intros n r w Hw; [constructor; exact Hw|]. cbn [map ConvProofs.row ConvProofs.lead]. rewrite inner_core. flat.
  apply (items_more P [] nl (typed v) (map typed vs) _ (row pr true (map (fun v => LBRACE :: nl ++ inner n v) vs) ++ w ++ RBRACK :: r) r); [constructor|apply nl_spaces| |apply IH, Hw].
  rewrite (app_assoc nl). apply Hv; [auto with spaces|]. rewrite <- app_assoc. apply opens_nl.
Qed.
Lemma elements_laid vs : Forall laid vs -> forall n b r w, spaces w ->
  value_at P b (JArray (map typed vs)) (LBRACK :: nl ++ row pr false (map (fun v => LBRACE :: nl ++ inner n v) vs) ++ w ++ RBRACK :: r) r.
Proof.
  intros H n b r w Hw. destruct H as [|v vs Hv H].
  - cbn [map ConvProofs.row app]. rewrite app_assoc. constructor. auto with spaces.
  - cbn [map ConvProofs.row ConvProofs.lead app]. rewrite inner_core. flat.
    apply (at_array P b nl (typed v) (map typed vs) _ (row pr true (map (fun v => LBRACE :: nl ++ inner n v) vs) ++ w ++ RBRACK :: r) r); [apply nl_spaces| |apply items_laid; assumption].
    rewrite (app_assoc nl). apply Hv; [auto with spaces|]. rewrite <- app_assoc. apply opens_nl.
Qed.
Definition laid_member (kv : bytes * json) : Prop := string_text (fst kv) /\ key_ok P (fst kv) [] /\ laid (snd kv).
Lemma members_laid ms : Forall laid_member ms -> forall n m r w, spaces w ->
  members_at P (map (fun '(k, v) => (k, typed v)) ms)
    (row pr true (map (fun '(k, v) => tab m ++ QUOTE :: k ++ bs """:{" ++ nl ++ inner n v) ms) ++ w ++ RBRACE :: r) r.
Proof.
  induction 1 as [|[k v] ms (Ht & Hk & Hv) _ IH]; intros n m r w Hw; [constructor; exact Hw|]. cbn [fst snd] in *. cbn [map ConvProofs.row ConvProofs.lead]. rewrite inner_core. change (bs """:{") with [QUOTE; COLON; LBRACE]. flat.
  rewrite (app_assoc nl (tab m)).
  apply (members_more P [] (nl ++ tab m) k [] [] (typed v) _ (LBRACE :: nl ++ tab (S n) ++ core n v ++ row pr true (map (fun '(k, v) => tab m ++ QUOTE :: k ++ bs """:{" ++ nl ++ inner n v) ms) ++ w ++ RBRACE :: r)
    (row pr true (map (fun '(k, v) => tab m ++ QUOTE :: k ++ bs """:{" ++ nl ++ inner n v) ms) ++ w ++ RBRACE :: r) r); auto with spaces; try (constructor; fail).
  rewrite (app_assoc nl). apply Hv; [auto with spaces|]. rewrite <- app_assoc. apply opens_nl.
Qed.
Lemma fields_laid ms : Forall laid_member ms -> forall b n m r w, spaces w ->
  value_at P b (JObject (map (fun '(k, v) => (k, typed v)) ms))
    (LBRACE :: nl ++ row pr false (map (fun '(k, v) => tab m ++ QUOTE :: k ++ bs """:{" ++ nl ++ inner n v) ms) ++ w ++ RBRACE :: r) r.
Proof.
  intros H b n m r w Hw. destruct H as [|[k v] ms (Ht & Hk & Hv) H].
  - cbn [map ConvProofs.row app]. rewrite app_assoc. constructor; [auto with spaces|]. apply Hopen. rewrite <- app_assoc. apply opens_nl.
  - cbn [fst snd] in *. cbn [map ConvProofs.row ConvProofs.lead app]. rewrite inner_core. change (bs """:{") with [QUOTE; COLON; LBRACE]. flat.
    rewrite (app_assoc nl (tab m)).
    apply (at_object P b (nl ++ tab m) k [] [] (typed v) _ (LBRACE :: nl ++ tab (S n) ++ core n v ++ row pr true (map (fun '(k, v) => tab m ++ QUOTE :: k ++ bs """:{" ++ nl ++ inner n v) ms) ++ w ++ RBRACE :: r)
    (row pr true (map (fun '(k, v) => tab m ++ QUOTE :: k ++ bs """:{" ++ nl ++ inner n v) ms) ++ w ++ RBRACE :: r) r); auto with spaces; try (constructor; fail).
    + apply Hopen. rewrite <- app_assoc. apply opens_nl.
    + rewrite (app_assoc nl). apply Hv; [auto with spaces|]. rewrite <- app_assoc. apply opens_nl.
    + apply members_laid; assumption.
Qed.
Lemma value_laid v : suits P v -> numbers_within 32 v -> laid v.
Proof.
  induction v as [v Ha|vs IH|ms IH] using json_induction; intros Hs Hn n b w r Hw Ho.
  - destruct v as [| | |t|t| |]; try contradiction Ha; cbn [core atom_text typed suits] in *; rewrite <- !app_assoc.
    + apply (single b w (bs "NULL") JTrue (bs "true" ++ foot pr n ++ r) r n); auto; [cbn; auto 10|apply descriptor; cbn; auto 10|constructor].
    + apply (single b w (bs "BOOL") JTrue (bs "true" ++ foot pr n ++ r) r n); auto; [cbn; auto 10|apply descriptor; cbn; auto 10|constructor].
    + apply (single b w (bs "BOOL") JFalse (bs "false" ++ foot pr n ++ r) r n); auto; [cbn; auto 10|apply descriptor; cbn; auto 10|constructor].
    + rewrite firstn_all2 by exact Hn.
      apply (single b w (bs "N") (JString t) (QUOTE :: t ++ QUOTE :: foot pr n ++ r) r n); auto; [cbn; auto 10|apply descriptor; cbn; auto 10|]. constructor; [apply number_string, Hs|apply Hs].
    + apply (single b w (bs "S") (JString t) (QUOTE :: t ++ QUOTE :: foot pr n ++ r) r n); auto; [cbn; auto 10|apply descriptor; cbn; auto 10|]. constructor; apply Hs.
  - assert (HF : Forall laid vs).
    { cbn [suits numbers_within] in *. clear - IH Hs Hn. induction IH as [|v vs Hv _ IH2]; constructor; [apply Hv; [apply Hs|apply Hn]|apply IH2; [apply Hs|apply Hn]]. }
    cbn [core typed]. flat.
    apply (single b w (bs "L") _ (LBRACK :: nl ++ row pr false (map (fun v => LBRACE :: nl ++ inner (S n) v) vs) ++ nl ++ tab (S n) ++ RBRACK :: foot pr n ++ r) r n); auto; [cbn; auto 10|apply descriptor; cbn; auto 10|].
    rewrite (app_assoc nl (tab (S n))). apply elements_laid; [exact HF|auto with spaces].
  - assert (HF : Forall laid_member ms).
    { cbn [suits numbers_within] in *. clear - IH Hs Hn. induction IH as [|[k v] ms Hv _ IH2]; constructor; [split; [|split; [|apply Hv]]; try apply Hs; apply Hn|apply IH2; [apply Hs|apply Hn]]. }
    cbn [core typed]. flat.
    apply (single b w (bs "M") _ (LBRACE :: nl ++ row pr false (map (fun '(k, v) => tab (S (S n)) ++ QUOTE :: k ++ bs """:{" ++ nl ++ inner (S (S n)) v) ms) ++ nl ++ tab (S n) ++ RBRACE :: foot pr n ++ r) r n); auto; [cbn; auto 10|apply descriptor; cbn; auto 10|].
    rewrite (app_assoc nl (tab (S n))). apply fields_laid; [exact HF|auto with spaces].
Qed.
Lemma root_laid wr v r : suits P v -> numbers_within 32 v -> value_at P false (record wr v) (root_text pr wr v ++ r) (10%N :: r).
Proof.
  intros Hs Hn. pose proof (value_laid v Hs Hn) as HL.
  assert (HA : forall w, w = [] \/ w = nl -> value_at P false (typed v) ((LBRACE :: w ++ inner 0 v ++ [10%N]) ++ r) (10%N :: r)).
  { intros w Hw. rewrite inner_core. cbn [app]. rewrite <- !app_assoc. rewrite (app_assoc w). apply HL; [destruct Hw as [-> | ->]; auto with spaces|].
    intros Hp. unfold ConvProofs.tab, ConvProofs.nl in *. rewrite Hp in *. destruct Hw as [-> | ->]; cbn [app pads]; eexists _, _; (split; [reflexivity|cbv; auto]). }
  destruct v as [| | |t|t|vs|ms].
  1-5: apply (HA []); auto.
  - apply (HA nl); auto.
  - assert (HF : Forall laid_member ms).
    { cbn [suits numbers_within] in *. clear - Hopen Hkey Hs Hn. induction ms as [|[k v] ms IH2]; constructor;
        [split; [|split; [|apply value_laid]]; try apply Hs; apply Hn|apply IH2; [apply Hs|apply Hn]]. }
    unfold root_text, record, fields. destruct wr.
    + cbn [app]. flat. rewrite (app_assoc nl (tab 1)).
      apply (single false (nl ++ tab 1) (bs "Item") _ (LBRACE :: nl ++ row pr false (map (fun '(k, v) => tab 2 ++ QUOTE :: k ++ bs """:{" ++ nl ++ inner 2 v) ms) ++ nl ++ tab 1 ++ RBRACE :: foot pr 0 ++ 10%N :: r) (10%N :: r) 0); auto with spaces.
      * rewrite <- app_assoc. apply opens_nl.
      * cbn; auto 10.
      * apply descriptor; cbn; auto 10.
      * rewrite (app_assoc nl (tab 1)). apply fields_laid; auto with spaces.
    + unfold foot. cbn [app]. flat. rewrite (app_assoc nl (tab 0)). apply fields_laid; auto with spaces.
Qed.
Lemma roots_laid wr vs : Forall (suits P) vs -> Forall (numbers_within 32) vs -> documents P (map (record wr) vs) (List.concat (map (root_text pr wr) vs)).
Proof.
  intros Hs Hn. assert (HW : forall w, spaces w -> documents P (map (record wr) vs) (w ++ List.concat (map (root_text pr wr) vs))).
  2: { apply (HW []). constructor. }
  induction vs as [|v vs IH]; intros w Hw.
  - cbn. rewrite app_nil_r. constructor. exact Hw.
  - inversion Hs as [|? ? Hs1 Hs2]; subst. inversion Hn as [|? ? Hn1 Hn2]; subst. cbn [map List.concat].
    apply docs_more with (r := 10%N :: List.concat (map (root_text pr wr) vs)).
    + eexists w, _. split; [reflexivity|]. split; [exact Hw|]. apply root_laid; assumption.
    + apply (IH Hs2 Hn2 [10%N]). constructor; [cbv; auto|constructor].
Qed.
End Layout.

(** ** The conversion *)
Notation n2d_dims := (pool_dims 34).
Lemma n2d_run m vs rd w rb xb pr wr : sane m -> may_fail m = false -> start m (rj_new rd rb) -> documents (layout m) vs (src rd) ->
  141 <= len xb -> Forall ordinary vs -> atoms_apart false vs ->
  exists w' v, eventually (fun fuel => convert_normal_to_ddb fuel rd w rb xb pr wr) (Done (w', v)) /\
    let text := List.concat (map (root_text pr wr) vs) in
    match v with
    | Ok _ => spent w text w'
    | Err (e, _) =>
        (exists k, cut_off w text w' k /\ ((exists x, e = CIo k x) \/ exists msg i, e = CScan (ActionError msg i))) \/
        (~ Forall (has_room (n2d_dims xb)) vs /\ exists a b, text = a ++ b /\ spent w a w')
    end.
Proof.
  intros HM HE HS HD Hx Ho Ha. destruct (run_roots pr wr vs Ho false Ha) as (p' & Ht).
  destruct (convert_run cout cmode (cgood pr) n2d_noted (n2d_tb pr wr) (n2d_te pr wr) (n2d_callbacks wr) (fun c => c) 34 m HM) with
    (vs := vs) (rd := rd) (rb := rb) (xb := xb) (u := conv_new w pr) (text := List.concat (map (root_text pr wr) vs)) (m' := (p', 0)) as (u' & v & (n & Hn) & Hv); auto.
  - rewrite HE. apply (n2d_respects pr wr _ _ _ ltac:(rewrite <- HE; apply setting_facts, HM)).
  - intros u Hu. apply Hu.
  - reflexivity.
  - discriminate.
  - change (34 * 4)%N with (N.of_nat 136). lia.
  - unfold pool_dims. cbn [space_for]. change (N.to_nat (34 * 4)) with 136. lia.
  - split; reflexivity.
  - exists (cout u'), v. split.
    + exists n. intros fuel Hf. unfold convert_normal_to_ddb. rewrite (Hn fuel Hf). reflexivity.
    + cbv zeta. destruct v as [[]|[e i]]; [apply Hv|]. destruct Hv as [Hv|[(a & b & k & Hab & Hb & Hs & Hno & He)|(Hr & (a & b & Hab & Hs) & _)]].
      * congruence.
      * left. exists k. split; [exists a, b; auto|]. destruct He as [He|(_ & He)]; [|right; exact He].
        destruct Hno as [(x & Hx0)|Hno]; [left; exists x; congruence|congruence].
      * right. split; [exact Hr|]. eauto.
Qed.
Lemma n2d_converts m vs rd w rb xb pr wr : sane m -> may_fail m = false -> start m (rj_new rd rb) -> documents (layout m) vs (src rd) ->
  141 <= len xb -> Forall ordinary vs -> atoms_apart false vs -> Forall (has_room (n2d_dims xb)) vs -> wfail w = None ->
  exists w', eventually (fun fuel => convert_normal_to_ddb fuel rd w rb xb pr wr) (Done (w', Ok tt)) /\ spent w (List.concat (map (root_text pr wr) vs)) w'.
Proof.
  intros HM HE HS HD Hx Ho Ha Hr Hw. destruct (n2d_run m vs rd w rb xb pr wr HM HE HS HD Hx Ho Ha) as (w' & v & Hev & H). cbv zeta in H. destruct v as [[]|[e i]].
  - eauto.
  - destruct H as [(k & (a & b & _ & _ & Hs) & _)|(H & _)]; [|contradiction]. elim (worn_open _ _ _ _ Hs Hw).
Qed.
Lemma roots_compact wr vs : Forall (numbers_within 32) vs -> List.concat (map (root_text false wr) vs) = lines (map (record wr) vs).
Proof. induction 1 as [|v vs Hv _ IH]; [reflexivity|]. unfold lines in *. cbn [map List.concat]. rewrite root_compact by exact Hv. f_equal. exact IH. Qed.
