(** Proofs about ddb_to_normal.rs. *)
From Verif Require Import Base U8Pool Buffer BufferSpec Jiter RJiter RJiterSpec Scan ScanSpec IdSpec DdbSpec Conv DdbToNormal ConvSpec.
From Verif Require Import RJiterLookProofs ScanTokens ScanParser ScanStack ScanProofs ScanTop ScanSse IdProofs Transducer ConvProofs.

Section Induction.
Context (Q : ddb -> Prop).
Context (Hleaf : forall d, match d with DL _ | DM _ => False | _ => True end -> Q d).
Context (Hlist : forall l, Forall Q l -> Q (DL l)) (Hmap : forall ms, Forall (fun kd : bytes * ddb => Q (snd kd)) ms -> Q (DM ms)).
Fixpoint ddb_induction (d : ddb) : Q d :=
  match d with
  | DL l => Hlist l ((fix all l : Forall Q l := match l with [] => Forall_nil _ | d :: l' => Forall_cons d (ddb_induction d) (all l') end) l)
  | DM ms => Hmap ms ((fix all ms : Forall (fun kd : bytes * ddb => Q (snd kd)) ms :=
      match ms with [] => Forall_nil _ | kd :: ms' => Forall_cons kd (ddb_induction (snd kd)) (all ms') end) ms)
  | d => Hleaf d I
  end.
End Induction.

Section D2n.
Context (pr : bool) (mode : wrapper_mode) (E : bool).
Definition dm : Type := (bool * nat) * phase * option type_desc.
Notation Step := (@tstep dm).
Notation CStep := (@tstep (bool * nat)).
Notation t_newline := (t_newline pr).
Notation t_indent := (t_indent pr).
Notation t_comma := (t_comma pr).
Definition dout (c : d2n) : writer := cout (base c).
Definition dmode (c : d2n) : dm := (cmode (base c), at_phase c, current_type c).
Definition dgood (c : d2n) : Prop := cgood pr (base c).
Definition conv_noted (c : conv) (k : io_kind) : Prop := exists x, last_error c = Some (CIo k x) \/ last_error c = Some (CRJiter (IoError k) x).
Definition d2n_noted (c : d2n) (k : io_kind) : Prop := conv_noted (base c) k.
Lemma conv_io c k x : last_error c = Some (CIo k x) -> conv_noted c k.
Proof. exists x. auto. Qed.
Notation cdoes := (does cout cmode (cgood pr) conv_noted E).
Notation does := (does dout dmode dgood d2n_noted E).
Notation wrote := (wrote dout dmode dgood).
Notation torn := (torn dout d2n_noted E).

(** ** What the handlers write *)
Definition lift (f : CStep) : Step := fun '(m, p, t) => match f m with Some (x, m') => Some (x, (m', p, t)) | None => None end.
Definition t_phase (p : phase) : Step := fun '(m, _, t) => Some ([], (m, p, t)).
Definition t_type (t : option type_desc) : Step := fun '(m, p, _) => Some ([], (m, p, t)).
Lemma does_lift f t : cdoes f t -> does (on_base f) (lift t).
Proof.
  intros H c Hc text m' Ht. unfold lift, dmode in Ht. destruct (t (cmode (base c))) as [[x m1]|] eqn:Et; [|discriminate]. injection Ht as <- <-.
  destruct (H _ Hc _ _ Et) as (b & v & Ef & Hv). unfold ran, on_base. rewrite Ef. cbn [obind]. eexists _, _. split; [reflexivity|]. destruct v as [[]|e]; [|exact Hv].
  destruct Hv as (A & B0 & C). split; [exact A|]. split; [unfold dmode; cbn; rewrite B0; reflexivity|exact C].
Qed.
Lemma does_phase p : does (phase_is p) (t_phase p).
Proof. apply does_change. intros c text m' Hg Ht. injection Ht as <- <-. auto. Qed.
Lemma does_type t : does (type_is t) (t_type t).
Proof. apply does_change. intros c text m' Hg Ht. injection Ht as <- <-. auto. Qed.

Definition t_begin_root : Step := lift (t_put [LBRACE] ;> t_newline ;> (fun m => Some ([], (fst m, 1)))).
Definition t_field (k : bytes) : Step :=
  lift (t_comma ;> t_indent ;> t_put [QUOTE] ;> t_put k ;> t_put (bs """:") ;> t_comma_is false) ;> t_phase ExpectingTypeKey.
Definition t_quotes (q : bool) : CStep := if q then t_put [QUOTE] else t_none.
Definition t_string (q : bool) (t : bytes) : Step := lift (t_comma ;> t_quotes q) ;> lift (t_put t ;> t_quotes q ;> t_comma_is true).
Definition t_word (s : string) : Step := lift t_comma ;> lift (t_put (bs s) ;> t_comma_is true) ;> t_type None.
Definition goes (f : Step) (m : dm) : option (bytes * dm * bool) := match f m with Some (a, m') => Some (a, m', false) | None => None end.
Definition takes (f : Step) (m : dm) : option (bytes * dm * bool) := match f m with Some (a, m') => Some (a, m', true) | None => None end.
Definition refuses (m : dm) : option (bytes * dm * bool) := None.
Definition t_type_key (key : bytes) (v : json) : dm -> option (bytes * dm * bool) :=
  if beq key (bs "S") || beq key (bs "B") then
    match v with JString t => takes (t_string true t ;> t_type None ;> t_phase ExpectingValue) | _ => refuses end
  else if beq key (bs "N") then
    match v with JString t => takes (t_string false t ;> t_type None ;> t_phase ExpectingValue) | _ => refuses end
  else if beq key (bs "BOOL") then
    match v with
    | JTrue => takes (t_word "true" ;> t_phase ExpectingValue)
    | JFalse => takes (t_word "false" ;> t_phase ExpectingValue)
    | _ => refuses
    end
  else if beq key (bs "NULL") then
    match v with JTrue => takes (t_word "null" ;> t_phase ExpectingValue) | _ => refuses end
  else if beq key (bs "SS") || beq key (bs "BS") then
    goes (lift (t_put [LBRACK] ;> t_comma_is false) ;> t_type (Some TSS) ;> t_phase ExpectingValue)
  else if beq key (bs "NS") then
    goes (lift (t_put [LBRACK] ;> t_comma_is false) ;> t_type (Some TNS) ;> t_phase ExpectingValue)
  else if beq key (bs "L") then
    goes (lift (t_comma ;> t_put [LBRACK] ;> t_comma_is false) ;> t_type (Some TL) ;> t_phase ExpectingTypeKey)
  else if beq key (bs "M") then
    goes (lift (t_comma ;> t_put [LBRACE] ;> t_newline ;> t_deeper ;> t_comma_is false) ;> t_type (Some TM) ;> t_phase ExpectingField)
  else refuses.
Definition is_wrapper (key : bytes) (path : list bytes) : bool :=
  beq key (bs "Item") && match mode with AsWrapper => parent_is (bs "#top") path | AsField => false end.
Definition d2n_tb (name : pseudoname) (path : list bytes) (v : json) (m : dm) : option (bytes * dm * bool) :=
  let '(c, ph, ty) := m in
  match name with
  | PObject =>
      if snd c =? 0 then goes t_begin_root m
      else match ph with
           | ExpectingValue => None
           | ExpectingTypeKey => match ty with Some TL => None | _ => goes t_none m end
           | ExpectingField => goes t_none m
           | TypeKeyConsumed => if parent_is (bs "#array") path then goes t_none m else None
           end
  | PNone =>
      match path with
      | [] => goes t_none m
      | key :: path' =>
          match ph with
          | ExpectingField => if is_wrapper key path' then goes t_none m else goes (t_field key) m
          | ExpectingTypeKey => t_type_key key v m
          | ExpectingValue => if in_set ty then t_type_key key v m else None
          | TypeKeyConsumed => goes (t_field key) m
          end
      end
  | PArray =>
      match ty with
      | Some TSS | Some TNS => goes t_none m
      | Some TL => goes (t_type None) m
      | _ => None
      end
  | PAtom =>
      match ph with
      | ExpectingValue =>
          if parent_is (bs "#array") path then
            match ty, v with
            | Some TSS, JString t => takes (t_string true t) m
            | Some TNS, JString t => takes (t_string false t) m
            | _, _ => None
            end
          else None
      | _ => None
      end
  end.
Definition t_list_end : Step := lift (t_put [RBRACK] ;> t_comma_is true) ;> t_phase ExpectingValue ;> t_type None.
Definition t_set_end : Step := lift (t_put [RBRACK] ;> t_comma_is true) ;> t_type None ;> t_phase ExpectingValue.
Definition t_map_end : Step := lift (t_newline ;> t_shallower ;> t_indent ;> t_put [RBRACE] ;> t_comma_is true) ;> t_type None ;> t_phase TypeKeyConsumed.
Definition t_root_end : Step :=
  lift (t_newline ;> t_put [RBRACE] ;> t_put [10%N] ;> t_comma_is false ;> (fun m => Some ([], (fst m, 0)))) ;> t_phase ExpectingField.
Definition d2n_te (name : pseudoname) (path : list bytes) : Step := fun m =>
  let '(c, ph, ty) := m in
  match name with
  | PArray =>
      match ph with
      | ExpectingTypeKey => t_list_end m
      | ExpectingValue => t_set_end m
      | _ => t_none m
      end
  | PObject => if List.length path =? 1 then t_root_end m else t_none m
  | PNone =>
      match path with
      | [] => t_none m
      | key :: path' =>
          match ph with
          | ExpectingValue => t_phase (if parent_is (bs "#array") path' then ExpectingTypeKey else TypeKeyConsumed) m
          | TypeKeyConsumed => t_phase (if parent_is (bs "#array") path' then ExpectingTypeKey else ExpectingField) m
          | ExpectingField =>
              if is_wrapper key path' then t_none m
              else
                let parents := if beq key (bs "Item") then tl path' else path' in
                (if parent_is (bs "#array") parents then t_map_end ;> t_phase ExpectingTypeKey else t_map_end) m
          | ExpectingTypeKey => if is_container key then t_none m else t_phase TypeKeyConsumed m
          end
      end
  | PAtom => t_none m
  end.

(** ** The handlers write it *)
Ltac csteps := repeat first
  [ apply does_then | apply (does_put _ _ _ conv_io) | apply (does_newline _ _ _ conv_io) | apply (does_comma _ _ _ conv_io)
  | apply (does_indent _ _ _ conv_io) | apply does_deeper | apply does_shallower | apply does_comma_is | apply does_level | apply does_skip ].
Ltac steps := repeat first [ apply does_lift; csteps | apply does_phase | apply does_type | apply does_then ].
Ltac calm := repeat first
  [ apply safe_then | apply safe_put | apply safe_newline | apply safe_comma | apply safe_indent | apply safe_deeper
  | apply safe_shallower | apply safe_comma_is | apply safe_change | apply safe_skip ].
Lemma safe_base f : safe f -> safe (on_base f).
Proof. intros H c. unfold on_base. destruct (H (base c)) as [->|(b & v & ->)]; cbn [obind]; eauto. Qed.
Ltac calms := repeat first [ apply safe_base; calm | apply safe_then | apply safe_change ].

Section Parser.
Context (G0 G : rj -> Prop) (P : profile) (PF : parser_facts G0 G P E).
Notation handled := (handled dout dmode dgood d2n_noted E G).
Notation safely := (safely G).
Lemma kind_of_io c k x : last_error c = Some (CRJiter (IoError k) x) -> conv_noted c k.
Proof. exists x. auto. Qed.
(** The state after the answer is changed by [finally]. *)
Lemma finally_handled f (t : Step) a s r c text m' p m1 q : handled r ValueIsConsumed c p m1 (a s c) ->
  (forall c, dout (f c) = dout c /\ (dgood c -> dgood (f c)) /\ base (f c) = base c) ->
  (forall c, exists y, t (dmode c) = Some ([], y) /\ dmode (f c) = y) ->
  t m1 = Some (q, m') -> text = p ++ q ->
  handled r ValueIsConsumed c text m' (finally f a s c).
Proof.
  intros (s' & c' & o & Ea & H) Hf Ht Hq ->. unfold finally. rewrite Ea. cbn [obind]. eexists _, _, _. split; [reflexivity|].
  destruct (Hf c') as (A & B0 & C). destruct o as [| |msg].
  - destruct H. discriminate.
  - destruct H as (_ & HG & Hr & Hs & Hm & Hg). split; [reflexivity|]. split; [exact HG|]. split; [exact Hr|].
    destruct (Ht c') as (y & Hy & Hy2). rewrite Hm, Hq in Hy. injection Hy as -> ->. split; [rewrite A, app_nil_r; exact Hs|]. auto.
  - apply torn_more. destruct H as [H|(a0 & b & k & Hab & Hb & Hs & Hn)]; [left; exact H|right]. exists a0, b, k. split; [exact Hab|]. split; [exact Hb|].
    rewrite A. split; [exact Hs|]. unfold d2n_noted. rewrite C. exact Hn.
Qed.
Lemma finally_safely f a s r c : safely r ValueIsConsumed (a s c) -> safely r ValueIsConsumed (finally f a s c).
Proof.
  intros [H|(s' & c' & o & H & Ho)]; unfold finally; rewrite H; cbn [obind]; [left; reflexivity|right]. eexists _, _, _. split; [reflexivity|exact Ho].
Qed.

Lemma quotes_does (q : bool) x : cdoes (if q then put [QUOTE] x else skip) (t_quotes q).
Proof. destruct q; csteps. Qed.
Lemma safe_quotes (q : bool) x : safe (if q then put [QUOTE] x else skip).
Proof. destruct q; calm. Qed.
Lemma string_handled q a b s w t r c text m' : G s -> rest s = w ++ QUOTE :: t ++ QUOTE :: r -> spaces w -> string_text t -> string_ok P t -> dgood c ->
  t_string q t (dmode c) = Some (text, m') -> handled r ValueIsConsumed c text m' (write_string_value q a b s c).
Proof.
  intros HG Hr Hw Ht Hs Hc HT. unfold write_string_value.
  destruct (pf_peek _ _ _ _ PF s w QUOTE (t ++ QUOTE :: r) (pf_start _ _ _ _ PF _ HG) Hr Hw ltac:(reflexivity)) as (s1 & [x|e] & -> & H1); cbn [obind].
  2: { apply handled_torn. left. apply H1. }
  destruct H1 as (-> & Hr1 & HG1). change (negb (N.eqb QUOTE QUOTE)) with false. cbv iota.
  eapply step_handled; [apply does_lift, does_then; [csteps|apply quotes_does]|exact Hc|exact HT|]. clear c text HT Hc. intros c y Hc Hy.
  destruct (pf_string _ _ _ _ PF s1 (cout (base c)) t r HG1 Hr1 Ht Hs) as (s' & w' & res & a0 & b0 & -> & Hab & Hsp & Hres). cbn [obind].
  assert (Hy2 : (lift (t_put t) ;> lift (t_quotes q ;> t_comma_is true)) (dmode c) = Some (y, m')).
  { rewrite <- Hy. unfold lift, t_then, dmode, t_put. destruct (t_quotes q (cmode (base c))) as [[x m1]|]; [|reflexivity]. unfold t_comma_is. reflexivity. }
  apply then_inv in Hy2 as (p & m1 & z & Hp & Hz & ->). injection Hp as <- <-. change (cmode (base c), at_phase c, current_type c) with (dmode c) in Hz.
  destruct res as [[]|e].
  - destruct Hres as (-> & Hr' & HG'). rewrite app_nil_r in Hab. subst a0.
    apply (handled_after dout dmode dgood d2n_noted E G r ValueIsConsumed c t (dmode c) (set_base c (set_cout (base c) w')) z m').
    + split; [exact Hsp|]. split; [reflexivity|exact Hc].
    + eapply act_of_handled; [apply does_lift, does_then; [apply quotes_does|csteps]|exact Hc|exact Hz|exact HG'|exact Hr'|discriminate].
  - apply handled_torn. destruct Hres as [Hres|(k & Hek & Hk & Hb)]; [left; exact Hres|right]. exists a0, (b0 ++ z), k. rewrite Hab, <- app_assoc. split; [reflexivity|].
    split; [destruct b0; [contradiction|discriminate]|]. split; [apply worn_now; assumption|]. exists b. right. cbn. rewrite Hek. reflexivity.
Qed.
Lemma string_safely q a b s w v b1 l r c : G s -> rest s = w ++ l -> spaces w -> value_at P b1 v l r ->
  safely r ValueIsConsumed (write_string_value q a b s c).
Proof.
  intros HG Hr Hw Hv. unfold write_string_value. destruct (value_head _ _ _ _ _ Hv) as (x & l0 & El & Hx & _).
  destruct (pf_peek _ _ _ _ PF s w x l0 (pf_start _ _ _ _ PF _ HG) ltac:(rewrite Hr, El; reflexivity) Hw Hx) as (s1 & [y|e] & -> & H1); cbn [obind]; [|apply safely_error].
  destruct H1 as (-> & Hr1 & HG1). destruct (N.eqb_spec x QUOTE) as [->|_]; cbn [negb]; [|apply safely_error].
  apply safely_step; [apply safe_base, safe_then; [calm|apply safe_quotes]|]. clear c. intros c.
  assert (exists t, string_text t /\ string_ok P t /\ l = QUOTE :: t ++ QUOTE :: r) as (t & Ht & Hs & ->).
  { destruct Hv; try discriminate El; [|eauto]. destruct (number_head t H) as (z & q0 & Et & Hz). rewrite Et in El. injection El as -> _. destruct Hz as [Hz|Hz]; [discriminate|].
    destruct Hz as (A & _). vm_compute in A. congruence. }
  injection El as <-. destruct (pf_string _ _ _ _ PF s1 (cout (base c)) t r HG1 Hr1 Ht Hs) as (s' & w' & [[]|e] & a0 & b0 & -> & _ & _ & Hres); cbn [obind]; [|apply safely_error].
  destruct Hres as (_ & Hr' & HG'). apply safely_act; auto. apply safe_base, safe_then; [apply safe_quotes|calm].
Qed.
Lemma word_handled (x : bool) output word validate name s w r c text m' :
  validate (if x then PeekTrue else PeekFalse) = Ok output -> output = bs word ->
  G s -> rest s = w ++ bs (if x then "true" else "false") ++ r -> spaces w -> dgood c ->
  t_word word (dmode c) = Some (text, m') -> handled r ValueIsConsumed c text m' (handle_bool_based_type validate name s c).
Proof.
  intros Hval Hout HG Hr Hw Hc HT. unfold handle_bool_based_type. subst output.
  destruct (pf_peek _ _ _ _ PF s w (if x then PeekTrue else PeekFalse) (tl (bs (if x then "true" else "false")) ++ r) (pf_start _ _ _ _ PF _ HG)) as (s1 & [y|e] & -> & H1);
    [rewrite Hr; destruct x; reflexivity|exact Hw|destruct x; reflexivity| |]; cbn [obind].
  2: { apply handled_torn. left. apply H1. }
  destruct H1 as (-> & Hr1 & HG1). rewrite Hval.
  eapply step_handled; [apply does_lift; csteps|exact Hc|exact HT|]. clear c text HT Hc. intros c y Hc Hy.
  assert (HK : tried E (known_bool (if x then PeekTrue else PeekFalse) s1) (fun s' v => v = x /\ rest s' = r /\ G s')).
  { destruct x; [apply (pf_true _ _ _ _ PF)|apply (pf_false _ _ _ _ PF)]; auto. }
  destruct HK as (s2 & [v|e] & -> & H2); cbn [obind].
  - destruct H2 as (-> & Hr2 & HG2). eapply act_of_handled; [steps|exact Hc|exact Hy|exact HG2|exact Hr2|discriminate].
  - apply handled_torn. left. exact H2.
Qed.
Lemma word_safely validate name s w v b1 l r c : (forall p o, validate p = Ok o -> p = PeekTrue \/ p = PeekFalse) ->
  G s -> rest s = w ++ l -> spaces w -> value_at P b1 v l r -> safely r ValueIsConsumed (handle_bool_based_type validate name s c).
Proof.
  intros Hval HG Hr Hw Hv. unfold handle_bool_based_type. destruct (value_head _ _ _ _ _ Hv) as (x & l0 & El & Hx & _).
  destruct (pf_peek _ _ _ _ PF s w x l0 (pf_start _ _ _ _ PF _ HG) ltac:(rewrite Hr, El; reflexivity) Hw Hx) as (s1 & [y|e] & -> & H1); cbn [obind]; [|apply safely_error].
  destruct H1 as (-> & Hr1 & HG1). destruct (validate x) as [o|m] eqn:Ev; [|apply safely_error]. apply Hval in Ev.
  apply safely_step; [apply safe_base; calm|]. clear c. intros c.
  assert (exists z : bool, x = (if z then PeekTrue else PeekFalse) /\ l = bs (if z then "true" else "false") ++ r) as (z & -> & ->).
  { destruct Hv; try (destruct Ev as [-> | ->]; discriminate El); [exists true|exists false|]; try (injection El as <- _; auto).
    destruct (number_head t H) as (z & q0 & Et & Hz). rewrite Et in El. injection El as -> _.
    destruct Ev as [-> | ->]; (destruct Hz as [Hz|Hz]; [discriminate|]); destruct Hz as (_ & A); vm_compute in A; congruence. }
  assert (HK : tried E (known_bool (if z then PeekTrue else PeekFalse) s1) (fun s' v => v = z /\ rest s' = r /\ G s')).
  { rewrite <- El in Hr1. destruct z; [apply (pf_true _ _ _ _ PF)|apply (pf_false _ _ _ _ PF)]; auto. }
  destruct HK as (s2 & [u|e] & -> & H2); cbn [obind]; [|apply safely_error]. destruct H2 as (-> & Hr2 & HG2). apply safely_act; auto. calms.
Qed.

Notation beh := (transducer dout dmode dgood d2n_noted E d2n_tb d2n_te).
(** ** All answers *)
Definition answer (name : pseudoname) (path : list bytes) (v : json) (c : d2n) (K : rj -> Prop) (r : bytes) (x : outcome (rj * d2n * stream_op)) : Prop :=
  (x = Panic /\ exists u', on_begin beh name path v c u' None) \/
  exists s' u' o, x = Done (s', u', o) /\ on_begin beh name path v c u' (Some o) /\
    match o with
    | OpNone => K s'
    | ValueIsConsumed => G s' /\ rest s' = r
    | OpError _ => True
    end.
(** A state that differs only in what does not count. *)
Definition alike (c c1 : d2n) : Prop := dmode c1 = dmode c /\ dout c1 = dout c /\ (dgood c -> dgood c1).
Lemma refused_begin name path v c u o : d2n_tb name path v (dmode c) = None -> on_begin beh name path v c u o.
Proof. intros H. cbn [on_begin transducer]. intros _. rewrite H. destruct o; exact I. Qed.
Lemma answer_refused name path v c K r x : d2n_tb name path v (dmode c) = None -> safely r ValueIsConsumed x -> answer name path v c K r x.
Proof.
  intros Ht [->|(s' & c' & o & -> & H)].
  - left. split; [reflexivity|]. exists c. apply refused_begin, Ht.
  - right. exists s', c', o. split; [reflexivity|]. split; [apply refused_begin, Ht|]. destruct o; [destruct H; discriminate|apply H|exact I].
Qed.
Lemma answer_takes name path v c c1 K r f x : d2n_tb name path v (dmode c) = takes f (dmode c) -> alike c c1 ->
  (forall text m', f (dmode c1) = Some (text, m') -> dgood c1 -> handled r ValueIsConsumed c1 text m' x) -> safely r ValueIsConsumed x -> answer name path v c K r x.
Proof.
  intros Ht (Am & Ao & Ag) Hh Hs. unfold takes in Ht. destruct (f (dmode c)) as [[a m']|] eqn:Ef; [|apply answer_refused; assumption].
  rewrite Am in Hh. destruct Hs as [->|(s' & c' & o & -> & Hs)].
  - left. split; [reflexivity|]. exists c. cbn [on_begin transducer]. intros Hg. destruct (Hh _ _ Ef (Ag Hg)) as (? & ? & ? & ? & _). discriminate.
  - right. exists s', c', o. split; [reflexivity|]. split.
    + cbn [on_begin transducer]. intros Hg. rewrite Ht. destruct (Hh _ _ Ef (Ag Hg)) as (s2 & c2 & o2 & E2 & H2). injection E2 as <- <- <-.
      unfold Transducer.wrote, Transducer.torn in *. rewrite Ao in H2. destruct o; [destruct H2; discriminate| |exact H2]. split; [reflexivity|apply H2].
    + destruct o; [destruct Hs; discriminate|apply Hs|exact I].
Qed.
Lemma answer_goes name path v c c1 (K : rj -> Prop) r f g s : d2n_tb name path v (dmode c) = goes f (dmode c) -> alike c c1 -> does g f -> safe g -> K s ->
  answer name path v c K r (act_of g OpNone s c1).
Proof.
  intros Ht (Am & Ao & Ag) Hd Hs HK. unfold act_of. unfold goes in Ht. destruct (Hs c1) as [Eg|(c' & e & Eg)]; rewrite Eg; cbn [obind].
  - left. split; [reflexivity|]. exists c. cbn [on_begin transducer]. intros Hg. rewrite Ht. rewrite <- Am. destruct (f (dmode c1)) as [[a m']|] eqn:Ef; [|exact I].
    destruct (Hd c1 (Ag Hg) _ _ Ef) as (? & ? & E2 & _). congruence.
  - right. eexists _, _, _. split; [reflexivity|]. split; [|destruct e; [exact HK|exact I]].
    cbn [on_begin transducer]. intros Hg. rewrite Ht, <- Am. destruct (f (dmode c1)) as [[a m']|] eqn:Ef; [|exact I].
    destruct (Hd c1 (Ag Hg) _ _ Ef) as (c2 & e2 & E2 & H). rewrite Eg in E2. injection E2 as <- <-. unfold Transducer.wrote, Transducer.torn in *. rewrite Ao in H.
    destruct e as [[]|m]; [split; [reflexivity|exact H]|exact H].
Qed.
Lemma silent_begin name path v c c1 m' f : d2n_tb name path v (dmode c) = goes f (dmode c) -> f (dmode c) = Some ([], m') ->
  dmode c1 = m' -> dout c1 = dout c -> (dgood c -> dgood c1) -> on_begin beh name path v c c1 (Some OpNone).
Proof.
  intros Ht Hf Hm Ho Hg. cbn [on_begin transducer]. intros Hc. rewrite Ht. unfold goes. rewrite Hf. split; [reflexivity|].
  split; [rewrite Ho; apply spent_refl|auto].
Qed.

Definition note (c : d2n) (key : bytes) : d2n := set_base c (set_field (base c) key).
Lemma note_alike c key : alike c (note c key).
Proof. split; [reflexivity|]. split; [reflexivity|]. intros H. exact H. Qed.
Lemma field_key_answer path v c (K : rj -> Prop) r s key : d2n_tb PNone path v (dmode c) = goes (t_field key) (dmode c) -> K s ->
  answer PNone path v c K r (on_field_key s (note c key)).
Proof.
  intros Ht HK. unfold on_field_key. cbn [note base set_base set_field field].
  apply (answer_goes _ _ _ _ _ _ _ (t_field key)); auto; [apply note_alike|unfold t_field; steps|calms].
Qed.
Lemma type_key_answer path v c (K : rj -> Prop) w l r s key : d2n_tb PNone path v (dmode c) = t_type_key key v (dmode c) -> K s ->
  G s -> rest s = w ++ l -> spaces w -> value_at P false v l r ->
  answer PNone path v c K r (on_type_key s (note c key)).
Proof.
  intros Ht HK HG Hr Hw Hv. unfold on_type_key. cbn [note base set_base set_field field]. fold (note c key).
  assert (HF : forall c : d2n, dout (set_phase c ExpectingValue) = dout c /\ (dgood c -> dgood (set_phase c ExpectingValue)) /\ base (set_phase c ExpectingValue) = base c)
    by (intros; split; [reflexivity|]; split; [intros H; exact H|reflexivity]).
  assert (HF2 : forall c : d2n, let f := set_phase (set_type c None) ExpectingValue in dout f = dout c /\ (dgood c -> dgood f) /\ base f = base c)
    by (intros; split; [reflexivity|]; split; [intros H; exact H|reflexivity]).
  assert (HS : forall q msg1 msg2, (exists t, v = JString t /\ d2n_tb PNone path v (dmode c) = takes (t_string q t ;> t_type None ;> t_phase ExpectingValue) (dmode c)) \/
      d2n_tb PNone path v (dmode c) = None ->
    answer PNone path v c K r (finally (fun c => set_phase (set_type c None) ExpectingValue) (write_string_value q msg1 msg2) s (note c key))).
  { intros q msg1 msg2 HX. pose proof (string_safely q msg1 msg2 s w v false l r (note c key) HG Hr Hw Hv) as HSa. apply (finally_safely (fun c => set_phase (set_type c None) ExpectingValue)) in HSa.
    destruct HX as [(t & -> & HX)|HX]; [|apply answer_refused; assumption]. apply (answer_takes _ _ _ _ (note c key) _ _ _ _ HX (note_alike c key)); [|exact HSa].
    intros text m' Hf Hc. apply then_inv in Hf as (p & m1 & q0 & Hp & Hq & ->). inversion Hv as [| | | |b0 t0 r0 Ht0 Hs0| | | |]; subst.
    apply (finally_handled _ (t_type None ;> t_phase ExpectingValue) _ _ _ _ _ m' p m1 q0); auto.
    - apply (string_handled q msg1 msg2 s w t r (note c key) p m1 HG Hr Hw Ht0 Hs0 Hc Hp).
    - intros c0. eexists. split; [reflexivity|reflexivity]. }
  assert (HB : forall validate name, (forall p o, validate p = Ok o -> p = PeekTrue \/ p = PeekFalse) ->
    ((exists (x : bool) word, v = (if x then JTrue else JFalse) /\ validate (if x then PeekTrue else PeekFalse) = Ok (bs word) /\
       d2n_tb PNone path v (dmode c) = takes (t_word word ;> t_phase ExpectingValue) (dmode c)) \/ d2n_tb PNone path v (dmode c) = None) ->
    answer PNone path v c K r (finally (fun c => set_phase c ExpectingValue) (handle_bool_based_type validate name) s (note c key))).
  { intros validate name Hval HX. pose proof (word_safely validate name s w v false l r (note c key) Hval HG Hr Hw Hv) as HSa. apply (finally_safely (fun c => set_phase c ExpectingValue)) in HSa.
    destruct HX as [(x & word & -> & Hx & HX)|HX]; [|apply answer_refused; assumption]. apply (answer_takes _ _ _ _ (note c key) _ _ _ _ HX (note_alike c key)); [|exact HSa].
    intros text m' Hf Hc. apply then_inv in Hf as (p & m1 & q0 & Hp & Hq & ->).
    apply (finally_handled _ (t_phase ExpectingValue) _ _ _ _ _ m' p m1 q0); auto.
    - apply (word_handled x (bs word) word validate name s w r (note c key) p m1 Hx eq_refl HG); auto. rewrite Hr. f_equal. destruct x; inversion Hv; reflexivity.
    - intros c0. eexists. split; [reflexivity|reflexivity]. }
  unfold t_type_key in Ht.
  destruct (beq key (bs "S") || beq key (bs "B")).
  { apply HS. destruct v; auto. left. eauto. }
  destruct (beq key (bs "N")).
  { apply HS. destruct v; auto. left. eauto. }
  destruct (beq key (bs "BOOL")).
  { apply HB.
    - intros p o. unfold bool_output. destruct (N.eqb_spec p PeekTrue); [auto|]. destruct (N.eqb_spec p PeekFalse); [auto|discriminate].
    - destruct v; auto; left; [exists true, "true"%string|exists false, "false"%string]; auto. }
  destruct (beq key (bs "NULL")).
  { apply HB.
    - intros p o. unfold null_output. destruct (N.eqb_spec p PeekTrue); [auto|discriminate].
    - destruct v; auto; left. exists true, "null"%string. auto. }
  destruct (beq key (bs "SS") || beq key (bs "BS")).
  { eapply answer_goes; [exact Ht|apply note_alike|steps|calms|exact HK]. }
  destruct (beq key (bs "NS")).
  { eapply answer_goes; [exact Ht|apply note_alike|steps|calms|exact HK]. }
  destruct (beq key (bs "L")).
  { eapply answer_goes; [exact Ht|apply note_alike|steps|calms|exact HK]. }
  destruct (beq key (bs "M")).
  { eapply answer_goes; [exact Ht|apply note_alike|steps|calms|exact HK]. }
  apply answer_refused; [exact Ht|apply safely_error].
Qed.
Lemma error_answer name path v c c1 K r s : d2n_tb name path v (dmode c) = None -> answer name path v c K r (on_error s c1).
Proof. intros H. apply answer_refused; [exact H|apply safely_error]. Qed.

Lemma d2n_respects : respects G P (d2n_callbacks mode) beh.
Proof.
  split.
  - intros name b v l r path s c Hname HG Hr Hv Hj. cbn [find_action d2n_callbacks].
    assert (HA : forall a, answer name path v c (fun s' => G s' /\ rest s' = l /\ (b = true -> 0 < jidx s')) r a ->
      (a = Panic /\ exists u', on_begin beh name path v c u' None) \/
      exists s' u' op, a = Done (s', u', op) /\ on_begin beh name path v c u' (Some op) /\
        match op with
        | OpNone => G s' /\ rest s' = l /\ (b = true -> 0 < jidx s')
        | ValueIsConsumed => G s' /\ rest s' = r
        | OpError _ => True
        end) by auto.
    assert (HI : forall f m', d2n_tb name path v (dmode c) = goes f (dmode c) -> f (dmode c) = Some ([], m') -> dmode c = m' -> on_begin beh name path v c c (Some OpNone)).
    { intros f m' H1 H2 H3. apply (silent_begin name path v c c m' f H1 H2 H3); auto. }
    destruct name; unfold d2n_find_action; cbn [names ctx_len].
    + unfold find_action_array. destruct (current_type c) as [[| | |]|] eqn:Et; try (apply HA, error_answer; unfold dmode; cbn [d2n_tb]; rewrite Et; reflexivity).
      * apply (HI t_none (dmode c)); auto. unfold dmode; cbn [d2n_tb]; rewrite Et; reflexivity.
      * apply (HI t_none (dmode c)); auto. unfold dmode; cbn [d2n_tb]; rewrite Et; reflexivity.
      * apply (silent_begin PArray path v c (set_type c None) (cmode (base c), at_phase c, None) (t_type None)); auto. unfold dmode; cbn [d2n_tb]; rewrite Et; reflexivity.
    + unfold find_action_object.
      assert (HT : d2n_tb PObject path v (dmode c) =
        if level (base c) =? 0 then goes t_begin_root (dmode c)
        else match at_phase c with
             | ExpectingValue => None
             | ExpectingTypeKey => match current_type c with Some TL => None | _ => goes t_none (dmode c) end
             | ExpectingField => goes t_none (dmode c)
             | TypeKeyConsumed => if parent_is (bs "#array") path then goes t_none (dmode c) else None
             end) by reflexivity.
      destruct (level (base c) =? 0) eqn:E0.
      { apply HA. unfold on_root_object_begin. eapply answer_goes; [exact HT|split; [reflexivity|]; split; [reflexivity|]; intros H; exact H|unfold t_begin_root; steps|calms|auto]. }
      destruct (at_phase c) eqn:Ep.
      * apply (HI t_none (dmode c)); auto.
      * destruct (current_type c) as [[| | |]|] eqn:Et; try (apply (HI t_none (dmode c)); auto; fail). apply HA, error_answer, HT.
      * apply HA, error_answer, HT.
      * destruct (parent_is (bs "#array") path); [apply (HI t_none (dmode c)); auto|]. apply HA, error_answer, HT.
    + unfold find_action_atom.
      assert (HT : d2n_tb PAtom path v (dmode c) =
        match at_phase c with
        | ExpectingValue =>
          if parent_is (bs "#array") path then
            match current_type c, v with
            | Some TSS, JString t => takes (t_string true t) (dmode c)
            | Some TNS, JString t => takes (t_string false t) (dmode c)
            | _, _ => None
            end
          else None
        | _ => None
        end) by reflexivity.
      destruct (at_phase c) eqn:Ep; try (apply HA, error_answer, HT). destruct (parent_is (bs "#array") path); [|apply HA, error_answer, HT].
      assert (HS : forall q a1 a2, (exists t, v = JString t /\ d2n_tb PAtom path v (dmode c) = takes (t_string q t) (dmode c)) \/ d2n_tb PAtom path v (dmode c) = None ->
        answer PAtom path v c (fun s' => G s' /\ rest s' = l /\ (b = true -> 0 < jidx s')) r (write_string_value q a1 a2 s c)).
      { intros q a1 a2 HX. pose proof (string_safely q a1 a2 s [] v b l r c HG Hr ltac:(constructor) Hv) as HSa.
        destruct HX as [(t & Ev & HX)|HX]; [|apply answer_refused; assumption].
        apply (answer_takes PAtom path v c c _ r (t_string q t)); auto; [split; [reflexivity|]; split; [reflexivity|]; intros H; exact H|]. intros text m' Hf Hc. rewrite Ev in Hv. clear Ev HT HI HA HSa HX. inversion Hv as [| | | |b0 t0 r0 Ht0 Hs0| | | |]; subst.
        apply (string_handled q a1 a2 s [] t r c text m' HG); auto. }
      destruct (current_type c) as [[| | |]|] eqn:Et; try (apply HA, error_answer, HT).
      * apply HA. apply (HS true). destruct v; auto. left. eauto.
      * apply HA. apply (HS false). destruct v; auto. left. eauto.
    + contradiction Hname.
  - intros v w l r path s c HG Hr Hw Hv. cbn [find_action d2n_callbacks]. unfold d2n_find_action, find_action_key. cbn [names].
    assert (HK : G s /\ exists w', rest s = w' ++ l /\ spaces w') by eauto.
    set (K := fun s' : rj => G s' /\ exists w', rest s' = w' ++ l /\ spaces w').
    destruct path as [|key path].
    { apply (silent_begin PNone [] v c c (dmode c) t_none); auto. }
    assert (HT : d2n_tb PNone (key :: path) v (dmode c) =
      match at_phase c with
      | ExpectingField => if is_wrapper key path then goes t_none (dmode c) else goes (t_field key) (dmode c)
      | ExpectingTypeKey => t_type_key key v (dmode c)
      | ExpectingValue => if in_set (current_type c) then t_type_key key v (dmode c) else None
      | TypeKeyConsumed => goes (t_field key) (dmode c)
      end) by reflexivity.
    destruct (at_phase c) eqn:Ep.
    + unfold is_wrapper in HT. destruct (beq key (bs "Item") && match mode with AsWrapper => parent_is (bs "#top") path | AsField => false end).
      * apply (silent_begin PNone (key :: path) v c c (dmode c) t_none); auto.
      * apply (field_key_answer (key :: path) v c K r s key HT HK).
    + apply (type_key_answer (key :: path) v c K w l r s key); auto.
    + destruct (in_set (current_type c)); [apply (type_key_answer (key :: path) v c K w l r s key); auto|].
      apply (error_answer PNone (key :: path) v c _ K r s HT).
    + apply (field_key_answer (key :: path) v c K r s key HT HK).
  - intros name path c Hname. cbn [find_end_action d2n_callbacks]. unfold d2n_find_end_action. cbn [names ctx_len].
    assert (HX : forall g f, d2n_te name path (dmode c) = f (dmode c) -> does g f -> safe g ->
      (g c = Panic /\ exists u', on_end beh name path c u' None) \/ exists u' e, g c = Done (u', e) /\ on_end beh name path c u' (Some e)).
    { intros g f Ht Hg Hs. destruct (Hs c) as [E1|(c' & e & E1)].
      - left. split; [exact E1|]. exists c. cbn [on_end transducer]. intros Hc. rewrite Ht. destruct (f (dmode c)) as [[a m']|] eqn:Ef; [|exact I].
        destruct (Hg c Hc _ _ Ef) as (? & ? & E2 & _). congruence.
      - right. exists c', e. split; [exact E1|]. cbn [on_end transducer]. intros Hc. rewrite Ht. destruct (f (dmode c)) as [[a m']|] eqn:Ef; [|exact I].
        destruct (Hg c Hc _ _ Ef) as (c2 & e2 & E2 & H). rewrite E1 in E2. injection E2 as <- <-. destruct e as [[]|m]; exact H. }
    assert (HN : d2n_te name path (dmode c) = t_none (dmode c) -> on_end beh name path c c (Some (Ok tt))).
    { intros Ht. cbn [on_end transducer]. intros Hc. rewrite Ht. split; [apply spent_refl|auto]. }
    destruct name.
    + assert (HT : d2n_te PArray path (dmode c) = match at_phase c with ExpectingTypeKey => t_list_end (dmode c) | ExpectingValue => t_set_end (dmode c) | _ => t_none (dmode c) end) by reflexivity.
      destruct (at_phase c) eqn:Ep; try (apply HN; exact HT).
      * assert (EL : on_list_end c = (on_base (put [RBRACK] "writing L closing bracket" ;; comma_is true) ;; phase_is ExpectingValue ;; type_is None) c) by (unfold on_list_end; rewrite Ep; reflexivity).
        rewrite EL. apply (HX _ t_list_end HT); [unfold t_list_end; steps|calms].
      * apply (HX _ t_set_end HT); [unfold t_set_end, on_set_end; steps|unfold on_set_end; calms].
    + assert (HT : d2n_te PObject path (dmode c) = if List.length path =? 1 then t_root_end (dmode c) else t_none (dmode c)) by reflexivity.
      destruct (List.length path =? 1); [|apply HN; exact HT]. apply (HX _ t_root_end HT); [unfold t_root_end, on_root_object_end; steps|unfold on_root_object_end; calms].
    + elim (Hname eq_refl).
    + destruct path as [|key path]; [apply HN; reflexivity|]. unfold find_end_action_key.
      assert (HT : d2n_te PNone (key :: path) (dmode c) =
          match at_phase c with
          | ExpectingValue => t_phase (if parent_is (bs "#array") path then ExpectingTypeKey else TypeKeyConsumed) (dmode c)
          | TypeKeyConsumed => t_phase (if parent_is (bs "#array") path then ExpectingTypeKey else ExpectingField) (dmode c)
          | ExpectingField =>
              if is_wrapper key path then t_none (dmode c)
              else
                let parents := if beq key (bs "Item") then tl path else path in
                (if parent_is (bs "#array") parents then t_map_end ;> t_phase ExpectingTypeKey else t_map_end) (dmode c)
          | ExpectingTypeKey => if is_container key then t_none (dmode c) else t_phase TypeKeyConsumed (dmode c)
          end) by reflexivity.
      destruct (at_phase c) eqn:Ep.
      * unfold is_wrapper in HT. cbv zeta. destruct (beq key (bs "Item")); cbn [andb] in *.
        -- rewrite Bool.andb_comm. destruct mode; cbn [andb] in *.
           ++ destruct (parent_is (bs "#top") path); [apply HN, HT|]. destruct (parent_is (bs "#array") (tl path)).
              ** apply (HX _ _ HT); [unfold on_map_end_in_array, on_map_end, t_map_end; steps|unfold on_map_end_in_array, on_map_end; calms].
              ** apply (HX _ _ HT); [unfold on_map_end_in_array, on_map_end, t_map_end; steps|unfold on_map_end_in_array, on_map_end; calms].
           ++ destruct (parent_is (bs "#array") (tl path)).
              ** apply (HX _ _ HT); [unfold on_map_end_in_array, on_map_end, t_map_end; steps|unfold on_map_end_in_array, on_map_end; calms].
              ** apply (HX _ _ HT); [unfold on_map_end_in_array, on_map_end, t_map_end; steps|unfold on_map_end_in_array, on_map_end; calms].
        -- destruct (parent_is (bs "#array") path).
           ** apply (HX _ _ HT); [unfold on_map_end_in_array, on_map_end, t_map_end; steps|unfold on_map_end_in_array, on_map_end; calms].
           ** apply (HX _ _ HT); [unfold on_map_end_in_array, on_map_end, t_map_end; steps|unfold on_map_end_in_array, on_map_end; calms].
      * destruct (is_container key); [apply HN, HT|]. apply (HX _ _ HT); [apply does_phase|apply safe_change].
      * destruct (parent_is (bs "#array") path); apply (HX _ _ HT); first [apply does_phase|apply safe_change].
      * destruct (parent_is (bs "#array") path); apply (HX _ _ HT); first [apply does_phase|apply safe_change].
Qed.
End Parser.

(** ** The text of a value *)
Notation nl := (nl pr).
Notation tab := (tab pr).
Notation lead := (lead pr).
Notation row := (row pr).
Definition quoted (t : bytes) : bytes := QUOTE :: t ++ [QUOTE].
Fixpoint vtext (n : nat) (d : ddb) : bytes :=
  match d with
  | DS t | DB t => quoted t
  | DN t => t
  | DBool b => if b then bs "true" else bs "false"
  | DNull => bs "null"
  | DSS l | DBS l => LBRACK :: row false (map quoted l) ++ [RBRACK]
  | DNS l => LBRACK :: row false l ++ [RBRACK]
  | DL l => LBRACK :: row false (map (vtext n) l) ++ [RBRACK]
  | DM ms => LBRACE :: nl ++ row false (map (fun '(k, d) => tab (S n) ++ QUOTE :: k ++ QUOTE :: COLON :: vtext (S n) d) ms) ++ nl ++ tab n ++ [RBRACE]
  end.
Definition fields (n : nat) (p : bool) (ms : list (bytes * ddb)) : bytes :=
  row p (map (fun '(k, d) => tab n ++ QUOTE :: k ++ QUOTE :: COLON :: vtext n d) ms).

Notation run_value := (run_value d2n_tb d2n_te).
Notation run_items := (run_items d2n_tb d2n_te).
Notation run_member := (run_member d2n_tb d2n_te).
Notation run_members := (run_members d2n_tb d2n_te).
(** The phase behind a value. *)
Definition after (k : bytes) : phase := if beq k (bs "#array") then ExpectingTypeKey else TypeKeyConsumed.
Definition not_list (ty : option type_desc) : Prop := ty <> Some TL.
Definition right (d : ddb) : Prop := forall k path p n ty, path <> [] -> not_list ty -> (is_set d -> p = false) ->
  run_value (k :: path) (ddb_json d) ((p, S n), ExpectingTypeKey, ty) = Some (lead p ++ vtext (S n) d, ((true, S n), after k, None)).
Lemma run_single k path key v c n ty : path <> [] -> not_list ty ->
  run_value (k :: path) (JObject [(key, v)]) ((c, S n), ExpectingTypeKey, ty) =
  match run_member (key :: k :: path) v ((c, S n), ExpectingTypeKey, ty) with
  | Some (a, m') => Some (a, m')
  | None => None
  end.
Proof.
  intros Hp Ht. rewrite run_object.
  assert (HB : d2n_tb PObject (k :: path) (JObject [(key, v)]) ((c, S n), ExpectingTypeKey, ty) = Some ([], ((c, S n), ExpectingTypeKey, ty), false)).
  { cbn [d2n_tb snd]. change (S n =? 0) with false. cbv iota. destruct ty as [[| | |]|]; try reflexivity. elim (Ht eq_refl). }
  rewrite HB. unfold t_then at 1. cbn [Transducer.run_members]. unfold t_then.
  destruct (run_member (key :: k :: path) v ((c, S n), ExpectingTypeKey, ty)) as [[a [[c1 ph] ty1]]|]; [|reflexivity].
  unfold t_none at 1. cbn [d2n_te]. destruct path as [|x path]; [contradiction|]. cbn [List.length Nat.eqb]. unfold t_none. rewrite !app_nil_r. reflexivity.
Qed.
(** The phase behind a type key. *)
Lemma end_value k path key c ty : d2n_te PNone (key :: k :: path) (c, ExpectingValue, ty) = Some ([], (c, after k, ty)).
Proof. unfold after. cbn [d2n_te parent_is]. destruct (beq k (bs "#array")); reflexivity. Qed.
Ltac unfold_steps := unfold t_begin_root, t_field, t_string, t_word, t_list_end, t_set_end, t_map_end, t_root_end, t_quotes,
  ConvProofs.t_newline, ConvProofs.t_comma, ConvProofs.t_indent, t_put, t_deeper, t_shallower, t_comma_is, t_phase, t_type, lift, t_none, t_then.
Ltac same := unfold ConvProofs.lead; rewrite ?app_nil_r; do 3 (cbn [app]; rewrite <- ?app_assoc); reflexivity.

Lemma run_set (q : bool) ty l path : ty = (if q then TSS else TNS) -> forall p n,
  run_items (bs "#array" :: path) (map JString l) ((p, n), ExpectingValue, Some ty) =
  Some (row p (map (fun t => if q then quoted t else t) l), ((filled p l, n), ExpectingValue, Some ty)).
Proof.
  intros Hty. induction l as [|t l IH]; intros p n; [reflexivity|]. cbn [map Transducer.run_items]. unfold t_then at 1.
  assert (HV : run_value (bs "#array" :: path) (JString t) ((p, n), ExpectingValue, Some ty) = Some (lead p ++ (if q then quoted t else t), ((true, n), ExpectingValue, Some ty))).
  { cbn [Transducer.run_value d2n_tb parent_is]. change (beq (bs "#array") (bs "#array")) with true. cbv iota. subst ty. destruct q; unfold takes; unfold_steps; cbn [fst snd]; f_equal; f_equal;
      unfold quoted, ConvProofs.lead; do 3 (cbn [app]; rewrite ?app_nil_r, <- ?app_assoc); reflexivity. }
  rewrite HV, IH. cbn [ConvProofs.row]. rewrite <- app_assoc. f_equal. f_equal. destruct l; reflexivity.
Qed.
Lemma run_list l path : Forall right l -> fold_right (fun d P => ~ is_set d /\ P) True l -> forall p n,
  run_items (bs "#array" :: bs "L" :: path) (map ddb_json l) ((p, S n), ExpectingTypeKey, None) =
  Some (row p (map (vtext (S n)) l), ((filled p l, S n), ExpectingTypeKey, None)).
Proof.
  induction 1 as [|d l Hd _ IH]; intros Hs p n; [reflexivity|]. cbn [map Transducer.run_items]. unfold t_then at 1.
  rewrite Hd; [|discriminate|discriminate|intros H; elim (proj1 Hs H)]. change (after (bs "#array")) with ExpectingTypeKey. rewrite (IH (proj2 Hs)).
  cbn [ConvProofs.row]. rewrite <- app_assoc. f_equal. f_equal. destruct l; reflexivity.
Qed.
Lemma run_list0 l path : Forall right l -> fold_right (fun d P => ~ is_set d /\ P) True (tl l) -> forall n,
  run_items (bs "#array" :: bs "L" :: path) (map ddb_json l) ((false, S n), ExpectingTypeKey, None) =
  Some (row false (map (vtext (S n)) l), ((filled false l, S n), ExpectingTypeKey, None)).
Proof.
  intros H Hs n. destruct H as [|d l Hd H]; [reflexivity|]. cbn [map Transducer.run_items]. unfold t_then at 1.
  rewrite Hd; [|discriminate|discriminate|reflexivity]. change (after (bs "#array")) with ExpectingTypeKey. rewrite (run_list l path H Hs).
  cbn [ConvProofs.row]. rewrite <- app_assoc. f_equal. f_equal. destruct l; reflexivity.
Qed.
(** A path with the fields of an object. *)
Definition field_path (path : list bytes) : Prop := exists x p, path = x :: p /\ x <> bs "#array".
Lemma not_array x : x <> bs "#array" -> beq x (bs "#array") = false.
Proof. intros H. destruct (beq x (bs "#array")) eqn:Ex; [apply beq_eq in Ex; contradiction|reflexivity]. Qed.
Lemma run_fields ms path : field_path path -> Forall (fun kd => (fst kd <> bs "#array" /\ is_wrapper (fst kd) path = false) /\ right (snd kd)) ms -> forall p n ty, not_list ty ->
  run_members path (map (fun '(k, d) => (k, ddb_json d)) ms) ((p, S n), ExpectingField, ty) =
  Some (fields (S n) p ms, ((filled p ms, S n), ExpectingField, match ms with [] => ty | _ => None end)).
Proof.
  intros (x & pp & -> & Hx). induction 1 as [|[k d] ms ((Hk & Hi) & Hd) _ IH]; intros p n ty Hty; [reflexivity|]. cbn [fst snd map Transducer.run_members] in *. unfold t_then at 1.
  assert (HV : run_member (k :: x :: pp) (ddb_json d) ((p, S n), ExpectingField, ty) =
    Some (lead p ++ tab (S n) ++ QUOTE :: k ++ QUOTE :: COLON :: vtext (S n) d, ((true, S n), ExpectingField, None))).
  { unfold Transducer.run_member, t_begin. cbn [d2n_tb]. rewrite Hi. unfold goes. unfold_steps. cbn [fst snd].
    rewrite (Hd k (x :: pp) false n ty ltac:(discriminate) Hty ltac:(auto)). unfold after. rewrite (not_array k Hk). cbn [d2n_te parent_is]. rewrite (not_array x Hx). unfold t_phase. f_equal. f_equal.
    same. }
  rewrite HV. rewrite IH by discriminate. f_equal. f_equal; [|destruct ms; reflexivity]. unfold fields. cbn [map ConvProofs.row]. same.
Qed.

Lemma end_map k path p n ty : d2n_te PNone (bs "M" :: k :: path) ((p, S n), ExpectingField, ty) = Some (nl ++ tab n ++ [RBRACE], ((true, n), after k, None)).
Proof.
  cbn [d2n_te]. change (is_wrapper (bs "M") (k :: path)) with false. change (beq (bs "M") (bs "Item")) with false. cbv iota zeta. cbn [parent_is].
  unfold after. destruct (beq k (bs "#array")); unfold_steps; cbn [fst snd]; f_equal; f_equal; same.
Qed.
(** The handlers of the type keys. *)
Lemma key_S t : t_type_key (bs "S") (JString t) = takes (t_string true t ;> t_type None ;> t_phase ExpectingValue). Proof. reflexivity. Qed.
Lemma key_B t : t_type_key (bs "B") (JString t) = takes (t_string true t ;> t_type None ;> t_phase ExpectingValue). Proof. reflexivity. Qed.
Lemma key_N t : t_type_key (bs "N") (JString t) = takes (t_string false t ;> t_type None ;> t_phase ExpectingValue). Proof. reflexivity. Qed.
Lemma key_true : t_type_key (bs "BOOL") JTrue = takes (t_word "true" ;> t_phase ExpectingValue). Proof. reflexivity. Qed.
Lemma key_false : t_type_key (bs "BOOL") JFalse = takes (t_word "false" ;> t_phase ExpectingValue). Proof. reflexivity. Qed.
Lemma key_NULL : t_type_key (bs "NULL") JTrue = takes (t_word "null" ;> t_phase ExpectingValue). Proof. reflexivity. Qed.
Lemma key_SS v : t_type_key (bs "SS") v = goes (lift (t_put [LBRACK] ;> t_comma_is false) ;> t_type (Some TSS) ;> t_phase ExpectingValue). Proof. reflexivity. Qed.
Lemma key_BS v : t_type_key (bs "BS") v = goes (lift (t_put [LBRACK] ;> t_comma_is false) ;> t_type (Some TSS) ;> t_phase ExpectingValue). Proof. reflexivity. Qed.
Lemma key_NS v : t_type_key (bs "NS") v = goes (lift (t_put [LBRACK] ;> t_comma_is false) ;> t_type (Some TNS) ;> t_phase ExpectingValue). Proof. reflexivity. Qed.
Lemma key_L v : t_type_key (bs "L") v = goes (lift (t_comma ;> t_put [LBRACK] ;> t_comma_is false) ;> t_type (Some TL) ;> t_phase ExpectingTypeKey). Proof. reflexivity. Qed.
Lemma key_M v : t_type_key (bs "M") v =
  goes (lift (t_comma ;> t_put [LBRACE] ;> t_newline ;> t_deeper ;> t_comma_is false) ;> t_type (Some TM) ;> t_phase ExpectingField). Proof. reflexivity. Qed.

Lemma run_right d : convertible d -> right d.
Proof.
  induction d as [d Hl|l IH|ms IH] using ddb_induction; intros Hc k path p n ty Hp Hty Hs.
  - destruct d as [t|t|t|b| |l|l|l|l|ms]; try contradiction Hl; cbn [ddb_json]; rewrite run_single by assumption; unfold Transducer.run_member, t_begin.
    + cbn [d2n_tb]. rewrite ?key_S, ?key_B, ?key_N, ?key_NULL, ?key_SS, ?key_BS, ?key_NS, ?key_L, ?key_M. unfold takes. unfold_steps. cbn [fst snd]. rewrite end_value. cbn [vtext]. f_equal. f_equal. unfold quoted. same.
    + cbn [d2n_tb]. rewrite ?key_S, ?key_B, ?key_N, ?key_NULL, ?key_SS, ?key_BS, ?key_NS, ?key_L, ?key_M. unfold takes. unfold_steps. cbn [fst snd]. rewrite end_value. cbn [vtext]. f_equal. f_equal. unfold quoted. same.
    + cbn [d2n_tb]. rewrite ?key_S, ?key_B, ?key_N, ?key_NULL, ?key_SS, ?key_BS, ?key_NS, ?key_L, ?key_M. unfold takes. unfold_steps. cbn [fst snd]. rewrite end_value. cbn [vtext]. f_equal. f_equal. same.
    + destruct b; cbn [d2n_tb bool_json]; rewrite ?key_true, ?key_false; unfold takes; unfold_steps; cbn [fst snd]; rewrite end_value; cbn [vtext]; f_equal; f_equal; same.
    + cbn [d2n_tb]. rewrite ?key_S, ?key_B, ?key_N, ?key_NULL, ?key_SS, ?key_BS, ?key_NS, ?key_L, ?key_M. unfold takes. unfold_steps. cbn [fst snd]. rewrite end_value. cbn [vtext]. f_equal. f_equal. same.
    + rewrite (Hs I). cbn [d2n_tb]. rewrite ?key_S, ?key_B, ?key_N, ?key_NULL, ?key_SS, ?key_BS, ?key_NS, ?key_L, ?key_M. unfold goes. unfold_steps. cbn [fst snd]. rewrite run_array. cbn [d2n_tb]. unfold goes, t_none, t_then.
      rewrite (run_set true) by reflexivity. cbn [d2n_te]. unfold_steps. cbn [fst snd]. rewrite end_value. cbn [vtext]. f_equal. f_equal. same.
    + rewrite (Hs I). cbn [d2n_tb]. rewrite ?key_S, ?key_B, ?key_N, ?key_NULL, ?key_SS, ?key_BS, ?key_NS, ?key_L, ?key_M. unfold goes. unfold_steps. cbn [fst snd]. rewrite run_array. cbn [d2n_tb]. unfold goes, t_none, t_then.
      rewrite (run_set true) by reflexivity. cbn [d2n_te]. unfold_steps. cbn [fst snd]. rewrite end_value. cbn [vtext]. f_equal. f_equal. same.
    + rewrite (Hs I). cbn [d2n_tb]. rewrite ?key_S, ?key_B, ?key_N, ?key_NULL, ?key_SS, ?key_BS, ?key_NS, ?key_L, ?key_M. unfold goes. unfold_steps. cbn [fst snd]. rewrite run_array. cbn [d2n_tb]. unfold goes, t_none, t_then.
      rewrite (run_set false) by reflexivity. rewrite map_id. cbn [d2n_te]. unfold_steps. cbn [fst snd]. rewrite end_value. cbn [vtext]. f_equal. f_equal. same.
  - cbn [ddb_json]. rewrite run_single by assumption. unfold Transducer.run_member, t_begin. cbn [d2n_tb]. rewrite ?key_S, ?key_B, ?key_N, ?key_NULL, ?key_SS, ?key_BS, ?key_NS, ?key_L, ?key_M. unfold goes. unfold_steps. cbn [fst snd].
    rewrite run_array. cbn [d2n_tb]. unfold goes, t_type, t_then. cbn [convertible] in Hc.
    assert (HF : Forall right l).
    { destruct Hc as (Hc & _). clear - IH Hc. induction IH as [|d l Hd _ IH2]; constructor; [apply Hd, Hc|apply IH2, Hc]. }
    rewrite (run_list0 l (k :: path) HF (proj2 Hc)). cbn [d2n_te]. unfold_steps. cbn [fst snd]. rewrite end_value. cbn [vtext]. f_equal. f_equal. same.
  - cbn [ddb_json]. rewrite run_single by assumption. unfold Transducer.run_member, t_begin. cbn [d2n_tb]. rewrite ?key_S, ?key_B, ?key_N, ?key_NULL, ?key_SS, ?key_BS, ?key_NS, ?key_L, ?key_M. unfold goes. unfold_steps. cbn [fst snd].
    rewrite run_object. cbn [d2n_tb snd]. change (S (S n) =? 0) with false. cbv iota. unfold goes, t_none, t_then. cbn [convertible] in Hc.
    rewrite run_fields.
    + cbn [d2n_te List.length Nat.eqb]. unfold t_none at 1. rewrite end_map. cbn [vtext]. fold (fields (S (S n)) false ms). f_equal. f_equal. same.
    + exists (bs "M"), (k :: path). split; [reflexivity|discriminate].
    + clear - IH Hc. induction IH as [|[x d] ms Hd _ IH2]; constructor; [|apply IH2, Hc]. cbn [fst snd] in *. split; [split; [apply Hc|]|apply Hd, Hc].
      unfold is_wrapper. cbn [parent_is]. change (beq (bs "M") (bs "#top")) with false. destruct mode; apply Bool.andb_false_r.
    + discriminate.
Qed.

(** Items. *)
Definition root_text (ms : list (bytes * ddb)) : bytes := LBRACE :: nl ++ fields 1 false ms ++ nl ++ [RBRACE; 10%N].
Notation agrees := (ConvSpec.agrees mode).
Lemma run_item wrapped ms : convertible_item ms -> agrees wrapped ms -> forall ty, not_list ty -> exists ty', not_list ty' /\
  run_value [bs "#top"] (item_json wrapped ms) ((false, 0), ExpectingField, ty) = Some (root_text ms, ((false, 0), ExpectingField, ty')).
Proof.
  intros Hc Ha ty Hty. unfold item_json.
  assert (HF : forall path, (forall k, In k (map fst ms) -> is_wrapper k path = false) ->
    Forall (fun kd => (fst kd <> bs "#array" /\ is_wrapper (fst kd) path = false) /\ right (snd kd)) ms).
  { intros path Hi. unfold convertible_item in Hc. rewrite Forall_forall in *. intros [k d] Hin. pose proof (Hc _ Hin) as (H1 & H2). cbn [fst snd]. split; [split; [exact H1|]|apply run_right, H2].
    apply Hi. apply (in_map fst) in Hin. exact Hin. }
  exists (match ms with [] => ty | _ => None end). split; [destruct ms; [exact Hty|discriminate]|].
  destruct wrapped.
  - destruct Ha as [(Hm & _)|(_ & Ha)]; [|discriminate]. rewrite run_object. cbn [d2n_tb snd]. change (0 =? 0) with true. cbv iota. unfold goes. unfold_steps. cbn [fst snd Transducer.run_members].
    unfold t_then at 1. unfold Transducer.run_member, t_begin. cbn [d2n_tb]. unfold is_wrapper at 1. rewrite Hm. cbn [parent_is]. change (beq (bs "Item") (bs "Item")) with true. change (beq (bs "#top") (bs "#top")) with true. cbn [andb].
    unfold goes, t_none at 1. unfold t_then at 1. unfold t_then at 1. rewrite run_object. cbn [d2n_tb snd]. change (1 =? 0) with false. cbv iota. unfold goes, t_none at 1. unfold t_then at 1. unfold t_then at 1.
    rewrite run_fields.
    + cbn [d2n_te List.length Nat.eqb]. unfold t_none at 1. cbn [d2n_te List.length Nat.eqb]. unfold is_wrapper. rewrite Hm. cbn [parent_is]. change (beq (bs "Item") (bs "Item")) with true. change (beq (bs "#top") (bs "#top")) with true. cbn [andb].
      unfold_steps. cbn [fst snd d2n_te List.length Nat.eqb]. unfold_steps. cbn [fst snd]. f_equal. f_equal. unfold root_text. same.
    + exists (bs "Item"), [bs "#top"]. split; [reflexivity|discriminate].
    + apply HF. intros k _. unfold is_wrapper. rewrite Hm. cbn [parent_is]. change (beq (bs "Item") (bs "#top")) with false. apply Bool.andb_false_r.
    + exact Hty.
  - rewrite run_object. cbn [d2n_tb snd]. change (0 =? 0) with true. cbv iota. unfold goes. unfold_steps. cbn [fst snd].
    rewrite run_fields.
    + cbn [d2n_te List.length Nat.eqb]. unfold_steps. cbn [fst snd]. f_equal. f_equal. unfold root_text. same.
    + exists (bs "#top"), []. split; [reflexivity|discriminate].
    + apply HF. intros k Hin. unfold is_wrapper. destruct Ha as [(Hm & [Ha|Ha])|(Hm & _)]; [discriminate| |]; rewrite Hm; [|apply Bool.andb_false_r].
      destruct (beq k (bs "Item")) eqn:Ek; [|reflexivity]. apply beq_eq in Ek. subst k. contradiction.
    + exact Hty.
Qed.
Lemma run_item_list (ws : list (bool * list (bytes * ddb))) : Forall (fun '(wrapped, ms) => convertible_item ms /\ agrees wrapped ms) ws -> forall ty, not_list ty -> exists ty',
  run_items [bs "#top"] (map (fun '(wrapped, ms) => item_json wrapped ms) ws) ((false, 0), ExpectingField, ty) =
  Some (List.concat (map (fun '(_, ms) => root_text ms) ws), ((false, 0), ExpectingField, ty')).
Proof.
  induction 1 as [|[wrapped ms] ws (Hc & Ha) _ IH]; intros ty Hty; [exists ty; reflexivity|]. destruct (run_item wrapped ms Hc Ha ty Hty) as (ty1 & Hty1 & E1).
  destruct (IH ty1 Hty1) as (ty2 & E2). exists ty2. cbn [map Transducer.run_items List.concat]. unfold t_then. rewrite E1, E2. reflexivity.
Qed.
End D2n.

(** ** The text is plain JSON *)
Lemma vtext_compact d : forall n, vtext false n d = compact (plain d).
Proof.
  induction d as [d Hl|l IH|ms IH] using ddb_induction; intros n.
  - destruct d as [t|t|t|b| |l|l|l|l|ms]; try contradiction Hl; try reflexivity; [destruct b; reflexivity| | |]; cbn [vtext plain compact]; rewrite row_join0, map_map; try reflexivity.
    rewrite map_id. reflexivity.
  - cbn [vtext plain compact]. rewrite row_join0, map_map.
    assert (HM : map (vtext false n) l = map (fun x => compact (plain x)) l) by (induction IH as [|d l Hd _ IH2]; [reflexivity|]; cbn [map]; rewrite Hd, IH2; reflexivity).
    rewrite HM. reflexivity.
  - cbn [vtext plain compact]. unfold tab, nl. cbn [app]. rewrite row_join0, map_map.
    assert (HM : map (fun '(k, d) => QUOTE :: k ++ QUOTE :: COLON :: vtext false (S n) d) ms =
      map (fun x => let '(k, v) := let '(k, d) := x in (k, plain d) in QUOTE :: k ++ QUOTE :: COLON :: compact v) ms).
    { clear - IH. induction IH as [|[k d] ms Hd _ IH2]; [reflexivity|]. cbn [map snd] in *. rewrite Hd. f_equal. exact IH2. }
    change (list byte) with bytes in *. rewrite HM. reflexivity.
Qed.
Lemma item_compact ms : root_text false ms = compact (plain_item ms) ++ [10%N].
Proof.
  change (plain_item ms) with (plain (DM ms)). rewrite <- (vtext_compact (DM ms) 0). unfold root_text, fields. cbn [vtext]. unfold nl, tab. cbn [app]. rewrite <- app_assoc. reflexivity.
Qed.

Section Layout.
Context (pr : bool).
Notation P := any_layout.
Notation nl := (nl pr).
Notation tab := (tab pr).
Notation row := (row pr).
Lemma nl_spaces : spaces nl. Proof. unfold ConvProofs.nl. destruct pr; [constructor; [cbv; auto|constructor]|constructor]. Qed.
Lemma pads_spaces n : spaces (pads n). Proof. induction n; [constructor|]. do 2 (constructor; [cbv; auto|]). exact IHn. Qed.
Lemma tab_spaces n : spaces (tab n). Proof. unfold ConvProofs.tab. destruct pr; [apply pads_spaces|constructor]. Qed.
Lemma spaces_app a b : spaces a -> spaces b -> spaces (a ++ b). Proof. intros. apply Forall_app; auto. Qed.
Hint Resolve nl_spaces tab_spaces spaces_app : spaces.
Ltac flat := repeat first [rewrite <- app_assoc | progress cbn [app]].
Lemma delimited_spaces w x l : spaces w -> number_char x = false -> delimited (w ++ x :: l).
Proof. intros [|y w' Hy _] Hx; [exact Hx|]. destruct Hy as [->|[->|[->| ->]]]; reflexivity. Qed.
Lemma delimited_row l x y : (forall a, In a l -> True) -> number_char x = false -> delimited (row true l ++ x :: y).
Proof. intros _ Hx. destruct l; [exact Hx|reflexivity]. Qed.

(** Texts of values, one behind the other. *)
Definition placed (v : json) (t : bytes) : Prop := forall b r, delimited r -> value_at P b v (t ++ r) r.
Lemma items_placed vs ts : Forall2 placed vs ts -> forall r, items_at P vs (row true ts ++ RBRACK :: r) r.
Proof.
  induction 1 as [|v t vs ts Hv _ IH]; intros r; [apply (items_end P []); constructor|]. cbn [ConvProofs.row ConvProofs.lead]. flat.
  apply (items_more P [] nl v vs (t ++ row true ts ++ RBRACK :: r) (row true ts ++ RBRACK :: r) r); [constructor|apply nl_spaces| |apply IH].
  apply Hv. apply delimited_row; auto.
Qed.
Lemma array_placed vs ts : Forall2 placed vs ts -> placed (JArray vs) (LBRACK :: row false ts ++ [RBRACK]).
Proof.
  intros H b r _. destruct H as [|v t vs ts Hv H]; [apply (at_array_empty P b []); constructor|]. cbn [ConvProofs.row ConvProofs.lead]. flat.
  apply (at_array P b [] v vs (t ++ row true ts ++ RBRACK :: r) (row true ts ++ RBRACK :: r) r); [constructor| |apply items_placed, H].
  apply Hv. apply delimited_row; auto.
Qed.
Definition placed_member (n : nat) (kv : bytes * json) (t : bytes) : Prop :=
  exists u, string_text (fst kv) /\ placed (snd kv) u /\ t = tab n ++ QUOTE :: fst kv ++ QUOTE :: COLON :: u.
Lemma members_placed n ms ts : Forall2 (placed_member n) ms ts -> forall w r, spaces w -> members_at P ms (row true ts ++ w ++ RBRACE :: r) r.
Proof.
  induction 1 as [|[k v] t ms ts (u & Hk & Hv & ->) H IH]; intros w r Hw; [apply members_end, Hw|]. cbn [ConvProofs.row ConvProofs.lead fst snd] in *. flat.
  rewrite (app_assoc nl). apply (members_more P [] (nl ++ tab n) k [] [] v ms (u ++ row true ts ++ w ++ RBRACE :: r) (row true ts ++ w ++ RBRACE :: r) r); try exact I; try (constructor; fail); auto with spaces.
  apply Hv. inversion H; subst; [apply delimited_spaces; auto|reflexivity].
Qed.
Lemma object_placed n ms ts w : Forall2 (placed_member n) ms ts -> spaces w -> placed (JObject ms) (LBRACE :: nl ++ row false ts ++ w ++ [RBRACE]).
Proof.
  intros H Hw b r _. destruct H as [|[k v] t ms ts (u & Hk & Hv & ->) H].
  - cbn [ConvProofs.row]. flat. rewrite app_assoc. apply at_object_empty; [auto with spaces|exact I].
  - cbn [ConvProofs.row ConvProofs.lead fst snd] in *. flat. rewrite (app_assoc nl).
    apply (at_object P b (nl ++ tab n) k [] [] v ms (u ++ row true ts ++ w ++ RBRACE :: r) (row true ts ++ w ++ RBRACE :: r) r); try exact I; try (constructor; fail); auto with spaces.
    + apply Hv. inversion H; subst; [apply delimited_spaces; auto|reflexivity].
    + eapply members_placed; eassumption.
Qed.
Lemma string_placed t : string_text t -> placed (JString t) (quoted t).
Proof. intros H b r _. unfold quoted. flat. constructor; [exact H|exact I]. Qed.
Lemma number_placed t : number_text t -> placed (JNumber t) t.
Proof. intros H b r Hr. constructor; [exact H|exact Hr|exact I]. Qed.
Lemma Forall2_map {A} (f : A -> json) (g : A -> bytes) (Q : A -> Prop) (l : list A) : Forall Q l -> (forall x, Q x -> placed (f x) (g x)) -> Forall2 placed (map f l) (map g l).
Proof. intros H Hf. induction H; constructor; auto. Qed.
Lemma ddb_placed d : well_formed d -> forall n, placed (plain d) (vtext pr n d).
Proof.
  induction d as [d Hl|l IH|ms IH] using ddb_induction; intros Hw n.
  - destruct d as [t|t|t|b| |l|l|l|l|ms]; try contradiction Hl; cbn [plain vtext well_formed] in *.
    + apply string_placed, Hw.
    + apply string_placed, Hw.
    + apply number_placed, Hw.
    + destruct b; intros b0 r _; constructor.
    + intros b0 r _. constructor.
    + apply array_placed. apply (Forall2_map JString quoted string_text); auto. apply string_placed.
    + apply array_placed. apply (Forall2_map JString quoted string_text); auto. apply string_placed.
    + apply array_placed. rewrite <- (map_id l) at 2. apply (Forall2_map JNumber (fun t => t) number_text); auto. apply number_placed.
  - cbn [plain vtext well_formed] in *. apply array_placed. clear - IH Hw. induction IH as [|d l Hd _ IH2]; constructor; [apply Hd, Hw|apply IH2, Hw].
  - cbn [plain vtext well_formed] in *. rewrite (app_assoc nl (tab n)). apply object_placed with (n := S n); [|auto with spaces].
    clear - IH Hw. induction IH as [|[k d] ms Hd _ IH2]; constructor; [|apply IH2, Hw]. exists (vtext pr (S n) d). split; [apply Hw|]. split; [apply Hd, Hw|reflexivity].
Qed.
Lemma item_placed ms r : well_formed_item ms -> value_at P false (plain_item ms) (root_text pr ms ++ r) (10%N :: r).
Proof.
  intros Hw. assert (HW : Forall2 (placed_member 1) (map (fun '(k, d) => (k, plain d)) ms) (map (fun '(k, d) => tab 1 ++ QUOTE :: k ++ QUOTE :: COLON :: vtext pr 1 d) ms)).
  { unfold well_formed_item in Hw. induction Hw as [|[k d] ms (Hk & Hd) _ IH2]; constructor; [|exact IH2]. exists (vtext pr 1 d). split; [exact Hk|]. split; [apply ddb_placed, Hd|reflexivity]. }
  pose proof (object_placed 1 _ _ nl HW nl_spaces false (10%N :: r) eq_refl) as H. unfold root_text, fields. revert H. flat. auto.
Qed.
Lemma items_laid (l : list (list (bytes * ddb))) : Forall well_formed_item l -> documents P (map plain_item l) (List.concat (map (root_text pr) l)).
Proof.
  intros H. assert (HW : forall w, spaces w -> documents P (map plain_item l) (w ++ List.concat (map (root_text pr) l))); [|apply (HW []); constructor].
  induction H as [|ms l Hm _ IH]; intros w Hw.
  - cbn. rewrite app_nil_r. constructor. exact Hw.
  - cbn [map List.concat]. apply docs_more with (r := 10%N :: List.concat (map (root_text pr) l)).
    + eexists w, _. split; [reflexivity|]. split; [exact Hw|]. apply item_placed, Hm.
    + apply (IH [10%N]). constructor; [cbv; auto|constructor].
Qed.
End Layout.

(** ** The conversion *)
Notation d2n_dims := (pool_dims 68).
Lemma d2n_run m (ws : list (bool * list (bytes * ddb))) rd w rb xb pr mode : sane m -> start m (rj_new rd rb) ->
  documents (layout m) (map (fun '(wrapped, ms) => item_json wrapped ms) ws) (src rd) ->
  277 <= len xb -> Forall (fun '(wrapped, ms) => convertible_item ms /\ agrees mode wrapped ms) ws ->
  exists w' v, eventually (fun fuel => convert_ddb_to_normal fuel rd w rb xb pr mode) (Done (w', v)) /\
    let text := List.concat (map (fun '(_, ms) => root_text pr ms) ws) in
    match v with
    | Ok _ => spent w text w'
    | Err (e, _) =>
        may_fail m = true \/
        (exists k, cut_off w text w' k /\ exists x, e = CIo k x \/ e = CRJiter (IoError k) x) \/
        (~ Forall (has_room (d2n_dims xb)) (map (fun '(wrapped, ms) => item_json wrapped ms) ws) /\ exists a b, text = a ++ b /\ spent w a w')
    end.
Proof.
  intros HM HS HD Hx Hc. destruct (run_item_list pr mode ws Hc None ltac:(discriminate)) as (ty & Ht).
  destruct (convert_run dout dmode (dgood pr) d2n_noted (d2n_tb pr mode) (d2n_te pr mode) (d2n_callbacks mode) base 68 m HM) with
    (vs := map (fun '(wrapped, ms) => item_json wrapped ms) ws) (rd := rd) (rb := rb) (xb := xb) (u := d2n_new w pr)
    (text := List.concat (map (fun '(_, ms) => root_text pr ms) ws)) (m' := ((false, 0), ExpectingField, ty)) as (u' & v & (n & Hn) & Hv); auto.
  - apply (d2n_respects pr mode _ _ _ _ (setting_facts m HM)).
  - intros u Hu. apply Hu.
  - reflexivity.
  - discriminate.
  - change (68 * 4)%N with (N.of_nat 272). lia.
  - unfold pool_dims. cbn [space_for]. change (N.to_nat (68 * 4)) with 272. lia.
  - split; reflexivity.
  - exists (cout (base u')), v. split.
    + exists n. intros fuel Hf. unfold convert_ddb_to_normal. rewrite (Hn fuel Hf). reflexivity.
    + cbv zeta. destruct v as [[]|[e i]]; [apply Hv|]. destruct Hv as [Hv|[(a & b & k & Hab & Hb & Hs & (x & Hno) & He)|(Hr & (a & b & Hab & Hs) & _)]].
      * left. exact Hv.
      * right. left. exists k. split; [exists a, b; auto|]. exists x. destruct He as [He|(He & _)]; [|destruct Hno; congruence].
        destruct Hno as [Hno|Hno]; [left|right]; congruence.
      * right. right. split; [exact Hr|]. eauto.
Qed.

