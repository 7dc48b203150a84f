(** A scan that succeeds has read JSON, but for the differences listed in SoundSpec.v. *)
From Verif Require Import Base U8Pool Buffer Jiter RJiter RJiterSpec Scan ScanSpec ScanTokens ScanParser ScanStack ScanProofs SoundSpec SoundParser RJiterProofs RJiterInvProofs RJiterEndProofs.

Lemma document_blanks whole b v w l r : blanks w -> lax_document whole b v l r -> lax_document whole b v (w ++ l) r.
Proof.
  intros Hw (w' & l' & -> & Hw' & Hv). exists (w ++ w'), l'. rewrite app_assoc. split; [reflexivity|]. split; [apply blanks_app; assumption|exact Hv].
Qed.
Lemma document_value whole b v l r : lax_value whole b v l r -> lax_document whole b v l r.
Proof. intros H. exists [], l. split; [reflexivity|]. split; [constructor|exact H]. Qed.


(** ** Readers that do not fail, callbacks that take a broken literal for a value *)
(** No atom can be read here, although it looks like a literal. *)
Definition stuck (l : bytes) : Prop :=
  (exists x m, l = x :: m /\ (x = PeekTrue \/ x = PeekFalse \/ x = PeekNull)) /\ forall whole b v r, atom v -> ~ lax_document whole b v l r.
Definition calmly (calm whole : bool) (c : nat) (s : rj) : Prop := after whole c s /\ (calm = true -> rquiet s = true).
(** [heeds], but the reader may be assumed not to fail, and then an atom need not have been read if there is none. *)
Record heeds_calm {B} (calm whole : bool) (c : nat) (cb : callbacks B) (beh : behaviour B) : Prop := mkHeedsCalm {
  hc_begin name b path s u :
    name <> PNone -> path <> [] -> calmly calm whole c s -> (b = false -> 0 < jidx s) ->
    let '(u1, a) := find_action cb name (mkCtx path (List.length path)) u in
    match a with
    | None => forall v, announces name v -> on_begin beh name path v u u1 (Some OpNone)
    | Some act => forall s' u' op, act s u1 = Done (s', u', op) ->
        match op with
        | OpNone => (forall v, announces name v -> on_begin beh name path v u u' (Some OpNone)) /\
            calmly calm whole c s' /\ rest s' = rest s /\ (0 < jidx s -> 0 < jidx s')
        | ValueIsConsumed => (exists v, announces name v /\ on_begin beh name path v u u' (Some ValueIsConsumed) /\
            calmly calm whole c s' /\ 0 < jidx s' /\ lax_document whole b v (rest s) (rest s')) \/
            (name = PAtom /\ calm = true /\ calmly calm whole c s' /\ stuck (rest s') /\ (exists w, blanks w /\ rest s = w ++ rest s') /\
             exists v, atom v /\ on_begin beh name path v u u' (Some ValueIsConsumed))
        | OpError _ => True
        end
    end;
  hc_key path s u :
    path <> [] -> calmly calm whole c s -> 0 < jidx s ->
    let '(u1, a) := find_action cb PNone (mkCtx path (List.length path)) u in
    match a with
    | None => forall v, on_begin beh PNone path v u u1 (Some OpNone)
    | Some act => forall s' u' op, act s u1 = Done (s', u', op) ->
        match op with
        | OpNone => (forall v, on_begin beh PNone path v u u' (Some OpNone)) /\
            calmly calm whole c s' /\ (whole = true -> 0 < jidx s') /\ exists w, blanks w /\ rest s = w ++ rest s'
        | ValueIsConsumed => exists v, on_begin beh PNone path v u u' (Some ValueIsConsumed) /\
            calmly calm whole c s' /\ 0 < jidx s' /\ lax_document whole (negb whole) v (rest s) (rest s')
        | OpError _ => True
        end
    end;
  hc_end name path u :
    name <> PAtom -> path <> [] ->
    let '(u1, a) := find_end_action cb name (mkCtx path (List.length path)) u in
    match a with
    | None => on_end beh name path u u1 (Some (Ok tt))
    | Some act => forall u' e, act u1 = Done (u', Ok e) -> on_end beh name path u u' (Some (Ok tt))
    end }.
Lemma wild c whole s : calmly false whole c s <-> after whole c s.
Proof. unfold calmly. split; [intros (H & _); exact H|]. intros H. split; [exact H|discriminate]. Qed.
Lemma heeds_any {B} whole c (cb : callbacks B) beh : heeds whole c cb beh -> heeds_calm false whole c cb beh.
Proof.
  intros [H1 H2 H3]. split.
  - intros name b path s u Hn _ (HG & _) Hb. specialize (H1 name b path s u Hn HG Hb). destruct (find_action _ _ _ _) as [u1 [act|]]; [|exact H1].
    intros s' u' op E. specialize (H1 _ _ _ E). destruct op; [|left|exact I].
    + destruct H1 as (A & B0 & C). split; [exact A|]. split; [apply wild, B0|exact C].
    + destruct H1 as (v & A & B0 & C & D). exists v. split; [exact A|]. split; [exact B0|]. split; [apply wild, C|exact D].
  - intros path s u _ (HG & _) Hj. specialize (H2 path s u HG Hj). destruct (find_action _ _ _ _) as [u1 [act|]]; [|exact H2].
    intros s' u' op E. specialize (H2 _ _ _ E). destruct op; [| |exact I].
    + destruct H2 as (A & B0 & C). split; [exact A|]. split; [apply wild, B0|exact C].
    + destruct H2 as (v & A & C & D). exists v. split; [exact A|]. split; [apply wild, C|exact D].
  - intros name path u Hn _. exact (H3 name path u Hn).
Qed.

Section Calm.
Context (calm whole : bool) (c : nat) (H2 : 2 <= c).
Notation G := (calmly calm whole c).
Lemma calm_op {A} k known token (f : jop A) op s s' v : method k known token f op -> G s -> op s = Done (s', Ok v) -> after whole c s' -> G s'.
Proof.
  intros M ((V & C & _) & HQ) E HG. split; [exact HG|]. intros Hc. destruct (loop_progress k known token f op s s' v M V ltac:(lia) E) as (_ & _ & H & _). auto.
Qed.
Lemma calm_peek s s' x : G s -> peek s = Done (s', Ok x) -> G s' /\ exists w l, rest s = w ++ x :: l /\ rest s' = x :: l /\ blanks w.
Proof. intros HG E. destruct (read_peek c H2 _ _ _ _ (closed_after whole) (proj1 HG) E) as (A & H). split; [exact (calm_op _ _ _ _ _ _ _ _ m_peek HG E A)|exact H]. Qed.
Lemma calm_known_array s s' v l : G s -> rest s = LBRACK :: l -> known_array s = Done (s', Ok v) ->
  G s' /\ 0 < jidx s' /\ exists w, blanks w /\
    match v with None => l = w ++ RBRACK :: rest s' | Some x => exists m, l = w ++ x :: m /\ rest s' = x :: m end.
Proof. intros HG HR E. destruct (read_known_array whole c H2 s s' v l (proj1 HG) HR E) as (A & H). split; [exact (calm_op _ _ _ _ _ _ _ _ m_known_array HG E A)|exact H]. Qed.
Lemma calm_array_step s s' v : G s -> 0 < jidx s -> array_step s = Done (s', Ok v) ->
  G s' /\ 0 < jidx s' /\ exists w, blanks w /\
    match v with
    | None => rest s = w ++ RBRACK :: rest s'
    | Some x => exists w2 m, blanks w2 /\ rest s = w ++ COMMA :: w2 ++ x :: m /\ rest s' = x :: m
    end.
Proof. intros HG Hj E. destruct (read_array_step whole c H2 s s' v (proj1 HG) Hj E) as (A & H). split; [exact (calm_op _ _ _ _ _ _ _ _ m_array_step HG E A)|exact H]. Qed.
Lemma calm_next_key s s' v : G s -> 0 < jidx s -> next_key_bytes s = Done (s', Ok v) ->
  G s' /\ 0 < jidx s' /\ exists w, blanks w /\
    match v with
    | None => rest s = w ++ RBRACE :: rest s'
    | Some k => exists w0 w1, blanks w0 /\ string_text k /\ spaces w1 /\ rest s = w ++ COMMA :: w0 ++ QUOTE :: k ++ QUOTE :: w1 ++ COLON :: rest s'
    end.
Proof. intros HG Hj E. destruct (read_next_key whole c H2 s s' v (proj1 HG) Hj E) as (A & H). split; [exact (calm_op _ _ _ _ _ _ _ _ m_next_key_bytes HG E A)|exact H]. Qed.
Lemma calm_next_object s s' v l : G s -> rest s = LBRACE :: l -> next_object_bytes s = Done (s', Ok v) ->
  G s' /\ 0 < jidx s' /\ exists j w, (j = [] \/ (jidx s = 0 /\ junk j)) /\ blanks w /\
    match v with
    | None => rest s = j ++ LBRACE :: w ++ RBRACE :: rest s'
    | Some k => exists w1, string_text k /\ spaces w1 /\ rest s = j ++ LBRACE :: w ++ QUOTE :: k ++ QUOTE :: w1 ++ COLON :: rest s'
    end.
Proof. intros HG HR E. destruct (read_next_object whole c H2 s s' v l (proj1 HG) HR E) as (A & H). split; [exact (calm_op _ _ _ _ _ _ _ _ m_next_object_bytes HG E A)|exact H]. Qed.
Lemma calm_null s s' v l : G s -> rest s = PeekNull :: l -> known_null s = Done (s', Ok v) -> G s' /\ 0 < jidx s' /\ rest s = bs "null" ++ rest s'.
Proof. intros HG HR E. destruct (read_null whole c H2 s s' v l (proj1 HG) HR E) as (A & H). split; [exact (calm_op _ _ _ _ _ _ _ _ m_known_null HG E A)|exact H]. Qed.
Lemma calm_bool x s s' v l : x = PeekTrue \/ x = PeekFalse -> G s -> rest s = x :: l -> known_bool x s = Done (s', Ok v) ->
  G s' /\ 0 < jidx s' /\ rest s = (if N.eqb x PeekTrue then bs "true" else bs "false") ++ rest s' /\ v = N.eqb x PeekTrue.
Proof. intros Hx HG HR E. destruct (read_bool whole c H2 x s s' v l Hx (proj1 HG) HR E) as (A & H). split; [exact (calm_op _ _ _ _ _ _ _ _ (m_known_bool x) HG E A)|exact H]. Qed.
Lemma calm_number s s' t : G s -> next_number_bytes s = Done (s', Ok t) -> G s' /\ 0 < jidx s' /\ number_text t /\
  exists w, blanks w /\ rest s = w ++ t ++ rest s'.
Proof. intros HG E. destruct (read_number whole c H2 s s' t (proj1 HG) E) as (A & H). split; [exact (calm_op _ _ _ _ _ _ _ _ m_next_number_bytes HG E A)|exact H]. Qed.
Lemma calm_long s w s' w' u l : G s -> rest s = QUOTE :: l -> write_long_bytes s w = Done (s', w', Ok u) ->
  G s' /\ 0 < jidx s' /\ exists t, rest s = QUOTE :: t ++ QUOTE :: rest s' /\ spent w t w' /\ lax_text whole t.
Proof.
  intros HG HR E. destruct (read_long whole c s w s' w' u l (proj1 HG) HR E) as (A & H). split; [|exact H]. split; [exact A|]. intros Hc.
  exact (closed_long _ closed_quiet _ _ _ _ _ _ _ _ E (proj2 HG Hc)).
Qed.
Lemma stuck_head s : after whole c s -> stuck (rest s) -> exists x m, rest s = x :: m /\ (jview s = [] \/ exists q, jview s = x :: q) /\
  (x = PeekTrue \/ x = PeekFalse \/ x = PeekNull).
Proof.
  intros (V & _) ((x & m & HR & Hx) & _). exists x, m. split; [exact HR|]. split; [|exact Hx]. pose proof (jview_split s V) as Hv. rewrite HR in Hv.
  destruct (jview s) as [|y q]; [left; reflexivity|]. injection Hv as <- _. eauto.
Qed.
Lemma head_no (w : bytes) x y m l : blanks w -> x :: m = w ++ y :: l -> is_ascii_whitespace x = false -> x = y.
Proof.
  intros Hw E Hx. destruct w as [|z w]; [injection E as -> _; reflexivity|]. injection E as -> _. apply Forall_inv in Hw. apply blank_ascii in Hw. congruence.
Qed.
Lemma head_kept (w : bytes) x y m l : blanks w -> x :: m = w ++ y :: l -> is_ascii_whitespace x = false -> y :: l = x :: m.
Proof.
  intros Hw E Hx. destruct w as [|z w]; [symmetry; exact E|]. injection E as -> _. apply Forall_inv in Hw. apply blank_ascii in Hw. congruence.
Qed.
Lemma literal_solid x : x = PeekTrue \/ x = PeekFalse \/ x = PeekNull -> is_ascii_whitespace x = false.
Proof. intros [-> |[-> | ->]]; reflexivity. Qed.
Lemma strip_solid t x m : x <> t -> is_ascii_whitespace x = false -> strip (Some t) (x :: m) = x :: m.
Proof.
  intros Ht Hx. unfold strip, skip_aw. cbn [run_length]. rewrite Hx. cbn [skipn]. destruct (N.eqb_spec x t); [contradiction|reflexivity].
Qed.
Lemma stuck_no_step s s' v : after whole c s -> stuck (rest s) -> array_step s <> Done (s', Ok v).
Proof.
  intros HG HS E. destruct (stuck_head s HG HS) as (x & m & HR & Hv & Hx).
  destruct (op_read c _ _ _ _ _ _ s s' v (closed_after whole) H2 m_array_step HG E) as (_ & _ & H).
  assert (K : ~ parsed j_array_step (x :: m) v (rest s')).
  { intros P. apply parsed_array_step in P as (w & Hw & P). apply spaces_blanks in Hw. pose proof (literal_solid x Hx) as Hs. destruct v as [y|].
    - destruct P as (w2 & m' & _ & P & _). apply head_no in P; [|exact Hw|exact Hs]. subst x. destruct Hx as [X|[X|X]]; discriminate.
    - apply head_no in P; [|exact Hw|exact Hs]. subst x. destruct Hx as [X|[X|X]]; discriminate. }
  rewrite HR, strip_solid in H; [|destruct Hx as [-> |[-> | ->]]; discriminate|apply literal_solid, Hx].
  destruct H as [H|[H|[(H & _)|(_ & H)]]]; [exact (K H)|exact (K H)|discriminate|].
  destruct H as (_ & _ & r0 & a0 & a1 & E0 & Ha & _). destruct Hv as [Hv|(q & Hv)]; rewrite Hv in E0.
  - injection E0 as _ <-. lia.
  - destruct Hx as [-> |[-> | ->]]; injection E0 as _ <-; lia.
Qed.
Lemma stuck_no_key s s' v : after whole c s -> stuck (rest s) -> next_key_bytes s <> Done (s', Ok v).
Proof.
  intros HG HS E. destruct (stuck_head s HG HS) as (x & m & HR & Hv & Hx).
  destruct (op_read c _ _ _ _ _ _ s s' v (closed_after whole) H2 m_next_key_bytes HG E) as (_ & _ & H).
  assert (K : ~ parsed (j_next_key j_known_bytes) (x :: m) v (rest s')).
  { intros P. apply parsed_next_key in P as (w & Hw & P). apply spaces_blanks in Hw. pose proof (literal_solid x Hx) as Hs. destruct v as [y|].
    - destruct P as (w2 & m' & P & _). apply head_no in P; [|exact Hw|exact Hs]. subst x. destruct Hx as [X|[X|X]]; discriminate.
    - apply head_no in P; [|exact Hw|exact Hs]. subst x. destruct Hx as [X|[X|X]]; discriminate. }
  rewrite HR, strip_solid in H; [|destruct Hx as [-> |[-> | ->]]; discriminate|apply literal_solid, Hx].
  destruct H as [H|[H|[(H & _)|(_ & H)]]]; [exact (K H)|exact (K H)|discriminate|].
  destruct H as (_ & _ & r0 & a0 & a1 & E0 & Ha & _). destruct Hv as [Hv|(q & Hv)]; rewrite Hv in E0.
  - injection E0 as _ <-. lia.
  - destruct Hx as [-> |[-> | ->]]; injection E0 as _ <-; lia.
Qed.
End Calm.

(** The position behind a value, and the entry it belongs to. *)
Definition housed (es : list entry) (p : position) : Prop :=
  home es p /\ (p = Top \/ p = ArrayMiddle \/ (p = ObjectMiddle /\ exists key es', es = key_entry key :: es')).
Lemma housed_array es : housed (array_entry :: es) ArrayMiddle.
Proof. split; [apply home_array|auto]. Qed.
Lemma housed_key key es : housed (key_entry key :: es) ObjectMiddle.
Proof. split; [apply home_key|]. right. right. eauto. Qed.
Lemma housed_path es p : housed es p -> path_of es <> [].
Proof. intros ((x & k & es' & -> & _) & _). discriminate. Qed.

Section Sound.
Context {B : Type} (cb : callbacks B) (o : options) (beh : behaviour B) (d : dims) (calm whole : bool) (c : nat).
Context (H2 : 2 <= c) (HH : heeds_calm calm whole c cb beh) (HS : sse_tokens o = []).
Notation path := path_of.
Notation G := (calmly calm whole c).
Notation home := housed.
Notation finish_iter := (finish_iter cb o).
Notation loop k p s := (scan_loop cb o k true p s).

Definition st (es : list entry) (u : B) (s : sstate B) : Prop := G (parser s) /\ user s = u /\ stack_of d (stack s) es.
(** Behind a value. *)
Definition past (es : list entry) (u : B) (s : sstate B) : Prop := st es u s /\ 0 < jidx (parser s).
Definition succeeds (x : sres B unit) (sf : sstate B) : Prop := x = Done (sf, Ok tt).

(** ** Callbacks *)
Lemma begin_ok name b es u s s' y : name <> PNone -> path es <> [] -> st es u s -> (b = false -> 0 < jidx (parser s)) -> run_begin cb name s = Done (s', Ok y) ->
  exists u', if y : bool
    then (exists v, announces name v /\ on_begin beh name (path es) v u u' (Some ValueIsConsumed) /\ past es u' s' /\
           lax_document whole b v (rest (parser s)) (rest (parser s'))) \/ (name = PAtom /\ calm = true /\ st es u' s' /\ stuck (rest (parser s')) /\
           (exists w, blanks w /\ rest (parser s) = w ++ rest (parser s')) /\ exists v, atom v /\ on_begin beh name (path es) v u u' (Some ValueIsConsumed))
    else (forall v, announces name v -> on_begin beh name (path es) v u u' (Some OpNone)) /\ st es u' s' /\
           rest (parser s') = rest (parser s) /\ (b = false -> 0 < jidx (parser s')).
Proof.
  intros Hn Hes (HG & <- & Hst) Hb E. pose proof (hc_begin _ _ _ _ _ HH name b (path es) (parser s) (user s) Hn Hes HG Hb) as H. unfold run_begin in E.
  rewrite (stack_context _ _ _ Hst) in E. cbn [obind] in E. rewrite path_length in H.
  destruct (find_action cb name (mkCtx (path es) (List.length es)) (user s)) as [u1 a]. destruct a as [act|].
  - destruct (act (parser s) u1) as [[[r u'] op]| |]; try discriminate. cbn [obind] in E. specialize (H _ _ _ eq_refl). exists u'.
    destruct op as [| |m]; cbv iota in E; try discriminate; injection E as <- <-; unfold past, st; cbn [parser user stack].
    + destruct H as (H & HG' & Hr & Hj). split; [exact H|]. split; [auto|]. split; [exact Hr|]. auto.
    + destruct H as [(v & Ha & Ho & HG' & Hj & Hd)|(Hp & Hc & HG' & Hk)]; [left|right; split; [exact Hp|]; split; [exact Hc|]; split; [auto|exact Hk]]. exists v. split; [exact Ha|]. split; [exact Ho|]. split; [auto|exact Hd].
  - injection E as <- <-. exists u1. unfold st. cbn [parser user stack]. split; [exact H|]. split; [auto|]. split; [reflexivity|auto].
Qed.
Lemma key_ok es u s s' y : path es <> [] -> st es u s -> 0 < jidx (parser s) -> run_begin cb PNone s = Done (s', Ok y) ->
  exists u', if y : bool
    then exists v, on_begin beh PNone (path es) v u u' (Some ValueIsConsumed) /\ past es u' s' /\
           lax_document whole (negb whole) v (rest (parser s)) (rest (parser s'))
    else (forall v, on_begin beh PNone (path es) v u u' (Some OpNone)) /\ st es u' s' /\ (whole = true -> 0 < jidx (parser s')) /\
           exists w, blanks w /\ rest (parser s) = w ++ rest (parser s').
Proof.
  intros Hes (HG & <- & Hst) Hj E. pose proof (hc_key _ _ _ _ _ HH (path es) (parser s) (user s) Hes HG Hj) as H. unfold run_begin in E.
  rewrite (stack_context _ _ _ Hst) in E. cbn [obind] in E. rewrite path_length in H.
  destruct (find_action cb PNone (mkCtx (path es) (List.length es)) (user s)) as [u1 a]. destruct a as [act|].
  - destruct (act (parser s) u1) as [[[r u'] op]| |]; try discriminate. cbn [obind] in E. specialize (H _ _ _ eq_refl). exists u'.
    destruct op as [| |m]; cbv iota in E; try discriminate; injection E as <- <-; unfold past, st; cbn [parser user stack].
    + destruct H as (H & HG' & Hj' & Hr). split; [exact H|]. split; [auto|]. split; [exact Hj'|exact Hr].
    + destruct H as (v & Ho & HG' & Hj' & Hd). exists v. split; [exact Ho|]. split; [auto|exact Hd].
  - injection E as <- <-. exists u1. unfold st. cbn [parser user stack]. split; [exact H|]. split; [auto|]. split; [auto|]. exists []. split; [constructor|reflexivity].
Qed.
Lemma end_ok name es s s1 a p s2 y : name <> PAtom -> path es <> [] -> stack_of d (stack s) es -> look_up_end cb name s = Done (s1, a) ->
  run_end_action a (mkS (parser s1) (user s1) p) = Done (s2, Ok y) ->
  exists u', s2 = mkS (parser s) u' p /\ stack s1 = stack s /\ on_end beh name (path es) (user s) u' (Some (Ok tt)).
Proof.
  intros Hn Hes Hst E E2. pose proof (hc_end _ _ _ _ _ HH name (path es) (user s) Hn Hes) as H. unfold look_up_end in E.
  rewrite (stack_context _ _ _ Hst) in E. cbn [obind] in E. rewrite path_length in H.
  destruct (find_end_action cb name (mkCtx (path es) (List.length es)) (user s)) as [u1 a1]. injection E as <- <-. cbn [parser user stack] in *.
  destruct a1 as [act|]; cbn [run_end_action user parser stack] in E2.
  - destruct (act u1) as [[u' e]| |]; try discriminate. cbn [obind] in E2. destruct e as [[]|m]; [|discriminate]. injection E2 as <- _.
    exists u'. split; [reflexivity|]. split; [reflexivity|]. apply (H _ _ eq_refl).
  - injection E2 as <- _. exists u1. auto.
Qed.
Lemma run_end_ok name es s s2 y : name <> PAtom -> path es <> [] -> stack_of d (stack s) es -> run_end cb name s = Done (s2, Ok y) ->
  exists u', s2 = mkS (parser s) u' (stack s) /\ on_end beh name (path es) (user s) u' (Some (Ok tt)).
Proof.
  intros Hn Hes Hst E. unfold run_end in E. destruct (look_up_end cb name s) as [[s1 a]| |] eqn:El; try discriminate. cbn [obind] in E.
  assert (Hs : stack s1 = stack s).
  { unfold look_up_end in El. rewrite (stack_context _ _ _ Hst) in El. cbn [obind] in El.
    destruct (find_end_action _ _ _ _). injection El as <- _. reflexivity. }
  destruct (end_ok name es s s1 a (stack s1) s2 y Hn Hes Hst El) as (u' & A1 & _ & A3); [destruct s1; exact E|]. exists u'. rewrite A1, Hs. auto.
Qed.
Lemma top_ok m es (s : sstate B) p : stack_of d (stack s) es -> home es p -> top_position m s = Done (s, Ok p).
Proof. intros Hst ((x & k & es' & -> & Hp) & _). unfold top_position. rewrite (stack_top _ _ _ Hst). cbn [obind]. rewrite Hp. reflexivity. Qed.

(** ** Atoms *)
Lemma atom_ok b es u s s' x l y : st es u s -> rest (parser s) = x :: l -> skip_basic_values x s = Done (s', Ok y) ->
  exists v, atom v /\ past es u s' /\ lax_document whole b v (rest (parser s)) (rest (parser s')).
Proof.
  intros (HG & Hu & Hst) HR E. unfold skip_basic_values in E.
  assert (K : forall X (op : rj -> outcome (rj * result X rerror)), sbind (parse op s) (fun s _ => Done (s, Ok tt)) = Done (s', Ok y) ->
    exists r z, op (parser s) = Done (r, Ok z) /\ s' = mkS r (user s) (stack s)).
  { intros X op E1. unfold parse in E1. destruct (op (parser s)) as [[r z]| |]; try discriminate. cbn [obind] in E1.
    destruct z as [z|e]; [|discriminate]. cbn [sbind] in E1. injection E1 as <- _. eauto. }
  assert (Q : forall r v, G r -> 0 < jidx r -> atom v -> s' = mkS r (user s) (stack s) -> lax_document whole b v (rest (parser s)) (rest r) ->
    exists v, atom v /\ past es u s' /\ lax_document whole b v (rest (parser s)) (rest (parser s'))).
  { intros r v HG' Hj Ha -> Hd. exists v. unfold past, st. cbn [parser user stack]. auto 6. }
  destruct (N.eqb_spec x QUOTE) as [->|_].
  { apply K in E as (r & z & E & Es). destruct (write_long_bytes (parser s) _) as [[[r1 w1] z1]| |] eqn:Ew; try discriminate.
    cbn [obind] in E. injection E as -> ->. destruct (calm_long calm whole c (parser s) _ _ _ _ l HG HR Ew) as (HG' & Hj & t & Ht & _ & Hl).
    apply (Q r (JString t)); auto; [exact I|]. rewrite Ht. apply document_value. constructor. exact Hl. }
  destruct (N.eqb_spec x PeekNull) as [->|_].
  { apply K in E as (r & z & E & Es). destruct (calm_null calm whole c H2 _ _ _ _ HG HR E) as (HG' & Hj & Ht).
    apply (Q r JNull); auto; [exact I|]. rewrite Ht. apply document_value. constructor. }
  destruct (N.eqb_spec x PeekTrue) as [->|_].
  { apply K in E as (r & z & E & Es). destruct (calm_bool calm whole c H2 PeekTrue _ _ _ _ ltac:(auto) HG HR E) as (HG' & Hj & Ht & _).
    apply (Q r JTrue); auto; [exact I|]. rewrite Ht. apply document_value. constructor. }
  destruct (N.eqb_spec x PeekFalse) as [->|_].
  { apply K in E as (r & z & E & Es). destruct (calm_bool calm whole c H2 PeekFalse _ _ _ _ ltac:(auto) HG HR E) as (HG' & Hj & Ht & _).
    apply (Q r JFalse); auto; [exact I|]. rewrite Ht. apply document_value. constructor. }
  destruct (next_number_bytes (parser s)) as [[r z]| |] eqn:En; try discriminate. cbn [obind] in E. destruct z as [z|e]; [|discriminate].
  injection E as <- _. destruct (calm_number calm whole c H2 _ _ _ HG En) as (HG' & Hj & Ht & w & Hw & Hr).
  apply (Q r (JNumber z)); auto; [exact I|]. rewrite Hr. apply document_blanks; [exact Hw|]. apply document_value. constructor. exact Ht.
Qed.

(** ** Values *)
Section Final.
Context (sf : sstate B).
Definition go_on (k : nat) (p : position) (es : list entry) (u : B) (r : bytes) : Prop :=
  exists s' k', k' <= k /\ past es u s' /\ rest (parser s') = r /\ succeeds (loop k' p s') sf.
(** Stopped in front of a literal that is not there. *)
Definition paused (p : position) (es : list entry) (u : B) (s : sstate B) : Prop :=
  p = Top /\ stop_early o = true /\ calm = true /\ st es (user sf) sf /\ stuck (rest (parser sf)) /\
  (exists w, blanks w /\ rest (parser s) = w ++ rest (parser sf)) /\ exists v, atom v /\ walk_value beh d false (path es) v u (user sf) Through.
Definition value_ok (k : nat) : Prop := forall b es p p0 u s x l, home es p -> settle p0 = p -> st es u s -> rest (parser s) = x :: l ->
  (b = false -> 0 < jidx (parser s)) -> succeeds (finish_iter k (scan_value cb o p0 x s)) sf ->
  paused p es u s \/ exists v u' r, lax_document whole b v (rest (parser s)) r /\ walk_value beh d false (path es) v u u' Through /\ go_on k p es u' r.
Definition items_ok (k : nat) : Prop := forall es p u s, home es p -> past (array_entry :: es) u s -> succeeds (loop k ArrayMiddle s) sf ->
  exists vs u1 u2 r, lax_items whole vs (rest (parser s)) r /\ walk_items beh d false (bs "#array" :: path es) vs u u1 Through /\
    on_end beh PArray (path es) u1 u2 (Some (Ok tt)) /\ go_on k p es u2 r.
Definition members_ok (k : nat) : Prop := forall key es p u s, home es p -> past (key_entry key :: es) u s -> succeeds (loop k ObjectMiddle s) sf ->
  exists ms u0 u1 u2 r, lax_members whole ms (rest (parser s)) r /\ on_end beh PNone (key :: path es) u u0 (Some (Ok tt)) /\
    walk_members beh d false (path es) ms u0 u1 Through /\ on_end beh PObject (path es) u1 u2 (Some (Ok tt)) /\ go_on k p es u2 r.

Lemma go_on_le k k' p es u r : k' <= k -> go_on k' p es u r -> go_on k p es u r.
Proof. intros H (s' & n & Hn & Hp). exists s', n. split; [lia|exact Hp]. Qed.
Lemma loop_ok k p s : p <> Top -> succeeds (loop k p s) sf -> exists k1, k = S k1 /\ succeeds (finish_iter k1 (scan_iter cb o p s)) sf.
Proof.
  intros Hp E. destruct k as [|k]; [discriminate|]. exists k. split; [reflexivity|]. unfold succeeds in *. rewrite <- E. cbn [scan_loop].
  replace (true && stop_early o && pos_eqb p Top) with false; [reflexivity|]. destruct p; try congruence; rewrite andb_false_r; reflexivity.
Qed.

(** Behind a literal that cannot be read no scan goes on, if a failure to read cannot pass. *)
Lemma stuck_dead k es p u s : (p = Top -> stop_early o = false) -> home es p -> st es u s -> stuck (rest (parser s)) -> ~ succeeds (loop k p s) sf.
Proof.
  intros Hp Hh. revert u s. induction k as [|k IH]; intros u s (HG & Hu & Hst) HK E; [discriminate|]. unfold succeeds in E. cbn [scan_loop] in E.
  replace (true && stop_early o && pos_eqb p Top) with false in E.
  2:{ destruct p; try (rewrite andb_false_r; reflexivity). rewrite (Hp eq_refl). reflexivity. }
  destruct Hh as (Hh & [-> |[-> |(-> & key & es' & ->)]]).
  - cbn [scan_iter] in E. destruct (peek (parser s)) as [[r y]| |] eqn:Ep; try discriminate. cbn [obind] in E.
    pose proof HK as ((x0 & m0 & HR & Hx0) & Hno). pose proof (literal_solid x0 Hx0) as Hs0. destruct y as [x|e].
    + destruct (calm_peek calm whole c H2 _ _ _ HG Ep) as (HG' & w & m & Hr & Hr' & Hw). rewrite HR in Hr. pose proof (head_kept w x0 x m0 m Hw Hr Hs0) as Hrr. rewrite <- Hr' in Hrr.
      assert (Hst' : st es u (mkS r (user s) (stack s))) by (split; [exact HG'|auto]).
      assert (Hkr : stuck (rest r)) by (rewrite Hrr, <- HR; exact HK). unfold scan_value in E.
      assert (Hx : x = x0) by (rewrite Hrr in Hr'; injection Hr' as -> _; reflexivity). subst x0.
      destruct (N.eqb_spec x LBRACK) as [->|_]; [destruct Hx0 as [X|[X|X]]; discriminate|].
      destruct (N.eqb_spec x LBRACE) as [->|_]; [destruct Hx0 as [X|[X|X]]; discriminate|].
      destruct (run_begin cb PAtom (mkS r (user s) (stack s))) as [[s1 z]| |] eqn:Eb; try discriminate. destruct z as [z|e]; [|discriminate]. cbn [vbind] in E.
      destruct (begin_ok PAtom true es u _ s1 z ltac:(discriminate) ltac:(destruct Hh as (? & ? & ? & -> & _); discriminate) Hst' ltac:(discriminate) Eb) as (u1 & H). destruct z.
      * destruct H as [(v & Ha & _ & _ & Hd)|(_ & _ & Hs1 & Hk1 & _)]; [exact (proj2 Hkr whole true v _ Ha Hd)|].
        exact (IH u1 s1 Hs1 Hk1 E).
      * destruct H as (_ & Hs1 & Hr1 & _). cbn [parser] in Hr1. destruct (skip_basic_values x s1) as [[s2 z]| |] eqn:Ek; try discriminate. cbn [obind] in E. destruct z as [z|e].
        -- rewrite Hrr in Hr1. destruct (atom_ok true es u1 s1 s2 x m0 z Hs1 Hr1 Ek) as (v & Ha & _ & Hd). rewrite Hr1, <- HR in Hd. exact (Hno whole true v _ Ha Hd).
        -- rewrite HS in E. cbn [skip_tokens] in E. destruct (pos_eqb Top Top || _)%bool; discriminate.
    + assert (He : err_type e = JsonError EofWhileParsingValue).
      { destruct (err_type e) as [j| | |]; try discriminate. destruct j; try discriminate. reflexivity. }
      assert (Hbl : blanks (rest (parser s))).
      { eapply (read_nothing c H2); eauto. split; [apply HG|split; [apply HG|exact I]]. }
      rewrite HR in Hbl. apply Forall_inv in Hbl. apply blank_ascii in Hbl. congruence.
  - change (succeeds (finish_iter k (step_run cb o array_step s)) sf) in E. unfold step_run, parse in E.
    destruct (array_step (parser s)) as [[r y]| |] eqn:Eo; try discriminate. cbn [obind] in E. destruct y as [y|e]; [|discriminate].
    exact (stuck_no_step whole c H2 _ _ _ (proj1 HG) HK Eo).
  - cbn [scan_iter] in E. unfold handle_object in E. change (pos_eqb ObjectMiddle ObjectBegin) with false in E. cbv beta zeta iota in E.
    destruct (look_up_end cb PNone s) as [[s1 a]| |] eqn:E1; try discriminate. cbn [obind] in E.
    destruct (pop_assoc (stack s1) pos_ty) as [[q x]| |]; try discriminate. cbn [obind] in E.
    destruct (run_end_action a (mkS (parser s1) (user s1) q)) as [[s2 z]| |] eqn:Ee; try discriminate. destruct z as [z|e]; [|discriminate]. cbn [sbind] in E.
    destruct (end_ok PNone (key_entry key :: es') _ _ _ _ _ _ ltac:(discriminate) ltac:(discriminate) Hst E1 Ee) as (u0 & -> & _ & _). unfold parse in E. cbn [parser] in E.
    destruct (next_key_bytes (parser s)) as [[r y]| |] eqn:Eo; try discriminate. cbn [obind] in E. destruct y as [y|e]; [|discriminate].
    exact (stuck_no_key whole c H2 _ _ _ (proj1 HG) HK Eo).
Qed.

(** The elements of an array behind [op]. *)
Lemma array_body k op es p u s : (forall k', k' <= k -> value_ok k') -> (forall k', k' <= k -> items_ok k') -> home es p -> st (array_entry :: es) u s ->
  (forall r y, op (parser s) = Done (r, Ok y) -> G r /\ 0 < jidx r /\ forall x, y = Some x -> exists m, rest r = x :: m) ->
  succeeds (finish_iter k (step_run cb o op s)) sf ->
  exists r y vs u1 u2 r', op (parser s) = Done (r, Ok y) /\
    match y with
    | None => vs = [] /\ r' = rest r
    | Some _ => exists v vs' l1, vs = v :: vs' /\ lax_document whole false v (rest r) l1 /\ lax_items whole vs' l1 r'
    end /\ walk_items beh d false (bs "#array" :: path es) vs u u1 Through /\ on_end beh PArray (path es) u1 u2 (Some (Ok tt)) /\ go_on k p es u2 r'.
Proof.
  intros HV HI Hh (HG & Hu & Hst) Hop E. unfold step_run, parse in E. destruct (op (parser s)) as [[r y]| |] eqn:Eo; try discriminate.
  cbn [obind] in E. destruct y as [y|e]; [|discriminate]. cbn [sbind] in E. destruct (Hop r y eq_refl) as (HGr & Hjr & Hx). exists r, y.
  destruct y as [x|].
  - destruct (Hx x eq_refl) as (m & Hm). cbn [vbind] in E.
    destruct (HV k (le_n _) false (array_entry :: es) ArrayMiddle ArrayMiddle u (mkS r (user s) (stack s)) x m (housed_array es) eq_refl) as [(X & _)|(v & u1 & r1 & Hd & Hw & Hg)]; auto; [|discriminate|].
    { repeat split; auto; apply HGr. }
    destruct Hg as (s1 & k1 & Hk1 & Hp1 & Hr1 & E1). destruct (HI k1 Hk1 es p u1 s1 Hh Hp1 E1) as (vs & u2 & u3 & r2 & Hl & Hw2 & Ho & Hg).
    exists (v :: vs), u2, u3, r2. split; [reflexivity|]. split; [exists v, vs, r1; rewrite <- Hr1 at 2; auto|].
    split; [eapply w_items; eauto|]. split; [exact Ho|]. eapply go_on_le; eauto.
  - cbn [stack user parser] in E. destruct (stack_pop _ _ _ _ _ Hst) as (q & Ep & Hq). rewrite Ep in E. cbn [obind] in E.
    destruct (run_end cb PArray (mkS r (user s) q)) as [[s2 z]| |] eqn:Ee; try discriminate. destruct z as [z|e]; [|discriminate]. cbn [sbind] in E.
    destruct (run_end_ok PArray es _ _ _ ltac:(discriminate) (housed_path _ _ Hh) (Hq : stack_of d (stack (mkS r (user s) q)) es) Ee) as (u' & -> & Ho). cbn [parser stack user] in *.
    rewrite (top_ok _ es _ p) in E by assumption. cbn [sbind vbind] in E.
    exists [], u, u', (rest r). split; [reflexivity|]. split; [auto|]. split; [constructor|]. rewrite Hu in Ho. split; [exact Ho|].
    exists (mkS r u' q), k. split; [lia|]. split; [repeat split; auto; apply HGr|]. split; [reflexivity|]. exact E.
Qed.
(** A value in front of which the next byte is looked at, as the value of a member. *)
Lemma member_value k es u s : (forall k', k' < k -> value_ok k') -> home es ObjectMiddle -> st es u s -> (whole = true -> 0 < jidx (parser s)) ->
  succeeds (loop k ObjectBetweenKV s) sf ->
  exists v u' r, lax_document whole (negb whole) v (rest (parser s)) r /\ walk_value beh d false (path es) v u u' Through /\ go_on k ObjectMiddle es u' r.
Proof.
  intros HV Hh (HG & Hu & Hst) Hj E. apply loop_ok in E as (k1 & -> & E); [|discriminate]. cbn [scan_iter] in E.
  destruct (peek (parser s)) as [[r y]| |] eqn:Ep; try discriminate. cbn [obind] in E. destruct y as [x|e].
  2:{ exfalso. unfold succeeds in E. destruct (err_type e) as [j| | |]; try discriminate. destruct j; discriminate. }
  destruct (calm_peek calm whole c H2 _ _ _ HG Ep) as (HG' & w & m & Hr & Hr' & Hw).
  destruct (HV k1 ltac:(lia) (negb whole) es ObjectMiddle ObjectBetweenKV u (mkS r (user s) (stack s)) x m Hh eq_refl) as [(X & _)|(v & u' & r1 & Hd & Hwv & Hg)]; auto.
  { split; [exact HG'|]. auto. }
  { intros Hb. cbn [parser]. assert (Ht : whole = true) by (destruct whole; [reflexivity|discriminate]). pose proof (peek_first whole c H2 _ _ _ (proj1 HG) Ep Ht). specialize (Hj Ht). lia. }
  { discriminate. }
  exists v, u', r1. split; [|split; [exact Hwv|eapply go_on_le; [|exact Hg]; lia]]. rewrite Hr. apply document_blanks; [exact Hw|]. cbn [parser] in Hd. rewrite Hr' in Hd. exact Hd.
Qed.
(** The members of an object behind [op]. *)
Lemma object_body k op es p u s : (forall k', k' < k -> value_ok k') -> (forall k', k' <= k -> members_ok k') -> home es p -> st es u s ->
  (forall r y, op (parser s) = Done (r, Ok y) -> G r /\ 0 < jidx r) ->
  succeeds (finish_iter k (vbind (object_run cb op s) (fun s p => Done (s, Continue p)))) sf ->
  exists r y ms u1 u2 r', op (parser s) = Done (r, Ok y) /\
    match y with
    | None => ms = [] /\ r' = rest r
    | Some key => exists v ms' l1, ms = (key, v) :: ms' /\ lax_document whole (negb whole) v (rest r) l1 /\ lax_members whole ms' l1 r'
    end /\ walk_members beh d false (path es) ms u u1 Through /\ on_end beh PObject (path es) u1 u2 (Some (Ok tt)) /\ go_on k p es u2 r'.
Proof.
  intros HV HM Hh (HG & Hu & Hst) Hop E. unfold object_run, parse in E. destruct (op (parser s)) as [[r y]| |] eqn:Eo; try discriminate.
  cbn [obind] in E. destruct y as [y|e]; [|discriminate]. cbn [sbind] in E. destruct (Hop r y eq_refl) as (HGr & Hjr). exists r, y.
  destruct y as [key|].
  - unfold key_run in E. cbn [stack user parser] in E. destruct (stack_push d (stack s) es (pos_code ObjectMiddle) key Hst) as (q & res & Ep & H).
    rewrite Ep in E. cbn [obind] in E. destruct (admit_name d (path es) key) as [x|] eqn:Ea.
    { destruct H as (_ & e & -> & _). destruct e; discriminate. }
    destruct H as (-> & Hq). destruct (run_begin cb PNone (mkS r (user s) q)) as [[s2 z]| |] eqn:Eb; try discriminate. destruct z as [z|e]; [|discriminate].
    cbn [sbind vbind] in E. destruct (key_ok (key_entry key :: es) u _ _ _ ltac:(discriminate) (conj HGr (conj Hu Hq) : st (key_entry key :: es) u (mkS r (user s) q)) Hjr Eb) as (u1 & H).
    cbn [parser] in H. destruct z.
    + destruct H as (v & Ho & Hp & Hd). destruct (HM k (le_n _) key es p u1 s2 Hh Hp E) as (ms & u2 & u3 & u4 & r1 & Hl & Hoe & Hw & Ho2 & Hg).
      exists ((key, v) :: ms), u3, u4, r1. split; [reflexivity|]. split; [exists v, ms, (rest (parser s2)); auto|].
      split; [eapply w_members; [exact Ea| |exact Hw]; change Through with (ended (Some (Ok tt))); eapply w_member_consumed; eauto|]. auto.
    + destruct H as (Ho & Hs2 & Hj2 & w & Hw & Hr). destruct (member_value k (key_entry key :: es) u1 s2 HV (housed_key key es) Hs2 Hj2 E) as (v & u2 & r1 & Hd & Hwv & Hg).
      destruct Hg as (s3 & k3 & Hk3 & Hp3 & Hr3 & E3). destruct (HM k3 Hk3 key es p u2 s3 Hh Hp3 E3) as (ms & u3 & u4 & u5 & r2 & Hl & Hoe & Hwm & Ho2 & Hg).
      exists ((key, v) :: ms), u4, u5, r2. split; [reflexivity|].
      split; [exists v, ms, r1; split; [reflexivity|]; split; [rewrite Hr; apply document_blanks; assumption|rewrite <- Hr3; exact Hl]|].
      split; [eapply w_members; [exact Ea| |exact Hwm]; change Through with (ended (Some (Ok tt))); eapply w_member; eauto; apply Ho|].
      split; [exact Ho2|]. eapply go_on_le; eauto.
  - cbn [stack user parser] in E.
    destruct (run_end cb PObject (mkS r (user s) (stack s))) as [[s2 z]| |] eqn:Ee; try discriminate. destruct z as [z|e]; [|discriminate]. cbn [sbind] in E.
    destruct (run_end_ok PObject es _ _ _ ltac:(discriminate) (housed_path _ _ Hh) (Hst : stack_of d (stack (mkS r (user s) (stack s))) es) Ee) as (u' & -> & Ho). cbn [parser stack user] in *.
    rewrite (top_ok _ es _ p) in E by assumption. cbn [vbind] in E.
    exists [], u, u', (rest r). split; [reflexivity|]. split; [auto|]. split; [constructor|]. rewrite Hu in Ho. split; [exact Ho|].
    exists (mkS r u' (stack s)), k. split; [lia|]. split; [repeat split; auto; apply HGr|]. split; [reflexivity|]. exact E.
Qed.

Lemma items_step k : (forall k', k' < k -> value_ok k') -> (forall k', k' < k -> items_ok k') -> items_ok k.
Proof.
  intros HV HI es p u s Hh (Hs & Hj) E. apply loop_ok in E as (k1 & -> & E); [|discriminate].
  change (succeeds (finish_iter k1 (step_run cb o array_step s)) sf) in E.
  destruct (array_body k1 array_step es p u s) as (r & y & vs & u1 & u2 & r' & Eo & Hy & Hw & Ho & Hg); auto; try (intros; (apply HV || apply HI); lia).
  { intros r y Eo. destruct (calm_array_step calm whole c H2 _ _ _ (proj1 Hs) Hj Eo) as (A1 & A2 & w & _ & A3). split; [exact A1|]. split; [exact A2|].
    intros x ->. destruct A3 as (w2 & m & _ & _ & A3). eauto. }
  destruct (calm_array_step calm whole c H2 _ _ _ (proj1 Hs) Hj Eo) as (_ & _ & w & Hbl & HR).
  exists vs, u1, u2, r'. split; [|split; [exact Hw|split; [exact Ho|eapply go_on_le; [|exact Hg]; lia]]].
  destruct y as [x|].
  - destruct HR as (w2 & m & Hw2 & HR & Hm). destruct Hy as (v & vs' & l1 & -> & (w3 & l3 & E3 & Hw3 & Hv) & Hl). rewrite HR, <- Hm, E3, (app_assoc w2).
    econstructor; eauto. apply blanks_app; assumption.
  - destruct Hy as (-> & ->). rewrite HR. constructor. exact Hbl.
Qed.
Lemma members_step k : (forall k', k' < k -> value_ok k') -> (forall k', k' < k -> members_ok k') -> members_ok k.
Proof.
  intros HV HM key es p u s Hh ((HG & Hu & Hst) & Hj) E. apply loop_ok in E as (k1 & -> & E); [|discriminate].
  cbn [scan_iter] in E. unfold handle_object in E. change (pos_eqb ObjectMiddle ObjectBegin) with false in E. cbv beta zeta iota in E.
  destruct (look_up_end cb PNone s) as [[s1 a]| |] eqn:E1; try discriminate. cbn [obind] in E.
  assert (Hs1 : stack s1 = stack s).
  { unfold look_up_end in E1. rewrite (stack_context _ _ _ Hst) in E1. cbn [obind] in E1. destruct (find_end_action _ _ _ _). injection E1 as <- _. reflexivity. }
  rewrite Hs1 in E. destruct (stack_pop _ _ _ _ _ Hst) as (q & Ep & Hq). rewrite Ep in E. cbn [obind] in E.
  destruct (run_end_action a (mkS (parser s1) (user s1) q)) as [[s2 z]| |] eqn:Ee; try discriminate. destruct z as [z|e]; [|discriminate]. cbn [sbind] in E.
  destruct (end_ok PNone (key_entry key :: es) _ _ _ _ _ _ ltac:(discriminate) ltac:(discriminate) Hst E1 Ee) as (u0 & -> & _ & Ho0). rewrite Hu in Ho0.
  change (succeeds (finish_iter k1 (vbind (object_run cb next_key_bytes (mkS (parser s) u0 q)) (fun s p => Done (s, Continue p)))) sf) in E.
  assert (Hs : st es u0 (mkS (parser s) u0 q)) by (split; [exact HG|auto]).
  destruct (object_body k1 next_key_bytes es p u0 (mkS (parser s) u0 q)) as (r & y & ms & u1 & u2 & r' & Eo & Hy & Hw & Ho & Hg); auto; try (intros; (apply HV || apply HM); lia).
  { cbn [parser]. intros r y Eo. destruct (calm_next_key calm whole c H2 _ _ _ HG Hj Eo) as (A1 & A2 & _). auto. }
  cbn [parser] in Eo. destruct (calm_next_key calm whole c H2 _ _ _ HG Hj Eo) as (_ & _ & w & Hbl & HR).
  exists ms, u0, u1, u2, r'. split; [|split; [exact Ho0|split; [exact Hw|split; [exact Ho|eapply go_on_le; [|exact Hg]; lia]]]].
  destruct y as [kk|].
  - destruct HR as (w0 & w1 & Hw0 & Hk & Hw1 & HR). destruct Hy as (v & ms' & l1 & -> & (w3 & l3 & E3 & Hw3 & Hv) & Hl). rewrite HR, E3.
    econstructor; eauto.
  - destruct Hy as (-> & ->). rewrite HR. constructor. exact Hbl.
Qed.
Lemma value_step k : (forall k', k' < k -> value_ok k') -> (forall k', k' < k -> items_ok k') -> (forall k', k' < k -> members_ok k') -> value_ok k.
Proof.
  intros HV HI HM b es p p0 u s x l Hh Hp0 Hs HR Hb E. unfold scan_value in E. fold (settle p0) in E. rewrite Hp0 in E.
  destruct (N.eqb_spec x LBRACK) as [->|_].
  { cbn [ScanProofs.finish_iter] in E. apply loop_ok in E as (k1 & -> & E); [|discriminate].
    cbn [scan_iter] in E. unfold handle_array in E. change (pos_eqb ArrayBegin ArrayBegin) with true in E. cbv beta zeta iota in E.
    destruct (run_begin cb PArray s) as [[s1 z]| |] eqn:Eb; try discriminate. destruct z as [z|e]; [|discriminate]. cbn [sbind] in E.
    destruct (begin_ok PArray b es u s s1 z ltac:(discriminate) (housed_path _ _ Hh) Hs Hb Eb) as (u1 & H). destruct z.
    - destruct H as [(v & (vs & ->) & Ho & Hp & Hd)|(H & _)]; [|discriminate]. rewrite (top_ok _ es _ p) in E by (apply Hp || exact Hh). cbn [sbind vbind] in E.
      right. exists (JArray vs), u1, (rest (parser s1)). split; [exact Hd|]. split; [apply w_array_consumed, Ho|]. exists s1, k1. split; [lia|]. split; [exact Hp|].
      split; [reflexivity|exact E].
    - destruct H as (Ho & (HG1 & Hu1 & Hst1) & Hr1 & Hj1). destruct (stack_push d (stack s1) es (pos_code ArrayMiddle) (bs "#array") Hst1) as (q & res & Ep & H).
      rewrite Ep in E. cbn [obind] in E. destruct (admit_name d (path es) (bs "#array")) as [y|] eqn:Ea; [destruct H as (_ & e & -> & _); discriminate|].
      destruct H as (-> & Hq). change (succeeds (finish_iter k1 (step_run cb o known_array (mkS (parser s1) (user s1) q))) sf) in E. rewrite HR in Hr1.
      destruct (array_body k1 known_array es p u1 (mkS (parser s1) (user s1) q)) as (r & y & vs & u2 & u3 & r' & Eo & Hy & Hw & Hoe & Hg); auto; try (intros; (apply HV || apply HI); lia).
      { split; [exact HG1|auto]. }
      { cbn [parser]. intros r y Eo. destruct (calm_known_array calm whole c H2 _ _ _ _ HG1 Hr1 Eo) as (A1 & A2 & w & _ & A3). split; [exact A1|]. split; [exact A2|].
        intros x ->. destruct A3 as (m & _ & A3). eauto. }
      cbn [parser] in Eo. destruct (calm_known_array calm whole c H2 _ _ _ _ HG1 Hr1 Eo) as (_ & _ & w & Hbl & HL).
      right. exists (JArray vs), u3, r'. split; [|split; [|eapply go_on_le; [|exact Hg]; lia]].
      + apply document_value. rewrite HR. destruct y as [y|].
        * destruct HL as (m & HL & Hm). destruct Hy as (v & vs' & l1 & -> & (w3 & l3 & E3 & Hw3 & Hv) & Hl). rewrite HL, <- Hm, E3, app_assoc.
          econstructor; eauto. apply blanks_app; assumption.
        * destruct Hy as (-> & ->). rewrite HL. constructor. exact Hbl.
      + change Through with (ended (Some (Ok tt))). eapply w_array; eauto. apply Ho. eexists. reflexivity. }
  destruct (N.eqb_spec x LBRACE) as [->|_].
  { cbn [ScanProofs.finish_iter] in E. apply loop_ok in E as (k1 & -> & E); [|discriminate].
    cbn [scan_iter] in E. unfold handle_object in E. change (pos_eqb ObjectBegin ObjectBegin) with true in E. cbv beta zeta iota in E.
    destruct (run_begin cb PObject s) as [[s1 z]| |] eqn:Eb; try discriminate. destruct z as [z|e]; [|discriminate]. cbn [sbind] in E.
    destruct (begin_ok PObject b es u s s1 z ltac:(discriminate) (housed_path _ _ Hh) Hs Hb Eb) as (u1 & H). destruct z.
    - destruct H as [(v & (ms & ->) & Ho & Hp & Hd)|(H & _)]; [|discriminate]. rewrite (top_ok _ es _ p) in E by (apply Hp || exact Hh). cbn [sbind vbind] in E.
      right. exists (JObject ms), u1, (rest (parser s1)). split; [exact Hd|]. split; [apply w_object_consumed, Ho|]. exists s1, k1. split; [lia|]. split; [exact Hp|].
      split; [reflexivity|exact E].
    - destruct H as (Ho & (HG1 & Hu1 & Hst1) & Hr1 & Hj1).
      change (succeeds (finish_iter k1 (vbind (object_run cb next_object_bytes s1) (fun s p => Done (s, Continue p)))) sf) in E. rewrite HR in Hr1.
      destruct (object_body k1 next_object_bytes es p u1 s1) as (r & y & ms & u2 & u3 & r' & Eo & Hy & Hw & Hoe & Hg); auto; try (intros; (apply HV || apply HM); lia).
      { split; [exact HG1|auto]. }
      { intros r y Eo. destruct (calm_next_object calm whole c H2 _ _ _ _ HG1 Hr1 Eo) as (A1 & A2 & _). auto. }
      destruct (calm_next_object calm whole c H2 _ _ _ _ HG1 Hr1 Eo) as (_ & _ & j & w & Hjk & Hbl & HL).
      assert (Hjk' : j = [] \/ b = true /\ junk j).
      { destruct Hjk as [->|(Hz & Hjk)]; [auto|]. destruct b; [auto|]. specialize (Hj1 eq_refl). lia. }
      right. exists (JObject ms), u3, r'. split; [|split; [|eapply go_on_le; [|exact Hg]; lia]].
      + apply document_value. rewrite HR, <- Hr1. destruct y as [y|].
        * destruct HL as (w1 & Hk & Hw1 & HL). destruct Hy as (v & ms' & l1 & -> & (w3 & l3 & E3 & Hw3 & Hv) & Hl). rewrite HL, E3.
          econstructor; eauto.
        * destruct Hy as (-> & ->). rewrite HL. constructor; assumption.
      + change Through with (ended (Some (Ok tt))). eapply w_object; eauto. apply Ho. eexists. reflexivity. }
  destruct (run_begin cb PAtom s) as [[s1 z]| |] eqn:Eb; try discriminate. destruct z as [z|e]; [|discriminate]. cbn [vbind] in E.
  destruct (begin_ok PAtom b es u s s1 z ltac:(discriminate) (housed_path _ _ Hh) Hs Hb Eb) as (u1 & H). destruct z.
  - destruct H as [(v & Ha & Ho & Hp & Hd)|(_ & Hcalm & Hs1 & Hk & Hw & v & Ha & Ho)].
    2:{ assert (D : p = Top /\ stop_early o = true \/ (p = Top -> stop_early o = false)) by (destruct (stop_early o), p; auto; right; discriminate).
        destruct D as [(-> & Hse)|D]; [|elim (stuck_dead k es p u1 s1 D Hh Hs1 Hk E)]. left. destruct k as [|k]; [discriminate|]. unfold succeeds in E. cbn [ScanProofs.finish_iter scan_loop] in E.
        rewrite Hse in E. cbn [andb pos_eqb pos_code N.eqb] in E. injection E as ->. pose proof Hs1 as (_ & Hu1 & _). rewrite <- Hu1 in *.
        split; [reflexivity|]. split; [exact Hse|]. split; [exact Hcalm|]. split; [exact Hs1|]. split; [exact Hk|]. split; [exact Hw|]. exists v. split; [exact Ha|].
        apply (w_atom beh d false _ _ _ _ (Some ValueIsConsumed) Ha Ho). }
    right. exists v, u1, (rest (parser s1)). split; [exact Hd|].
    split; [apply (w_atom beh d false _ _ _ _ (Some ValueIsConsumed) Ha Ho)|]. exists s1, k. split; [lia|]. split; [exact Hp|]. split; [reflexivity|exact E].
  - destruct H as (Ho & Hs1 & Hr1 & _). destruct (skip_basic_values x s1) as [[s2 z]| |] eqn:Ek; try discriminate. cbn [obind] in E. destruct z as [z|e].
    2:{ exfalso. rewrite HS in E. cbn [skip_tokens] in E. destruct (pos_eqb p Top || _)%bool; discriminate. }
    rewrite HR in Hr1. destruct (atom_ok b es u1 s1 s2 x l z Hs1 Hr1 Ek) as (v & Ha & Hp & Hd). right. exists v, u1, (rest (parser s2)).
    split; [rewrite HR, <- Hr1; exact Hd|]. split; [apply (w_atom beh d false _ _ _ _ (Some OpNone) Ha (Ho v Ha))|].
    exists s2, k. split; [lia|]. split; [exact Hp|]. split; [reflexivity|exact E].
Qed.
Lemma all_ok k : value_ok k /\ items_ok k /\ members_ok k.
Proof.
  induction k as [k IH] using lt_wf_ind.
  split; [apply value_step|split; [apply items_step|apply members_step]]; intros k' Hk; apply (IH k' Hk).
Qed.
(** ** The top level *)
Definition open_at (b : bool) (es : list entry) (u : B) (s : sstate B) : Prop :=
  (before whole c (parser s) /\ (calm = true -> rquiet (parser s) = true)) /\ (b = false -> whole = true /\ G (parser s) /\ 0 < jidx (parser s)) /\ user s = u /\ stack_of d (stack s) es.
Lemma past_open es u s : past es u s -> open_at (negb whole) es u s.
Proof.
  intros ((HG & Hu & Hst) & Hj). split; [split; [apply after_before, (proj1 HG)|apply (proj2 HG)]|]. split; [|auto]. intros Hb. split; [destruct whole; [reflexivity|discriminate]|auto].
Qed.
Lemma top_iter k b es u s : home es Top -> open_at b es u s -> succeeds (finish_iter k (scan_iter cb o Top s)) sf ->
  (blanks (rest (parser s)) /\ user sf = u /\ exists z, scan_iter cb o Top s = Done (z, Return (Ok tt))) \/ paused Top es u s \/
  exists v u' r, lax_document whole b v (rest (parser s)) r /\ walk_value beh d false (path es) v u u' Through /\ go_on k Top es u' r.
Proof.
  intros Hh ((HB & HQ) & Hb & Hu & Hst) E. cbn [scan_iter] in *. destruct (peek (parser s)) as [[r y]| |] eqn:Ep; try discriminate. cbn [obind] in *. destruct y as [x|e].
  - right. destruct (read_peek_start whole c H2 _ _ _ HB Ep) as (HG' & w & m & Hr & Hr' & Hw).
    destruct (proj1 (all_ok k) b es Top Top u (mkS r (user s) (stack s)) x m Hh eq_refl) as [Hpz|(v & u' & r1 & Hd & Hwv & Hg)]; auto.
    { split; [|auto]. split; [exact HG'|]. intros Hc. destruct HB as (V & HC0 & _).
      destruct (loop_progress _ _ _ _ _ _ _ _ m_peek V ltac:(lia) Ep) as (_ & _ & Hq & _). auto. }
    { intros Hz. cbn [parser]. destruct (Hb Hz) as (Hwh & HG & Hj). pose proof (peek_first whole c H2 _ _ _ (proj1 HG) Ep Hwh). lia. }
    { left. destruct Hpz as (A1 & A2 & A3 & A4 & A5 & (w1 & A6 & A7) & A8). split; [exact A1|]. split; [exact A2|]. split; [exact A3|]. split; [exact A4|]. split; [exact A5|].
      split; [|exact A8]. exists (w ++ w1). cbn [parser] in A7. rewrite Hr, <- Hr', A7, app_assoc. split; [apply blanks_app; assumption|reflexivity]. }
    right. exists v, u', r1. split; [|auto]. rewrite Hr. apply document_blanks; [exact Hw|]. cbn [parser] in Hd. rewrite Hr' in Hd. exact Hd.
  - left. assert (He : err_type e = JsonError EofWhileParsingValue).
    { unfold succeeds in E. destruct (err_type e) as [j| | |]; try discriminate. destruct j; try discriminate. reflexivity. }
    split; [eapply (read_nothing c H2); eauto; split; [apply HB|split; [apply HB|exact I]]|].
    rewrite He in *. cbn [pos_eqb pos_code N.eqb] in *. unfold parse in *. cbn [parser] in *. destruct (finish r) as [[r2 z]| |]; try discriminate. cbn [obind] in *.
    destruct z as [z|e2]; [|discriminate]. cbn [vbind] in *. injection E as <-. split; [exact Hu|eauto].
Qed.
Lemma top_all : stop_early o = false -> forall k b progressed es u s, home es Top -> open_at b es u s -> succeeds (scan_loop cb o k progressed Top s) sf ->
  exists vs r, lax_documents whole b vs (rest (parser s)) r /\ blanks r /\ walk_items beh d false (path es) vs u (user sf) Through.
Proof.
  intros Hse k. induction k as [k IH] using lt_wf_ind. intros b progressed es u s Hh Hs E. destruct k as [|k]; [discriminate|].
  unfold succeeds in E. cbn [scan_loop] in E. rewrite Hse, andb_false_r in E. cbn [andb] in E.
  destruct (top_iter k b es u s Hh Hs E) as [(Hbl & <- & _)|[(_ & X & _)|(v & u' & r & Hd & Hw & s' & k' & Hk & Hp & Hr & E')]]; [|congruence|].
  - exists [], (rest (parser s)). split; [constructor|]. split; [exact Hbl|constructor].
  - destruct (IH k' ltac:(lia) _ _ _ _ _ Hh (past_open _ _ _ Hp) E') as (vs & r' & Hds & Hbl & Hws).
    exists (v :: vs), r'. rewrite Hr in Hds. split; [econstructor; eauto|]. split; [exact Hbl|]. eapply w_items; eauto.
Qed.
Lemma top_first : stop_early o = true -> forall k b es u s, home es Top -> open_at b es u s -> succeeds (scan_loop cb o k false Top s) sf ->
  (blanks (rest (parser s)) /\ user sf = u /\ exists z, scan_iter cb o Top s = Done (z, Return (Ok tt))) \/ paused Top es u s \/
  exists v, lax_document whole b v (rest (parser s)) (rest (parser sf)) /\ walk_value beh d false (path es) v u (user sf) Through /\ past es (user sf) sf.
Proof.
  intros Hse k b es u s Hh Hs E. destruct k as [|k]; [discriminate|]. unfold succeeds in E. cbn [scan_loop andb] in E.
  destruct (top_iter k b es u s Hh Hs E) as [H|[H|(v & u' & r & Hd & Hw & s' & k' & Hk & Hp & Hr & E')]]; [left; exact H|right; left; exact H|right; right].
  destruct k' as [|k']; [discriminate|]. unfold succeeds in E'. cbn [scan_loop] in E'. rewrite Hse in E'. cbn [andb pos_eqb pos_code N.eqb] in E'. injection E' as ->.
  pose proof Hp as ((HG & Hu & _) & _). exists v. rewrite Hr, Hu. auto.
Qed.
End Final.

(** ** scan *)
Lemma scan_inv fuel s sf : stack_of d (stack s) [] -> scan cb o fuel s = Done (sf, Ok tt) ->
  admit_name d [] (bs "#top") = None /\ exists q, stack_of d q [(pos_code Top, bs "#top")] /\ succeeds (scan_loop cb o fuel false Top (mkS (parser s) (user s) q)) sf.
Proof.
  intros Hst E. unfold scan in E. destruct (stack_push d (stack s) [] (pos_code Top) (bs "#top") Hst) as (q & res & Ep & H). rewrite Ep in E. cbn [obind] in E.
  change (path_of []) with (@nil bytes) in H. destruct (admit_name d [] (bs "#top")) as [x|]; [destruct H as (_ & e & -> & _); discriminate|].
  destruct H as (-> & Hq). split; [reflexivity|]. exists q. split; [exact Hq|exact E].
Qed.
End Sound.
