(** idtransform and the two converters come to an end. *)
From Verif Require Import Base U8Pool PoolSpec PoolProofs Buffer BufferSpec BufferProofs Jiter JiterProofs RJiter RJiterSpec RJiterProofs RJiterOpProofs RJiterIndexProofs RJiterInvProofs.
From Verif Require Import Scan ScanSpec ScanParser RJiterEndProofs ScanStack ScanProofs ScanTop EndsSpec ScanBalance ScanEnds.
From Verif Require Import IdTransform Conv NormalToDdb DdbToNormal.

(** What a begin action has to do if it moves the parser. *)
Definition serves {B} (c : nat) (q strict steady : bool) (r : rj) (P Q : B -> Prop) (x : outcome (rj * B * stream_op)) : Prop :=
  match x with
  | Done (r', u', OpNone) => ready c q r' /\ left r' <= left r /\ P u'
  | Done (r', u', ValueIsConsumed) => ready c q r' /\ left r' <= left r /\ (strict = true -> left r' < left r) /\ Q u'
  | Done (_, _, OpError _) => True
  | Panic => steady = false
  | Diverge => False
  end.
Lemma serves_begin {B} c q strict steady (K : place -> list entry -> B -> Prop) name L r x :
  serves c q strict steady r (passed K name L) (K Between L) x ->
  match x with
  | Done (r', u', OpNone) => ready c q r' /\ left r' <= left r /\ passed K name L u'
  | Done (r', u', ValueIsConsumed) => ready c q r' /\ left r' <= left r /\ (strict = true -> name <> PNone -> left r' < left r \/ (name = PAtom /\ no_halt r')) /\ K Between L u'
  | Done (_, _, OpError _) => True
  | Panic => steady = false
  | Diverge => False
  end.
Proof. destruct x as [[[r' u'] [| |m]]| |]; cbn; auto. intros (A1 & A2 & A3 & A4). auto 10. Qed.
Lemma serves_weaken {B} c q strict steady r r1 (P Q P' Q' : B -> Prop) x : left r1 <= left r -> (forall u, P u -> P' u) -> (forall u, Q u -> Q' u) ->
  serves c q strict steady r1 P Q x -> serves c q strict steady r P' Q' x.
Proof.
  intros Hl HP HQ. destruct x as [[[r' u'] [| |m]]| |]; cbn; auto.
  - intros (A1 & A2 & A3). split; [exact A1|]. split; [lia|auto].
  - intros (A1 & A2 & A3 & A4). split; [exact A1|]. split; [lia|]. split; [intros A; specialize (A3 A); lia|auto].
Qed.

(** ** Dutiful callbacks *)
Lemma dutiful_cooperative {B} c q (cb : callbacks B) : dutiful c q cb -> cooperative c q true true no_halt (fun _ _ _ => True) cb.
Proof.
  intros [Db De]. assert (HL : forall L : list entry, List.length L = List.length (path_of L)) by (intros L; symmetry; apply map_length).
  assert (HE : forall name L u, let '(u1, a) := find_end_action cb name (context_for L) u in acted true a u1 (fun _ => True)).
  { intros name L u. unfold context_for. rewrite HL. specialize (De name (path_of L) u). destruct (find_end_action cb name _ u) as [u1 [act|]]; [|exact I].
    destruct De as (u' & v & E). cbn [acted]. rewrite E. destruct v; exact I. }
  constructor; auto; [|intros k L u _; exact (HE PNone _ u)|intros L u _; exact (HE PObject _ u)|intros L u _; exact (HE PArray _ u)].
  intros name L r u (V & C & Q) Hb. unfold context_for. rewrite HL.
  assert (Hn : name = PNone -> path_of L <> []) by (intros ->; destruct Hb as (k & L' & -> & _); discriminate).
  specialize (Db name (path_of L) r u Hn V C Q). destruct (find_action cb name _ u) as [u1 [act|]].
  - destruct Db as (r' & u' & op & E & D). rewrite E. destruct op as [| |m]; [| |exact I]; destruct D as (D1 & D2 & D3 & D4 & D5).
    + split; [split; [exact D1|split; assumption]|]. split; [exact D4|]. destruct name; exact I.
    + split; [split; [exact D1|split; assumption]|]. split; [exact D4|]. split; [intros _ N; left; exact (D5 eq_refl N)|exact I].
  - destruct name; exact I.
Qed.
Lemma scan_ends {B} c q (cb : callbacks B) o fuel d s : dutiful c q cb -> 8 <= c -> Forall (fun t => 1 <= len t) (sse_tokens o) ->
  (sse_tokens o = [] \/ q = true) -> valid (parser s) -> rcap (parser s) = c -> (q = true -> rquiet (parser s) = true) -> fresh d (stack s) ->
  2 * len (rest (parser s)) + 2 <= fuel -> exists s' v, scan cb o fuel s = Done (s', v).
Proof.
  intros D Hc Ht Hq V C Q Hs Hf.
  pose proof (scan_goes c q true true _ cb o d fuel s [] (dutiful_cooperative c q cb D) Hc Ht Hq (conj V (conj C Q)) (stack_fresh _ _ Hs) I) as H.
  destruct (scan cb o fuel s) as [[s' v]| |]; cbn [concludes] in H; [eauto|discriminate|]. specialize (H eq_refl). unfold left in H. lia.
Qed.

(** ** idtransform *)
Section Identity.
Context (c : nat) (q : bool) (Hc : 8 <= c).
Lemma copy_ends x r w : ready c q r -> exists r' w' v, copy_atom x r w = Done (r', w', v) /\
  match v with Ok _ => ready c q r' /\ left r' < left r | Err _ => True end.
Proof.
  intros HR. unfold copy_atom.
  assert (HP : forall r w d (k : writer -> outcome (rj * writer * result unit scan_error)) r0,
    (forall w', exists r' w2 v, k w' = Done (r', w2, v) /\ match v with Ok _ => ready c q r' /\ left r' < left r0 | Err _ => True end) ->
    exists r' w' v, match write_all w d with (w', Ok _) => k w' | (w', Err e) => Done (r, w', Err (IOError e)) end = Done (r', w', v) /\
      match v with Ok _ => ready c q r' /\ left r' < left r0 | Err _ => True end).
  { intros r1 w1 d k r0 H. destruct (write_all w1 d) as [w2 [u|e]]; [apply H|]. exists r1, w2, (Err (IOError e)). split; [reflexivity|exact I]. }
  assert (HL : forall X k known token (f : jop X) op d, method k known token f op -> advancing f -> 
    exists r' w' v, (do (r', v) <- op r;
      match v with Ok _ => match write_all w d with (w', Ok _) => Done (r', w', Ok tt) | (w', Err e) => Done (r', w', Err (IOError e)) end
      | Err e => Done (r', w, Err (RJiterError e)) end) = Done (r', w', v) /\ match v with Ok _ => ready c q r' /\ left r' < left r | Err _ => True end).
  { intros X k known token f op d M Ha. destruct (method_ready c q k known token f op r M ltac:(lia) HR) as (r1 & v & E & P). rewrite E. cbn [obind].
    destruct v as [v|e]; [|eexists _, _, _; split; [reflexivity|exact I]]. destruct P as (P1 & P2 & P3). apply HP. intros w1. eexists _, _, _. split; [reflexivity|]. cbv beta iota. auto. }
  destruct (N.eqb x QUOTE).
  { apply HP. intros w1. destruct (long_ready c q r w1 Hc HR) as (r1 & w2 & v & E & P). rewrite E. cbn [obind].
    destruct v as [v|e]; [|eexists _, _, _; split; [reflexivity|exact I]]. apply HP. intros w3. eexists _, _, _. split; [reflexivity|]. exact P. }
  destruct (N.eqb x PeekNull); [apply (HL _ _ _ _ _ _ _ m_known_null); apply ident_advancing|].
  destruct (N.eqb x PeekTrue); [apply (HL _ _ _ _ _ _ _ (m_known_bool x)); apply known_bool_advancing|].
  destruct (N.eqb x PeekFalse); [apply (HL _ _ _ _ _ _ _ (m_known_bool x)); apply known_bool_advancing|].
  destruct (method_ready c q _ _ _ _ _ r m_next_number_bytes ltac:(lia) HR) as (r1 & v & E & P). rewrite E. cbn [obind].
  destruct v as [v|e]; [|eexists _, _, _; split; [reflexivity|exact I]]. destruct P as (P1 & P2 & P3). apply HP. intros w1. eexists _, _, _. split; [reflexivity|].
  cbv beta iota. split; [exact P1|]. apply P3, number_advancing.
Qed.
Lemma id_dutiful : dutiful c q idt_callbacks.
Proof.
  constructor.
  - intros name path r u _ V C Q. assert (HR : ready c q r) by (split; [exact V|split; assumption]). cbn [find_action idt_callbacks]. unfold idt_find_action.
    assert (HS : forall d t, exists r' u' op, on_struct d r t = Done (r', u', op) /\
        match op with
        | OpError _ => True
        | _ => valid r' /\ rcap r' = c /\ (q = true -> rquiet r' = true) /\ len (rest r') <= len (rest r) /\
               (op = ValueIsConsumed -> name <> PNone -> len (rest r') < len (rest r))
        end).
    { intros d t. unfold on_struct. destruct (write_seqpos t) as [t1 [u1|m]]; [|eexists _, _, _; split; [reflexivity|exact I]].
      destruct (put_all t1 _) as [t2 [u2|m]]; eexists _, _, _; (split; [reflexivity|]); [|exact I]. cbv beta iota. split; [exact V|]. split; [exact C|]. split; [exact Q|]. split; [apply le_n|discriminate]. }
    destruct name; [apply HS|apply HS| |].
    + unfold on_atom. destruct (write_seqpos _) as [t1 [u1|m]]; [|eexists _, _, _; split; [reflexivity|exact I]].
      destruct (method_ready c q _ _ _ _ _ r m_peek ltac:(lia) HR) as (r1 & v & E & P). rewrite E. cbn [obind].
      destruct v as [x|e]; [|eexists _, _, _; split; [reflexivity|exact I]].
      destruct P as (P1 & P2 & _). destruct (copy_ends x r1 (out t1) P1) as (r2 & w2 & v & E2 & P3). rewrite E2. cbn [obind].
      destruct v as [v|e]; eexists _, _, _; (split; [reflexivity|]); [|exact I].
      destruct P3 as ((P3 & P5 & P6) & P4). unfold left in *. cbv beta iota. split; [exact P3|]. split; [exact P5|]. split; [exact P6|]. split; [lia|intros _ _; lia].
    + cbn [names]. destruct path as [|key l]; [exact I|]. destruct (_ && _)%bool; [|exact I]. unfold on_key.
      destruct (write_seqpos _) as [t1 [u1|m]]; eexists _, _, _; (split; [reflexivity|]); [|exact I]. cbv beta iota. split; [exact V|]. split; [exact C|]. split; [exact Q|]. split; [apply le_n|discriminate].
  - intros name path u. cbn [find_end_action idt_callbacks idt_find_end_action]. unfold idt_find_end_action.
    destruct name; try exact I; unfold on_struct_end; match goal with |- context [put_all ?t ?l] => destruct (put_all t l) as [t1 [v|m]] end; eexists _, _; reflexivity.
Qed.
End Identity.
Lemma idtransform_ends fuel r w p d : valid r -> 8 <= rcap r -> stack_of d p [] -> 2 * len (rest r) + 2 <= fuel ->
  exists r' w' p' v, idtransform fuel r w p = Done (r', w', p', v).
Proof.
  intros V H8 Hst Hf. unfold idtransform.
  pose proof (scan_goes (rcap r) false true true _ idt_callbacks (mkOptions [] true) d fuel (mkS r (idt_new w) p) []
    (dutiful_cooperative _ _ _ (id_dutiful (rcap r) false H8)) H8 (Forall_nil _) (or_introl eq_refl)) as H.
  cbn [parser user stack] in H. specialize (H ltac:(split; [exact V|split; [reflexivity|discriminate]]) Hst I).
  destruct (scan _ _ _ _) as [[s v]| |]; cbn [concludes] in H.
  - cbn [obind]. eauto.
  - discriminate.
  - specialize (H eq_refl). unfold left in H. lia.
Qed.

(** ** Steps of the converters *)
(** From a level of at least [a] to a level of at least [b]. *)
Definition runs (f : step conv) (a b : nat) : Prop := forall u, a <= level u -> exists u' v, f u = Done (u', v) /\ match v with Ok _ => b <= level u' | Err _ => True end.
Lemma runs_then f g a b e : runs f a b -> runs g b e -> runs (f ;; g) a e.
Proof.
  intros Hf Hg u Ha. unfold and_then. destruct (Hf u Ha) as (u1 & v & E & H). rewrite E. cbn [obind]. destruct v as [v|m]; [apply Hg, H|].
  eexists _, _. split; [reflexivity|exact I].
Qed.
Lemma runs_put d m a : runs (put d m) a a.
Proof. intros u Ha. unfold put. destruct (write_all (cout u) d) as [w [v|e]]; eexists _, _; (split; [reflexivity|]); [exact Ha|exact I]. Qed.
Lemma runs_skip a : runs skip a a.
Proof. intros u Ha. eexists _, _. split; [reflexivity|exact Ha]. Qed.
Lemma runs_newline a : runs newline a a.
Proof. intros u Ha. unfold newline. destruct (pretty u); [apply runs_put|apply runs_skip]; exact Ha. Qed.
Lemma runs_comma_is b a : runs (comma_is b) a a.
Proof. intros u Ha. eexists _, _. split; [reflexivity|exact Ha]. Qed.
Lemma runs_deeper a : runs deeper a (S a).
Proof. intros u Ha. eexists _, _. split; [reflexivity|]. cbn. lia. Qed.
Lemma runs_shallower a : runs shallower (S a) a.
Proof. intros u Ha. unfold shallower. destruct (level u) as [|n] eqn:E; [lia|]. eexists _, _. split; [reflexivity|]. cbn. lia. Qed.
Lemma runs_indents n a : runs (indents n) a a.
Proof. induction n as [|n IH]; [apply runs_skip|]. cbn [indents]. eapply runs_then; [apply runs_put|exact IH]. Qed.
Lemma runs_indent a : runs indent a a.
Proof. intros u Ha. unfold indent. destruct (pretty u); [apply runs_indents|apply runs_skip]; exact Ha. Qed.
Lemma runs_write_comma a : runs write_comma a a.
Proof.
  intros u Ha. unfold write_comma. destruct (pending u); [|apply runs_skip; exact Ha].
  revert u Ha. eapply runs_then; [apply runs_put|]. eapply runs_then; [apply runs_newline|]. apply (runs_comma_is false).
Qed.
Ltac runs_through := repeat first
  [ apply runs_put | apply runs_newline | apply runs_comma_is | apply runs_deeper | apply runs_shallower | apply runs_indent | apply runs_write_comma
  | apply runs_skip | eapply runs_then ].

(** ** Normal JSON to DynamoDB JSON *)
Section ToDdb.
Context (wrapper : bool) (c : nat) (q : bool) (Hc : 8 <= c).
Definition head_name (L : list entry) : bytes := match L with (_, k) :: _ => k | [] => [] end.
(** The levels an object adds; the level a key adds for its value. *)
Definition object_levels (L : list entry) : nat := if beq (head_name L) (bs "#top") then if wrapper then 2 else 1 else 2.
Definition value_level (L : list entry) : nat :=
  if beq (head_name L) (bs "#top") then 0 else if beq (head_name L) (bs "#array") then 0 else 1.
Fixpoint levels (L : list entry) : nat :=
  match L with
  | [] => 0
  | (x, _) :: L' =>
      if N.eqb x (pos_code Top) then 0
      else if N.eqb x (pos_code ArrayMiddle) then S (levels L')
      else object_levels L' + levels L'
  end.
Definition kept (p : place) (L : list entry) (u : conv) : Prop :=
  In top_entry L /\
  match p with
  | Between => levels L
  | Awaiting => value_level L + levels L
  | Inside => object_levels L + levels L
  end <= level u.
Lemma levels_key k L : levels (key_entry k :: L) = object_levels L + levels L.
Proof. reflexivity. Qed.
Lemma levels_array L : levels (array_entry :: L) = S (levels L).
Proof. reflexivity. Qed.
Lemma close_atom_runs a : runs close_atom (S a) a.
Proof. unfold close_atom. runs_through. Qed.

Lemma act_serves f op r a b (P Q : conv -> Prop) u : runs f a b -> a <= level u -> ready c q r ->
  (op = OpNone -> forall u', b <= level u' -> P u') -> (op = ValueIsConsumed -> forall u', b <= level u' -> Q u') ->
  serves c q false true r P Q (act_of f op r u).
Proof.
  intros Hf Ha HR HP HQ. unfold act_of. destruct (Hf u Ha) as (u1 & v & E & H). rewrite E. cbn [obind]. destruct v as [v|m]; [|exact I].
  destruct op as [| |m]; cbn [serves].
  - auto.
  - split; [exact HR|]. split; [apply le_n|]. split; [discriminate|auto].
  - exact I.
Qed.
Lemma atom_serves n r u (P Q : conv -> Prop) : ready c q r -> S n <= level u -> (forall u', n <= level u' -> Q u') ->
  serves c q false true r P Q (on_atom_value r u).
Proof.
  intros HR Hl HQ. unfold on_atom_value. destruct (runs_write_comma (S n) u Hl) as (u1 & v & E & H). rewrite E. cbn [obind]. destruct v as [v|m]; [|exact I]. clear E Hl u v.
  destruct (method_ready c q _ _ _ _ _ r m_peek ltac:(lia) HR) as (r1 & v & E & HP). rewrite E. cbn [obind]. destruct v as [x|e]; [|exact I].
  destruct HP as (R1 & L1 & _). apply peek_view in E as (l1 & Ev).
  assert (Hweak : forall r2 y, left r2 <= left r -> serves c q false true r2 P Q y -> serves c q false true r P Q y).
  { intros r2 y Hl Hy. eapply serves_weaken; [exact Hl| | |exact Hy]; auto. }
  assert (Hclose : forall f r2 u2, runs f (S n) (S n) -> S n <= level u2 -> ready c q r2 -> left r2 <= left r ->
    serves c q false true r P Q (act_of (f ;; close_atom) ValueIsConsumed r2 u2)).
  { intros f r2 u2 Hf Hl HR2 Hl2. apply (Hweak r2 _ Hl2). apply act_serves with (S n) n; auto; [|discriminate].
    eapply runs_then; [exact Hf|apply close_atom_runs]. }
  destruct (N.eqb x QUOTE).
  { unfold on_string_value.
    assert (Ho : runs (indent ;; put (bs """S"":""") "writing S type opening") (S n) (S n)) by runs_through.
    destruct (Ho u1 H) as (u2 & v & E2 & H2). rewrite E2. cbn [obind]. destruct v as [v|m]; [|exact I].
    destruct (long_ready c q r1 (cout u2) Hc R1) as (r2 & w2 & v2 & E3 & P3). rewrite E3. cbn [obind]. destruct v2 as [v2|e]; [|exact I]. destruct P3 as (R2 & L2).
    apply (Hclose (put [QUOTE] "writing S type closing quote")); [apply runs_put|exact H2|exact R2|lia]. }
  destruct (N.eqb x PeekTrue || N.eqb x PeekFalse)%bool eqn:Eb.
  { unfold on_bool_value. destruct (method_ready c q _ _ _ _ _ r1 m_peek ltac:(lia) R1) as (r2 & v & E2 & HP2). rewrite E2. cbn [obind]. destruct v as [y|e]; [|exact I].
    destruct HP2 as (R2 & L2 & _). apply peek_view in E2 as (l2 & Ev2).
    destruct (runs_indent (S n) u1 H) as (u2 & v & E3 & H3). rewrite E3. cbn [obind]. destruct v as [v|m]; [|exact I].
    assert (Hbool : is_ascii_whitespace y = false -> exists r3 w, known_bool y r2 = Done (r3, w) /\ ready c q r3 /\ left r3 <= left r2).
    { intros Hy. destruct (method_ready c q _ _ _ _ _ r2 (m_known_bool y) ltac:(lia) R2) as (r3 & w & E4 & HP4). exists r3, w. split; [exact E4|].
      destruct w as [w|e]; [split; apply HP4|]. eapply (method_failed c q _ _ _ _ _ r2 r3 e (m_known_bool y)); [apply inert_reined, known_bool_inert|lia|exact R2|exact E4|].
      right. right. split; [reflexivity|]. unfold poised. rewrite Ev2. exact Hy. }
    destruct (N.eqb_spec y PeekTrue) as [->|_]; [|destruct (N.eqb_spec y PeekFalse) as [->|_]; [|exact I]];
      (destruct Hbool as (r3 & w & E4 & R3 & L3); [reflexivity|]; rewrite E4; cbn [obind]; apply Hclose; [apply runs_put|exact H3|exact R3|lia]). }
  destruct (N.eqb x PeekNull).
  { unfold on_null_value. destruct (method_ready c q _ _ _ _ _ r1 m_peek ltac:(lia) R1) as (r2 & v & E2 & HP2). rewrite E2. cbn [obind]. destruct v as [y|e]; [|exact I].
    destruct HP2 as (R2 & L2 & _). apply peek_view in E2 as (l2 & Ev2). destruct (N.eqb_spec y PeekNull) as [->|_]; [|exact I].
    destruct (method_ready c q _ _ _ _ _ r2 m_known_null ltac:(lia) R2) as (r3 & w & E4 & HP4). rewrite E4. cbn [obind].
    assert (R3 : ready c q r3 /\ left r3 <= left r2).
    { destruct w as [w|e]; [split; apply HP4|]. eapply (method_failed c q _ _ _ _ _ r2 r3 e m_known_null); [apply inert_reined, ident_inert|lia|exact R2|exact E4|].
      right. right. split; [reflexivity|]. unfold poised. rewrite Ev2. reflexivity. }
    apply (Hweak r3); [lia|]. apply act_serves with (S n) n; [|exact H|apply R3|discriminate|auto].
    runs_through. }
  destruct (method_ready c q _ _ _ _ _ r1 m_next_number_bytes ltac:(lia) R1) as (r2 & v & E2 & HP2). rewrite E2. cbn [obind]. destruct v as [number|e]; [|exact I].
  destruct HP2 as (R2 & L2 & _). apply (Hweak r2); [lia|]. apply act_serves with (S n) n; [|exact H|exact R2|discriminate|auto].
  runs_through.
Qed.
Lemma array_begin_runs a : runs array_begin a a.
Proof. unfold array_begin. runs_through. Qed.
Lemma nested_object_runs a : runs nested_object_begin a (S a).
Proof. unfold nested_object_begin. runs_through. Qed.
Lemma element_begin_runs a : runs element_begin a (S a).
Proof. unfold element_begin. runs_through. Qed.
Lemma n2d_cooperative : cooperative c q false true no_halt kept (n2d_callbacks wrapper).
Proof.
  constructor.
  - intros L u H. exact H.
  - intros L u H. exact H.
  - intros name L r u HR Hb. cbn [find_action n2d_callbacks]. unfold n2d_find_action. cbn [names context_for].
    destruct L as [|[x k] L]. { exfalso. destruct name; cbn [before] in Hb; [destruct Hb as ([] & _)..|]. destruct Hb as (k & L' & E & _). discriminate. }
    cbn [path_of map snd]. fold (path_of L).
    assert (HN : forall f op a b, runs f a b -> a <= level u -> forall (P Q : conv -> Prop), (op = OpNone -> forall u', b <= level u' -> P u') ->
      (op = ValueIsConsumed -> forall u', b <= level u' -> Q u') -> serves c q false true r P Q (act_of f op r u)).
    { intros f op a b Hf Ha P Q HP HQ. eapply act_serves; eauto. }
    assert (HA : forall n' (P Q : conv -> Prop) u', (forall u', n' <= level u' -> Q u') -> S n' <= level u' ->
      serves c q false true r P Q (on_atom_value r u')) by (intros n' P Q u' HQ Hl; eapply atom_serves; eauto).
    destruct name; cbn [before] in Hb.
    + (* array *)
      destruct Hb as (Hin & Hl). unfold value_level in Hl. cbn [head_name] in Hl.
      set (S0 := (x, k) :: L) in *.
      assert (HQ : forall b, levels (array_entry :: S0) <= b -> forall u', b <= level u' -> passed kept PArray S0 u').
      { intros b Hb u' Hu. split; [right; exact Hin|lia]. }
      rewrite levels_array in HQ.
      destruct (beq k (bs "#top")).
      * apply (serves_begin c q false true kept PArray S0).
        eapply (HN (put [LBRACE] "writing root array opening brace" ;; newline ;; deeper ;; array_begin)); [unfold array_begin; runs_through|exact Hl|intros _; apply HQ; cbn; lia|discriminate].
      * destruct (beq k (bs "#array")); apply (serves_begin c q false true kept PArray S0).
        -- eapply (HN (element_begin ;; array_begin)); [eapply runs_then; [apply element_begin_runs|apply array_begin_runs]|exact Hl|intros _; apply HQ; cbn; lia|discriminate].
        -- eapply (HN array_begin); [apply array_begin_runs|exact Hl|intros _; apply HQ; cbn; lia|discriminate].
    + (* object *)
      destruct Hb as (Hin & Hl). unfold value_level in Hl. cbn [head_name] in Hl.
      set (S0 := (x, k) :: L) in *.
      assert (HQ : forall b, object_levels S0 + levels S0 <= b -> forall u', b <= level u' -> passed kept PObject S0 u').
      { intros b Hb u' Hu. split; [exact Hin|lia]. }
      unfold object_levels in HQ. unfold S0 in HQ at 1. cbn [head_name] in HQ.
      destruct (beq k (bs "#top")).
      * apply (serves_begin c q false true kept PObject S0). unfold NormalToDdb.on_root_object_begin.
        destruct wrapper.
        -- eapply HN; [runs_through|exact Hl|intros _; apply HQ; cbn; apply le_n|discriminate].
        -- eapply HN; [runs_through|exact Hl|intros _; apply HQ; cbn; apply le_n|discriminate].
      * destruct (beq k (bs "#array")); apply (serves_begin c q false true kept PObject S0).
        -- eapply (HN (element_begin ;; nested_object_begin)); [eapply runs_then; [apply element_begin_runs|apply nested_object_runs]|exact Hl|intros _; apply HQ; cbn; apply le_n|discriminate].
        -- eapply (HN nested_object_begin); [apply nested_object_runs|exact Hl|intros _; apply HQ; cbn; apply le_n|discriminate].
    + (* atom *)
      destruct Hb as (Hin & Hl). unfold value_level in Hl. cbn [head_name] in Hl.
      set (S0 := (x, k) :: L) in *.
      assert (HQ : forall u', levels S0 <= level u' -> kept Between S0 u') by (intros u' Hu; split; [exact Hin|exact Hu]).
      destruct (beq k (bs "#top")).
      * apply (serves_begin c q false true kept PAtom S0). unfold on_root_literal. cbn [plus] in Hl.
        assert (Ho : runs (put [LBRACE] "writing root literal opening brace" ;; deeper) (levels S0) (S (levels S0))) by runs_through.
        destruct (Ho u Hl) as (u1 & v & E & H1). rewrite E. cbn [obind]. destruct v as [v|m]; [|exact I].
        pose proof (HA (levels S0) (fun u' => levels S0 <= level u') (fun u' => levels S0 <= level u') u1 ltac:(auto) H1) as HS.
        destruct (on_atom_value r u1) as [[[r2 u2] op]| |]; cbn [obind]; [|exact HS|exact HS].
        destruct op as [| |m]; cbn [serves] in HS.
        -- destruct HS as (R2 & L2 & H2). eapply serves_weaken; [exact L2|intros u' Hu; exact Hu|intros u' Hu; exact Hu|].
           eapply act_serves with (a := levels S0) (b := levels S0); [|exact H2|exact R2|intros _ u' Hu; apply HQ; exact Hu|discriminate]. runs_through.
        -- destruct HS as (R2 & L2 & _ & H2). eapply serves_weaken; [exact L2|intros u' Hu; exact Hu|intros u' Hu; exact Hu|].
           eapply act_serves with (a := levels S0) (b := levels S0); [|exact H2|exact R2|discriminate|intros _ u' Hu; apply HQ; exact Hu]. runs_through.
        -- unfold act_of. assert (Hn : runs (put [10%N] "writing final newline" ;; comma_is false) 0 0) by runs_through.
           destruct (Hn u2 (Nat.le_0_l _)) as (u3 & v3 & E3 & _). rewrite E3. cbn [obind serves]. destruct v3; exact I.
      * destruct (beq k (bs "#array")); apply (serves_begin c q false true kept PAtom S0).
        -- unfold on_array_element_atom. cbn [plus] in Hl. destruct (element_begin_runs (levels S0) u Hl) as (u1 & v & E & H1). rewrite E. cbn [obind]. destruct v as [v|m]; [|exact I].
           apply (HA (levels S0)); [exact HQ|exact H1].
        -- apply (HA (levels S0)); [exact HQ|exact Hl].
    + (* key *)
      destruct Hb as (k' & L' & E & Hin & Hl). injection E as -> -> ->.
      assert (HQ : forall b, value_level (key_entry k' :: L') + levels (key_entry k' :: L') <= b -> forall u', b <= level u' -> kept Awaiting (key_entry k' :: L') u').
      { intros b Hb u' Hu. split; [right; exact Hin|lia]. }
      rewrite levels_key in HQ. unfold value_level in HQ. cbn [head_name key_entry] in HQ.
      destruct (beq k' (bs "#top")).
      * cbn [passed]. apply (HQ (object_levels L' + levels L')); [cbn; apply le_n|exact Hl].
      * apply (serves_begin c q false true kept PNone (key_entry k' :: L')). unfold NormalToDdb.on_field_key. cbn [field Conv.set_field].
        eapply act_serves with (a := object_levels L' + levels L'); [runs_through|exact Hl|exact HR|intros _; apply HQ; destruct (beq k' (bs "#array")); lia|discriminate].
  - intros r r' v [].
  - intros r r' v [].
  - intros k L u (Hin & Hl). cbn [find_end_action n2d_callbacks]. unfold n2d_find_end_action. cbn [names context_for path_of map snd key_entry].
    assert (H : kept Inside L u). { destruct Hin as [E|Hin]; [discriminate|]. split; [exact Hin|exact Hl]. }
    destruct (beq k (bs "#top")); exact H.
  - intros L u (Hin & Hl). cbn [find_end_action n2d_callbacks]. unfold n2d_find_end_action. cbn [names context_for].
    destruct L as [|[x k] L]; [destruct Hin|]. cbn [path_of map snd]. unfold object_levels in Hl. cbn [head_name] in Hl.
    set (S0 := (x, k) :: L) in *. unfold acted.
    assert (HE : forall f a, runs f a (levels S0) -> a <= level u -> match f u with Done (u', Ok _) => kept Between S0 u' | Done (_, Err _) => True | Panic => true = false | Diverge => False end).
    { intros f a Hf Ha. destruct (Hf u Ha) as (u1 & v & E & H). rewrite E. destruct v; [split; [exact Hin|exact H]|exact I]. }
    destruct (beq k (bs "#top")).
    + unfold NormalToDdb.on_root_object_end. destruct wrapper; eapply HE; [runs_through|exact Hl|runs_through|exact Hl].
    + unfold on_nested_object_end. eapply HE; [runs_through|exact Hl].
  - intros L u (Hin & Hl). destruct Hin as [E|Hin]; [discriminate|]. rewrite levels_array in Hl.
    cbn [find_end_action n2d_callbacks]. unfold n2d_find_end_action. cbn [names context_for].
    destruct L as [|[x k] L]; [destruct Hin|]. cbn [path_of map snd]. set (S0 := (x, k) :: L) in *. unfold acted.
    assert (HE : forall f a, runs f a (levels S0) -> a <= level u -> match f u with Done (u', Ok _) => kept Between S0 u' | Done (_, Err _) => True | Panic => true = false | Diverge => False end).
    { intros f a Hf Ha. destruct (Hf u Ha) as (u1 & v & E & H). rewrite E. destruct v; [split; [exact Hin|exact H]|exact I]. }
    destruct (beq k (bs "#top")); [unfold on_root_array_end|]; unfold on_array_end; (eapply HE; [|exact Hl]); runs_through.
Qed.
End ToDdb.

(** ** DynamoDB JSON to normal JSON *)
Definition calm {B} (f : step B) : Prop := forall u, f u <> Diverge.
Lemma calm_then {B} (f g : step B) : calm f -> calm g -> calm (f ;; g).
Proof. intros Hf Hg u. unfold and_then. specialize (Hf u). destruct (f u) as [[u1 [v|m]]| |]; cbn [obind]; [apply Hg|discriminate|discriminate|contradiction]. Qed.
Lemma runs_calm f : (forall a, exists b, runs f a b) -> calm f.
Proof. intros H u. destruct (H (level u)) as (b & Hb). destruct (Hb u (le_n _)) as (u' & v & E & _). rewrite E. discriminate. Qed.
Lemma calm_shallower : calm shallower.
Proof. intros u. unfold shallower. destruct (level u); discriminate. Qed.
Lemma calm_on_base f : calm f -> calm (on_base f).
Proof. intros H u. unfold on_base. specialize (H (base u)). destruct (f (base u)) as [[b v]| |]; cbn [obind]; [discriminate|discriminate|contradiction]. Qed.
Lemma calm_change {B} (f : B -> B) : calm (change_to f).
Proof. intros u. discriminate. Qed.
Lemma calm_put d m : calm (put d m).
Proof. apply runs_calm. intros a. exists a. apply runs_put. Qed.
Lemma calm_newline : calm newline.
Proof. apply runs_calm. intros a. exists a. apply runs_newline. Qed.
Lemma calm_indent : calm indent.
Proof. apply runs_calm. intros a. exists a. apply runs_indent. Qed.
Lemma calm_write_comma : calm write_comma.
Proof. apply runs_calm. intros a. exists a. apply runs_write_comma. Qed.
Lemma calm_skip {B} : calm (@skip B).
Proof. intros u. discriminate. Qed.
Ltac calms := repeat first
  [ apply calm_put | apply calm_newline | apply calm_change | apply calm_shallower | apply calm_indent | apply calm_write_comma
  | apply calm_skip | apply calm_on_base | eapply calm_then ].

Section ToNormal.
Context (mode : wrapper_mode) (c : nat) (q : bool) (Hc : 8 <= c).
Notation any := (fun _ : d2n => True).
Lemma calm_serves f r u : calm f -> ready c q r -> serves c q true false r any any (act_of f OpNone r u).
Proof.
  intros Hf HR. unfold act_of. specialize (Hf u). destruct (f u) as [[u1 [v|m]]| |]; cbn [obind serves]; [auto|exact I|reflexivity|contradiction].
Qed.
Lemma calm_consumes f r r1 u : calm f -> ready c q r1 -> left r1 < left r -> serves c q true false r any any (act_of f ValueIsConsumed r1 u).
Proof.
  intros Hf HR Hl. unfold act_of. specialize (Hf u). destruct (f u) as [[u1 [v|m]]| |]; cbn [obind serves]; [|exact I|reflexivity|contradiction].
  split; [exact HR|]. split; [lia|]. split; [auto|exact I].
Qed.
Lemma string_serves b m1 m2 r u : ready c q r -> serves c q true false r any any (write_string_value b m1 m2 r u).
Proof.
  intros HR. unfold write_string_value. destruct (method_ready c q _ _ _ _ _ r m_peek ltac:(lia) HR) as (r1 & v & E & HP). rewrite E. cbn [obind].
  destruct v as [x|e]; [|exact I]. destruct HP as (R1 & L1 & _). destruct (negb (N.eqb x QUOTE)); [exact I|].
  assert (Hcalm : calm (on_base (write_comma ;; if b then put [QUOTE] "writing opening quote" else skip))) by (destruct b; calms).
  specialize (Hcalm u). destruct (on_base _ u) as [[u1 [v|m]]| |]; cbn [obind]; [|exact I|reflexivity|contradiction].
  destruct (long_ready c q r1 (cout (base u1)) Hc R1) as (r2 & w2 & v2 & E3 & P3). rewrite E3. cbn [obind]. destruct v2 as [v2|e]; [|exact I]. destruct P3 as (R2 & L2).
  apply calm_consumes; [destruct b; calms|exact R2|lia].
Qed.
Lemma bool_serves validate m r u : ready c q r -> serves c q true false r any any (handle_bool_based_type validate m r u).
Proof.
  intros HR. unfold handle_bool_based_type. destruct (method_ready c q _ _ _ _ _ r m_peek ltac:(lia) HR) as (r1 & v & E & HP). rewrite E. cbn [obind].
  destruct v as [x|e]; [|exact I]. destruct HP as (R1 & L1 & _). destruct (validate x) as [o|e]; [|exact I].
  assert (Hcalm : calm (on_base write_comma)) by calms.
  specialize (Hcalm u). destruct (on_base _ u) as [[u1 [v|e]]| |]; cbn [obind]; [|exact I|reflexivity|contradiction].
  destruct (method_ready c q _ _ _ _ _ r1 (m_known_bool x) ltac:(lia) R1) as (r2 & v2 & E2 & P2). rewrite E2. cbn [obind]. destruct v2 as [v2|e]; [|exact I].
  destruct P2 as (R2 & L2 & L3). specialize (L3 (known_bool_advancing x)). apply calm_consumes; [calms|exact R2|lia].
Qed.
Lemma finally_serves f a r u : serves c q true false r any any (a r u) -> serves c q true false r any any (finally f a r u).
Proof. unfold finally. destruct (a r u) as [[[r1 u1] [| |m]]| |]; cbn [obind serves]; auto. Qed.
Lemma type_key_serves r u : ready c q r -> serves c q true false r any any (on_type_key r u).
Proof.
  intros HR. unfold on_type_key. destruct (field (base u)) as [key|]; [|exact I].
  destruct (beq key (bs "S") || beq key (bs "B"))%bool; [apply finally_serves, string_serves, HR|].
  destruct (beq key (bs "N")); [apply finally_serves, string_serves, HR|].
  destruct (beq key (bs "BOOL")); [apply finally_serves, bool_serves, HR|].
  destruct (beq key (bs "NULL")); [apply finally_serves, bool_serves, HR|].
  destruct (beq key (bs "SS") || beq key (bs "BS"))%bool; [apply calm_serves; [calms|exact HR]|].
  destruct (beq key (bs "NS")); [apply calm_serves; [calms|exact HR]|].
  destruct (beq key (bs "L")); [apply calm_serves; [calms|exact HR]|].
  destruct (beq key (bs "M")); [apply calm_serves; [unfold deeper; calms|exact HR]|]. exact I.
Qed.
Lemma field_key_serves r u : ready c q r -> serves c q true false r any any (on_field_key r u).
Proof. intros HR. unfold on_field_key. destruct (field (base u)) as [key|]; [|exact I]. apply calm_serves; [calms|exact HR]. Qed.
Lemma calm_acted f u : calm f -> acted false (Some f) u any.
Proof. intros H. unfold acted. specialize (H u). destruct (f u) as [[u1 [v|m]]| |]; auto. Qed.
Lemma d2n_cooperative : cooperative c q true false no_halt (fun _ _ _ => True) (d2n_callbacks mode).
Proof.
  constructor; try (intros; exact I).
  - intros name L r u HR _.
    assert (Hok : forall x, serves c q true false r any any x -> serves c q true false r (passed (fun _ _ (_ : d2n) => True) name L) any x).
    { intros x Hx. eapply serves_weaken; [apply le_n| |auto|exact Hx]. intros u' _. destruct name; exact I. }
    assert (HNone : forall u', passed (fun _ _ (_ : d2n) => True) name L u') by (intros u'; destruct name; exact I).
    assert (Hdo : forall (act : action d2n) u1, (forall u', serves c q true false r any any (act r u')) ->
      match act r u1 with
      | Done (r', u', OpNone) => ready c q r' /\ left r' <= left r /\ passed (fun _ _ (_ : d2n) => True) name L u'
      | Done (r', u', ValueIsConsumed) => ready c q r' /\ left r' <= left r /\ (true = true -> name <> PNone -> left r' < left r \/ (name = PAtom /\ no_halt r')) /\ True
      | Done (_, _, OpError _) => True | Panic => false = false | Diverge => False end).
    { intros act u1 H. apply (serves_begin c q true false (fun _ _ _ => True) name L). apply Hok, H. }
    assert (Herr : forall u', serves c q true false r any any (on_error r u')) by (intros; exact I).
    destruct name; cbn [find_action d2n_callbacks d2n_find_action].
    + unfold find_action_array. destruct (current_type u) as [[| | |]|]; exact I.
    + unfold find_action_object. destruct (level (base u) =? 0).
      * apply Hdo. intros u'. unfold on_root_object_begin. apply calm_serves; [calms|exact HR].
      * destruct (at_phase u); try exact I.
        -- destruct (current_type u) as [[| | |]|]; exact I.
        -- destruct (parent_is _ _); [exact I|exact I].
    + unfold find_action_atom. destruct (at_phase u); try (exact I). destruct (parent_is _ _); [|exact I].
      destruct (current_type u) as [[| | |]|]; try (exact I).
      * apply Hdo. intros u'. apply string_serves, HR.
      * apply Hdo. intros u'. apply string_serves, HR.
    + unfold find_action_key. destruct (names (context_for L)) as [|key path]; [exact I|]. destruct (at_phase u).
      * destruct (_ && _)%bool; [exact I|]. apply (Hdo on_field_key). intros u'. apply field_key_serves, HR.
      * apply (Hdo on_type_key). intros u'. apply type_key_serves, HR.
      * destruct (in_set _); [apply (Hdo on_type_key); intros u'; apply type_key_serves, HR|exact I].
      * apply (Hdo on_field_key). intros u'. apply field_key_serves, HR.
  - intros r r' v [].
  - intros r r' v [].
  - intros k L u _. cbn [find_end_action d2n_callbacks d2n_find_end_action]. unfold find_end_action_key.
    destruct (names _) as [|key path]; [exact I|].
    assert (Hm : calm on_map_end) by (unfold on_map_end, phase_is, type_is; calms).
    destruct (at_phase u).
    + destruct (_ && _)%bool; [exact I|]. apply calm_acted. destruct (parent_is _ _); [|exact Hm]. unfold on_map_end_in_array, phase_is. apply calm_then; [exact Hm|calms].
    + destruct (is_container key); [exact I|]. apply calm_acted. apply calm_change.
    + apply calm_acted. destruct (parent_is _ _); apply calm_change.
    + apply calm_acted. destruct (parent_is _ _); apply calm_change.
  - intros L u _. cbn [find_end_action d2n_callbacks d2n_find_end_action]. destruct (_ =? 1); [|exact I]. apply calm_acted. unfold on_root_object_end, phase_is. calms.
  - intros L u _. cbn [find_end_action d2n_callbacks d2n_find_end_action]. destruct (at_phase u) eqn:Ep; try exact I.
    + apply calm_acted. intros u'. unfold on_list_end. destruct (at_phase u'); try discriminate.
      assert (Hl : calm (on_base (put [RBRACK] "writing L closing bracket" ;; comma_is true) ;; phase_is ExpectingValue ;; type_is None)) by (unfold phase_is, type_is; calms).
      apply Hl.
    + apply calm_acted. unfold on_set_end, phase_is, type_is. calms.
Qed.
End ToNormal.

(** ** The entry points *)
Lemma new_rest rd rb : rest (rj_new rd rb) = src rd.
Proof. reflexivity. Qed.
Lemma new_ready rd rb : ready (len rb) false (rj_new rd rb).
Proof. split; [apply valid_new|]. split; [reflexivity|discriminate]. Qed.
Lemma convert_goes {B} strict steady K (cb : callbacks B) of_base slots fuel rd rb xb u : cooperative (len rb) false strict steady no_halt K cb ->
  8 <= len rb -> (slots * 4 + 1 < usize_modulus)%N -> K Between [top_entry] u ->
  match convert cb of_base slots fuel rd rb xb u with
  | Done _ => True
  | Panic => steady = false
  | Diverge => strict = true -> fuel <= 2 * len (src rd) + 1
  end.
Proof.
  intros Hco H8 Hs Hk. unfold convert. destruct (proj1 (proj2 (new_exact true xb slots Hs))) as (p & E). rewrite E. cbn [obind].
  destruct p as [p|e]; [|exact I].
  pose proof (scan_goes (len rb) false strict steady K cb (mkOptions [] false) _ fuel (mkS (rj_new rd rb) u p) []
    Hco H8 (Forall_nil _) (or_introl eq_refl) (new_ready rd rb) (stack_new _ _ _ _ E Hs) Hk) as H.
  destruct (scan _ _ _ _) as [[s v]| |]; cbn [concludes] in H; cbn [obind]; auto.
Qed.
Lemma n2d_no_panic fuel rd w rb xb is_pretty wrapper : 8 <= len rb -> convert_normal_to_ddb fuel rd w rb xb is_pretty wrapper <> Panic.
Proof.
  intros H8. unfold convert_normal_to_ddb.
  pose proof (convert_goes false true (kept wrapper) (n2d_callbacks wrapper) (fun c => c) 34 fuel rd rb xb (conv_new w is_pretty)
    (n2d_cooperative wrapper (len rb) false H8) H8) as H.
  specialize (H ltac:(reflexivity) ltac:(split; [left; reflexivity|cbn; lia])). destruct (convert _ _ _ _ _ _ _ _) as [[u v]| |]; discriminate.
Qed.
Lemma d2n_ends fuel rd w rb xb is_pretty mode : 8 <= len rb -> 2 * len (src rd) + 2 <= fuel -> convert_ddb_to_normal fuel rd w rb xb is_pretty mode <> Diverge.
Proof.
  intros H8 Hf. unfold convert_ddb_to_normal.
  pose proof (convert_goes true false (fun _ _ _ => True) (d2n_callbacks mode) base 68 fuel rd rb xb (d2n_new w is_pretty)
    (d2n_cooperative mode (len rb) false H8) H8) as H.
  specialize (H ltac:(reflexivity) I). destruct (convert _ _ _ _ _ _ _ _) as [[u v]| |]; cbn [obind]; try discriminate. specialize (H eq_refl). lia.
Qed.
