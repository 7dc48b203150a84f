(** Two readers that give the same up to a point, where one of them reports an error: what idtransform and
    convert_ddb_to_normal have written. *)
From Verif Require Import Base U8Pool Buffer Jiter RJiter Scan ScanSpec IdTransform Conv DdbToNormal CutSpec Severed SeveredScan.

Section Both.
Context (e : io_kind) (q q' : list event).

(** ** idtransform *)
Definition idt_le (a b : idt) : Prop := longer (out a) (out b).
Lemma idt_le_same u : idt_le u u. Proof. apply longer_same. Qed.
Lemma idt_le_trans u v w : idt_le u v -> idt_le v w -> idt_le u w. Proof. apply longer_trans. Qed.
Lemma grow_put_all parts : forall t t' r, put_all t parts = (t', r) -> idt_le t t'.
Proof.
  induction parts as [|[d m] parts IH]; intros t t' r H; cbn [put_all] in H.
  - injection H as <- <-. apply idt_le_same.
  - destruct (write_all (out t) d) as [w [[]|k]] eqn:E.
    + apply (idt_le_trans _ (set_out t w)); [exact (longer_write _ _ _ _ E)|exact (IH _ _ _ H)].
    + injection H as <- <-. exact (longer_write _ _ _ _ E).
Qed.
Lemma grow_seqpos t t' r : write_seqpos t = (t', r) -> idt_le t t'.
Proof.
  unfold write_seqpos.
  assert (G : forall l, (match put_all t l with (t, Ok tt) => (set_seq t InMiddle, Ok tt) | (t, Err m) => (t, Err m) end) = (t', r) -> idt_le t t').
  { intros l. destruct (put_all t l) as [t1 [[]|m]] eqn:E; intros H; injection H as <- <-; exact (grow_put_all _ _ _ _ E). }
  destruct (seq t); try apply G; intros H; injection H as <- <-; apply longer_same.
Qed.
Lemma grow_copy_atom p r w r' w' v : copy_atom p r w = Done (r', w', v) -> longer w w'.
Proof.
  unfold copy_atom. cbv zeta.
  assert (P : forall (r : rj) w d (k : writer -> outcome (rj * writer * result unit scan_error)),
    (forall w1, k w1 = Done (r', w', v) -> longer w1 w') ->
    (match write_all w d with (w', Ok _) => k w' | (w', Err e) => Done (r, w', Err (IOError e)) end) = Done (r', w', v) -> longer w w').
  { intros r1 w1 d k K. destruct (write_all w1 d) as [w2 [x|x]] eqn:E; intros H.
    - exact (longer_trans _ _ _ (longer_write _ _ _ _ E) (K _ H)).
    - injection H as <- <- <-. exact (longer_write _ _ _ _ E). }
  assert (L : forall X (op : rj -> outcome (rj * result X rerror)) d,
    (do (r', v) <- op r;
     match v with
     | Ok _ => (match write_all w d with (w', Ok _) => Done (r', w', Ok tt) | (w', Err e) => Done (r', w', Err (IOError e)) end)
     | Err e => Done (r', w, Err (RJiterError e))
     end) = Done (r', w', v) -> longer w w').
  { intros X op d. destruct (op r) as [[r1 [x|x]]| |]; cbn [obind]; try discriminate.
    - apply (P r1 w d (fun w' => Done (r1, w', Ok tt))). intros w1 H. injection H as <- <- <-. apply longer_same.
    - intros H. injection H as <- <- <-. apply longer_same. }
  destruct (N.eqb p QUOTE).
  { apply (P r w [QUOTE]). intros w1. destruct (write_long_bytes r w1) as [[[r2 w2] [x|x]]| |] eqn:E; cbn [obind]; try discriminate.
    - intros H. unfold write_long_bytes in E. apply longer_handle in E.
      apply (longer_trans _ _ _ E). revert H. apply (P r2 w2 [QUOTE]). intros w3 H. injection H as <- <- <-. apply longer_same.
    - intros H. unfold write_long_bytes in E. apply longer_handle in E. injection H as <- <- <-. exact E. }
  destruct (N.eqb p PeekNull); [apply L|]. destruct (N.eqb p PeekTrue); [apply L|]. destruct (N.eqb p PeekFalse); [apply L|].
  destruct (next_number_bytes r) as [[r1 [x|x]]| |]; cbn [obind]; try discriminate.
  - apply (P r1 w x). intros w1 H. injection H as <- <- <-. apply longer_same.
  - intros H. injection H as <- <- <-. apply longer_same.
Qed.
Lemma cut_copy_atom p r1 r2 w : close e q q' r1 r2 ->
  match copy_atom p r1 w with
  | Done (t1, w1, v) => (exists t2, copy_atom p r2 w = Done (t2, w1, v) /\ close e q q' t1 t2) \/
                        ((exists er, v = Err er) /\ forall t2 w2 v2, copy_atom p r2 w = Done (t2, w2, v2) -> longer w1 w2)
  | _ => True
  end.
Proof.
  intros H. pose proof (grow_copy_atom p r2) as K. unfold copy_atom in *. cbv zeta in *.
  assert (L : forall X (op : rj -> outcome (rj * result X rerror)) d,
    (forall r1 r2, close e q q' r1 r2 -> rcut e q q' (op r1) (op r2)) ->
    let x r := (do (r', v) <- op r;
     match v with
     | Ok _ => (match write_all w d with (w', Ok _) => Done (r', w', Ok tt) | (w', Err e) => Done (r', w', Err (IOError e)) end)
     | Err e => Done (r', w, Err (RJiterError e))
     end) in
    match x r1 with
    | Done (t1, w1, v) => (exists t2, x r2 = Done (t2, w1, v) /\ close e q q' t1 t2) \/
                          ((exists er, v = Err er) /\ forall t2 w2 v2, x r2 = Done (t2, w2, v2) -> longer w1 w2)
    | _ => True
    end).
  { clear K. intros X op d F x. unfold x. specialize (F r1 r2 H).
    destruct (op r1) as [[t1 v]| |]; cbn [obind]; [|exact Logic.I|exact Logic.I]. cbn [rcut] in F.
    destruct F as [(t2 & -> & Ht)|(er & k & -> & Et)]; cbn [obind].
    - destruct v as [v|v]; [destruct (write_all w d) as [w1 [y|y]]|]; left; eauto.
    - right. split; [eauto|]. intros t2 w2 v2. destruct (op r2) as [[u2 [y|y]]| |]; cbn [obind]; try discriminate.
      + destruct (write_all w d) as [w3 [z|z]] eqn:E; intros G; injection G as <- <- <-; exact (longer_write _ _ _ _ E).
      + intros G. injection G as <- <- <-. apply longer_same. }
  destruct (N.eqb p QUOTE).
  { destruct (write_all w [QUOTE]) as [w0 [x|x]] eqn:E0; [|left; eauto].
    pose proof (cut_long e q q' _ _ w0 H) as G.
    destruct (write_long_bytes r1 w0) as [[[t1 w1] v]| |]; cbn [obind]; [|exact Logic.I|exact Logic.I]. cbn [wcut] in G.
    destruct G as [(t2 & -> & Ht)|[(er & k & -> & Et) G]]; cbn [obind].
    - destruct v as [v|v]; [destruct (write_all w1 [QUOTE]) as [w2 [y|y]]|]; left; eauto.
    - right. split; [eauto|]. intros t2 w2 v2.
      destruct (write_long_bytes r2 w0) as [[[u2 w3] [y|y]]| |]; cbn [obind]; try discriminate.
      + pose proof (G _ _ _ eq_refl) as G1. destruct (write_all w3 [QUOTE]) as [w4 [z|z]] eqn:E4; intros A; injection A as <- <- <-;
          exact (longer_trans _ _ _ G1 (longer_write _ _ _ _ E4)).
      + pose proof (G _ _ _ eq_refl) as G1. intros A. injection A as <- <- <-. exact G1. }
  destruct (N.eqb p PeekNull); [apply L; intros; apply cut_loop; assumption|].
  destruct (N.eqb p PeekTrue); [apply L; intros; apply cut_loop; assumption|].
  destruct (N.eqb p PeekFalse); [apply L; intros; apply cut_loop; assumption|].
  pose proof (cut_loop e q q' j_next_number_bytes None true r1 r2 H) as G.
  change (loop_until_success j_next_number_bytes None true) with next_number_bytes in G.
  destruct (next_number_bytes r1) as [[t1 v]| |]; cbn [obind]; [|exact Logic.I|exact Logic.I]. cbn [rcut] in G.
  destruct G as [(t2 & -> & Ht)|(er & k & -> & Et)]; cbn [obind].
  - destruct v as [v|v]; [destruct (write_all w v) as [w2 [y|y]]|rewrite (close_index _ _ _ _ _ Ht)]; left; eauto.
  - right. split; [eauto|]. intros t2 w2 v2. apply K.
Qed.

Notation igood := (good_action e q q' idt_le).
Lemma on_key_good : igood on_key.
Proof.
  split.
  - intros r u. unfold on_key. destruct (write_seqpos u) as [t [x|m]] eqn:E; exact (grow_seqpos _ _ _ E).
  - intros r1 r2 u H. unfold on_key. destruct (write_seqpos u) as [t [x|m]]; left; eauto.
Qed.
Lemma on_struct_good d : igood (on_struct d).
Proof.
  split.
  - intros r u. unfold on_struct. destruct (write_seqpos u) as [t [x|m]] eqn:E; [|exact (grow_seqpos _ _ _ E)].
    destruct (put_all t _) as [t1 [y|m]] eqn:E1; exact (idt_le_trans _ _ _ (grow_seqpos _ _ _ E) (grow_put_all _ _ _ _ E1)).
  - intros r1 r2 u H. unfold on_struct. destruct (write_seqpos u) as [t [x|m]]; [destruct (put_all t _) as [t1 [y|m]]|]; left; eauto.
Qed.
Lemma on_atom_grows r u : grows_by idt_le u (on_atom r u).
Proof.
  unfold on_atom. destruct (write_seqpos u) as [t [x|m]] eqn:E; [|exact (grow_seqpos _ _ _ E)].
  destruct (peek r) as [[r1 [y|y]]| |]; cbn [obind]; [| |exact Logic.I|exact Logic.I].
  - destruct (copy_atom y r1 (out t)) as [[[r2 w] [z|z]]| |] eqn:E1; cbn [obind]; [| |exact Logic.I|exact Logic.I];
      apply grow_copy_atom in E1; apply (idt_le_trans _ _ _ (grow_seqpos _ _ _ E)); [exact E1|].
    destruct z as [z| | | | | |]; try exact E1. destruct (err_type z); exact E1.
  - apply (idt_le_trans _ _ _ (grow_seqpos _ _ _ E)). destruct (err_type y); apply longer_same.
Qed.
Lemma on_atom_good : igood on_atom.
Proof.
  split; [exact on_atom_grows|]. intros r1 r2 u H. pose proof (on_atom_grows r2 u) as K. unfold on_atom in *.
  destruct (write_seqpos u) as [t [x|m]] eqn:E; [|left; eauto].
  pose proof (cut_loop e q q' j_peek None false r1 r2 H) as G. change (loop_until_success j_peek None false) with peek in G.
  destruct (peek r1) as [[t1 v]| |]; cbn [obind]; [|exact Logic.I|exact Logic.I]. cbn [rcut] in G.
  destruct G as [(t2 & -> & Ht)|(er & k & -> & Et)]; cbn [obind].
  - destruct v as [y|y]; [|left; eauto].
    pose proof (cut_copy_atom y _ _ (out t) Ht) as F. clear K.
    destruct (copy_atom y t1 (out t)) as [[[u1 w] v]| |]; cbn [obind]; [|exact Logic.I|exact Logic.I].
    destruct F as [(u2 & -> & Hu)|[[er ->] F]]; cbn [obind].
    + destruct v; left; eauto.
    + right. split; [eauto|]. intros v2 t3 o2. destruct (copy_atom y t2 (out t)) as [[[u2 w2] [z|z]]| |]; cbn [obind]; try discriminate;
        specialize (F _ _ _ eq_refl); intros A; injection A as <- <- <-.
      * destruct er as [er| | | | | |]; try exact F. destruct (err_type er); exact F.
      * destruct z as [z| | | | | |]; try (destruct (err_type z)); destruct er as [er| | | | | |]; try exact F; destruct (err_type er); exact F.
  - right. split; [eauto|]. clear K. intros v2 t3 o2.
    assert (L : longer (out t) (out t3) -> idt_le (IdTransform.set_rj match err_type er with IoError k => set_io t k | _ => t end er) t3).
    { intros L. destruct (err_type er); exact L. }
    destruct (peek r2) as [[u2 [y|y]]| |]; cbn [obind]; try discriminate.
    + destruct (copy_atom y u2 (out t)) as [[[u3 w2] [z|z]]| |] eqn:E1; cbn [obind]; try discriminate; apply grow_copy_atom in E1;
        intros A; injection A as <- <- <-; apply L; [exact E1|].
      destruct z as [z| | | | | |]; try exact E1. destruct (err_type z); exact E1.
    + intros A. injection A as <- <- <-. apply L. destruct (err_type y); apply longer_same.
Qed.
Lemma idt_good : good_callbacks e q q' idt_le idt_callbacks.
Proof.
  split.
  - intros n c u u' a. cbn [find_action idt_callbacks]. unfold idt_find_action. cbv zeta. destruct n; intros H.
    + injection H as <- <-. split; [apply longer_same|apply on_struct_good].
    + injection H as <- <-. split; [apply longer_same|apply on_struct_good].
    + injection H as <- <-. split; [apply longer_same|apply on_atom_good].
    + destruct (names c) as [|key l]; [injection H as <- <-; split; [apply longer_same|exact Logic.I]|].
      destruct (_ && _); injection H as <- <-; (split; [apply longer_same|]); [apply on_key_good|exact Logic.I].
  - intros n c u u' a. cbn [find_end_action idt_callbacks]. unfold idt_find_end_action. intros H. injection H as <- <-.
    split; [apply longer_same|]. destruct n; try exact Logic.I;
      intros v v' r E; unfold on_struct_end in E; inversion E as [E']; exact (grow_put_all [(_, _)] (set_seq v InMiddle) _ _ E').
Qed.

(** ** convert_ddb_to_normal *)
Definition conv_le (a b : conv) : Prop := longer (cout a) (cout b).
Definition d2n_le (a b : d2n) : Prop := conv_le (DdbToNormal.base a) (DdbToNormal.base b).
Definition gstep {X} (le : X -> X -> Prop) (f : step X) : Prop := forall c c' v, f c = Done (c', v) -> le c c'.
Lemma g_then {X} (le : X -> X -> Prop) (f g : step X) : (forall u v w, le u v -> le v w -> le u w) -> gstep le f -> gstep le g -> gstep le (f ;; g).
Proof.
  intros T F G c c' v. unfold and_then. destruct (f c) as [[c1 [x|x]]| |] eqn:E; cbn [obind]; try discriminate.
  - intros H. exact (T _ _ _ (F _ _ _ E) (G _ _ _ H)).
  - intros H. injection H as <- <-. exact (F _ _ _ E).
Qed.
Lemma g_change {X} (le : X -> X -> Prop) f : (forall c, le c (f c)) -> gstep le (change_to f).
Proof. intros F c c' v H. injection H as <- <-. apply F. Qed.
Lemma g_cthen (f g : step conv) : gstep conv_le f -> gstep conv_le g -> gstep conv_le (f ;; g).
Proof. apply g_then. intros u v w. apply longer_trans. Qed.
Lemma g_dthen (f g : step d2n) : gstep d2n_le f -> gstep d2n_le g -> gstep d2n_le (f ;; g).
Proof. apply g_then. intros u v w. apply longer_trans. Qed.
Lemma g_put d m : gstep conv_le (put d m).
Proof.
  intros c c' v. unfold put. destruct (write_all (cout c) d) as [w [x|x]] eqn:E; intros H; injection H as <- <-; exact (longer_write _ _ _ _ E).
Qed.
Lemma g_skip : gstep conv_le skip. Proof. intros c c' v H. injection H as <- <-. apply longer_same. Qed.
Lemma g_newline : gstep conv_le newline.
Proof. intros c c' v. unfold newline. destruct (pretty c); [apply g_put|apply g_skip]. Qed.
Lemma g_comma_is b : gstep conv_le (comma_is b). Proof. apply g_change. intros c. apply longer_same. Qed.
Lemma g_comma : gstep conv_le write_comma.
Proof.
  intros c c' v. unfold write_comma. destruct (Conv.pending c); [|apply g_skip].
  apply g_cthen; [apply g_put|]. apply g_cthen; [apply g_newline|]. apply g_change. intros x. apply longer_same.
Qed.
Lemma g_indents n : gstep conv_le (indents n).
Proof. induction n as [|n IH]; [apply g_skip|]. apply g_cthen; [apply g_put|exact IH]. Qed.
Lemma g_indent : gstep conv_le indent.
Proof. intros c c' v. unfold indent. destruct (pretty c); [apply g_indents|apply g_skip]. Qed.
Lemma g_deeper : gstep conv_le deeper. Proof. apply g_change. intros c. apply longer_same. Qed.
Lemma g_shallower : gstep conv_le shallower.
Proof. intros c c' v. unfold shallower. destruct (level c); intros H; [discriminate|]. injection H as <- <-. apply longer_same. Qed.
Lemma g_base f : gstep conv_le f -> gstep d2n_le (on_base f).
Proof. intros F c c' v. unfold on_base. destruct (f (DdbToNormal.base c)) as [[b x]| |] eqn:E; cbn [obind]; try discriminate. intros H. injection H as <- <-. exact (F _ _ _ E). Qed.
Lemma g_phase p : gstep d2n_le (phase_is p). Proof. apply g_change. intros c. apply longer_same. Qed.
Lemma g_type p : gstep d2n_le (type_is p). Proof. apply g_change. intros c. apply longer_same. Qed.
Lemma g_if (b : bool) f g : gstep conv_le f -> gstep conv_le g -> gstep conv_le (if b then f else g).
Proof. destruct b; auto. Qed.
Ltac grow := repeat first [apply g_cthen | apply g_dthen | apply g_put | apply g_newline | apply g_comma_is | apply g_comma | apply g_indent |
  apply g_deeper | apply g_shallower | apply g_base | apply g_phase | apply g_type | apply g_if | apply g_skip | (apply g_change; intros; apply longer_same)].

Notation dgood := (good_action e q q' d2n_le).
Lemma act_good f op : gstep d2n_le f -> dgood (act_of f op).
Proof.
  intros F. split.
  - intros r u. unfold act_of. destruct (f u) as [[c v]| |] eqn:E; cbn [obind grows_by]; auto. exact (F _ _ _ E).
  - intros r1 r2 u H. unfold act_of. destruct (f u) as [[c v]| |]; cbn [obind]; [left; eauto|exact Logic.I|exact Logic.I].
Qed.
Lemma finally_good f a : (forall c, DdbToNormal.base (f c) = DdbToNormal.base c) -> dgood a -> dgood (finally f a).
Proof.
  intros F [G A]. split.
  - intros r u. unfold finally. specialize (G r u). destruct (a r u) as [[[r1 c] op]| |]; cbn [obind grows_by] in *; auto.
    unfold d2n_le in *. rewrite F. exact G.
  - intros r1 r2 u H. specialize (A r1 r2 u H). unfold finally.
    destruct (a r1 u) as [[[t1 c] op]| |]; cbn [obind acut] in *; auto.
    destruct A as [(t2 & -> & Ht)|[M A]]; cbn [obind]; [left; eauto|]. right. split; [exact M|].
    intros t2 c2 o2. destruct (a r2 u) as [[[t3 c3] o3]| |]; cbn [obind]; try discriminate.
    intros E. injection E as <- <- <-. specialize (A _ _ _ eq_refl). unfold d2n_le in *. rewrite !F. exact A.
Qed.
Lemma string_grows b m1 m2 r c : grows_by d2n_le c (write_string_value b m1 m2 r c).
Proof.
  unfold write_string_value. destruct (peek r) as [[r1 [p|er]]| |]; cbn [obind]; [| |exact Logic.I|exact Logic.I]; [|apply longer_same].
  destruct (negb _); [apply longer_same|].
  match goal with |- context [on_base ?f c] => destruct (on_base f c) as [[c1 v]| |] eqn:E; assert (G : gstep d2n_le (on_base f)) by grow end; cbn [obind]; [|exact Logic.I|exact Logic.I].
  apply G in E. clear G. destruct v as [x|m]; [|exact E].
  destruct (write_long_bytes r1 _) as [[[r2 w] v]| |] eqn:E1; cbn [obind]; [|exact Logic.I|exact Logic.I].
  unfold write_long_bytes in E1. apply longer_handle in E1. cbv zeta.
  assert (L : d2n_le c (set_base c1 (set_cout (DdbToNormal.base c1) w))) by exact (longer_trans _ _ _ E E1).
  destruct v as [v|er]; [|exact L].
  match goal with |- grows_by _ _ (act_of ?f ?o ?r ?x) => assert (G : dgood (act_of f o)) by (apply act_good; grow); pose proof (proj1 G r x) as K; destruct (act_of f o r x) as [[[? ?] ?]| |] end;
    [|exact Logic.I|exact Logic.I]. exact (longer_trans _ _ _ L K).
Qed.
Lemma string_good b m1 m2 : dgood (write_string_value b m1 m2).
Proof.
  split; [intros; apply string_grows|]. intros r1 r2 c H. pose proof (string_grows b m1 m2 r2 c) as K. unfold write_string_value in *.
  pose proof (cut_loop e q q' j_peek None false r1 r2 H) as G. change (loop_until_success j_peek None false) with peek in G.
  destruct (peek r1) as [[t1 v]| |]; cbn [obind]; [|exact Logic.I|exact Logic.I]. cbn [rcut] in G.
  destruct G as [(t2 & -> & Ht)|(er & k & -> & Et)]; cbn [obind].
  - clear K. destruct v as [p|er]; [|left; eauto]. destruct (negb _); [left; eauto|].
    match goal with |- context [on_base ?f c] => destruct (on_base f c) as [[c1 v]| |] end; cbn [obind]; [|exact Logic.I|exact Logic.I].
    destruct v as [x|m]; [|left; eauto].
    pose proof (cut_long e q q' _ _ (cout (DdbToNormal.base c1)) Ht) as F.
    destruct (write_long_bytes t1 _) as [[[u1 w] v]| |]; cbn [obind]; [|exact Logic.I|exact Logic.I]. cbn [wcut] in F.
    match goal with |- context [act_of ?f ?o] => assert (A : dgood (act_of f o)) by (apply act_good; grow) end. cbv zeta.
    destruct F as [(u2 & -> & Hu)|[(er & k & -> & Et) F]]; cbn [obind].
    + destruct v as [v|er]; [|left; eauto]. apply (proj2 A). exact Hu.
    + right. split; [eauto|]. intros v2 c2 o2.
      destruct (write_long_bytes t2 _) as [[[u2 w2] [z|z]]| |]; cbn [obind]; try discriminate; specialize (F _ _ _ eq_refl).
      * intros E. pose proof (proj1 A u2 (set_base c1 (set_cout (DdbToNormal.base c1) w2))) as K. rewrite E in K. exact (longer_trans _ _ _ F K).
      * intros E. injection E as <- <- <-. exact F.
  - right. split; [eauto|]. intros t2 c2 o2 E. rewrite E in K. exact K.
Qed.
Lemma bool_grows f m r c : grows_by d2n_le c (handle_bool_based_type f m r c).
Proof.
  unfold handle_bool_based_type. destruct (peek r) as [[r1 [p|er]]| |]; cbn [obind]; [| |exact Logic.I|exact Logic.I]; [|apply longer_same].
  destruct (f p) as [output|x]; [|apply longer_same].
  destruct (on_base write_comma c) as [[c1 v]| |] eqn:E; cbn [obind]; [|exact Logic.I|exact Logic.I].
  assert (G : gstep d2n_le (on_base write_comma)) by grow. apply G in E. clear G.
  destruct v as [x|x]; [|exact E].
  destruct (known_bool p r1) as [[r2 [y|y]]| |]; cbn [obind]; [| |exact Logic.I|exact Logic.I]; [|exact E].
  match goal with |- grows_by _ _ (act_of ?f ?o ?r ?x) => assert (G : dgood (act_of f o)) by (apply act_good; grow); pose proof (proj1 G r x) as K; destruct (act_of f o r x) as [[[? ?] ?]| |] end;
    [|exact Logic.I|exact Logic.I]. exact (longer_trans _ _ _ E K).
Qed.
Lemma bool_good f m : dgood (handle_bool_based_type f m).
Proof.
  split; [intros; apply bool_grows|]. intros r1 r2 c H. pose proof (bool_grows f m r2 c) as K. unfold handle_bool_based_type in *.
  pose proof (cut_loop e q q' j_peek None false r1 r2 H) as G. change (loop_until_success j_peek None false) with peek in G.
  destruct (peek r1) as [[t1 v]| |]; cbn [obind]; [|exact Logic.I|exact Logic.I]. cbn [rcut] in G.
  destruct G as [(t2 & -> & Ht)|(er & k & -> & Et)]; cbn [obind].
  - clear K. destruct v as [p|er]; [|left; eauto]. destruct (f p) as [output|x]; [|left; eauto].
    destruct (on_base write_comma c) as [[c1 v]| |]; cbn [obind]; [|exact Logic.I|exact Logic.I].
    destruct v as [x|x]; [|left; eauto].
    pose proof (cut_loop e q q' (j_known_bool p) None false _ _ Ht) as F. change (loop_until_success (j_known_bool p) None false) with (known_bool p) in F.
    destruct (known_bool p t1) as [[u1 v]| |]; cbn [obind]; [|exact Logic.I|exact Logic.I]. cbn [rcut] in F.
    match goal with |- context [act_of ?f ?o] => assert (A : dgood (act_of f o)) by (apply act_good; grow) end.
    destruct F as [(u2 & -> & Hu)|(er & k & -> & Et)]; cbn [obind].
    + destruct v as [v|er]; [|left; eauto]. apply (proj2 A). exact Hu.
    + right. split; [eauto|]. intros v2 c2 o2. destruct (known_bool p t2) as [[u2 [z|z]]| |]; cbn [obind]; try discriminate.
      * intros E. pose proof (proj1 A u2 c1) as K. rewrite E in K. exact K.
      * intros E. injection E as <- <- <-. apply longer_same.
  - right. split; [eauto|]. intros t2 c2 o2 E. rewrite E in K. exact K.
Qed.
Lemma const_good f op : (forall c, DdbToNormal.base (f c) = DdbToNormal.base c \/ cout (DdbToNormal.base (f c)) = cout (DdbToNormal.base c)) ->
  dgood (fun r c => Done (r, f c, op)).
Proof.
  intros F. split.
  - intros r c. cbn [grows_by]. unfold d2n_le, conv_le. destruct (F c) as [E|E]; rewrite E; apply longer_same.
  - intros r1 r2 c H. left. eauto.
Qed.
Lemma good_same (a b : action d2n) r u : grows_by d2n_le u (a r u) -> a r u = b r u -> grows_by d2n_le u (b r u).
Proof. intros H <-. exact H. Qed.
(** A handler that behaves like a good one in each state. *)
Lemma good_cases (a : action d2n) : (forall c, exists b, dgood b /\ forall r, a r c = b r c) -> dgood a.
Proof.
  intros F. split.
  - intros r u. destruct (F u) as (b & G & E). rewrite E. apply (proj1 G).
  - intros r1 r2 u H. destruct (F u) as (b & G & E). rewrite !E. apply (proj2 G). exact H.
Qed.
Lemma field_key_good : dgood on_field_key.
Proof.
  apply good_cases. intros c. unfold on_field_key. destruct (field (DdbToNormal.base c)) as [name|].
  - eexists. split; [|intros r; reflexivity]. apply act_good. grow.
  - exists (fun r c => Done (r, c, OpError "Internal error: current_field not set (impossible)")). split; [|intros r; reflexivity].
    apply (const_good (fun c => c)). auto.
Qed.
Lemma type_key_good : dgood on_type_key.
Proof.
  apply good_cases. intros c. unfold on_type_key. destruct (field (DdbToNormal.base c)) as [key|];
    [|exists (fun r c => Done (r, c, OpError "current_field should be set for type key")); split; [|intros r; reflexivity]; apply (const_good (fun c => c)); auto].
  destruct (_ || _); [eexists; split; [|intros r; reflexivity]; apply finally_good; [reflexivity|apply string_good]|].
  destruct (beq _ _); [eexists; split; [|intros r; reflexivity]; apply finally_good; [reflexivity|apply string_good]|].
  destruct (beq _ _); [eexists; split; [|intros r; reflexivity]; apply finally_good; [reflexivity|apply bool_good]|].
  destruct (beq _ _); [eexists; split; [|intros r; reflexivity]; apply finally_good; [reflexivity|apply bool_good]|].
  destruct (_ || _); [eexists; split; [|intros r; reflexivity]; apply act_good; grow|].
  destruct (beq _ _); [eexists; split; [|intros r; reflexivity]; apply act_good; grow|].
  destruct (beq _ _); [eexists; split; [|intros r; reflexivity]; apply act_good; grow|].
  destruct (beq _ _); [eexists; split; [|intros r; reflexivity]; apply act_good; grow|].
  exists (fun r c => Done (r, store_parse_error c "Invalid DynamoDB JSON format: unknown type descriptor" (Some key), OpError "Unknown type descriptor")).
  split; [|intros r; reflexivity]. apply (const_good (fun c => store_parse_error c _ (Some key))). intros c1. right. reflexivity.
Qed.
Lemma on_error_good : dgood DdbToNormal.on_error.
Proof. apply (const_good (fun c => c)). auto. Qed.
Lemma root_good : dgood on_root_object_begin. Proof. apply act_good. grow. Qed.
Lemma d2n_good mode : good_callbacks e q q' d2n_le (d2n_callbacks mode).
Proof.
  split.
  - intros n c u u' a. cbn [find_action d2n_callbacks]. unfold d2n_find_action.
    destruct n; [unfold find_action_array|unfold find_action_object|unfold find_action_atom|unfold find_action_key]; cbv zeta; intros H.
    + destruct (current_type u) as [[]|]; injection H as <- <-; (split; [apply longer_same|]); try exact Logic.I; apply on_error_good.
    + destruct (level _ =? 0); [injection H as <- <-; split; [apply longer_same|apply root_good]|].
      destruct (at_phase u); [| |injection H as <- <-; split; [apply longer_same|apply on_error_good]|].
      * injection H as <- <-; split; [apply longer_same|exact Logic.I].
      * destruct (current_type u) as [[]|]; injection H as <- <-; (split; [apply longer_same|]); try exact Logic.I; apply on_error_good.
      * destruct (parent_is _ _); injection H as <- <-; (split; [apply longer_same|]); try exact Logic.I; apply on_error_good.
    + destruct (at_phase u); try (injection H as <- <-; split; [apply longer_same|apply on_error_good]).
      destruct (parent_is _ _); [|injection H as <- <-; split; [apply longer_same|apply on_error_good]].
      destruct (current_type u) as [[]|]; injection H as <- <-; (split; [apply longer_same|]); first [apply on_error_good|apply string_good].
    + destruct (names c) as [|key l]; [injection H as <- <-; split; [apply longer_same|exact Logic.I]|].
      destruct (at_phase u).
      * destruct (_ && _); injection H as <- <-; (split; [apply longer_same|]); [exact Logic.I|apply field_key_good].
      * injection H as <- <-; (split; [apply longer_same|]). apply type_key_good.
      * destruct (in_set _); injection H as <- <-; (split; [apply longer_same|]); [apply type_key_good|apply on_error_good].
      * injection H as <- <-; (split; [apply longer_same|]). apply field_key_good.
  - intros n c u u' a. cbn [find_end_action d2n_callbacks]. unfold d2n_find_end_action. intros H. injection H as <- <-.
    split; [apply longer_same|].
    assert (K1 : good_end d2n_le on_set_end) by (unfold on_set_end; intros x y v; apply (fun H => H : gstep d2n_le _); grow).
    assert (K2 : good_end d2n_le on_map_end) by (unfold on_map_end; intros x y v; apply (fun H => H : gstep d2n_le _); grow).
    assert (K3 : good_end d2n_le on_map_end_in_array) by (unfold on_map_end_in_array, on_map_end; intros x y v; apply (fun H => H : gstep d2n_le _); grow).
    assert (K4 : forall p, good_end d2n_le (phase_is p)) by (intros p x y v; apply (fun H => H : gstep d2n_le _); grow).
    assert (K5 : good_end d2n_le on_root_object_end) by (unfold on_root_object_end; intros x y v; apply (fun H => H : gstep d2n_le _); grow).
    assert (K6 : good_end d2n_le on_list_end).
    { intros x y v. unfold on_list_end. destruct (at_phase x); try (intros H; injection H as <- <-; apply longer_same).
      apply (fun H => H : gstep d2n_le _). grow. }
    destruct n.
    + destruct (at_phase u); auto.
    + destruct (_ =? _); auto.
    + exact Logic.I.
    + unfold find_end_action_key. destruct (names c) as [|key l]; [exact Logic.I|]. destruct (at_phase u).
      * destruct (_ && _); [exact Logic.I|]. destruct (parent_is _ _); auto.
      * destruct (is_container key); [exact Logic.I|]. apply K4.
      * destruct (parent_is _ _); apply K4.
      * destruct (parent_is _ _); apply K4.
Qed.
End Both.

(** ** The calls *)
Lemma close_start e q q' d p cells : close e q q' (rj_new (mkReader d (p ++ Fail e :: q)) cells) (rj_new (mkReader d (p ++ q')) cells).
Proof.
  unfold rj_new, buffer_new. constructor. exact (near_at e q q' (mkBuf cells 0 0 0 0 (mkReader d [])) p).
Qed.
Lemma both_fuels {X} (F G : nat -> X) x y : eventually F x -> eventually G y -> exists n, F n = x /\ G n = y.
Proof. intros [a A] [b C]. exists (a + b). split; [apply A|apply C]; lia. Qed.

Lemma idt_cut d p e q q' cells w pl r1 w1 p1 v1 r2 w2 p2 v2 :
  eventually (fun fuel => idtransform fuel (rj_new (mkReader d (p ++ Fail e :: q)) cells) w pl) (Done (r1, w1, p1, v1)) ->
  eventually (fun fuel => idtransform fuel (rj_new (mkReader d (p ++ q')) cells) w pl) (Done (r2, w2, p2, v2)) ->
  (exists a, written w2 = written w1 ++ a) /\ (v1 = Ok tt -> w2 = w1 /\ v2 = Ok tt).
Proof.
  intros H1 H2. destruct (both_fuels _ _ _ _ H1 H2) as (n & E1 & E2). clear H1 H2. unfold idtransform in *.
  pose proof (scut_scan e q q' idt_le idt_le_same idt_le_trans idt_callbacks (idt_good e q q') true n _ _
    (alike_at e q q' _ _ (idt_new w) pl (close_start e q q' d p cells))) as G.
  destruct (scan idt_callbacks _ n (mkS (rj_new (mkReader d (p ++ Fail e :: q)) cells) (idt_new w) pl)) as [[s1 x1]| |]; try discriminate.
  destruct (scan idt_callbacks _ n (mkS (rj_new (mkReader d (p ++ q')) cells) (idt_new w) pl)) as [[s2 x2]| |]; try discriminate.
  cbn [obind] in E1, E2. cbn [scut sgrow] in G. destruct G as [(s3 & E & A)|[[er ->] G]].
  - injection E as <- <-. destruct A as [t1 t2 u pp Ht]. cbn [parser user stack] in *. injection E1 as <- <- <- <-. injection E2 as <- <- <- <-.
    split; [exists []; rewrite app_nil_r; reflexivity|]. auto.
  - injection E1 as <- <- <- <-. injection E2 as <- <- <- <-. split; [exact G|].
    destruct (io_error (user s1)); [discriminate|]. destruct (rjiter_error (user s1)); [discriminate|].
    destruct (stored_scan_error (user s1)); discriminate.
Qed.
Lemma d2n_cut d p e q q' rb xb w pretty mode w1 v1 w2 v2 :
  eventually (fun fuel => convert_ddb_to_normal fuel (mkReader d (p ++ Fail e :: q)) w rb xb pretty mode) (Done (w1, v1)) ->
  eventually (fun fuel => convert_ddb_to_normal fuel (mkReader d (p ++ q')) w rb xb pretty mode) (Done (w2, v2)) ->
  (exists a, written w2 = written w1 ++ a) /\ (v1 = Ok tt -> w2 = w1 /\ v2 = Ok tt).
Proof.
  intros H1 H2. destruct (both_fuels _ _ _ _ H1 H2) as (n & E1 & E2). clear H1 H2. unfold convert_ddb_to_normal, convert in *.
  destruct (pool_new true xb 68) as [[pl|x]| |]; cbn [obind] in *; try discriminate.
  2:{ injection E1 as <- <-. injection E2 as <- <-. split; [exists []; rewrite app_nil_r; reflexivity|discriminate]. }
  pose proof (scut_scan e q q' d2n_le (fun u => longer_same _) (fun u v w => longer_trans _ _ _) (d2n_callbacks mode) (d2n_good e q q' mode) false n _ _
    (alike_at e q q' _ _ (d2n_new w pretty) pl (close_start e q q' d p rb))) as G.
  destruct (scan (d2n_callbacks mode) _ n (mkS (rj_new (mkReader d (p ++ Fail e :: q)) rb) (d2n_new w pretty) pl)) as [[s1 x1]| |]; try discriminate.
  destruct (scan (d2n_callbacks mode) _ n (mkS (rj_new (mkReader d (p ++ q')) rb) (d2n_new w pretty) pl)) as [[s2 x2]| |]; try discriminate.
  cbn [obind] in E1, E2. cbn [scut sgrow] in G. injection E1 as <- <-. injection E2 as <- <-. destruct G as [(s3 & E & A)|[[er ->] G]].
  - injection E as <- <-. destruct A as [t1 t2 u pp Ht]. cbn [parser user stack] in *.
    split; [exists []; rewrite app_nil_r; reflexivity|]. destruct x2 as [[]|x2]; [auto|discriminate].
  - split; [exact G|discriminate].
Qed.
Lemma adds_good {B} (Le : B -> B -> Prop) cb e q q' : adds Le cb -> good_callbacks e q q' Le cb.
Proof.
  intros [F G]. split.
  - intros n c u u' a E. destruct (F _ _ _ _ _ E) as [L [->|(f & -> & K)]]; split; auto; split.
    + intros r v. destruct (f v) as [[v' op]| |] eqn:Ef; cbn [obind grows_by]; eauto.
    + intros r1 r2 v H. destruct (f v) as [[v' op]| |]; cbn [obind]; [left; eauto|exact Logic.I|exact Logic.I].
  - intros n c u u' a E. destruct (G _ _ _ _ _ E) as [L [->|(f & -> & K)]]; split; auto.
Qed.
Lemma scan_cut {B} (Le : B -> B -> Prop) cb stop d p e q q' cells u pl s1 v1 s2 v2 :
  (forall u, Le u u) -> (forall u v w, Le u v -> Le v w -> Le u w) -> adds Le cb ->
  eventually (fun fuel => scan cb (mkOptions [] stop) fuel (mkS (rj_new (mkReader d (p ++ Fail e :: q)) cells) u pl)) (Done (s1, v1)) ->
  eventually (fun fuel => scan cb (mkOptions [] stop) fuel (mkS (rj_new (mkReader d (p ++ q')) cells) u pl)) (Done (s2, v2)) ->
  Le (user s1) (user s2) /\ (v1 = Ok tt -> user s2 = user s1 /\ v2 = Ok tt).
Proof.
  intros R T A H1 H2. destruct (both_fuels _ _ _ _ H1 H2) as (n & E1 & E2). clear H1 H2.
  pose proof (scut_scan e q q' Le R T cb (adds_good Le cb e q q' A) stop n _ _
    (alike_at e q q' _ _ u pl (close_start e q q' d p cells))) as G.
  rewrite E1, E2 in G. cbn [scut sgrow] in G. destruct G as [(s3 & E & K)|[[er ->] G]].
  - injection E as <- <-. destruct K. cbn [user]. auto.
  - split; [exact G|discriminate].
Qed.
