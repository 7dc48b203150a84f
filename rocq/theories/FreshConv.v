(** Programs over the methods of the parser, idtransform and the converters: only the filled cells of the buffers matter. *)
From Verif Require Import Base U8Pool Buffer Jiter JiterValue RJiter RJiterSpec Scan ScanSpec ScanStack IdTransform Conv ConvSpec NormalToDdb DdbToNormal
  FlushConv FlushToDdb FlushFromDdb FreshSpec Fresh FreshScan.

(** ** Programs *)
Lemma api_peer {A} (op : rj -> outcome (rj * A)) : api op -> forall r1 r2, peer r1 r2 -> both rpeer (op r1) (op r2).
Proof.
  intros H. destruct H; intros r1 r2 Hr; try (apply peer_loop; exact Hr).
  - destruct H; apply peer_loop; exact Hr.
  - apply peer_finish. exact Hr.
  - apply (both_bind wpeer); [apply peer_long_bytes; exact Hr|].
    intros [[q1 v1] o1] [[q2 v2] o2] (Hq & Ev & Eo). cbn [fst snd] in Hq, Ev, Eo. subst v2 o2. apply rpeer_done. exact Hq.
  - apply (both_bind wpeer); [apply peer_long_str; exact Hr|].
    intros [[q1 v1] o1] [[q2 v2] o2] (Hq & Ev & Eo). cbn [fst snd] in Hq, Ev, Eo. subst v2 o2. apply rpeer_done. exact Hq.
  - apply peer_lookahead_while. exact Hr.
  - apply peer_lookahead_n. exact Hr.
  - apply peer_skip_n. exact Hr.
  - apply peer_token. exact Hr.
  - rewrite (peer_index _ _ Hr). apply rpeer_done. exact Hr.
  - rewrite (peer_position _ _ i Hr). destruct (error_position r1 i); cbn [obind]; try exact Logic.I. apply rpeer_done. exact Hr.
Qed.
Lemma uses_peer {A} (f : rj -> outcome (rj * A)) : uses f -> forall r1 r2, peer r1 r2 -> both rpeer (f r1) (f r2).
Proof.
  intros H. induction H as [v| | |X op next Ho Hn IH|f g E H IH]; intros r1 r2 Hr; try exact Logic.I.
  - apply rpeer_done. exact Hr.
  - apply (both_bind rpeer); [apply api_peer; assumption|]. intros [q1 v1] [q2 v2] [Hq Ev]. cbn [fst snd] in Hq, Ev. subst v2. apply IH. exact Hq.
  - rewrite <- !E. apply IH. exact Hr.
Qed.
Lemma both_answer {A} (x1 x2 : outcome (rj * A)) : both rpeer x1 x2 -> answer x1 = answer x2.
Proof.
  destruct x1 as [[r1 v1]| |], x2 as [[r2 v2]| |]; cbn [both answer obind]; intros H; try contradiction; try reflexivity.
  destruct H as [_ E]. cbn [snd] in E. rewrite E. reflexivity.
Qed.
Lemma uses_fresh {A} (f : rj -> outcome (rj * A)) : uses f -> forall r c1 c2, len c1 = len c2 -> Forall leading c1 -> Forall leading c2 ->
  answer (f (rj_new r c1)) = answer (f (rj_new r c2)).
Proof. intros H r c1 c2 L H1 H2. apply both_answer. apply uses_peer; [exact H|]. apply peer_start; assumption. Qed.

Lemma uses_steady {B} (a : action B) : (forall u, uses (program_of a u)) -> steady a.
Proof.
  intros H r1 r2 u Hr. pose proof (uses_peer _ (H u) _ _ Hr) as G. unfold program_of in G.
  destruct (a r1 u) as [[[q1 u1] o1]| |], (a r2 u) as [[[q2 u2] o2]| |]; cbn [both obind] in *; try contradiction; try exact Logic.I.
  destruct G as [Hq E]. cbn [fst snd] in Hq, E. injection E as <- <-. split; [exact Hq|]. split; reflexivity.
Qed.
Lemma both_sanswer {B} d (x1 x2 : sres B unit) : both (spair d) x1 x2 -> sanswer x1 = sanswer x2.
Proof.
  destruct x1 as [[s1 v1]| |], x2 as [[s2 v2]| |]; cbn [both sanswer obind]; intros H; try contradiction; try reflexivity.
  destruct H as [Hs E]. cbn [fst snd] in *. subst v2. destruct Hs. reflexivity.
Qed.
Lemma scan_fresh {B} (cb : callbacks B) o fuel r u c1 c2 d p1 p2 :
  (forall name c u, match find_action cb name c u with (_, Some a) => forall u, uses (program_of a u) | _ => True end) ->
  len c1 = len c2 -> Forall leading c1 -> Forall leading c2 -> fresh d p1 -> fresh d p2 ->
  sanswer (scan cb o fuel (mkS (rj_new r c1) u p1)) = sanswer (scan cb o fuel (mkS (rj_new r c2) u p2)).
Proof.
  intros HA L H1 H2 P1 P2. apply (both_sanswer d). apply spair_scan.
  - intros name c v. specialize (HA name c v). destruct (find_action cb name c v) as [v' [a|]]; [|exact Logic.I]. apply uses_steady. exact HA.
  - econstructor; [apply peer_start; assumption|apply stack_fresh; assumption|apply stack_fresh; assumption].
Qed.

(** ** The actions *)
Ltac steady_step :=
  match goal with
  | |- both wpeer (Done _) (Done _) => apply wpeer_done; assumption
  | |- both wpeer Panic Panic => exact Logic.I
  | |- both wpeer Diverge Diverge => exact Logic.I
  | |- both wpeer (obind (write_long_bytes _ _) _) _ => apply (both_bind wpeer); [apply peer_long_bytes; assumption|
      let H := fresh "Hq" in intros [[? ?] ?] [[? ?] ?] (H & ? & ?); cbn [fst snd] in *; subst]
  | H : peer ?r1 ?r2 |- both wpeer (obind (?op ?r1) _) (obind (?op ?r2) _) => apply (both_bind rpeer); [apply peer_loop; assumption|
      let H := fresh "Hq" in intros [? ?] [? ?] [H ?]; cbn [fst snd] in *; subst]
  | |- both wpeer (obind ?x _) (obind ?x _) => destruct x as [[? ?]| |]; cbn [obind]
  | |- both wpeer (match ?x with _ => _ end) (match ?x with _ => _ end) => destruct x
  end.
Ltac steady := repeat (cbv zeta; steady_step).
Lemma steady_act_of {B} (f : Conv.step B) op : steady (act_of f op).
Proof. intros r1 r2 u H. unfold act_of. steady. Qed.

(** ** idtransform *)
Lemma steady_copy p r1 r2 w : peer r1 r2 -> both wpeer (copy_atom p r1 w) (copy_atom p r2 w).
Proof.
  intros H. unfold copy_atom. cbv zeta. repeat steady_step; rewrite (peer_index _ _ Hq); apply wpeer_done; assumption.
Qed.
Lemma steady_id name c t : match idt_find_action name c t with (_, Some a) => steady a | _ => True end.
Proof.
  unfold idt_find_action. cbv zeta.
  assert (K : steady on_key) by (intros r1 r2 u H; unfold on_key; steady).
  assert (S : forall d, steady (on_struct d)) by (intros d r1 r2 u H; unfold on_struct; steady).
  assert (A : steady on_atom).
  { intros r1 r2 u H. unfold on_atom. repeat (cbv zeta; first [steady_step|
      apply (both_bind wpeer); [apply steady_copy; assumption|]; intros [[? ?] ?] [[? ?] ?] (? & ? & ?); cbn [fst snd] in *; subst]). }
  destruct name; auto. destruct (names c) as [|key l]; auto. destruct (_ && _); auto.
Qed.

(** ** The converters *)
Create HintDb acts.
Ltac leave := apply (both_bind wpeer); [solve [eauto with acts]|intros [[? ?] ?] [[? ?] ?] (? & ? & ?); cbn [fst snd] in *; subst].
Ltac act := let H := fresh "H" in intros ? ? ? H;
  repeat (cbv zeta; first [steady_step | solve [apply steady_act_of; assumption] | solve [match goal with G : peer _ _ |- _ => eauto with acts end] | leave]).
Local Hint Unfold steady : acts.
Local Hint Resolve steady_act_of : acts.

Lemma steady_string : steady NormalToDdb.on_string_value. Proof. unfold NormalToDdb.on_string_value. act. Qed.
Lemma steady_bool : steady NormalToDdb.on_bool_value. Proof. unfold NormalToDdb.on_bool_value. act. Qed.
Lemma steady_null : steady NormalToDdb.on_null_value. Proof. unfold NormalToDdb.on_null_value. act. Qed.
Local Hint Resolve steady_string steady_bool steady_null : acts.
Lemma steady_atom : steady NormalToDdb.on_atom_value. Proof. unfold NormalToDdb.on_atom_value. act. Qed.
Local Hint Resolve steady_atom : acts.
Lemma steady_literal : steady NormalToDdb.on_root_literal. Proof. unfold NormalToDdb.on_root_literal. act. Qed.
Lemma steady_element : steady NormalToDdb.on_array_element_atom. Proof. unfold NormalToDdb.on_array_element_atom. act. Qed.
Lemma steady_field : steady NormalToDdb.on_field_key. Proof. unfold NormalToDdb.on_field_key. act. Qed.
Local Hint Resolve steady_literal steady_element steady_field : acts.
Lemma steady_n2d wrapper name c u : match n2d_find_action wrapper name c u with (_, Some a) => steady a | _ => True end.
Proof.
  unfold n2d_find_action. destruct (names c) as [|parent l]; [destruct name; first [exact Logic.I|apply steady_atom|apply steady_act_of]|].
  destruct (beq parent (bs "#top")); [destruct name; first [exact Logic.I|apply steady_literal|apply steady_act_of]|].
  cbv zeta. destruct name; try exact steady_field; destruct (beq parent (bs "#array")); first [apply steady_atom|apply steady_element|apply steady_act_of].
Qed.

Section Flag.
Context (b : bool).
Lemma flush_string : steady (fl_on_string_value b). Proof. unfold fl_on_string_value. act. Qed.
Lemma flush_bool : steady (fl_on_bool_value b). Proof. unfold fl_on_bool_value. act. Qed.
Lemma flush_null : steady (fl_on_null_value b). Proof. unfold fl_on_null_value. act. Qed.
Local Hint Resolve flush_string flush_bool flush_null : acts.
Lemma flush_atom : steady (fl_on_atom_value b). Proof. unfold fl_on_atom_value. act. Qed.
Local Hint Resolve flush_atom : acts.
Lemma flush_literal : steady (fl_on_root_literal b). Proof. unfold fl_on_root_literal. act. Qed.
Lemma flush_element : steady (fl_on_array_element_atom b). Proof. unfold fl_on_array_element_atom. act. Qed.
Lemma flush_field : steady (FlushToDdb.fl_on_field_key b). Proof. unfold FlushToDdb.fl_on_field_key. act. Qed.
Lemma flush_n2d wrapper name c u : match fl_n2d_find_action b wrapper name c u with (_, Some a) => steady a | _ => True end.
Proof.
  unfold fl_n2d_find_action. destruct (names c) as [|parent l]; [destruct name; first [exact Logic.I|apply flush_atom|apply steady_act_of]|].
  destruct (beq parent (bs "#top")); [destruct name; first [exact Logic.I|apply flush_literal|apply steady_act_of]|].
  cbv zeta. destruct name; try apply flush_field; destruct (beq parent (bs "#array")); first [apply flush_atom|apply flush_element|apply steady_act_of].
Qed.

End Flag.

Lemma steady_finally f a : steady a -> steady (finally f a).
Proof. intros Ha. unfold finally. act. Qed.
Lemma steady_write q a b : steady (write_string_value q a b). Proof. unfold write_string_value. act. Qed.
Lemma steady_based v m : steady (handle_bool_based_type v m). Proof. unfold handle_bool_based_type. act. Qed.
Lemma steady_key : steady DdbToNormal.on_field_key. Proof. unfold DdbToNormal.on_field_key. act. Qed.
Lemma steady_error : steady on_error. Proof. unfold on_error. act. Qed.
Local Hint Resolve steady_write steady_based steady_finally : acts.
Lemma steady_type : steady on_type_key.
Proof. unfold on_type_key. act; apply steady_finally; auto with acts. Qed.
Local Hint Resolve steady_key steady_error steady_type : acts.
Lemma steady_d2n mode name c u : match d2n_find_action mode name c u with (_, Some a) => steady a | _ => True end.
Proof.
  unfold d2n_find_action. destruct name.
  - unfold find_action_array. destruct (current_type u) as [[]|]; auto with acts.
  - unfold find_action_object. destruct (_ =? _); [apply steady_act_of|]. destruct (at_phase u); auto with acts.
    + destruct (current_type u) as [[]|]; auto with acts.
    + destruct (parent_is _ _); auto with acts.
  - unfold find_action_atom. cbv zeta. destruct (at_phase u); auto with acts. destruct (parent_is _ _); auto with acts.
    destruct (current_type u) as [[]|]; auto with acts; apply steady_write.
  - unfold find_action_key. destruct (names c) as [|key l]; auto. cbv zeta. destruct (at_phase u); auto with acts.
    + destruct (_ && _); auto with acts.
    + destruct (in_set _); auto with acts.
Qed.
Section FlagFrom.
Context (b : bool).
Lemma flush_write q m n : steady (fl_write_string_value b q m n). Proof. unfold fl_write_string_value. act. Qed.
Lemma flush_based v m : steady (fl_handle_bool_based_type b v m). Proof. unfold fl_handle_bool_based_type. act. Qed.
Lemma flush_key : steady (FlushFromDdb.fl_on_field_key b). Proof. unfold FlushFromDdb.fl_on_field_key. act. Qed.
Local Hint Resolve flush_write flush_based : acts.
Lemma flush_type : steady (fl_on_type_key b).
Proof. unfold fl_on_type_key. act; apply steady_finally; auto with acts. Qed.
Local Hint Resolve flush_key flush_type : acts.
Lemma flush_d2n mode name c u : match fl_d2n_find_action b mode name c u with (_, Some a) => steady a | _ => True end.
Proof.
  unfold fl_d2n_find_action. destruct name.
  - unfold find_action_array. destruct (current_type u) as [[]|]; auto with acts.
  - unfold fl_find_action_object. destruct (_ =? _); [apply steady_act_of|]. destruct (at_phase u); auto with acts.
    + destruct (current_type u) as [[]|]; auto with acts.
    + destruct (parent_is _ _); auto with acts.
  - unfold fl_find_action_atom. cbv zeta. destruct (at_phase u); auto with acts. destruct (parent_is _ _); auto with acts.
    destruct (current_type u) as [[]|]; auto with acts; apply flush_write.
  - unfold fl_find_action_key. destruct (names c) as [|key l]; auto. cbv zeta. destruct (at_phase u); auto with acts.
    + destruct (_ && _); auto with acts.
    + destruct (in_set _); auto with acts.
Qed.

End FlagFrom.

(** ** The entry points *)
Lemma pool_new_len checks x1 x2 lim : len x1 = len x2 ->
  match pool_new checks x1 lim, pool_new checks x2 lim with
  | Done (Ok _), Done (Ok _) => True
  | Done (Err e1), Done (Err e2) => e1 = e2
  | Panic, Panic | Diverge, Diverge => True
  | _, _ => False
  end.
Proof.
  intros L. unfold pool_new. rewrite L. destruct (lim =? 0)%N; [reflexivity|]. destruct (len x2 =? 0); [reflexivity|].
  destruct (usize_op checks (lim * 4)) as [m| |]; cbn [obind]; auto. destruct (usize_op checks (m + 1)) as [k| |]; cbn [obind]; auto.
  destruct (_ <? k)%N; [reflexivity|]. destruct (_ <? m)%N; auto.
Qed.
Lemma convert_fresh {B} (cb : callbacks B) bs slots fuel r c1 c2 x1 x2 u :
  (forall name c u, match find_action cb name c u with (_, Some a) => steady a | _ => True end) -> (slots * 4 + 1 < usize_modulus)%N ->
  len c1 = len c2 -> Forall leading c1 -> Forall leading c2 -> len x1 = len x2 ->
  convert cb bs slots fuel r c1 x1 u = convert cb bs slots fuel r c2 x2 u.
Proof.
  intros HA Hs L H1 H2 Lx. unfold convert. pose proof (pool_new_len true x1 x2 slots Lx) as P.
  destruct (pool_new true x1 slots) as [[p1|e1]| |] eqn:E1, (pool_new true x2 slots) as [[p2|e2]| |] eqn:E2; try contradiction; try reflexivity.
  cbn [obind]. pose proof (stack_new _ _ _ _ E1 Hs) as S1. pose proof (stack_new _ _ _ _ E2 Hs) as S2. rewrite Lx in S1.
  pose proof (spair_scan cb (mkOptions [] false) _ HA fuel _ _ (sib_at _ _ _ u _ _ _ (peer_start r _ _ L H1 H2) S1 S2)) as G.
  destruct (scan cb _ fuel (mkS (rj_new r c1) u p1)) as [[s1 v1]| |], (scan cb _ fuel (mkS (rj_new r c2) u p2)) as [[s2 v2]| |];
    cbn [both obind] in *; try contradiction; try reflexivity.
  destruct G as [Hs' E]. cbn [fst snd] in Hs', E. subst v2. destruct Hs' as [r1 r2 v q1 q2 es Hr _ _]. cbn [user parser].
  destruct v1 as [|e]; [reflexivity|]. unfold error_position_of. rewrite (peer_index _ _ Hr). reflexivity.
Qed.
Lemma small_slots : (34 * 4 + 1 < usize_modulus)%N /\ (68 * 4 + 1 < usize_modulus)%N. Proof. split; reflexivity. Qed.
Lemma n2d_fresh fuel r w c1 c2 x1 x2 pr wr : len c1 = len c2 -> Forall leading c1 -> Forall leading c2 -> len x1 = len x2 ->
  convert_normal_to_ddb fuel r w c1 x1 pr wr = convert_normal_to_ddb fuel r w c2 x2 pr wr.
Proof.
  intros L H1 H2 Lx. unfold convert_normal_to_ddb. rewrite (convert_fresh _ _ 34 fuel r c1 c2 x1 x2) by first [assumption|apply steady_n2d|apply small_slots]. reflexivity.
Qed.
Lemma d2n_fresh fuel r w c1 c2 x1 x2 pr mode : len c1 = len c2 -> Forall leading c1 -> Forall leading c2 -> len x1 = len x2 ->
  convert_ddb_to_normal fuel r w c1 x1 pr mode = convert_ddb_to_normal fuel r w c2 x2 pr mode.
Proof.
  intros L H1 H2 Lx. unfold convert_ddb_to_normal. rewrite (convert_fresh _ _ 68 fuel r c1 c2 x1 x2) by first [assumption|apply steady_d2n|apply small_slots]. reflexivity.
Qed.
Lemma n2d_fresh_flush b fuel r w c1 c2 x1 x2 pr wr : len c1 = len c2 -> Forall leading c1 -> Forall leading c2 -> len x1 = len x2 ->
  fl_convert_normal_to_ddb b fuel r w c1 x1 pr wr = fl_convert_normal_to_ddb b fuel r w c2 x2 pr wr.
Proof.
  intros L H1 H2 Lx. unfold fl_convert_normal_to_ddb. rewrite (convert_fresh _ _ 34 fuel r c1 c2 x1 x2) by first [assumption|apply flush_n2d|apply small_slots]. reflexivity.
Qed.
Lemma d2n_fresh_flush b fuel r w c1 c2 x1 x2 pr mode : len c1 = len c2 -> Forall leading c1 -> Forall leading c2 -> len x1 = len x2 ->
  fl_convert_ddb_to_normal b fuel r w c1 x1 pr mode = fl_convert_ddb_to_normal b fuel r w c2 x2 pr mode.
Proof.
  intros L H1 H2 Lx. unfold fl_convert_ddb_to_normal. rewrite (convert_fresh _ _ 68 fuel r c1 c2 x1 x2) by first [assumption|apply flush_d2n|apply small_slots]. reflexivity.
Qed.
Lemma id_fresh fuel r w c1 c2 d p1 p2 : len c1 = len c2 -> Forall leading c1 -> Forall leading c2 -> fresh d p1 -> fresh d p2 ->
  (do (_, w', _, v) <- idtransform fuel (rj_new r c1) w p1; Done (w', v)) = (do (_, w', _, v) <- idtransform fuel (rj_new r c2) w p2; Done (w', v)).
Proof.
  intros L H1 H2 P1 P2. unfold idtransform.
  pose proof (spair_scan idt_callbacks (mkOptions [] true) _ steady_id fuel _ _
    (sib_at _ _ _ (idt_new w) _ _ _ (peer_start r _ _ L H1 H2) (stack_fresh _ _ P1) (stack_fresh _ _ P2))) as G.
  destruct (scan _ _ fuel (mkS (rj_new r c1) _ p1)) as [[s1 v1]| |], (scan _ _ fuel (mkS (rj_new r c2) _ p2)) as [[s2 v2]| |];
    cbn [both obind] in *; try contradiction; try reflexivity.
  destruct G as [Hs E]. cbn [fst snd] in Hs, E. subst v2. destruct Hs as [r1 r2 v q1 q2 es Hr _ _]. reflexivity.
Qed.
