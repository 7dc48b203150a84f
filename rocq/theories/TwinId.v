(** Idtransform and its writer: what it does with a writer, compared with what it does with one that takes everything. *)
From Verif Require Import Base U8Pool Buffer Jiter RJiter RJiterSpec Scan ScanSpec ScanParser Conv IdTransform ConvSpec IdProofs ConvResults ScanStack EndsSpec EndResults Twin TwinConv.

Section Copy.
Context (w01 w02 : writer) (Hopen : wfail w02 = None).
Notation sync := (sync w01 w02).
Notation lost := (lost w01 w02).
(** The error that tells of the failed write. *)
Definition write_failed (w : writer) (e : scan_error) : Prop :=
  exists k, exhausted w k /\ (e = IOError k \/ exists x, e = RJiterError x /\ err_type x = IoError k).
Definition copied {X Y} (x1 x2 : outcome (X * writer * result Y scan_error)) : Prop :=
  match x1, x2 with
  | Done (r1, w1, v1), Done (r2, w2, v2) => (r1 = r2 /\ v1 = v2 /\ sync w1 w2) \/ (exists e, v1 = Err e /\ write_failed w1 e) /\ lost w1 w2
  | Done (_, _, v1), _ => exists e, v1 = Err e
  | Panic, Panic | Diverge, Diverge => True
  | _, _ => False
  end.
Definition goes_on {X Y} (w : writer) (x : outcome (X * writer * result Y scan_error)) : Prop :=
  match x with Done (_, w', _) => exists p, spent w p w' | _ => True end.
Lemma put_copied (r : rj) w1 w2 d (k : writer -> outcome (rj * writer * result unit scan_error)) : sync w1 w2 ->
  (forall w1 w2, sync w1 w2 -> copied (k w1) (k w2)) -> (forall w, goes_on w (k w)) ->
  copied (match write_all w1 d with (w', Ok _) => k w' | (w', Err e) => Done (r, w', Err (IOError e)) end)
         (match write_all w2 d with (w', Ok _) => k w' | (w', Err e) => Done (r, w', Err (IOError e)) end).
Proof.
  intros H Hk Hg. destruct (sync_write w01 w02 Hopen w1 w2 d H) as (w1' & w2' & v & -> & -> & Hv). destruct v as [u|e]; [apply Hk, Hv|]. destruct Hv as (Hl & Hx).
  specialize (Hg w2'). unfold goes_on in Hg. unfold copied. destruct (k w2') as [[[r2 w3] v3]| |]; [|eexists; reflexivity..]. right. split; [exists (IOError e); split; [reflexivity|exists e; auto]|].
  destruct Hg as (p & Hp). eapply lost_second; eassumption.
Qed.
Lemma put_goes (r : rj) w d (k : writer -> outcome (rj * writer * result unit scan_error)) : (forall w, goes_on w (k w)) ->
  goes_on w (match write_all w d with (w', Ok _) => k w' | (w', Err e) => Done (r, w', Err (IOError e)) end).
Proof.
  intros Hg. destruct (write_all_spent w d) as (w' & v & -> & Hv). destruct v as [u|e].
  - specialize (Hg w'). unfold goes_on in *. destruct (k w') as [[[r2 w3] v3]| |]; try exact I. destruct Hg as (p & Hp). eexists. eapply spent_trans; eassumption.
  - destruct Hv as (p & q & _ & _ & Hp & _). exists p. exact Hp.
Qed.
Lemma done_goes {X Y} (r : X) w (v : result Y scan_error) : goes_on w (Done (r, w, v)).
Proof. exists []. apply spent_refl. Qed.
Lemma done_copied {X Y} (r : X) w1 w2 (v : result Y scan_error) : sync w1 w2 -> copied (Done (r, w1, v)) (Done (r, w2, v)).
Proof. intros H. left. auto. Qed.
Lemma copy_goes p r w : goes_on w (copy_atom p r w).
Proof.
  unfold copy_atom. cbv zeta. destruct (N.eqb p QUOTE).
  - apply put_goes. intros w'. pose proof (long_spent j_known_bytes bytes_segment (fuel_for (bf r)) r w') as Hl. fold (write_long_bytes r w') in Hl.
    destruct (write_long_bytes r w') as [[[r' w3] v]| |]; cbn [obind]; try exact I. destruct Hl as (a & Ha).
    assert (goes_on w3 (match v with Ok _ => match write_all w3 [QUOTE] with (w', Ok _) => Done (r', w', Ok tt) | (w', Err e) => Done (r', w', Err (IOError e)) end | Err e => Done (r', w3, Err (RJiterError e)) end)) as K.
    { destruct v; [|apply done_goes]. apply put_goes with (k := fun w => Done (r', w, Ok tt)). intros. apply done_goes. }
    unfold goes_on in *. destruct (match v with Ok _ => _ | Err _ => _ end) as [[[r4 w4] v4]| |]; try exact I. destruct K as (b & Hb). eexists. eapply spent_trans; eassumption.
  - assert (K : forall X (op : rj -> outcome (rj * result X rerror)) d, goes_on w (do (r', v) <- op r; match v with Ok _ => match write_all w d with (w', Ok _) => Done (r', w', Ok tt) | (w', Err e) => Done (r', w', Err (IOError e)) end | Err e => Done (r', w, Err (RJiterError e)) end)).
    { intros X op d. destruct (op r) as [[r' [v|e]]| |]; cbn [obind]; try exact I; [|apply done_goes]. apply put_goes with (k := fun w => Done (r', w, Ok tt)). intros. apply done_goes. }
    destruct (N.eqb p PeekNull); [apply K|]. destruct (N.eqb p PeekTrue); [apply K|]. destruct (N.eqb p PeekFalse); [apply K|].
    destruct (next_number_bytes r) as [[r' [v|e]]| |]; cbn [obind]; try exact I; [|apply done_goes]. apply put_goes with (k := fun w => Done (r', w, Ok tt)). intros. apply done_goes.
Qed.
Lemma copy_copied p r w1 w2 : sync w1 w2 -> copied (copy_atom p r w1) (copy_atom p r w2).
Proof.
  intros H. unfold copy_atom. cbv zeta. destruct (N.eqb p QUOTE).
  - apply put_copied; [exact H| |].
    + clear w1 w2 H. intros w1 w2 H. pose proof (sync_long w01 w02 Hopen j_known_bytes bytes_segment (fuel_for (bf r)) r _ _ H) as Hl.
      fold (write_long_bytes r w1) in Hl. fold (write_long_bytes r w2) in Hl.
      assert (G : forall r' w3 (v : result unit rerror), goes_on w3 (match v with Ok _ => match write_all w3 [QUOTE] with (w', Ok _) => Done (r', w', Ok tt) | (w', Err e) => Done (r', w', Err (IOError e)) end | Err e => Done (r', w3, Err (RJiterError e)) end : outcome (rj * writer * result unit scan_error))).
      { intros r' w3 v. destruct v as [[]|e]; [|apply done_goes]. apply put_goes with (k := fun w => Done (r', w, Ok tt)). intros. apply done_goes. }
      destruct (write_long_bytes r w1) as [[[r1 w1'] v1]| |], (write_long_bytes r w2) as [[[r2 w2'] v2]| |]; cbn [obind]; try contradiction; try exact I.
      * destruct Hl as [(<- & <- & Hs)|((e & k & -> & He & Hx) & Hs)].
        -- destruct v1 as [[]|e]; [|left; auto]. apply put_copied with (k := fun w => Done (r1, w, Ok tt)); [exact Hs| |intros; apply done_goes]. intros. left. auto.
        -- specialize (G r2 w2' v2). unfold goes_on in G. unfold copied. destruct (match v2 with Ok _ => _ | Err _ => _ end) as [[[r4 w4] v4]| |]; [|eexists; reflexivity..].
           right. split; [exists (RJiterError e); split; [reflexivity|exists k; split; [exact Hx|right; exists e; auto]]|]. destruct G as (a & Ha). eapply lost_second; eassumption.
      * destruct Hl as (e & ->). eexists. reflexivity.
      * destruct Hl as (e & ->). eexists. reflexivity.
    + intros w'. pose proof (copy_goes QUOTE r w') as _. pose proof (long_spent j_known_bytes bytes_segment (fuel_for (bf r)) r w') as Hl. fold (write_long_bytes r w') in Hl.
      destruct (write_long_bytes r w') as [[[r' w3] v]| |]; cbn [obind]; try exact I. destruct Hl as (a & Ha).
      assert (goes_on w3 (match v with Ok _ => match write_all w3 [QUOTE] with (w', Ok _) => Done (r', w', Ok tt) | (w', Err e) => Done (r', w', Err (IOError e)) end | Err e => Done (r', w3, Err (RJiterError e)) end)) as K.
      { destruct v; [|apply done_goes]. apply put_goes with (k := fun w => Done (r', w, Ok tt)). intros. apply done_goes. }
      unfold goes_on in *. destruct (match v with Ok _ => _ | Err _ => _ end) as [[[r4 w4] v4]| |]; try exact I. destruct K as (b & Hb). eexists. eapply spent_trans; eassumption.
  - assert (K : forall X (op : rj -> outcome (rj * result X rerror)) d,
      copied (do (r', v) <- op r; match v with Ok _ => match write_all w1 d with (w', Ok _) => Done (r', w', Ok tt) | (w', Err e) => Done (r', w', Err (IOError e)) end | Err e => Done (r', w1, Err (RJiterError e)) end)
             (do (r', v) <- op r; match v with Ok _ => match write_all w2 d with (w', Ok _) => Done (r', w', Ok tt) | (w', Err e) => Done (r', w', Err (IOError e)) end | Err e => Done (r', w2, Err (RJiterError e)) end)).
    { intros X op d. destruct (op r) as [[r' [v|e]]| |]; cbn [obind]; try exact I; [|apply done_copied, H].
      apply put_copied with (k := fun w => Done (r', w, Ok tt)); [exact H| |]; intros; [apply done_copied; assumption|apply done_goes]. }
    destruct (N.eqb p PeekNull); [apply K|]. destruct (N.eqb p PeekTrue); [apply K|]. destruct (N.eqb p PeekFalse); [apply K|].
    destruct (next_number_bytes r) as [[r' [v|e]]| |]; cbn [obind]; try exact I; [|apply done_copied, H].
    apply put_copied with (k := fun w => Done (r', w, Ok tt)); [exact H| |]; intros; [apply done_copied; assumption|apply done_goes].
Qed.

(** ** The callbacks *)
Definition same_idt (t1 t2 : idt) : Prop := sync (out t1) (out t2) /\ t2 = set_out t1 (out t2).
Definition lost_idt (t1 t2 : idt) : Prop := lost (out t1) (out t2) /\ exists k, exhausted (out t1) k /\ io_error t1 = Some k.
Notation kstep := (kin_step same_idt lost_idt).
Notation kaction := (kin_action same_idt lost_idt).
Lemma idt_put parts : kstep (fun t => Done (put_all t parts)).
Proof.
  induction parts as [|[d m] parts (IH1 & IH2)]; [apply kin_skip|]. split.
  - intros t1 t2 (Hs & E). cbn [put_all]. destruct (sync_write w01 w02 Hopen _ _ d Hs) as (w1 & w2 & v & -> & -> & Hv). destruct v as [u|k].
    + apply IH1. split; [exact Hv|]. rewrite E. reflexivity.
    + destruct Hv as (Hl & Hx).
      assert (lost_idt (set_io (set_out t1 w1) k) (set_out t2 w2)) as Hd by (split; [exact Hl|exists k; split; [exact Hx|reflexivity]]).
      apply IH2 in Hd. cbn in Hd. cbn. destruct (put_all (set_out t2 w2) parts) as [t3 v3]. right. split; [eexists; reflexivity|exact Hd].
  - intros t t2 (Hl & Hk). cbn [put_all]. destruct (write_open (out t2) d (lost_open _ _ Hopen _ _ Hl)) as (w' & -> & Hs). apply IH2. split; [|exact Hk]. cbn. eapply lost_second; eassumption.
Qed.
Lemma idt_change f : (forall t w, f (set_out t w) = set_out (f t) w) -> (forall t, out (f t) = out t) -> kstep (change_to f).
Proof.
  intros H1 H2. apply kin_change.
  - intros t1 t2 (Hs & E). split; rewrite !H2; [exact Hs|]. rewrite E at 1. rewrite H1. reflexivity.
  - intros t t2 (Hl & Hk). split; [rewrite H2; exact Hl|exact Hk].
Qed.
Lemma idt_seqpos : kstep (fun t => Done (write_seqpos t)).
Proof.
  assert (K : forall parts, kstep (fun t => Done (match put_all t parts with (t, Ok tt) => (set_seq t InMiddle, Ok tt) | (t, Err m) => (t, Err m) end))).
  { intros parts. assert (K : kstep ((fun t => Done (put_all t parts)) ;; change_to (fun t => set_seq t InMiddle))) by (apply kin_then; [apply idt_put|apply idt_change; reflexivity]).
    unfold and_then, change_to in K. destruct K as (K1 & K2). split.
    - intros t1 t2 H. specialize (K1 t1 t2 H). cbn [obind] in K1. destruct (put_all t1 parts) as [u1 [[]|m1]], (put_all t2 parts) as [u2 [[]|m2]]; exact K1.
    - intros t t2 H. specialize (K2 t t2 H). cbn [obind] in K2. destruct (put_all t2 parts) as [u2 [[]|m2]]; exact K2. }
  split.
  - intros t1 t2 H. pose proof H as (Hs & E). unfold write_seqpos. assert (seq t2 = seq t1) as -> by (rewrite E; reflexivity). assert (is_top_level t2 = is_top_level t1) as -> by (rewrite E; reflexivity).
    destruct (seq t1) as [| |key|key|]; try (apply K, H).
    + left. split; [|reflexivity]. split; [exact Hs|rewrite E; reflexivity].
    + left. auto.
  - intros t t2 H. unfold write_seqpos. destruct (seq t2) as [| |key|key|]; try (apply K, H); exact H.
Qed.
Lemma idt_answer op : kaction (fun r t => Done (r, t, op)).
Proof. apply (kin_answer _ _ (fun c => c)); auto. Qed.
Lemma act_eq (a b : action idt) : (forall r t, a r t = b r t) -> kaction a -> kaction b.
Proof. intros E (A & B). split; [intros r c1 c2 H; rewrite <- !E; apply A, H|intros r c c2 H; rewrite <- E; apply B, H]. Qed.
Lemma idt_key : kaction on_key.
Proof.
  apply (act_eq (fun r t => do (t, v) <- Done (write_seqpos t); match v with Err m => Done (r, t, OpError m) | Ok _ => act_of (change_to (fun t => set_seq t AfterKey)) OpNone r t end)).
  - intros r t. unfold on_key. cbn [obind]. destruct (write_seqpos t) as [u [[]|m]]; reflexivity.
  - apply (kin_first _ _ (fun t => Done (write_seqpos t))); [apply idt_seqpos|]. apply kin_act_of, idt_change; reflexivity.
Qed.
Lemma idt_struct d : kaction (on_struct d).
Proof.
  apply (act_eq (fun r t => do (t, v) <- Done (write_seqpos t); match v with Err m => Done (r, t, OpError m) | Ok _ =>
    (fun r t => do (t, v) <- Done (put_all t [(d, "IO error writing struct"%string)]); match v with Err m => Done (r, t, OpError m) | Ok _ => act_of (change_to (fun t => set_seq t AtBeginning)) OpNone r t end) r t end)).
  - intros r t. unfold on_struct. cbn [obind]. destruct (write_seqpos t) as [u [[]|m]]; [|reflexivity]. cbn [obind]. destruct (put_all u _) as [u2 [[]|m]]; reflexivity.
  - apply (kin_first _ _ (fun t => Done (write_seqpos t))); [apply idt_seqpos|]. apply (kin_first _ _ (fun t => Done (put_all t _))); [apply idt_put|]. apply kin_act_of, idt_change; reflexivity.
Qed.
Lemma idt_struct_end d : kstep (on_struct_end d).
Proof.
  assert (K : kstep (change_to (fun t => set_seq t InMiddle) ;; (fun t => Done (put_all t [(d, "IO error writing struct end"%string)])))) by (apply kin_then; [apply idt_change; reflexivity|apply idt_put]).
  exact K.
Qed.
Definition after_copy (v : result unit scan_error) (t : idt) : idt :=
  match v with
  | Ok _ => t
  | Err e => match e with
             | IOError k => set_io t k
             | RJiterError e => set_rj (match err_type e with IoError k => set_io t k | _ => t end) e
             | other => set_scan t other
             end
  end.
Lemma after_copy_out v t w : after_copy v (set_out t w) = set_out (after_copy v t) w.
Proof. destruct v as [u|[]]; cbn; try reflexivity. destruct (err_type e); reflexivity. Qed.
Lemma after_copy_keep v t : out (after_copy v t) = out t.
Proof. destruct v as [u|[]]; cbn; try reflexivity. destruct (err_type e); reflexivity. Qed.
Lemma idt_copy p : kaction (fun r t => do (r, w, c) <- copy_atom p r (out t); let t := set_out t w in
  match c with
  | Ok _ => Done (r, t, ValueIsConsumed)
  | Err e => Done (r, match e with
                      | IOError k => set_io t k
                      | RJiterError e => set_rj (match err_type e with IoError k => set_io t k | _ => t end) e
                      | other => set_scan t other
                      end, OpError "Error copying atom (stored in idt)")
  end).
Proof.
  apply (act_eq (fun r t => do (r, w, c) <- copy_atom p r (out t); Done (r, after_copy c (set_out t w), match c with Ok _ => ValueIsConsumed | Err _ => OpError "Error copying atom (stored in idt)" end))).
  { intros r t. destruct (copy_atom p r (out t)) as [[[r' w] [u|e]]| |]; reflexivity. }
  split.
  - intros r t1 t2 (Hs & E). pose proof (copy_copied p r _ _ Hs) as C. unfold copied in C.
    destruct (copy_atom p r (out t1)) as [[[r1 w1] v1]| |], (copy_atom p r (out t2)) as [[[r2 w2] v2]| |]; cbn [obind]; try contradiction; try exact I.
    + destruct C as [(<- & <- & Hw)|((e & -> & k & Hx & He) & Hl)].
      * left. split; [reflexivity|]. split; [|reflexivity]. split; rewrite !after_copy_keep; [exact Hw|]. rewrite E. rewrite <- after_copy_out. reflexivity.
      * right. split; [eexists; reflexivity|]. split; rewrite !after_copy_keep; [exact Hl|]. exists k. split; [exact Hx|]. destruct He as [-> |(x & -> & He)]; cbn; [reflexivity|]. rewrite He. reflexivity.
    + destruct C as (e & ->). eexists. reflexivity.
    + destruct C as (e & ->). eexists. reflexivity.
  - intros r t t2 (Hl & Hk). pose proof (copy_goes p r (out t2)) as G. unfold goes_on in G. destruct (copy_atom p r (out t2)) as [[[r2 w2] v2]| |]; cbn [obind]; try exact I.
    destruct G as (a & Ha). split; [|exact Hk]. rewrite after_copy_keep. cbn. eapply lost_second; eassumption.
Qed.
Lemma idt_atom : kaction on_atom.
Proof.
  apply (act_eq (fun r t => do (t, v) <- Done (write_seqpos t); match v with Err m => Done (r, t, OpError m) | Ok _ =>
    (fun r t => do (r, v) <- peek r; (fun v r t => match v with
      | Err e => Done (r, set_rj (match err_type e with IoError k => set_io t k | _ => t end) e, OpError "RJiter error (stored in idt)")
      | Ok p => (fun r t => do (r, w, c) <- copy_atom p r (out t); let t := set_out t w in
          match c with
          | Ok _ => Done (r, t, ValueIsConsumed)
          | Err e => Done (r, match e with
                      | IOError k => set_io t k
                      | RJiterError e => set_rj (match err_type e with IoError k => set_io t k | _ => t end) e
                      | other => set_scan t other
                      end, OpError "Error copying atom (stored in idt)")
          end) r t
      end) v r t) r t end)).
  - intros r t. unfold on_atom. cbn [obind]. destruct (write_seqpos t) as [u [[]|m]]; reflexivity.
  - apply (kin_first _ _ (fun t => Done (write_seqpos t))); [apply idt_seqpos|]. apply (kin_method _ _ peek). intros [p|e]; [apply idt_copy|].
    apply (kin_answer _ _ (fun t => set_rj (match err_type e with IoError k => set_io t k | _ => t end) e)).
    + intros t1 t2 (Hs & E). split; [destruct (err_type e); exact Hs|]. rewrite E. destruct (err_type e); reflexivity.
    + intros t t2 (Hl & Hk). split; [destruct (err_type e); exact Hl|exact Hk].
Qed.
Lemma idt_twins : twins same_idt lost_idt idt_callbacks.
Proof.
  apply found_twins.
  - intros name x. cbn [find_action idt_callbacks]. unfold idt_find_action. cbv zeta.
    assert (K : forall f : idt -> idt, (forall t w, f (set_out t w) = set_out (f t) w) -> (forall t, out (f t) = out t) ->
      (forall t1 t2, same_idt t1 t2 -> same_idt (f t1) (f t2)) /\ (forall t t2, lost_idt t t2 -> lost_idt t (f t2))).
    { intros f H1 H2. split.
      - intros t1 t2 (Hs & E). split; rewrite !H2; [exact Hs|]. rewrite E at 1. rewrite H1. reflexivity.
      - intros t t2 (Hl & Hk). split; [rewrite H2; exact Hl|exact Hk]. }
    assert (L : forall a, kaction a -> found same_idt lost_idt kaction (fun t => (set_level t (ctx_len x <? 2), Some a))).
    { intros a Ha c0. destruct (K (fun t => set_level t (ctx_len x <? 2))) as (K1 & K2); [reflexivity..|]. exists (fun t => set_level t (ctx_len x <? 2)), (Some a). split; [reflexivity|]. split; [reflexivity|]. split; [exact K1|]. split; [exact K2|exact Ha]. }
    destruct name; [apply L, idt_struct|apply L, idt_struct|apply L, idt_atom|].
    destruct (names x) as [|key path]; [apply found_here; exact I|]. destruct (_ && _); [|apply found_here; exact I].
    intros c0. destruct (K (fun t => set_seq t (match seq t with AtBeginning => AtBeginningKey key | _ => InMiddleKey key end))) as (K1 & K2); [reflexivity..|].
    exists (fun t => set_seq t (match seq t with AtBeginning => AtBeginningKey key | _ => InMiddleKey key end)), (Some on_key). split; [reflexivity|]. split; [reflexivity|]. split; [exact K1|]. split; [exact K2|exact idt_key].
  - intros name x. cbn [find_end_action idt_callbacks]. unfold idt_find_end_action. apply found_here. destruct name; try exact I; apply idt_struct_end.
Qed.
End Copy.

Lemma id_twin fuel r w1 w2 p : wfail w2 = None ->
  match idtransform fuel r w1 p, idtransform fuel r w2 p with
  | Done (r1, w1', p1, v1), Done (r2, w2', p2, v2) => (r1 = r2 /\ p1 = p2 /\ v1 = v2 /\ sync w1 w2 w1' w2') \/
      (exists k, v1 = Err (IOError k) /\ exhausted w1' k) /\ lost w1 w2 w1' w2'
  | Done (_, _, _, v1), _ => exists e, v1 = Err e
  | Panic, Panic | Diverge, Diverge => True
  | _, _ => False
  end.
Proof.
  intros H. unfold idtransform. destruct (kin_scan _ _ _ (idt_twins w1 w2 H) (mkOptions [] true) fuel) as (K & _).
  specialize (K (mkS r (idt_new w1) p) (mkS r (idt_new w2) p)).
  assert (Hp : pair (same_idt w1 w2) (mkS r (idt_new w1) p) (mkS r (idt_new w2) p)) by (repeat split; exists []; split; apply spent_refl). apply K in Hp. clear K. unfold twin in Hp.
  destruct (scan idt_callbacks _ fuel (mkS r (idt_new w1) p)) as [[s1 v1]| |], (scan idt_callbacks _ fuel (mkS r (idt_new w2) p)) as [[s2 v2]| |]; cbn [obind]; try contradiction; try exact I.
  - destruct Hp as [((Hr & Hst & Hs & E) & <-)|((e & ->) & Hl & k & Hx & Hk)].
    + left. rewrite Hr, Hst. split; [reflexivity|]. split; [reflexivity|]. split; [|exact Hs]. rewrite E. reflexivity.
    + right. split; [|exact Hl]. exists k. rewrite Hk. split; [reflexivity|exact Hx].
  - destruct Hp as (e & ->). destruct (io_error (user s1)), (rjiter_error (user s1)), (stored_scan_error (user s1)); eexists; reflexivity.
  - destruct Hp as (e & ->). destruct (io_error (user s1)), (rjiter_error (user s1)), (stored_scan_error (user s1)); eexists; reflexivity.
Qed.
Lemma id_prefix fuel r w p d n k : valid r -> 8 <= rcap r -> stack_of d p [] -> 2 * len (rest r) + 2 <= fuel -> wcap w = 0 -> wfail w = Some (n, k) ->
  exists r0 text p0 v0 r' w' p' v,
    idtransform fuel r (mkWriter [] None) p = Done (r0, mkWriter text None, p0, v0) /\ idtransform fuel r w p = Done (r', w', p', v) /\
    written w' = written w ++ firstn n text /\ if n <? len text then v = Err (IOError k) else v = v0 /\ r' = r0 /\ p' = p0.
Proof.
  intros Hv Hc Hs Hf Hw Hk. destruct (idtransform_ends fuel r (mkWriter [] None) p d Hv Hc Hs Hf) as (r0 & w0 & p0 & v0 & E0).
  pose proof (id_twin fuel r w (mkWriter [] None) p eq_refl) as T. rewrite E0 in T. destruct (idtransform fuel r w p) as [[[[r' w'] p'] v]| |]; try contradiction.
  destruct T as [(-> & -> & -> & t & A & B)|((k' & -> & Hx) & t & k'' & A & B)].
  - apply spent_plain in B. cbn [app] in B. subst w0. exists r0, t, p0, v0, r0, w', p0, v0. split; [exact E0|]. split; [reflexivity|]. destruct (spent_prefix _ _ _ _ _ Hw Hk A) as (-> & ->). auto.
  - apply spent_plain in A. cbn [app] in A. subst w0. exists r0, t, p0, v0, r', w', p', (Err (IOError k')). split; [exact E0|]. split; [reflexivity|].
    assert (k' = k) as ->.
    { destruct B as (a & b & _ & _ & w1 & j & S1 & X & S2). destruct (spent_budget _ _ _ _ _ S1 Hw Hk) as (_ & E1). unfold exhausted in X, Hx. rewrite E1 in X. injection X as _ X.
      destruct S2 as (_ & _ & _ & y & _ & _ & S2). rewrite E1, Hx in S2. destruct S2 as (_ & S2). injection S2 as _ ->. reflexivity. }
    destruct (cut_prefix _ _ _ _ _ _ Hw Hk B) as (_ & -> & ->). auto.
Qed.
