(** The two converters and their writers: what a converter does with a writer, compared with what it does with one that takes
    everything. *)
From Verif Require Import Base U8Pool Buffer Jiter RJiter Scan ScanSpec ScanParser Conv ConvSpec NormalToDdb DdbToNormal IdProofs ConvResults Twin.

Section Writers.
Context (w01 w02 : writer) (Hopen : wfail w02 = None).
(** Both have taken the same bytes. *)
Definition sync (w1 w2 : writer) : Prop := exists p, spent w01 p w1 /\ spent w02 p w2.
(** The first one has failed; the second one has taken more bytes. *)
Definition lost (w1 w2 : writer) : Prop := exists p k, spent w02 p w2 /\ cut_off w01 p w1 k.
Lemma sync_open w1 w2 : sync w1 w2 -> wfail w2 = None.
Proof. intros (p & _ & H). eapply spent_open; eauto. Qed.
Lemma lost_open w1 w2 : lost w1 w2 -> wfail w2 = None.
Proof. intros (p & k & H & _). eapply spent_open; eauto. Qed.
Lemma write_open w d : wfail w = None -> exists w', write_all w d = (w', Ok tt) /\ spent w d w'.
Proof.
  intros H. destruct (write_all_spent w d) as (w' & r & E & Hr). destruct r as [[]|k]; [eauto|]. destruct Hr as (p & q & _ & _ & Hs & Hx). exfalso.
  eapply worn_open; [apply worn_now; eassumption|exact H].
Qed.
Lemma lost_second w1 w2 p w2' : lost w1 w2 -> spent w2 p w2' -> lost w1 w2'.
Proof.
  intros (q & k & Hs & a & b & -> & Hb & Hw) H. exists ((a ++ b) ++ p), k. split; [eapply spent_trans; eassumption|]. exists a, (b ++ p). rewrite app_assoc. split; [reflexivity|].
  split; [destruct b; [contradiction|discriminate]|exact Hw].
Qed.
Lemma lost_first w1 w2 p w1' : lost w1 w2 -> spent w1 p w1' -> lost w1' w2.
Proof.
  intros (q & k & Hs & a & b & -> & Hb & w & j & H1 & H2 & H3) H. exists (a ++ b), k. split; [exact Hs|]. exists a, b. split; [reflexivity|]. split; [exact Hb|].
  exists w, (j ++ p). split; [exact H1|]. split; [exact H2|]. eapply spent_trans; eassumption.
Qed.
Lemma sync_more w1 w2 p w1' w2' : sync w1 w2 -> spent w1 p w1' -> spent w2 p w2' -> sync w1' w2'.
Proof. intros (q & H1 & H2) A1 A2. exists (q ++ p). split; eapply spent_trans; eassumption. Qed.
Lemma sync_ends w1 w2 p q w1' w2' k : sync w1 w2 -> q <> [] -> spent w1 p w1' -> exhausted w1' k -> spent w2 (p ++ q) w2' -> lost w1' w2'.
Proof.
  intros (t & H1 & H2) Hq A1 Hk A2. exists (t ++ p ++ q), k. split; [eapply spent_trans; eassumption|]. exists (t ++ p), q. rewrite app_assoc. split; [reflexivity|]. split; [exact Hq|].
  eapply worn_after; [exact H1|]. apply worn_now; assumption.
Qed.
Lemma sync_write w1 w2 d : sync w1 w2 -> exists w1' w2' r, write_all w1 d = (w1', r) /\ write_all w2 d = (w2', Ok tt) /\
  match r with Ok _ => sync w1' w2' | Err k => lost w1' w2' /\ exhausted w1' k end.
Proof.
  intros H. destruct (write_all_spent w1 d) as (w1' & r & E1 & Hr). destruct (write_open w2 d (sync_open _ _ H)) as (w2' & E2 & H2). exists w1', w2', r. split; [exact E1|]. split; [exact E2|].
  destruct r as [u|k]; [eapply sync_more; eassumption|]. destruct Hr as (p & q & -> & Hq & Hp & Hk). split; [eapply sync_ends; eassumption|exact Hk].
Qed.
Lemma long_spent parser segment fuel : forall s w, match handle_long fuel parser segment s w with Done (_, w', _) => exists p, spent w p w' | _ => True end.
Proof.
  induction fuel as [|fuel IH]; intros s w; [exact I|]. cbn [handle_long]. destruct (jcall parser s) as [s1 [v|err]].
  - destruct (write_all_spent w v) as (w' & r & -> & Hr). destruct r as [u|k]; [eauto|]. destruct Hr as (p & q & _ & _ & Hp & _). eauto.
  - destruct (can_retry (fst err)); [|exists []; apply spent_refl]. match goal with |- context [find_leading (buf (bf ?x))] => generalize x; intros s2 end.
    destruct (find_leading (buf (bf s2)) (raw_segment_end (bf s2))) as [seg|]; [|exact I].
    assert (HR : forall s3 w3, match match read_more (bf s3) with
        | (b, Err e) => Done (with_bf s3 b, w3, Err e)
        | (b, Ok 0) => Done (with_bf s3 b, w3, Err (from_jiter_error (current_index (with_bf s3 b)) err))
        | (b, Ok (S _)) => handle_long fuel parser segment (create_new_jiter (with_bf s3 b)) w3
        end with Done (_, w', _) => exists p, spent w3 p w' | _ => True end).
    { intros s3 w3. destruct (read_more (bf s3)) as [b [[|n]|e]]; [exists []; apply spent_refl|apply IH|exists []; apply spent_refl]. }
    destruct (1 <? seg); [|apply HR]. destruct (segment (buf (bf s2)) seg) as [d|x]; [|exists []; apply spent_refl].
    destruct (write_all_spent w d) as (w' & r & -> & Hr). destruct r as [u|k].
    + specialize (HR (with_bf s2 (shift_buffer (bf s2) 1 seg)) w'). match type of HR with match ?x with _ => _ end => destruct x as [[[s4 w4] v4]| |] end; try exact I.
      destruct HR as (p & Hp). exists (d ++ p). eapply spent_trans; eassumption.
    + destruct Hr as (p & q & _ & _ & Hp & _). eauto.
Qed.
Lemma sync_long parser segment fuel : forall s w1 w2, sync w1 w2 ->
  match handle_long fuel parser segment s w1, handle_long fuel parser segment s w2 with
  | Done (s1, w1', v1), Done (s2, w2', v2) => (s1 = s2 /\ v1 = v2 /\ sync w1' w2') \/ (exists e k, v1 = Err e /\ err_type e = IoError k /\ exhausted w1' k) /\ lost w1' w2'
  | Done (_, _, v1), _ => exists e, v1 = Err e
  | Panic, Panic | Diverge, Diverge => True
  | _, _ => False
  end.
Proof.
  induction fuel as [|fuel IH]; intros s w1 w2 H; [exact I|]. cbn [handle_long]. destruct (jcall parser s) as [s1 [v|err]].
  - destruct (sync_write w1 w2 v H) as (w1' & w2' & r & -> & -> & Hr). destruct r as [u|k]; [left; auto|right; split; [eexists _, k; split; [reflexivity|split; [reflexivity|apply Hr]]|apply Hr]].
  - destruct (can_retry (fst err)); [|left; auto]. match goal with |- context [find_leading (buf (bf ?x))] => generalize x; intros s2 end.
    destruct (find_leading (buf (bf s2)) (raw_segment_end (bf s2))) as [seg|]; [|exact I].
    assert (HR : forall s3 v1 v2, sync v1 v2 ->
      match match read_more (bf s3) with
        | (b, Err e) => Done (with_bf s3 b, v1, Err e)
        | (b, Ok 0) => Done (with_bf s3 b, v1, Err (from_jiter_error (current_index (with_bf s3 b)) err))
        | (b, Ok (S _)) => handle_long fuel parser segment (create_new_jiter (with_bf s3 b)) v1
        end,
        match read_more (bf s3) with
        | (b, Err e) => Done (with_bf s3 b, v2, Err e)
        | (b, Ok 0) => Done (with_bf s3 b, v2, Err (from_jiter_error (current_index (with_bf s3 b)) err))
        | (b, Ok (S _)) => handle_long fuel parser segment (create_new_jiter (with_bf s3 b)) v2
        end with
      | Done (s1, w1', v1), Done (s2, w2', v2) => (s1 = s2 /\ v1 = v2 /\ sync w1' w2') \/ (exists e k, v1 = Err e /\ err_type e = IoError k /\ exhausted w1' k) /\ lost w1' w2'
      | Done (_, _, v1), _ => exists e, v1 = Err e
      | Panic, Panic | Diverge, Diverge => True
      | _, _ => False
      end).
    { intros s3 v1 v2 Hv. destruct (read_more (bf s3)) as [b [[|n]|e]]; [left; auto|apply IH, Hv|left; auto]. }
    destruct (1 <? seg); [|apply HR, H].
    destruct (segment (buf (bf s2)) seg) as [d|x]; [|left; auto].
    destruct (sync_write w1 w2 d H) as (w1' & w2' & r & -> & -> & Hr). destruct r as [u|k]; [apply HR, Hr|]. destruct Hr as (Hr & Hk).
    assert (HL : forall s3 v2, lost w1' v2 ->
      match match read_more (bf s3) with
        | (b, Err e) => Done (with_bf s3 b, v2, Err e)
        | (b, Ok 0) => Done (with_bf s3 b, v2, Err (from_jiter_error (current_index (with_bf s3 b)) err))
        | (b, Ok (S _)) => handle_long fuel parser segment (create_new_jiter (with_bf s3 b)) v2
        end with
      | Done (_, v, _) => lost w1' v
      | _ => True
      end).
    { intros s3 v2 Hl. destruct (read_more (bf s3)) as [b [[|n]|e]]; [exact Hl| |exact Hl].
      pose proof (long_spent parser segment fuel (create_new_jiter (with_bf s3 b)) v2) as Hx. destruct (handle_long _ _ _ _ v2) as [[[s4 w4] v4]| |]; try exact I.
      destruct Hx as (p & Hp). eapply lost_second; eassumption. }
    match type of (HL (with_bf s2 (shift_buffer (bf s2) 1 seg)) w2' Hr) with match ?x with _ => _ end => pose proof (HL (with_bf s2 (shift_buffer (bf s2) 1 seg)) w2' Hr) as HL1; destruct x as [[[s4 w4] v4]| |] end.
    + right. split; [eexists _, k; split; [reflexivity|split; [reflexivity|exact Hk]]|exact HL1].
    + eexists. reflexivity.
    + eexists. reflexivity.
Qed.

(** ** Steps *)
Section Steps.
Context {B : Type} (R D : B -> B -> Prop).
Definition kin_step (f : step B) : Prop := (forall c1 c2, R c1 c2 -> twin_end R D (f c1) (f c2)) /\ (forall c c2, D c c2 -> keeps_end D c (f c2)).
Lemma kin_then f g : kin_step f -> kin_step g -> kin_step (f ;; g).
Proof.
  intros (F1 & F2) (G1 & G2). split.
  - intros c1 c2 H. apply F1 in H. unfold twin_end in H. unfold and_then. destruct (f c1) as [[d1 [u|m]]| |], (f c2) as [[d2 v2]| |]; cbn [obind]; try contradiction; try exact I.
    + destruct H as [(H & <-)|((m & E) & _)]; [apply G1, H|discriminate].
    + destruct H as (m & E). discriminate.
    + destruct H as (m & E). discriminate.
    + destruct H as [(H & <-)|(_ & H)]; [left; auto|]. destruct v2 as [u|m2]; [|right; split; [eexists; reflexivity|exact H]].
      apply G2 in H. unfold keeps_end in H. unfold twin_end. destruct (g d2) as [[d3 v3]| |]; [right; split; [eexists; reflexivity|exact H]| |]; eexists; reflexivity.
    + eexists. reflexivity.
    + eexists. reflexivity.
  - intros c c2 H. apply F2 in H. unfold keeps_end in H. unfold and_then. destruct (f c2) as [[d2 [u|m]]| |]; cbn [obind]; try exact I; [apply G2, H|exact H].
Qed.
Lemma kin_change f : (forall c1 c2, R c1 c2 -> R (f c1) (f c2)) -> (forall c c2, D c c2 -> D c (f c2)) -> kin_step (change_to f).
Proof. intros H1 H2. split; [intros c1 c2 H; left; auto|intros c c2 H; apply H2, H]. Qed.
Lemma kin_skip : kin_step skip.
Proof. split; [intros c1 c2 H; left; auto|intros c c2 H; exact H]. Qed.
Lemma kin_if (t : B -> bool) f g : (forall c1 c2, R c1 c2 -> t c1 = t c2) -> kin_step f -> kin_step g -> kin_step (fun c => if t c then f c else g c).
Proof.
  intros Ht (F1 & F2) (G1 & G2). split.
  - intros c1 c2 H. rewrite <- (Ht _ _ H). destruct (t c1); auto.
  - intros c c2 H. destruct (t c2); auto.
Qed.

Definition kin_action (a : action B) : Prop := (forall r c1 c2, R c1 c2 -> twin_op R D (a r c1) (a r c2)) /\ (forall r c c2, D c c2 -> keeps_op D c (a r c2)).
Lemma kin_act_of f op : kin_step f -> kin_action (act_of f op).
Proof.
  intros (F1 & F2). split.
  - intros r c1 c2 H. apply F1 in H. unfold act_of. destruct (f c1) as [[d1 v1]| |], (f c2) as [[d2 v2]| |]; cbn in *; try contradiction; try exact I.
    + destruct H as [(H & <-)|((m & ->) & H)]; [left; auto|right; split; [eexists; reflexivity|exact H]].
    + destruct H as (m & ->). eexists. reflexivity.
    + destruct H as (m & ->). eexists. reflexivity.
  - intros r c c2 H. apply F2 in H. unfold act_of. destruct (f c2) as [[d2 v2]| |]; exact H || exact I.
Qed.
Lemma kin_answer f : (forall c1 c2, R c1 c2 -> R (f c1) (f c2)) -> (forall c c2, D c c2 -> D c (f c2)) -> forall op, kin_action (fun r c => Done (r, f c, op)).
Proof. intros H1 H2 op. split; [intros r c1 c2 H; left; auto|intros r c c2 H; apply H2, H]. Qed.
(** Handlers in pieces: a step, or a parser method, and what follows. *)
Lemma kin_first f a : kin_step f -> kin_action a -> kin_action (fun r c => do (c, v) <- f c; match v with Err m => Done (r, c, OpError m) | Ok _ => a r c end).
Proof.
  intros (F1 & F2) (G1 & G2). split.
  - intros r c1 c2 H. apply F1 in H. unfold twin_end in H. destruct (f c1) as [[d1 [u|m]]| |], (f c2) as [[d2 v2]| |]; cbn [obind]; try contradiction; try exact I.
    + destruct H as [(H & <-)|((m & E) & _)]; [apply G1, H|discriminate].
    + destruct H as (m & E). discriminate.
    + destruct H as (m & E). discriminate.
    + destruct H as [(H & <-)|(_ & H)]; [left; auto|]. destruct v2 as [u|m2]; [|right; split; [eexists; reflexivity|exact H]].
      apply (G2 r) in H. unfold keeps_op in H. unfold twin_op. destruct (a r d2) as [[[r3 d3] v3]| |]; [right; split; [eexists; reflexivity|exact H]| |]; eexists; reflexivity.
    + eexists. reflexivity.
    + eexists. reflexivity.
  - intros r c c2 H. apply F2 in H. unfold keeps_end in H. destruct (f c2) as [[d2 [u|m]]| |]; cbn [obind]; try exact I; [apply G2, H|exact H].
Qed.
Lemma kin_method {X} (op : rj -> outcome (rj * X)) (a : X -> action B) : (forall x, kin_action (a x)) -> kin_action (fun r c => do (r, x) <- op r; a x r c).
Proof.
  intros H. split.
  - intros r c1 c2 Hc. destruct (op r) as [[r' x]| |]; cbn [obind]; try exact I. apply H, Hc.
  - intros r c c2 Hc. destruct (op r) as [[r' x]| |]; cbn [obind]; try exact I. apply H, Hc.
Qed.
(** A string goes from the parser to the writer. *)
Context (outw : B -> writer) (setw : B -> writer -> B).
Context (Rout : forall c1 c2, R c1 c2 -> sync (outw c1) (outw c2)) (Rset : forall c1 c2 w1 w2, R c1 c2 -> sync w1 w2 -> R (setw c1 w1) (setw c2 w2)).
Context (Dout : forall c1 c2, D c1 c2 <-> lost (outw c1) (outw c2)) (outset : forall c w, outw (setw c w) = w).
Lemma kin_long (a : result unit rerror -> action B) : (forall v, kin_action (a v)) -> (forall e r c, exists r' c' m, a (Err e) r c = Done (r', c', OpError m) /\ outw c' = outw c) ->
  kin_action (fun r c => do (r, w, v) <- write_long_bytes r (outw c); a v r (setw c w)).
Proof.
  intros H He.
  assert (K : forall r c c2, D c c2 -> keeps_op D c (do (r, w, v) <- write_long_bytes r (outw c2); a v r (setw c2 w))).
  { intros r c c2 Hd. pose proof (long_spent j_known_bytes bytes_segment (fuel_for (bf r)) r (outw c2)) as Hl. fold (write_long_bytes r (outw c2)) in Hl.
    destruct (write_long_bytes r (outw c2)) as [[[r' w'] v]| |]; cbn [obind]; try exact I. destruct Hl as (p & Hp). apply H. apply Dout. rewrite outset. apply Dout in Hd. eapply lost_second; eassumption. }
  split; [|exact K].
  intros r c1 c2 Hc. pose proof (sync_long j_known_bytes bytes_segment (fuel_for (bf r)) r _ _ (Rout _ _ Hc)) as Hl.
  fold (write_long_bytes r (outw c1)) in Hl. fold (write_long_bytes r (outw c2)) in Hl.
  destruct (write_long_bytes r (outw c1)) as [[[r1 w1] v1]| |], (write_long_bytes r (outw c2)) as [[[r2 w2] v2]| |]; cbn [obind]; try contradiction; try exact I.
  - destruct Hl as [(<- & <- & Hl)|((e & k & -> & _) & Hl)]; [apply H, Rset; assumption|]. destruct (He e r1 (setw c1 w1)) as (r3 & c3 & m & -> & Ho).
    assert (Hd : D c3 (setw c2 w2)) by (apply Dout; rewrite Ho, !outset; exact Hl). apply (H v2) with (r := r2) in Hd. unfold keeps_op in Hd. unfold twin_op.
    destruct (a v2 r2 (setw c2 w2)) as [[[r4 c4] o4]| |]; [right; split; [eexists; reflexivity|exact Hd]| |]; eexists; reflexivity.
  - destruct Hl as (e & ->). destruct (He e r1 (setw c1 w1)) as (r3 & c3 & m & -> & Ho). eexists. reflexivity.
  - destruct Hl as (e & ->). destruct (He e r1 (setw c1 w1)) as (r3 & c3 & m & -> & Ho). eexists. reflexivity.
Qed.
End Steps.

(** ** What the converters share *)
Definition same_conv (c1 c2 : conv) : Prop := sync (cout c1) (cout c2) /\ c2 = set_cout c1 (cout c2).
Definition lost_conv (c1 c2 : conv) : Prop := lost (cout c1) (cout c2).
Notation kstep := (kin_step same_conv lost_conv).
Notation kaction := (kin_action same_conv lost_conv).
Lemma same_fields c1 c2 : same_conv c1 c2 -> pending c1 = pending c2 /\ pretty c1 = pretty c2 /\ field c1 = field c2 /\ level c1 = level c2 /\ last_error c1 = last_error c2.
Proof. intros (_ & ->). repeat split. Qed.
Lemma kput d context : kstep (put d context).
Proof.
  split.
  - intros c1 c2 (Hs & E). unfold put. destruct (sync_write (cout c1) (cout c2) d Hs) as (w1' & w2' & r & -> & -> & Hr). destruct r as [u|k].
    + left. split; [|reflexivity]. split; [exact Hr|]. rewrite E. reflexivity.
    + right. split; [eexists; reflexivity|apply Hr].
  - intros c c2 H. unfold put. destruct (write_open (cout c2) d (lost_open _ _ H)) as (w' & -> & Hs). cbn. unfold lost_conv. cbn. eapply lost_second; eassumption.
Qed.
Lemma kchange f : (forall c w, f (set_cout c w) = set_cout (f c) w) -> (forall c, cout (f c) = cout c) -> kstep (change_to f).
Proof.
  intros H1 H2. apply kin_change.
  - intros c1 c2 (Hs & E). split; rewrite !H2; [exact Hs|]. rewrite E at 1. rewrite H1. f_equal.
  - intros c c2. unfold lost_conv. rewrite H2. auto.
Qed.
Lemma kcomma b : kstep (comma_is b).
Proof. apply kchange; reflexivity. Qed.
Lemma kdeeper : kstep deeper.
Proof. apply kchange; reflexivity. Qed.
Lemma kshallower : kstep shallower.
Proof.
  split.
  - intros c1 c2 H. pose proof H as (Hs & E). unfold shallower. destruct (same_fields _ _ H) as (_ & _ & _ & <- & _). destruct (level c1) as [|n]; [exact I|].
    left. split; [split; [exact Hs|rewrite E; reflexivity]|reflexivity].
  - intros c c2 H. unfold shallower. destruct (level c2); [exact I|exact H].
Qed.
Lemma knewline : kstep newline.
Proof. apply (kin_if _ _ pretty); [intros c1 c2 H; apply (same_fields _ _ H)|apply kput|apply kin_skip]. Qed.
Lemma kwrite_comma : kstep write_comma.
Proof.
  apply (kin_if _ _ pending); [intros c1 c2 H; apply (same_fields _ _ H)| |apply kin_skip].
  apply kin_then; [apply kput|]. apply kin_then; [apply knewline|apply (kcomma false)].
Qed.
Lemma kindents n : kstep (indents n).
Proof. induction n as [|n IH]; cbn [indents]; [apply kin_skip|apply kin_then; [apply kput|exact IH]]. Qed.
Lemma kindent : kstep indent.
Proof.
  apply (kin_if _ _ pretty); [intros c1 c2 H; apply (same_fields _ _ H)| |apply kin_skip]. split.
  - intros c1 c2 H. pose proof (same_fields _ _ H) as (_ & _ & _ & <- & _). apply kindents, H.
  - intros c c2 H. apply kindents, H.
Qed.

Ltac ksteps := repeat match goal with
  | |- kstep (_ ;; _) => apply kin_then
  | |- kstep (put _ _) => apply kput
  | |- kstep (comma_is _) => apply kcomma
  | |- kstep deeper => apply kdeeper
  | |- kstep shallower => apply kshallower
  | |- kstep newline => apply knewline
  | |- kstep write_comma => apply kwrite_comma
  | |- kstep indent => apply kindent
  | |- kstep skip => apply kin_skip
  | |- kstep close_atom => unfold close_atom
  end.
Lemma kanswer op : kaction (fun r c => Done (r, c, op)).
Proof. apply (kin_answer _ _ (fun c => c)); auto. Qed.
Lemma kfield (a : bytes -> action conv) (b : action conv) : (forall k, kaction (a k)) -> kaction b -> kaction (fun r c => match field c with None => b r c | Some k => a k r c end).
Proof.
  intros Ha Hb. split.
  - intros r c1 c2 H. destruct (same_fields _ _ H) as (_ & _ & <- & _). destruct (field c1); [apply Ha, H|apply Hb, H].
  - intros r c c2 H. destruct (field c2); [apply Ha, H|apply Hb, H].
Qed.

(** ** To DynamoDB *)
Lemma kclose_atom : kstep close_atom.
Proof. unfold close_atom. ksteps. Qed.
Lemma kstring : kaction on_string_value.
Proof.
  unfold on_string_value. apply (kin_first _ _ _ (fun r c => do (r, w, v) <- write_long_bytes r (cout c);
      let c := set_cout c w in
      match v with
      | Err _ => Done (r, c, OpError "Failed to write string value")
      | Ok _ => act_of (put [QUOTE] "writing S type closing quote" ;; close_atom) ValueIsConsumed r c
      end)); [ksteps|].
  apply (kin_long same_conv lost_conv cout set_cout) with (a := fun v r c => match v with
      | Err _ => Done (r, c, OpError "Failed to write string value")
      | Ok _ => act_of (put [QUOTE] "writing S type closing quote" ;; close_atom) ValueIsConsumed r c
      end).
  - intros c1 c2 (H & _). exact H.
  - intros c1 c2 w1 w2 (_ & E) H. split; [exact H|]. rewrite E. reflexivity.
  - intros c1 c2. reflexivity.
  - reflexivity.
  - intros [v|v]; [apply kin_act_of, kin_then; [apply kput|apply kclose_atom]|apply kanswer].
  - intros e r c. eexists _, _, _. split; reflexivity.
Qed.
Lemma kbool : kaction on_bool_value.
Proof.
  unfold on_bool_value. refine (kin_method _ _ peek (fun v r c => match v with Ok p => _ | Err _ => Done (r, c, OpError "Failed to peek boolean value") end) _). intros [p|e]; [|apply kanswer].
  apply (kin_first _ _ indent (fun r c => if N.eqb p PeekTrue then
            do (r, _) <- known_bool p r;
            act_of (put (bs """BOOL"":true") "writing BOOL true" ;; close_atom) ValueIsConsumed r c
          else if N.eqb p PeekFalse then
            do (r, _) <- known_bool p r;
            act_of (put (bs """BOOL"":false") "writing BOOL false" ;; close_atom) ValueIsConsumed r c
          else Done (r, c, OpError "Expected boolean value"))); [apply kindent|].
  destruct (N.eqb p PeekTrue); [|destruct (N.eqb p PeekFalse); [|apply kanswer]].
  - apply (kin_method _ _ (known_bool p)). intros _. apply kin_act_of, kin_then; [apply kput|apply kclose_atom].
  - apply (kin_method _ _ (known_bool p)). intros _. apply kin_act_of, kin_then; [apply kput|apply kclose_atom].
Qed.
Lemma knull : kaction on_null_value.
Proof.
  unfold on_null_value. refine (kin_method _ _ peek (fun v r c => match v with Ok p => _ | Err _ => Done (r, c, OpError "Failed to peek null value") end) _). intros [p|e]; [|apply kanswer].
  destruct (N.eqb p PeekNull); [|apply kanswer]. apply (kin_method _ _ known_null). intros _. apply kin_act_of. ksteps. 
Qed.
Lemma katom : kaction on_atom_value.
Proof.
  unfold on_atom_value. apply (kin_first _ _ write_comma (fun r c => do (r, v) <- peek r;
      match v with
      | Err _ => Done (r, c, OpError "Failed to peek atom value")
      | Ok p =>
          if N.eqb p QUOTE then on_string_value r c
          else if N.eqb p PeekTrue || N.eqb p PeekFalse then on_bool_value r c
          else if N.eqb p PeekNull then on_null_value r c
          else
            do (r, v) <- next_number_bytes r;
            match v with
            | Err _ => Done (r, c, OpError "Failed to parse number")
            | Ok number =>
                act_of (indent ;; put (bs """N"":""") "writing N type opening" ;;
                        put (firstn 32 number) "writing number value" ;;
                        put [QUOTE] "writing N type closing quote" ;; close_atom) ValueIsConsumed r c
            end
      end)); [apply kwrite_comma|].
  refine (kin_method _ _ peek (fun v r c => match v with Ok p => _ | Err _ => Done (r, c, OpError "Failed to peek atom value") end) _). intros [p|e]; [|apply kanswer].
  destruct (N.eqb p QUOTE); [apply kstring|]. destruct (N.eqb p PeekTrue || N.eqb p PeekFalse); [apply kbool|]. destruct (N.eqb p PeekNull); [apply knull|].
  refine (kin_method _ _ next_number_bytes (fun v r c => match v with Ok number => _ | Err _ => Done (r, c, OpError "Failed to parse number") end) _). intros [n|e]; [|apply kanswer].
  apply kin_act_of. ksteps.
Qed.
Lemma kroot_literal : kaction on_root_literal.
Proof.
  unfold on_root_literal. apply (kin_first _ _ (put [LBRACE] "writing root literal opening brace" ;; deeper) (fun r c => do (r, c, op) <- on_atom_value r c;
      act_of (put [10%N] "writing final newline" ;; comma_is false) op r c)); [ksteps|].
  assert (K : forall op, kaction (act_of (put [10%N] "writing final newline" ;; comma_is false) op)) by (intros op; apply kin_act_of; ksteps).
  destruct katom as (A1 & A2). split.
  - intros r c1 c2 H. apply (A1 r) in H. unfold twin_op in H. destruct (on_atom_value r c1) as [[[r1 d1] o1]| |]; [|destruct (on_atom_value r c2) as [[[r2 d2] o2]| |]; cbn; assumption || contradiction ..].
    assert (E1 : forall m, exists d' m', act_of (put [10%N] "writing final newline" ;; comma_is false) (OpError m) r1 d1 = Done (r1, d', OpError m') /\ exists p, spent (cout d1) p (cout d')).
    { intros m. unfold act_of, and_then, put. destruct (write_all_spent (cout d1) [10%N]) as (w' & v & -> & Hv). destruct v as [u|k]; cbn.
      - eexists _, _. split; [reflexivity|]. cbn. eauto.
      - eexists _, _. split; [reflexivity|]. cbn. destruct Hv as (p & q & _ & _ & Hp & _). eauto. }
    cbn [obind]. destruct (on_atom_value r c2) as [[[r2 d2] o2]| |]; cbn [obind].
    + destruct H as [(<- & H & <-)|((m & ->) & H)]; [apply K, H|]. destruct (E1 m) as (d' & m' & -> & p & Hp).
      assert (Hd : lost_conv d' d2) by (eapply lost_first; eassumption). apply (K o2) with (r := r2) in Hd. unfold keeps_op in Hd. unfold twin_op.
      destruct (act_of _ o2 r2 d2) as [[[r4 c4] o4]| |]; [right; split; [eexists; reflexivity|exact Hd]| |]; eexists; reflexivity.
    + destruct H as (m & ->). destruct (E1 m) as (d' & m' & -> & p & Hp). eexists. reflexivity.
    + destruct H as (m & ->). destruct (E1 m) as (d' & m' & -> & p & Hp). eexists. reflexivity.
  - intros r c c2 H. apply (A2 r) in H. unfold keeps_op in H. destruct (on_atom_value r c2) as [[[r2 d2] o2]| |]; cbn [obind]; try exact I. apply K, H.
Qed.
Lemma karray_begin : kstep array_begin.
Proof. unfold array_begin. ksteps. Qed.
Lemma knested_begin : kstep nested_object_begin.
Proof. unfold nested_object_begin. ksteps. Qed.
Lemma kelement : kstep element_begin.
Proof. unfold element_begin. ksteps. Qed.
Lemma kend_nested : kstep on_nested_object_end.
Proof. unfold on_nested_object_end. ksteps. Qed.
Lemma kend_array : kstep on_array_end.
Proof. unfold on_array_end. ksteps. Qed.
Lemma kend_root wrapper : kstep (NormalToDdb.on_root_object_end wrapper).
Proof. unfold NormalToDdb.on_root_object_end. destruct wrapper; ksteps. Qed.
Lemma kfield_key : kaction NormalToDdb.on_field_key.
Proof.
  refine (kfield (fun name => _) (fun r c => Done (r, c, OpError _)) _ _); [|apply kanswer]. intros name. apply kin_act_of. ksteps.
Qed.
Lemma kset_field c1 c2 k : same_conv c1 c2 -> same_conv (set_field c1 k) (set_field c2 k).
Proof. intros (H & E). split; [exact H|]. rewrite E. reflexivity. Qed.
(** What a lookup does is the same for both states. *)
Definition found_at {B X} (R D : B -> B -> Prop) (Q : X -> Prop) (find : B -> B * option X) (c : B) : Prop :=
  exists f a, find c = (f c, a) /\ (forall c2, R c c2 -> find c2 = (f c2, a)) /\ (forall c1 c2, R c1 c2 -> R (f c1) (f c2)) /\ (forall c c2, D c c2 -> D c (f c2)) /\ match a with Some x => Q x | None => True end.
Definition found {B X} (R D : B -> B -> Prop) (Q : X -> Prop) (find : B -> B * option X) : Prop := forall c, found_at R D Q find c.
Lemma found_here {B X} (R D : B -> B -> Prop) (Q : X -> Prop) a : match a with Some x => Q x | None => True end -> found R D Q (fun c => (c, a)).
Proof. intros H c. exists (fun c => c), a. repeat split; auto. Qed.
Lemma kfind_begin wrapper name x : found same_conv lost_conv kaction (n2d_find_action wrapper name x).
Proof.
  unfold n2d_find_action. destruct (names x) as [|parent path].
  { apply found_here. destruct name; try exact I; [apply kin_act_of, karray_begin|apply katom]. }
  destruct (beq parent (bs "#top")).
  { apply found_here. destruct name; try exact I; [apply kin_act_of; ksteps; apply karray_begin|apply kin_act_of; destruct wrapper; ksteps|apply kroot_literal]. }
  destruct name.
  - apply found_here. destruct (beq parent (bs "#array")); apply kin_act_of; [apply kin_then; [apply kelement|]|]; apply karray_begin.
  - apply found_here. destruct (beq parent (bs "#array")); apply kin_act_of; [apply kin_then; [apply kelement|]|]; apply knested_begin.
  - apply found_here. destruct (beq parent (bs "#array")); [|apply katom]. apply (kin_first _ _ element_begin on_atom_value); [apply kelement|apply katom].
  - intros c0. eexists (fun c => set_field c parent), _. split; [reflexivity|]. split; [reflexivity|]. split; [intros c1 c2 H; apply kset_field, H|]. split; [intros c c2 H; exact H|]. apply kfield_key.
Qed.
Lemma kfind_end wrapper name x : found same_conv lost_conv kstep (n2d_find_end_action wrapper name x).
Proof.
  unfold n2d_find_end_action. apply found_here. destruct (names x) as [|parent path]; [exact I|]. destruct (beq parent (bs "#top")); destruct name; try exact I.
  - apply kin_then; [apply kend_array|apply kput].
  - apply kend_root.
  - apply kend_array.
  - apply kend_nested.
  - destruct (beq parent (bs "#array")); [|exact I]. destruct path as [|g ?]; [exact I|]. destruct (beq g (bs "L")); [apply kin_skip|exact I].
Qed.
Lemma found_twins {B} (R D : B -> B -> Prop) cb : (forall name x, found R D (kin_action R D) (find_action cb name x)) ->
  (forall name x, found R D (kin_step R D) (find_end_action cb name x)) -> twins R D cb.
Proof.
  intros HB HE. split.
  - intros name x r u1 u2 H. destruct (HB name x u1) as (f & a & E & E2 & F1 & F2 & Ha). rewrite E, (E2 _ H). destruct a as [a|]; [apply Ha, F1, H|apply F1, H].
  - intros name x u1 u2 H. destruct (HE name x u1) as (f & a & E & E2 & F1 & F2 & Ha). rewrite E, (E2 _ H). destruct a as [a|]; [split; [apply F1, H|apply Ha, F1, H]|apply F1, H].
  - intros name x r u u2 H. destruct (HB name x u2) as (f & a & E & _ & F1 & F2 & Ha). rewrite E. destruct a as [a|]; [apply Ha, F2, H|apply F2, H].
  - intros name x u u2 H. destruct (HE name x u2) as (f & a & E & _ & F1 & F2 & Ha). rewrite E. destruct a as [a|]; [split; [apply F2, H|apply Ha, F2, H]|apply F2, H].
Qed.
Lemma n2d_twins wrapper : twins same_conv lost_conv (n2d_callbacks wrapper).
Proof. apply found_twins; [apply kfind_begin|apply kfind_end]. Qed.

(** ** From DynamoDB *)
Definition same_d2n (c1 c2 : d2n) : Prop := same_conv (base c1) (base c2) /\ at_phase c1 = at_phase c2 /\ current_type c1 = current_type c2.
Definition lost_d2n (c1 c2 : d2n) : Prop := lost_conv (base c1) (base c2).
Notation dstep := (kin_step same_d2n lost_d2n).
Notation daction := (kin_action same_d2n lost_d2n).
Lemma dbase f : kstep f -> dstep (on_base f).
Proof.
  intros (F1 & F2). split.
  - intros c1 c2 (H & Hp & Ht). apply F1 in H. unfold on_base. destruct (f (base c1)) as [[d1 v1]| |], (f (base c2)) as [[d2 v2]| |]; cbn in *; try contradiction; try exact I; try exact H.
    destruct H as [(H & <-)|H]; [left; split; [split; [exact H|split; assumption]|reflexivity]|right; exact H].
  - intros c c2 H. apply F2 in H. unfold on_base. destruct (f (base c2)) as [[d2 v2]| |]; exact H || exact I.
Qed.
Lemma dphase p : dstep (phase_is p).
Proof. apply kin_change; [intros c1 c2 (H & _ & Ht); split; [exact H|split; [reflexivity|exact Ht]]|intros c c2 H; exact H]. Qed.
Lemma dtype t : dstep (type_is t).
Proof. apply kin_change; [intros c1 c2 (H & Hp & _); split; [exact H|split; [exact Hp|reflexivity]]|intros c c2 H; exact H]. Qed.
Ltac dsteps := repeat match goal with
  | |- dstep (_ ;; _) => apply kin_then
  | |- dstep (phase_is _) => apply dphase
  | |- dstep (type_is _) => apply dtype
  | |- dstep (on_base _) => apply dbase; ksteps
  end.
(** Changes of the state that leave the writer alone. *)
Definition mild (f : d2n -> d2n) : Prop := (forall c1 c2, same_d2n c1 c2 -> same_d2n (f c1) (f c2)) /\ (forall c c2, lost_d2n c c2 -> lost_d2n c (f c2)) /\ (forall c, cout (base (f c)) = cout (base c)).
Lemma mild_id : mild (fun c => c).
Proof. split; [|split]; auto. Qed.
Lemma mild_error e : mild (fun c => set_base c (set_error (base c) e)).
Proof.
  split; [|split; [intros c c2 H; exact H|reflexivity]]. intros c1 c2 ((H & E) & Hp & Ht). split; [|split; assumption]. split; [exact H|]. cbn [base set_base]. rewrite E. reflexivity.
Qed.
Lemma mild_field k : mild (fun c => set_base c (set_field (base c) k)).
Proof. split; [|split; [intros c c2 H; exact H|reflexivity]]. intros c1 c2 (H & Hp & Ht). split; [apply kset_field, H|split; assumption]. Qed.
Lemma mild_phase p : mild (fun c => set_phase c p).
Proof. split; [|split; [intros c c2 H; exact H|reflexivity]]. intros c1 c2 (H & Hp & Ht). split; [exact H|split; [reflexivity|assumption]]. Qed.
Lemma mild_type t : mild (fun c => set_type c t).
Proof. split; [|split; [intros c c2 H; exact H|reflexivity]]. intros c1 c2 (H & Hp & Ht). split; [exact H|split; [assumption|reflexivity]]. Qed.
Lemma mild_both f g : mild f -> mild g -> mild (fun c => g (f c)).
Proof. intros (F1 & F2 & F3) (G1 & G2 & G3). split; [|split]; auto. intros c. rewrite G3. apply F3. Qed.
Lemma danswer f op : mild f -> daction (fun r c => Done (r, f c, op)).
Proof. intros (F1 & F2 & _). apply (kin_answer _ _ f); auto. Qed.
Lemma dfinally f a : mild f -> daction a -> daction (finally f a).
Proof.
  intros (F1 & F2 & F3) (A1 & A2). split.
  - intros r c1 c2 H. apply (A1 r) in H. unfold finally. destruct (a r c1) as [[[r1 d1] o1]| |], (a r c2) as [[[r2 d2] o2]| |]; cbn in *; try contradiction; try exact I; try exact H.
    destruct H as [(<- & H & <-)|(Hm & H)]; [left; auto|right; split; [exact Hm|]]. unfold lost_d2n, lost_conv. rewrite !F3. exact H.
  - intros r c c2 H. apply (A2 r) in H. unfold finally. destruct (a r c2) as [[[r2 d2] o2]| |]; cbn in *; auto.
Qed.
Lemma dfield (a : bytes -> action d2n) (b : action d2n) : (forall k, daction (a k)) -> daction b -> daction (fun r c => match field (base c) with None => b r c | Some k => a k r c end).
Proof.
  intros Ha Hb. split.
  - intros r c1 c2 H. pose proof H as (H1 & _). destruct (same_fields _ _ H1) as (_ & _ & <- & _). destruct (field (base c1)); [apply Ha, H|apply Hb, H].
  - intros r c c2 H. destruct (field (base c2)); [apply Ha, H|apply Hb, H].
Qed.
Lemma dstring q pc wc : daction (write_string_value q pc wc).
Proof.
  unfold write_string_value. refine (kin_method _ _ peek (fun v r c => match v with Ok p => _ | Err e => Done (r, store_rjiter_error c e pc, OpError "Failed to peek string value") end) _).
  intros [p|e]; [|apply (danswer (fun c => store_rjiter_error c e pc)), mild_error]. destruct (negb (N.eqb p QUOTE)); [apply (danswer (fun c => c)), mild_id|].
  apply (kin_first _ _ (on_base (write_comma ;; if q then put [QUOTE] "writing opening quote" else skip)) (fun r c =>
            do (r, w, v) <- write_long_bytes r (cout (base c));
            let c := set_base c (set_cout (base c) w) in
            match v with
            | Err e => Done (r, store_rjiter_error c e wc, OpError "Failed to write value")
            | Ok _ =>
                act_of (on_base ((if q then put [QUOTE] "writing closing quote" else skip) ;; comma_is true))
                  ValueIsConsumed r c
            end)); [apply dbase; destruct q; ksteps|].
  apply (kin_long same_d2n lost_d2n (fun c => cout (base c)) (fun c w => set_base c (set_cout (base c) w))) with (a := fun v r c => match v with
            | Err e => Done (r, store_rjiter_error c e wc, OpError "Failed to write value")
            | Ok _ =>
                act_of (on_base ((if q then put [QUOTE] "writing closing quote" else skip) ;; comma_is true))
                  ValueIsConsumed r c
            end).
  - intros c1 c2 ((H & _) & _). exact H.
  - intros c1 c2 w1 w2 ((_ & E) & Hp & Ht) H. split; [|split; assumption]. split; [exact H|]. cbn [base set_base]. rewrite E. reflexivity.
  - intros c1 c2. reflexivity.
  - reflexivity.
  - intros [v|v]; [apply kin_act_of, dbase; destruct q; ksteps|apply (danswer (fun c => store_rjiter_error c v wc)), mild_error].
  - intros e r c. eexists _, _, _. split; reflexivity.
Qed.
Lemma dbool validate name : daction (handle_bool_based_type validate name).
Proof.
  unfold handle_bool_based_type. refine (kin_method _ _ peek (fun v r c => match v with Ok p => _ | Err e => Done (r, store_rjiter_error c e name, OpError "Failed to peek value") end) _).
  intros [p|e]; [|apply (danswer (fun c => store_rjiter_error c e name)), mild_error]. destruct (validate p) as [output|m]; [|apply (danswer (fun c => c)), mild_id].
  apply (kin_first _ _ (on_base write_comma) (fun r c => do (r, v) <- known_bool p r;
              match v with
              | Err e => Done (r, store_rjiter_error c e name, OpError "Failed to consume boolean value")
              | Ok _ => act_of (on_base (put output name ;; comma_is true) ;; type_is None) ValueIsConsumed r c
              end)); [dsteps|].
  refine (kin_method _ _ (known_bool p) (fun v r c => match v with Ok _ => _ | Err e => Done (r, store_rjiter_error c e name, OpError "Failed to consume boolean value") end) _).
  intros [v|e]; [apply kin_act_of; dsteps|apply (danswer (fun c => store_rjiter_error c e name)), mild_error].
Qed.
Lemma dtype_key : daction on_type_key.
Proof.
  refine (dfield (fun key => _) (fun r c => Done (r, c, OpError _)) _ _); [|apply (danswer (fun c => c)), mild_id]. intros key.
  repeat match goal with |- context [if ?t then _ else _] => destruct t end; try solve [apply kin_act_of; dsteps].
  - apply dfinally; [apply (mild_both (fun c => set_type c None) (fun c => set_phase c ExpectingValue)); [apply mild_type|apply mild_phase]|apply dstring].
  - apply dfinally; [apply (mild_both (fun c => set_type c None) (fun c => set_phase c ExpectingValue)); [apply mild_type|apply mild_phase]|apply dstring].
  - apply dfinally; [apply mild_phase|apply dbool].
  - apply dfinally; [apply mild_phase|apply dbool].
  - apply (danswer (fun c => store_parse_error c _ _)), mild_error.
Qed.
Lemma dfield_key : daction DdbToNormal.on_field_key.
Proof. refine (dfield (fun key => _) (fun r c => Done (r, c, OpError _)) _ _); [|apply (danswer (fun c => c)), mild_id]. intros key. apply kin_act_of. dsteps. Qed.
Lemma derror : daction on_error.
Proof. apply (danswer (fun c => c)), mild_id. Qed.
Lemma droot : daction DdbToNormal.on_root_object_begin.
Proof. apply kin_act_of, dbase. ksteps. apply kchange; reflexivity. Qed.
Lemma at_mild (Q : action d2n -> Prop) c f a find : mild f -> find c = (f c, a) -> (forall c2, same_d2n c c2 -> find c2 = (f c2, a)) -> match a with Some x => Q x | None => True end -> found_at same_d2n lost_d2n Q find c.
Proof. intros (F1 & F2 & _) E1 E2 Ha. exists f, a. auto. Qed.
Lemma at_same {X} (Q : X -> Prop) c a find : find c = (c, a) -> (forall c2, same_d2n c c2 -> find c2 = (c2, a)) -> match a with Some x => Q x | None => True end -> found_at same_d2n lost_d2n Q find c.
Proof. intros E1 E2 Ha. exists (fun c => c), a. auto. Qed.
Lemma at_error c m u find : find c = (store_parse_error c m u, Some on_error) -> (forall c2, same_d2n c c2 -> find c2 = (store_parse_error c2 m u, Some on_error)) -> found_at same_d2n lost_d2n daction find c.
Proof. intros E1 E2. apply (at_mild _ c (fun c => store_parse_error c m u) (Some on_error) find); [apply mild_error|exact E1|exact E2|apply derror]. Qed.
Lemma at_note c k a find : find c = (set_base c (set_field (base c) k), Some a) -> (forall c2, same_d2n c c2 -> find c2 = (set_base c2 (set_field (base c2) k), Some a)) -> daction a -> found_at same_d2n lost_d2n daction find c.
Proof. intros E1 E2 Ha. apply (at_mild _ c (fun c => set_base c (set_field (base c) k)) (Some a) find); [apply mild_field|exact E1|exact E2|exact Ha]. Qed.
Lemma same_d2n_fields c e : same_d2n c e -> at_phase e = at_phase c /\ current_type e = current_type c /\ level (base e) = level (base c).
Proof. intros (H & Hp & Ht). repeat split; [symmetry; exact Hp|symmetry; exact Ht|]. symmetry. apply (same_fields _ _ H). Qed.
Ltac other := let c2 := fresh "c" in let H := fresh "H" in let H1 := fresh in let H2 := fresh in let H3 := fresh in
  intros c2 H; apply same_d2n_fields in H as (H1 & H2 & H3); cbv beta zeta; rewrite ?H1, ?H2, ?H3;
  repeat match goal with E : _ = _ |- _ => rewrite E end; reflexivity.
Ltac same_here := solve [apply at_same with (a := None); [cbv beta zeta; repeat match goal with E : _ = _ |- _ => rewrite E end; reflexivity|other|exact I]].
Ltac error_here := solve [eapply at_error; [cbv beta zeta; repeat match goal with E : _ = _ |- _ => rewrite E end; reflexivity|other]].
Lemma dfind_begin mode name x : found same_d2n lost_d2n daction (d2n_find_action mode name x).
Proof.
  intros c. destruct name; unfold d2n_find_action; cbv beta iota.
  - unfold find_action_array. destruct (current_type c) as [[]|] eqn:E; try same_here; try error_here.
    apply (at_mild _ c (fun c => set_type c None) None); [apply mild_type|rewrite E; reflexivity|other|exact I].
  - unfold find_action_object. destruct (level (base c) =? 0) eqn:E; [apply at_same with (a := Some DdbToNormal.on_root_object_begin); [cbv beta zeta; rewrite E; reflexivity|other|apply droot]|].
    destruct (at_phase c) eqn:Ep; try same_here; try error_here.
    + destruct (current_type c) as [[]|] eqn:Et; try same_here; try error_here.
    + destruct (parent_is (bs "#array") (names x)) eqn:Ea; try same_here; try error_here.
  - unfold find_action_atom. destruct (at_phase c) eqn:Ep; try error_here. destruct (parent_is (bs "#array") (names x)) eqn:Ea; try error_here.
    destruct (current_type c) as [[]|] eqn:Et; try error_here.
    + apply at_same with (a := Some on_set_string_element); [cbv beta zeta; rewrite ?Ep, ?Ea, ?Et; reflexivity|other|apply dstring].
    + apply at_same with (a := Some on_set_number_element); [cbv beta zeta; rewrite ?Ep, ?Ea, ?Et; reflexivity|other|apply dstring].
  - unfold find_action_key. destruct (names x) as [|key path]; [same_here|]. destruct (at_phase c) eqn:Ep.
    + destruct (beq key (bs "Item") && match mode with AsWrapper => parent_is (bs "#top") path | AsField => false end) eqn:Eb; [same_here|].
      eapply at_note; [cbv beta zeta; rewrite ?Ep, ?Eb; reflexivity|other|apply dfield_key].
    + eapply at_note; [cbv beta zeta; rewrite Ep; reflexivity|other|apply dtype_key].
    + destruct (in_set (current_type c)) eqn:Eb; [|error_here]. eapply at_note; [cbv beta zeta; rewrite ?Ep, ?Eb; reflexivity|other|apply dtype_key].
    + eapply at_note; [cbv beta zeta; rewrite Ep; reflexivity|other|apply dfield_key].
Qed.
Lemma dlist_end : dstep on_list_end.
Proof.
  assert (K : dstep (on_base (put [RBRACK] "writing L closing bracket" ;; comma_is true) ;; phase_is ExpectingValue ;; type_is None)) by dsteps. split.
  - intros c1 c2 H. unfold on_list_end. destruct (same_d2n_fields _ _ H) as (-> & _). destruct (at_phase c1); [left; auto|apply K, H|left; auto|left; auto].
  - intros c c2 H. unfold on_list_end. destruct (at_phase c2); [exact H|apply K, H|exact H|exact H].
Qed.
Lemma dmap_end : dstep on_map_end.
Proof. unfold on_map_end. dsteps. Qed.
Lemma dfind_end mode name x : found same_d2n lost_d2n dstep (d2n_find_end_action mode name x).
Proof.
  intros c. unfold d2n_find_end_action. destruct name; cbv beta iota.
  - destruct (at_phase c) eqn:Ep; try same_here.
    + apply at_same with (a := Some on_list_end); [cbv beta zeta; rewrite Ep; reflexivity|other|apply dlist_end].
    + apply at_same with (a := Some on_set_end); [cbv beta zeta; rewrite Ep; reflexivity|other|]. unfold on_set_end. dsteps.
  - apply found_here. destruct (ctx_len x =? 1); [|exact I]. unfold DdbToNormal.on_root_object_end. dsteps. apply kchange; reflexivity.
  - apply found_here. exact I.
  - assert (Ha : dstep on_map_end_in_array) by (unfold on_map_end_in_array; apply kin_then; [apply dmap_end|apply dphase]).
    apply at_same with (a := find_end_action_key mode (names x) c); [reflexivity| |].
    + intros c2 H. apply same_d2n_fields in H as (H1 & _). unfold find_end_action_key. rewrite H1. reflexivity.
    + unfold find_end_action_key. destruct (names x) as [|key path]; [exact I|]. destruct (at_phase c).
      * cbv zeta. destruct (_ && _ && _); [exact I|]. destruct (parent_is _ _); [exact Ha|apply dmap_end].
      * destruct (is_container key); [exact I|apply dphase].
      * destruct (parent_is _ _); apply dphase.
      * destruct (parent_is _ _); apply dphase.
Qed.
Lemma d2n_twins mode : twins same_d2n lost_d2n (d2n_callbacks mode).
Proof. apply found_twins; [apply dfind_begin|apply dfind_end]. Qed.

(** ** The entry points *)
Definition twin_results (x1 x2 : outcome (writer * result unit (conversion_error * nat))) : Prop :=
  match x1, x2 with
  | Done (w1, v1), Done (w2, v2) => (sync w1 w2 /\ v1 = v2) \/ (exists e, v1 = Err e) /\ lost w1 w2
  | Done (_, v1), _ => exists e, v1 = Err e
  | Panic, Panic | Diverge, Diverge => True
  | _, _ => False
  end.
Lemma convert_twin {B} (R D : B -> B -> Prop) (cb : callbacks B) (cv : B -> conv) slots fuel rd rb xb u1 u2 : twins R D cb ->
  (forall c1 c2, R c1 c2 -> same_conv (cv c1) (cv c2)) -> (forall c1 c2, D c1 c2 -> lost_conv (cv c1) (cv c2)) -> R u1 u2 ->
  twin_results (do (c, v) <- convert cb cv slots fuel rd rb xb u1; Done (cout (cv c), v)) (do (c, v) <- convert cb cv slots fuel rd rb xb u2; Done (cout (cv c), v)).
Proof.
  intros T HR HD Hu. unfold convert. destruct (pool_new true xb slots) as [[p|e]| |]; cbn [obind]; try exact I.
  - destruct (kin_scan R D cb T (mkOptions [] false) fuel) as (K & _). specialize (K (mkS (rj_new rd rb) u1 p) (mkS (rj_new rd rb) u2 p)).
    assert (Hp : pair R (mkS (rj_new rd rb) u1 p) (mkS (rj_new rd rb) u2 p)) by (repeat split; exact Hu). apply K in Hp. clear K. unfold twin in Hp.
    destruct (scan cb _ fuel (mkS (rj_new rd rb) u1 p)) as [[s1 v1]| |], (scan cb _ fuel (mkS (rj_new rd rb) u2 p)) as [[s2 v2]| |]; cbn [obind]; try contradiction; try exact I.
    + destruct Hp as [((Hr & _ & H) & <-)|((e & ->) & H)].
      * left. apply HR in H. split; [apply H|]. destruct (same_fields _ _ H) as (_ & _ & _ & _ & <-). rewrite <- Hr. reflexivity.
      * right. split; [eexists; reflexivity|apply HD, H].
    + destruct Hp as (e & ->). eexists. reflexivity.
    + destruct Hp as (e & ->). eexists. reflexivity.
  - left. split; [apply HR, Hu|reflexivity].
Qed.
End Writers.
Lemma sync_start w1 w2 : sync w1 w2 w1 w2.
Proof. exists []. split; apply spent_refl. Qed.
Lemma n2d_twin fuel rd w1 w2 rb xb pr wr : wfail w2 = None -> twin_results w1 w2 (convert_normal_to_ddb fuel rd w1 rb xb pr wr) (convert_normal_to_ddb fuel rd w2 rb xb pr wr).
Proof.
  intros H. unfold convert_normal_to_ddb. apply (convert_twin w1 w2 (same_conv w1 w2) (lost_conv w1 w2) (n2d_callbacks wr) (fun c => c)); auto.
  - apply n2d_twins, H.
  - split; [apply sync_start|reflexivity].
Qed.
Lemma d2n_twin fuel rd w1 w2 rb xb pr mode : wfail w2 = None -> twin_results w1 w2 (convert_ddb_to_normal fuel rd w1 rb xb pr mode) (convert_ddb_to_normal fuel rd w2 rb xb pr mode).
Proof.
  intros H. unfold convert_ddb_to_normal. apply (convert_twin w1 w2 (same_d2n w1 w2) (lost_d2n w1 w2) (d2n_callbacks mode) base).
  - apply d2n_twins, H.
  - intros c1 c2 Hs. apply Hs.
  - intros c1 c2 Hs. exact Hs.
  - split; [split; [apply sync_start|reflexivity]|split; reflexivity].
Qed.

Lemma twin_prefix w1 n k x1 text v : twin_results w1 (mkWriter [] None) x1 (Done (mkWriter text None, v)) -> wcap w1 = 0 -> wfail w1 = Some (n, k) ->
  exists w' v', x1 = Done (w', v') /\ written w' = written w1 ++ firstn n text /\ if n <? len text then exists e, v' = Err e else v' = v.
Proof.
  intros H Hc Hf. destruct x1 as [[w' v']| |]; try contradiction. exists w', v'. split; [reflexivity|].
  destruct H as [((p & A & B) & ->)|((e & ->) & p & k' & A & B)].
  - apply spent_plain in B. injection B as <-. destruct (spent_prefix _ _ _ _ _ Hc Hf A) as (-> & ->). auto.
  - apply spent_plain in A. injection A as <-. destruct (cut_prefix _ _ _ _ _ _ Hc Hf B) as (_ & -> & ->). split; [reflexivity|exists e; reflexivity].
Qed.
Lemma n2d_prefix fuel rd w rb xb pr wr n k text v : wcap w = 0 -> wfail w = Some (n, k) ->
  convert_normal_to_ddb fuel rd (mkWriter [] None) rb xb pr wr = Done (mkWriter text None, v) ->
  exists w' v', convert_normal_to_ddb fuel rd w rb xb pr wr = Done (w', v') /\ written w' = written w ++ firstn n text /\ if n <? len text then exists e, v' = Err e else v' = v.
Proof. intros Hc Hf E. apply (twin_prefix w n k); [rewrite <- E; apply n2d_twin; reflexivity|exact Hc|exact Hf]. Qed.
Lemma d2n_prefix fuel rd w rb xb pr mode n k text v : wcap w = 0 -> wfail w = Some (n, k) ->
  convert_ddb_to_normal fuel rd (mkWriter [] None) rb xb pr mode = Done (mkWriter text None, v) ->
  exists w' v', convert_ddb_to_normal fuel rd w rb xb pr mode = Done (w', v') /\ written w' = written w ++ firstn n text /\ if n <? len text then exists e, v' = Err e else v' = v.
Proof. intros Hc Hf E. apply (twin_prefix w n k); [rewrite <- E; apply d2n_twin; reflexivity|exact Hc|exact Hf]. Qed.
