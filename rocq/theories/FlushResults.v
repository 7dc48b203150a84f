(** What a converter with the flag [unbuffered] does with a writer, compared with a run that has a writer that takes everything. *)
From Verif Require Import Base U8Pool Buffer Jiter RJiter RJiterLongProofs Scan ScanSpec ScanParser Conv ConvSpec NormalToDdb DdbToNormal IdProofs ConvResults TwinConv FlushConv FlushToDdb FlushFromDdb FlushProofs FlushTwin.

(** ** Flushing *)
Lemma flush_cases w : exists w' r, flush w = (w', r) /\ spent w [] w' /\
  match r with
  | Ok _ => if wcap w =? 0 then held w' = held w else held w' = []
  | Err k => wcap w <> 0 /\ exhausted w' k /\ held w' <> []
  end.
Proof.
  unfold flush. destruct (wcap w =? 0) eqn:Ec.
  { exists w, (Ok tt). split; [reflexivity|]. split; [apply spent_refl|reflexivity]. }
  apply Nat.eqb_neq in Ec as Hc. unfold flush_held, deliver. destruct (wfail w) as [[n k]|] eqn:Ef.
  - destruct (Nat.leb_spec (len (held w)) n) as [H|H]; eexists _, _; (split; [reflexivity|]); (split; [|]); cbn [wcap held delivered wfail]; auto.
    + unfold spent, written. cbn [wcap held delivered wfail]. rewrite Ec, Ef, !app_nil_r. split; [reflexivity|]. split; [reflexivity|]. split; [cbn; lia|].
      exists (held w). split; [reflexivity|]. split; [contradiction|]. split; [exact H|reflexivity].
    + unfold spent, written. cbn [wcap held delivered wfail]. rewrite Ec, Ef, app_nil_r, <- app_assoc, firstn_skipn. split; [reflexivity|]. split; [reflexivity|].
      split; [rewrite skipn_length; lia|]. exists (firstn n (held w)). split; [reflexivity|]. split; [contradiction|]. rewrite firstn_length_le by lia. split; [lia|]. rewrite Nat.sub_diag. reflexivity.
    + split; [exact Hc|]. split; [reflexivity|]. intros X. apply (f_equal (@List.length byte)) in X. rewrite skipn_length in X. cbn in X. unfold byte in *. lia.
  - eexists _, _. split; [reflexivity|]. split; [|reflexivity]. unfold spent, written. cbn [wcap held delivered wfail]. rewrite Ec, Ef, !app_nil_r. split; [reflexivity|]. split; [reflexivity|].
    split; [cbn; lia|]. exists (held w). split; [reflexivity|]. split; [contradiction|reflexivity].
Qed.
Lemma spent_written w p w' : spent w p w' -> written w' = written w ++ p.
Proof. intros (H & _). exact H. Qed.
Lemma written_parts w : exists h, written w = delivered w ++ h.
Proof. unfold written. destruct (wcap w =? 0); [exists []; symmetry; apply app_nil_r|exists (held w); reflexivity]. Qed.

(** ** Two writers *)
Section Two.
Context (w01 w02 : writer) (Hopen : wfail w02 = None) (Hplain : wcap w02 = 0).
(** The kind of the errors of the first one. *)
Definition its_kind (k : io_kind) : Prop := exists n, wfail w01 = Some (n, k).
Definition its_error (e : rerror) : Prop := exists k, its_kind k /\ err_type e = IoError k.
Context (Bl : option conversion_error -> Prop) (HB : forall k m, its_kind k -> Bl (Some (CIo k m))).
Lemma kind_of x w k : spent w01 x w -> exhausted w k -> its_kind k.
Proof. intros (_ & _ & _ & a & _ & _ & Hf) Hk. unfold exhausted, its_kind in *. destruct (wfail w01) as [[n k']|]; [|congruence]. destruct Hf as (_ & Hf). rewrite Hf in Hk. injection Hk as _ ->. eauto. Qed.
(** The first one has come to its end; the second one has taken more bytes. *)
Definition fell (w1 w2 : writer) : Prop := exists p q x k, spent w02 p w2 /\ written w01 ++ p = delivered w1 ++ q /\ q <> [] /\ spent w01 x w1 /\ exhausted w1 k.
Notation insync := (sync w01 w02).
Lemma fell_plain w1 w2 : fell w1 w2 -> wcap w2 = 0 /\ wfail w2 = None.
Proof. intros (p & q & x & k & H & _). split; [|eapply spent_open; eassumption]. destruct H as (_ & H & _). congruence. Qed.
Lemma sync_plain w1 w2 : insync w1 w2 -> wcap w2 = 0 /\ wfail w2 = None.
Proof. intros (p & _ & H). split; [|eapply spent_open; eassumption]. destruct H as (_ & H & _). congruence. Qed.
Lemma fell_second w1 w2 p w2' : fell w1 w2 -> spent w2 p w2' -> fell w1 w2'.
Proof.
  intros (p0 & q & x & k & H & E & Hq & Hx & Hk) H2. exists (p0 ++ p), (q ++ p), x, k. split; [eapply spent_trans; eassumption|]. split; [rewrite app_assoc, E, app_assoc; reflexivity|].
  split; [destruct q; [contradiction|discriminate]|auto].
Qed.
Lemma fell_first w1 w2 p w1' : fell w1 w2 -> spent w1 p w1' -> fell w1' w2.
Proof.
  intros (p0 & q & x & k & H & E & Hq & Hx & Hk) H2. destruct (spent_exhausted _ _ _ _ Hk H2) as (Hk' & Ed & _). exists p0, q, (x ++ p), k. split; [exact H|]. split; [rewrite Ed; exact E|].
  split; [exact Hq|]. split; [eapply spent_trans; eassumption|exact Hk'].
Qed.
Lemma lost_fell w1 w2 : lost w01 w02 w1 w2 -> fell w1 w2.
Proof.
  intros (p & k & H & a & c & -> & Hc & w & j & A1 & A2 & A3). destruct (spent_exhausted _ _ _ _ A2 A3) as (Hk & Ed & _). destruct (written_parts w) as (h & Eh).
  exists (a ++ c), (h ++ c), (a ++ j), k. split; [exact H|]. split; [rewrite Ed, !app_assoc, <- Eh, (spent_written _ _ _ A1); reflexivity|]. split; [destruct h; [exact Hc|discriminate]|].
  split; [eapply spent_trans; eassumption|exact Hk].
Qed.
Lemma fell_kind w1 w2 k : fell w1 w2 -> exhausted w1 k -> its_kind k.
Proof. intros (p & q & x & k' & _ & _ & _ & Hx & _) Hk. eapply kind_of; eassumption. Qed.
Lemma flush_rel w1 w2 : insync w1 w2 -> wrel insync fell Bl (flush w1) (flush w2).
Proof.
  intros H. destruct (sync_plain _ _ H) as (Ec & _). destruct (flush_cases w1) as (w1' & r & -> & Hs & Hr). assert (flush w2 = (w2, Ok tt)) as -> by (unfold flush; rewrite Ec; reflexivity).
  unfold wrel. cbn [fst snd]. destruct H as (p & A1 & A2). destruct r as [[]|k].
  - left. split; [reflexivity|]. split; [reflexivity|]. exists p. split; [rewrite <- (app_nil_r p); eapply spent_trans; eassumption|exact A2].
  - right. destruct Hr as (Hc & Hk & Hh). assert (Hx : spent w01 (p ++ []) w1') by (eapply spent_trans; eassumption).
    split; [exists k; split; [reflexivity|intros m; apply HB; eapply kind_of; eassumption]|]. exists p, (held w1'), (p ++ []), k. split; [exact A2|]. split; [|auto]. pose proof (spent_written _ _ _ Hx) as Hw. rewrite app_nil_r in Hw. rewrite <- Hw.
    unfold written. destruct (wcap w1' =? 0) eqn:E0; [|reflexivity]. apply Nat.eqb_eq in E0. destruct Hs as (_ & Hs & _). congruence.
Qed.
Lemma through_rel w1 w2 d : insync w1 w2 -> wrel insync fell Bl (write_through true w1 d) (write_through true w2 d).
Proof.
  intros H. unfold write_through. destruct (sync_write w01 w02 Hopen w1 w2 d H) as (w1' & w2' & r & -> & -> & Hr). destruct r as [u|k]; [apply flush_rel, Hr|].
  destruct Hr as (Hl & Hk). apply lost_fell in Hl. right. split; [exists k; split; [reflexivity|intros m; apply HB; eapply fell_kind; eassumption]|]. destruct (fell_plain _ _ Hl) as (Ec & _). unfold flush. rewrite Ec. exact Hl.
Qed.
Lemma through_spent w d : exists p, spent w p (fst (write_through true w d)).
Proof.
  unfold write_through. destruct (write_all_spent w d) as (w' & r & -> & Hr). destruct r as [u|k].
  - destruct (flush_cases w') as (w2 & r2 & -> & Hs & _). exists (d ++ []). eapply spent_trans; eassumption.
  - destruct Hr as (p & q & _ & _ & Hp & _). exists p. exact Hp.
Qed.
Lemma flush_spent w : exists p, spent w p (fst (flush1 true w)).
Proof. unfold flush1. destruct (flush_cases w) as (w' & r & -> & Hs & _). exists []. exact Hs. Qed.
Lemma through_keep w w2 d : fell w w2 -> fell w (fst (write_through true w2 d)).
Proof. intros H. destruct (through_spent w2 d) as (p & Hp). eapply fell_second; eassumption. Qed.
Lemma through_error w d k : snd (write_through true w d) = Err k -> exhausted (fst (write_through true w d)) k.
Proof.
  unfold write_through. destruct (write_all_spent w d) as (w' & r & -> & Hr). destruct r as [u|k'].
  - destruct (flush_cases w') as (w2 & r2 & -> & _ & H2). cbn [fst snd]. intros ->. apply H2.
  - cbn [fst snd]. intros E. injection E as <-. destruct Hr as (p & q & _ & _ & _ & Hk). exact Hk.
Qed.
Lemma through_first w1 w2 d : fell w1 w2 -> fell (fst (write_through true w1 d)) w2 /\ match snd (write_through true w1 d) with Ok _ => True | Err k => forall m, Bl (Some (CIo k m)) end.
Proof.
  intros H. destruct (through_spent w1 d) as (p & Hp). assert (H' : fell (fst (write_through true w1 d)) w2) by (eapply fell_first; eassumption). split; [exact H'|].
  pose proof (through_error w1 d) as He. destruct (snd (write_through true w1 d)) as [u|k]; [exact I|]. intros m. apply HB. eapply fell_kind; [exact H'|]. apply He. reflexivity.
Qed.
Lemma long_rel r w1 w2 : insync w1 w2 ->
  match write_long_bytes r w1, write_long_bytes r w2 with
  | Done (r1, w1', v1), Done (r2, w2', v2) =>
      (r1 = r2 /\ v1 = v2 /\ match v1 with Ok _ => wrel insync fell Bl (flush1 true w1') (flush1 true w2') | Err _ => insync w1' w2' \/ fell w1' w2' /\ forall o, Bl o end) \/ (exists e, v1 = Err e /\ its_error e) /\ fell w1' w2'
  | Done (_, _, v1), _ => exists e, v1 = Err e
  | Panic, Panic | Diverge, Diverge => True
  | _, _ => False
  end.
Proof.
  intros H. pose proof (sync_long w01 w02 Hopen j_known_bytes bytes_segment (fuel_for (bf r)) r _ _ H) as Hl. fold (write_long_bytes r w1) in Hl. fold (write_long_bytes r w2) in Hl.
  destruct (write_long_bytes r w1) as [[[r1 w1'] v1]| |], (write_long_bytes r w2) as [[[r2 w2'] v2]| |]; try contradiction; try exact I; try exact Hl.
  destruct Hl as [(<- & <- & Hl)|((e & k & -> & He & Hk) & Hl)].
  - left. split; [reflexivity|]. split; [reflexivity|]. destruct v1 as [u|e]; [apply flush_rel, Hl|left; exact Hl].
  - apply lost_fell in Hl. right. split; [|exact Hl]. exists e. split; [reflexivity|]. exists k. split; [eapply fell_kind; eassumption|exact He].
Qed.
Lemma long_keep r w w2 : fell w w2 -> match write_long_bytes r w2 with Done (_, w', _) => fell w w' | _ => True end.
Proof.
  intros H. pose proof (long_spent j_known_bytes bytes_segment (fuel_for (bf r)) r w2) as Hl. fold (write_long_bytes r w2) in Hl.
  destruct (write_long_bytes r w2) as [[[r1 w1'] v1]| |]; try exact I. destruct Hl as (p & Hp). eapply fell_second; eassumption.
Qed.
Lemma flush_keep w w2 : fell w w2 -> fell w (fst (flush1 true w2)).
Proof. intros H. destruct (flush_spent w2) as (p & Hp). eapply fell_second; eassumption. Qed.
End Two.
(** What a converter to DynamoDB has stored, and what a converter from DynamoDB has. *)
Definition stored_to (w : writer) (o : option conversion_error) : Prop := o = None \/ exists k m, its_kind w k /\ o = Some (CIo k m).
Definition stored_from (w : writer) (o : option conversion_error) : Prop := exists k m, its_kind w k /\ (o = Some (CIo k m) \/ o = Some (CRJiter (IoError k) m)).
Section Runs.
Context (w01 w02 : writer) (Hopen : wfail w02 = None) (Hplain : wcap w02 = 0).
Lemma n2d_two fuel rd rb xb pr wr : flush_results (sync w01 w02) (fell w01 w02) (stored_to w01) (fl_convert_normal_to_ddb true fuel rd w01 rb xb pr wr) (fl_convert_normal_to_ddb true fuel rd w02 rb xb pr wr).
Proof.
  assert (HB : forall k m, its_kind w01 k -> stored_to w01 (Some (CIo k m))) by (intros k m Hk; right; eauto).
  apply (n2d_flushes true (sync w01 w02) (fell w01 w02) (fun o => o = None) (stored_to w01) (its_error w01));
    [apply through_rel|apply through_keep|apply through_first|apply long_rel|apply long_keep|apply flush_keep|intros o Ho; left; exact Ho|reflexivity|apply sync_start]; assumption.
Qed.
Lemma d2n_two fuel rd rb xb pr mode : flush_results (sync w01 w02) (fell w01 w02) (stored_from w01) (fl_convert_ddb_to_normal true fuel rd w01 rb xb pr mode) (fl_convert_ddb_to_normal true fuel rd w02 rb xb pr mode).
Proof.
  assert (HB : forall k m, its_kind w01 k -> stored_from w01 (Some (CIo k m))) by (intros k m Hk; exists k, m; auto).
  apply (d2n_flushes true (sync w01 w02) (fell w01 w02) (fun _ => True) (stored_from w01) (its_error w01));
    [apply through_rel|apply through_keep|apply through_first|apply long_rel|apply long_keep|apply flush_keep|intros o; exact I|intros e m (k & Hk & ->); exists k, m; auto|apply sync_start]; assumption.
Qed.
End Runs.

(** ** One writer: nothing is held back at the end of a good run *)
Definition clear (w1 w2 : writer) : Prop := w1 = w2 /\ held w1 = [].
Definition any (w1 w2 : writer) : Prop := True.
Definition alright (o : option conversion_error) : Prop := True.
Lemma flush_clear w w' : wcap w' = wcap w -> (wcap w = 0 -> held w' = []) -> wrel clear any alright (flush w') (flush w').
Proof.
  intros Hc Hh. destruct (flush_cases w') as (w2 & r & -> & _ & Hr). unfold wrel. cbn [fst snd]. destruct r as [[]|k]; [|right; split; [exists k; split; [reflexivity|exact (fun _ => I)]|exact I]].
  left. split; [reflexivity|]. split; [reflexivity|]. split; [reflexivity|]. destruct (Nat.eqb_spec (wcap w') 0) as [E|E]; [rewrite Hr; apply Hh; congruence|exact Hr].
Qed.
Lemma spent_held w p w' : spent w p w' -> wcap w' = wcap w /\ (wcap w = 0 -> held w' = held w).
Proof. intros (_ & H & _ & a & _ & Ha & _). split; [exact H|]. apply Ha. Qed.
Lemma through_clear w1 w2 d : clear w1 w2 -> wrel clear any alright (write_through true w1 d) (write_through true w2 d).
Proof.
  intros (<- & Hh). unfold write_through. destruct (write_all_spent w1 d) as (w' & r & -> & Hr). destruct r as [u|k]; [|right; split; [exists k; split; [reflexivity|exact (fun _ => I)]|exact I]].
  destruct (spent_held _ _ _ Hr) as (A1 & A2). apply (flush_clear w1); [exact A1|]. intros E. rewrite A2; assumption.
Qed.
Lemma long_clear r w1 w2 : clear w1 w2 ->
  match write_long_bytes r w1, write_long_bytes r w2 with
  | Done (r1, w1', v1), Done (r2, w2', v2) =>
      (r1 = r2 /\ v1 = v2 /\ match v1 with Ok _ => wrel clear any alright (flush1 true w1') (flush1 true w2') | Err _ => clear w1' w2' \/ any w1' w2' /\ forall o, alright o end) \/ (exists e, v1 = Err e /\ True) /\ any w1' w2'
  | Done (_, _, v1), _ => exists e, v1 = Err e
  | Panic, Panic | Diverge, Diverge => True
  | _, _ => False
  end.
Proof.
  intros (<- & Hh). pose proof (long_spent j_known_bytes bytes_segment (fuel_for (bf r)) r w1) as Hl. fold (write_long_bytes r w1) in Hl.
  destruct (write_long_bytes r w1) as [[[r1 w1'] v1]| |]; try exact I. left. split; [reflexivity|]. split; [reflexivity|]. destruct v1 as [u|e]; [|right; split; [exact I|exact (fun _ => I)]].
  destruct Hl as (p & Hp). destruct (spent_held _ _ _ Hp) as (A1 & A2). apply (flush_clear w1); [exact A1|]. intros E. rewrite A2; assumption.
Qed.
Lemma long_any r w w2 : any w w2 -> match write_long_bytes r w2 with Done (_, w', _) => any w w' | _ => True end.
Proof. intros _. destruct (write_long_bytes r w2) as [[[? ?] ?]| |]; exact I. Qed.
Lemma first_any w1 w2 d : any w1 w2 -> any (fst (write_through true w1 d)) w2 /\ match snd (write_through true w1 d) with Ok _ => True | Err k => forall m, alright (Some (CIo k m)) end.
Proof. intros _. split; [exact I|]. destruct (snd _); exact (fun _ => I) || exact I. Qed.
Lemma n2d_clear fuel rd w rb xb pr wr w' : held w = [] -> fl_convert_normal_to_ddb true fuel rd w rb xb pr wr = Done (w', Ok tt) -> held w' = [].
Proof.
  intros Hh E. assert (H : flush_results clear any alright (fl_convert_normal_to_ddb true fuel rd w rb xb pr wr) (fl_convert_normal_to_ddb true fuel rd w rb xb pr wr)).
  { apply (n2d_flushes true clear any (fun _ => True) alright (fun _ => True)); [apply through_clear|exact (fun _ _ _ _ => I)|apply first_any|apply long_clear|apply long_any|exact (fun _ _ _ => I)|exact (fun _ _ => I)|exact I|split; [reflexivity|exact Hh]]. }
  rewrite E in H. cbn in H. destruct H as [((_ & H) & _)|((e & i & X & _) & _)]; [exact H|discriminate].
Qed.
Lemma d2n_clear fuel rd w rb xb pr mode w' : held w = [] -> fl_convert_ddb_to_normal true fuel rd w rb xb pr mode = Done (w', Ok tt) -> held w' = [].
Proof.
  intros Hh E. assert (H : flush_results clear any alright (fl_convert_ddb_to_normal true fuel rd w rb xb pr mode) (fl_convert_ddb_to_normal true fuel rd w rb xb pr mode)).
  { apply (d2n_flushes true clear any (fun _ => True) alright (fun _ => True)); [apply through_clear|exact (fun _ _ _ _ => I)|apply first_any|apply long_clear|apply long_any|exact (fun _ _ _ => I)|exact (fun _ => I)|exact (fun _ _ _ => I)|split; [reflexivity|exact Hh]]. }
  rewrite E in H. cbn in H. destruct H as [((_ & H) & _)|((e & i & X & _) & _)]; [exact H|discriminate].
Qed.

(** ** The results *)
Lemma written_clear w : held w = [] -> written w = delivered w.
Proof. intros H. unfold written. rewrite H, app_nil_r. destruct (wcap w =? 0); reflexivity. Qed.
Lemma results_of Bl (run : outcome (writer * result unit (conversion_error * nat))) w text v : held w = [] ->
  (forall w', run = Done (w', Ok tt) -> held w' = []) -> flush_results (sync w (mkWriter [] None)) (fell w (mkWriter [] None)) Bl run (Done (mkWriter text None, v)) ->
  exists w' v', run = Done (w', v') /\
    ((v' = v /\ written w' = delivered w ++ text /\ (v = Ok tt -> delivered w' = delivered w ++ text)) \/
     exists n k e i, wfail w = Some (n, k) /\ n < len text /\ delivered w' = delivered w ++ firstn n text /\ v' = Err (e, i) /\ (Bl (Some e) \/ Bl None /\ exists s, e = CScan s)).
Proof.
  intros Hh Hc H. destruct run as [[w' v']| |]; try contradiction. exists w', v'. split; [reflexivity|]. destruct H as [((p & A & B) & ->)|((e & i & -> & He) & p & q & x & k & A & E & Hq & Hx & Hk)].
  - left. apply spent_plain in B. injection B as <-. pose proof (spent_written _ _ _ A) as W. rewrite (written_clear w Hh) in W. split; [reflexivity|]. split; [exact W|].
    intros ->. rewrite <- W. symmetry. apply written_clear, Hc. reflexivity.
  - right. apply spent_plain in A. injection A as <-. rewrite (written_clear w Hh) in E. destruct Hx as (_ & _ & _ & a & Hd & _ & Hf). unfold exhausted in Hk.
    destruct (wfail w) as [[n k']|]; [|congruence]. destruct Hf as (L & Hf). rewrite Hf in Hk. injection Hk as Hn <-.
    assert (n = len a) as -> by lia. rewrite Hd, <- app_assoc in E. apply app_inv_head in E. subst text. exists (len a), k', e, i. split; [reflexivity|].
    split; [rewrite app_length; destruct q; [contradiction|cbn [List.length]; unfold bytes, byte in *; lia]|]. split; [|auto]. rewrite Hd, firstn_app, Nat.sub_diag, firstn_O, app_nil_r, firstn_all. reflexivity.
Qed.
Lemma n2d_results fuel rd w rb xb pr wr text v : held w = [] -> convert_normal_to_ddb fuel rd (mkWriter [] None) rb xb pr wr = Done (mkWriter text None, v) ->
  exists w' v', fl_convert_normal_to_ddb true fuel rd w rb xb pr wr = Done (w', v') /\
    ((v' = v /\ written w' = delivered w ++ text /\ (v = Ok tt -> delivered w' = delivered w ++ text)) \/
     exists n k e i, wfail w = Some (n, k) /\ n < len text /\ delivered w' = delivered w ++ firstn n text /\ v' = Err (e, i) /\ ((exists m, e = CIo k m) \/ exists s, e = CScan s)).
Proof.
  intros Hh E. destruct (results_of (stored_to w) (fl_convert_normal_to_ddb true fuel rd w rb xb pr wr) w text v Hh) as (w' & v' & E' & H).
  { intros w' E'. eapply n2d_clear; eassumption. }
  { rewrite <- E, <- (n2d_flag true) by (right; reflexivity). apply n2d_two; reflexivity. }
  exists w', v'. split; [exact E'|]. destruct H as [H|(n & k & e & i & H1 & H2 & H3 & H4 & H5)]; [left; exact H|right]. exists n, k, e, i. split; [exact H1|]. split; [exact H2|]. split; [exact H3|]. split; [exact H4|].
  destruct H5 as [[X|(k' & m & (n' & K) & X)]|(_ & H5)]; [discriminate| |right; exact H5]. left. exists m. rewrite K in H1. injection H1 as _ <-. injection X as ->. reflexivity.
Qed.
Lemma d2n_results fuel rd w rb xb pr mode text v : held w = [] -> convert_ddb_to_normal fuel rd (mkWriter [] None) rb xb pr mode = Done (mkWriter text None, v) ->
  exists w' v', fl_convert_ddb_to_normal true fuel rd w rb xb pr mode = Done (w', v') /\
    ((v' = v /\ written w' = delivered w ++ text /\ (v = Ok tt -> delivered w' = delivered w ++ text)) \/
     exists n k m i, wfail w = Some (n, k) /\ n < len text /\ delivered w' = delivered w ++ firstn n text /\ (v' = Err (CIo k m, i) \/ v' = Err (CRJiter (IoError k) m, i))).
Proof.
  intros Hh E. destruct (results_of (stored_from w) (fl_convert_ddb_to_normal true fuel rd w rb xb pr mode) w text v Hh) as (w' & v' & E' & H).
  { intros w' E'. eapply d2n_clear; eassumption. }
  { rewrite <- E, <- (d2n_flag true) by (right; reflexivity). apply d2n_two; reflexivity. }
  exists w', v'. split; [exact E'|]. destruct H as [H|(n & k & e & i & H1 & H2 & H3 & H4 & H5)]; [left; exact H|right].
  destruct H5 as [(k' & m & (n' & K) & X)|((k' & m & _ & [X|X]) & _)]; try discriminate. exists n, k, m, i. split; [exact H1|]. split; [exact H2|]. split; [exact H3|].
  rewrite K in H1. injection H1 as _ <-. rewrite H4. destruct X as [X|X]; injection X as ->; auto.
Qed.
(** A writer without a buffer: the kind of the error. *)
Lemma d2n_kind fuel rd d n k rb xb pr mode text v : convert_ddb_to_normal fuel rd (mkWriter [] None) rb xb pr mode = Done (mkWriter text None, v) ->
  exists w' v', convert_ddb_to_normal fuel rd (mkWriter d (Some (n, k))) rb xb pr mode = Done (w', v') /\
    if n <? len text then exists m i, v' = Err (CIo k m, i) \/ v' = Err (CRJiter (IoError k) m, i) else v' = v.
Proof.
  intros E. destruct (d2n_results fuel rd (mkWriter d (Some (n, k))) rb xb pr mode text v eq_refl E) as (w' & v' & E' & H). rewrite (d2n_flag true) in E' by (right; reflexivity).
  destruct (d2n_prefix fuel rd (mkWriter d (Some (n, k))) rb xb pr mode n k text v eq_refl eq_refl E) as (w2 & v2 & E2 & _ & H2). rewrite E' in E2. injection E2 as <- <-.
  exists w', v'. split; [exact E'|]. destruct (n <? len text) eqn:En; [|exact H2]. destruct H as [(-> & H & _)|(n' & k' & m & i & H1 & _ & _ & H)].
  - exfalso. destruct (d2n_prefix fuel rd (mkWriter d (Some (n, k))) rb xb pr mode n k text v eq_refl eq_refl E) as (w3 & v3 & E3 & W & _). rewrite E' in E3. injection E3 as <- <-.
    rewrite W in H. change (written (mkWriter d (Some (n, k)))) with d in H. cbn [delivered] in H. apply app_inv_head in H. apply (f_equal (@List.length byte)) in H. rewrite firstn_length in H.
    apply Nat.ltb_lt in En. unfold byte, bytes in *. lia.
  - injection H1 as <- <-. exists m, i. exact H.
Qed.
