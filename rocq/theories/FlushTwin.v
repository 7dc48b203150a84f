(** Two runs of a converter with a flag [unbuffered] that differ only in the writer. *)
From Verif Require Import Base U8Pool Buffer Jiter RJiter RJiterLongProofs Scan ScanSpec ScanParser Conv ConvSpec NormalToDdb DdbToNormal IdProofs ConvResults Twin TwinConv FlushConv FlushToDdb FlushFromDdb FlushProofs.

Definition flush1 (b : bool) (w : writer) : writer * result unit io_kind := if b then flush w else (w, Ok tt).
Section Writers.
Context (b : bool) (Rw Dw : writer -> writer -> Prop).
(** What a converter may have stored as its last error: as long as all is well, and after the first writer has refused; an error of
    a long string that its refusal leads to. *)
Context (Bn Bl : option conversion_error -> Prop) (Lg : rerror -> Prop).
(** The two writers after a write: they are in step, or the first one has refused. *)
Definition wrel (x y : writer * result unit io_kind) : Prop :=
  (snd x = Ok tt /\ snd y = Ok tt /\ Rw (fst x) (fst y)) \/ (exists k, snd x = Err k /\ forall m, Bl (Some (CIo k m))) /\ Dw (fst x) (fst y).
Context (Hput : forall w1 w2 d, Rw w1 w2 -> wrel (write_through b w1 d) (write_through b w2 d)).
Context (Hkeep : forall w w2 d, Dw w w2 -> Dw w (fst (write_through b w2 d))).
Context (Hfirst : forall w1 w2 d, Dw w1 w2 -> Dw (fst (write_through b w1 d)) w2 /\ match snd (write_through b w1 d) with Ok _ => True | Err k => forall m, Bl (Some (CIo k m)) end).
Context (Hlong : forall r w1 w2, Rw w1 w2 ->
  match write_long_bytes r w1, write_long_bytes r w2 with
  | Done (r1, w1', v1), Done (r2, w2', v2) =>
      (r1 = r2 /\ v1 = v2 /\ match v1 with Ok _ => wrel (flush1 b w1') (flush1 b w2') | Err _ => Rw w1' w2' \/ Dw w1' w2' /\ forall o, Bl o end) \/ (exists e, v1 = Err e /\ Lg e) /\ Dw w1' w2'
  | Done (_, _, v1), _ => exists e, v1 = Err e
  | Panic, Panic | Diverge, Diverge => True
  | _, _ => False
  end).
Context (Hklong : forall r w w2, Dw w w2 -> match write_long_bytes r w2 with Done (_, w', _) => Dw w w' | _ => True end).
Context (Hkflush : forall w w2, Dw w w2 -> Dw w (fst (flush1 b w2))).

(** A string goes from the parser to the writer, which is flushed. *)
Section Long.
Context {B : Type} (R D : B -> B -> Prop) (outw : B -> writer) (setw : B -> writer -> B) (errw : B -> option conversion_error).
Context (Rn : forall c1 c2, R c1 c2 -> Bn (errw c1)) (errset : forall c w, errw (setw c w) = errw c).
Context (Rout : forall c1 c2, R c1 c2 -> Rw (outw c1) (outw c2)) (Rset : forall c1 c2 w1 w2, R c1 c2 -> Rw w1 w2 -> R (setw c1 w1) (setw c2 w2)).
Context (Dout : forall c1 c2, D c1 c2 <-> Dw (outw c1) (outw c2) /\ Bl (errw c1)) (outset : forall c w, outw (setw c w) = w) (setset : forall c w w', setw (setw c w) w' = setw c w').
Lemma gl_long (fl f : step B) (h : rerror -> B -> B) (g : io_kind -> B -> B) m m' op :
  (forall e c, outw (h e c) = outw c) -> (forall e c, Lg e -> Bn (errw c) -> Bl (errw (h e c))) -> (forall k c, exists m, errw (g k c) = Some (CIo k m)) -> (forall e c1 c2, R c1 c2 -> R (h e c1) (h e c2)) ->
  (forall k c, outw (g k c) = outw c) ->
  (forall c, fl c = match flush1 b (outw c) with (w, Ok _) => Done (setw c w, Ok tt) | (w, Err k) => Done (g k (setw c w), Err m') end) -> kin_step R D f ->
  kin_action R D (fun r c => do (r, w, v) <- write_long_bytes r (outw c); match v with Err e => Done (r, h e (setw c w), OpError m) | Ok _ => act_of (fl ;; f) op r (setw c w) end).
Proof.
  intros Ho Hb Hgb Hr Hgo Hfl (F1 & F2).
  assert (K1 : forall r c c2, D c c2 -> keeps_op D c (act_of (fl ;; f) op r c2)).
  { intros r c c2 Hd. unfold act_of, and_then. rewrite Hfl. apply Dout in Hd as (Hd & He). apply Hkflush in Hd. destruct (flush1 b (outw c2)) as [w2 [u|k]]; cbn [obind fst] in *.
    - assert (Hd' : D c (setw c2 w2)) by (apply Dout; rewrite outset; auto). apply F2 in Hd'. unfold keeps_end in Hd'. destruct (f (setw c2 w2)) as [[c3 v3]| |]; exact Hd' || exact I.
    - cbn. apply Dout. rewrite Hgo, outset. auto. }
  assert (K : forall r c c2, D c c2 -> keeps_op D c (do (r, w, v) <- write_long_bytes r (outw c2); match v with Err e => Done (r, h e (setw c2 w), OpError m) | Ok _ => act_of (fl ;; f) op r (setw c2 w) end)).
  { intros r c c2 Hd. apply Dout in Hd as (Hd & He). apply (Hklong r) in Hd. destruct (write_long_bytes r (outw c2)) as [[[r' w'] v]| |]; cbn [obind]; try exact I.
    destruct v as [v|e]; [apply K1, Dout; rewrite outset; auto|]. cbn. apply Dout. rewrite Ho, outset. auto. }
  split; [|exact K].
  intros r c1 c2 Hc. pose proof (Hlong r _ _ (Rout _ _ Hc)) as Hl. pose proof (Rn _ _ Hc) as Hn.
  destruct (write_long_bytes r (outw c1)) as [[[r1 w1] v1]| |], (write_long_bytes r (outw c2)) as [[[r2 w2] v2]| |]; cbn [obind]; try contradiction; try exact I.
  - destruct Hl as [(<- & <- & Hl)|((e & -> & He) & Hl)].
    + destruct v1 as [u|e].
      * unfold act_of, and_then. rewrite !Hfl, !outset. unfold wrel in Hl. destruct (flush1 b w1) as [w1' f1], (flush1 b w2) as [w2' f2]. cbn [fst snd] in Hl. rewrite !setset.
        destruct Hl as [(-> & -> & Hl)|((k & -> & Hk) & Hl)].
        -- cbn [obind].
           assert (HR : R (setw c1 w1') (setw c2 w2')) by (apply Rset; assumption). apply F1 in HR. unfold twin_end in HR. unfold twin_op.
              destruct (f (setw c1 w1')) as [[d1 v1]| |], (f (setw c2 w2')) as [[d2 v2]| |]; cbn [obind]; try contradiction; try exact I.
              ** destruct HR as [(HR & <-)|((x & ->) & HR)]; [left; auto|right; split; [eexists; reflexivity|exact HR]].
              ** destruct HR as (x & ->). eexists. reflexivity.
              ** destruct HR as (x & ->). eexists. reflexivity.
        -- cbn [obind]. destruct (Hgb k (setw c1 w1')) as (mm & Em).
           assert (Hd : D (g k (setw c1 w1')) (setw c2 w2')) by (apply Dout; rewrite Hgo, !outset, Em; auto). destruct f2 as [u2|k2]; cbn [obind].
           ++ apply F2 in Hd. unfold keeps_end in Hd. unfold twin_op. destruct (f (setw c2 w2')) as [[d2 v2]| |]; cbn [obind]; [right; split; [eexists; reflexivity|exact Hd]| |]; eexists; reflexivity.
           ++ right. split; [eexists; reflexivity|]. apply Dout. rewrite !Hgo, !outset, Em. auto.
      * destruct Hl as [Hl|(Hl & Ha)]; [left; split; [reflexivity|]; split; [apply Hr, Rset; assumption|reflexivity]|].
        right. split; [eexists; reflexivity|]. apply Dout. rewrite !Ho, !outset. auto.
    + assert (Hd : D (h e (setw c1 w1)) (setw c2 w2)) by (apply Dout; rewrite Ho, !outset; split; [exact Hl|apply Hb; [exact He|rewrite errset; exact Hn]]). destruct v2 as [u2|e2].
      * apply (K1 r2) in Hd. unfold keeps_op in Hd. unfold twin_op. destruct (act_of (fl ;; f) op r2 (setw c2 w2)) as [[[r4 c4] o4]| |]; [right; split; [eexists; reflexivity|exact Hd]| |]; eexists; reflexivity.
      * right. split; [eexists; reflexivity|]. apply Dout in Hd as (_ & Hd). apply Dout. rewrite !Ho, !outset. auto.
  - destruct Hl as (e & ->). eexists. reflexivity.
  - destruct Hl as (e & ->). eexists. reflexivity.
Qed.
End Long.

(** ** What the converters share *)
Definition near_conv (c1 c2 : conv) : Prop := (Rw (cout c1) (cout c2) /\ Bn (last_error c1)) /\ c2 = set_cout c1 (cout c2).
Definition gone_conv (c1 c2 : conv) : Prop := Dw (cout c1) (cout c2) /\ Bl (last_error c1).
Notation kstep := (kin_step near_conv gone_conv).
Notation kaction := (kin_action near_conv gone_conv).
Lemma same_fields c1 c2 : near_conv c1 c2 -> pending c1 = pending c2 /\ pretty c1 = pretty c2 /\ field c1 = field c2 /\ level c1 = level c2 /\ last_error c1 = last_error c2.
Proof. intros (_ & ->). repeat split. Qed.
Lemma kput d context : kstep (fl_put b d context).
Proof.
  split.
  - intros c1 c2 ((Hs & Hn) & E). unfold fl_put. pose proof (Hput _ _ d Hs) as H. destruct (write_through b (cout c1) d) as [w1' r1], (write_through b (cout c2) d) as [w2' r2].
    unfold wrel in H. cbn [fst snd] in H. destruct H as [(-> & -> & H)|((k & -> & Hk) & H)].
    + left. split; [|reflexivity]. split; [split; [exact H|exact Hn]|]. rewrite E. reflexivity.
    + destruct r2 as [u|k2]; right; (split; [eexists; reflexivity|split; [exact H|apply Hk]]).
  - intros c c2 (H & He). unfold fl_put. pose proof (Hkeep _ _ d H) as K. destruct (write_through b (cout c2) d) as [w' [u|k]]; (split; [exact K|exact He]).
Qed.
Lemma kchange f : (forall c w, f (set_cout c w) = set_cout (f c) w) -> (forall c, cout (f c) = cout c) -> (forall c, last_error (f c) = last_error c) -> kstep (change_to f).
Proof.
  intros H1 H2 H3. apply kin_change.
  - intros c1 c2 (Hs & E). split; rewrite !H2, ?H3; [exact Hs|]. rewrite E at 1. rewrite H1. f_equal.
  - intros c c2. unfold gone_conv. rewrite H2. auto.
Qed.
Lemma kcomma x : kstep (comma_is x).
Proof. apply kchange; reflexivity. Qed.
Lemma kdeeper : kstep deeper.
Proof. apply kchange; reflexivity. Qed.
Lemma kshallower : kstep shallower.
Proof.
  split.
  - intros c1 c2 H. pose proof H as (Hs & E). unfold shallower. destruct (same_fields _ _ H) as (_ & _ & _ & <- & _). destruct (level c1) as [|n]; [exact I|].
    left. split; [split; [exact Hs|rewrite E; reflexivity]|reflexivity].
  - intros c c2 H. unfold shallower. destruct (level c2); [exact I|exact H].
Qed.
Lemma knewline : kstep (fl_newline b).
Proof. apply (kin_if _ _ pretty); [intros c1 c2 H; apply (same_fields _ _ H)|apply kput|apply kin_skip]. Qed.
Lemma kwrite_comma : kstep (fl_write_comma b).
Proof.
  apply (kin_if _ _ pending); [intros c1 c2 H; apply (same_fields _ _ H)| |apply kin_skip].
  apply kin_then; [apply kput|]. apply kin_then; [apply knewline|apply (kcomma false)].
Qed.
Lemma kindents n : kstep ((fl_indents b) n).
Proof. induction n as [|n IH]; cbn [fl_indents]; [apply kin_skip|apply kin_then; [apply kput|exact IH]]. Qed.
Lemma kindent : kstep (fl_indent b).
Proof.
  apply (kin_if _ _ pretty); [intros c1 c2 H; apply (same_fields _ _ H)| |apply kin_skip]. split.
  - intros c1 c2 H. pose proof (same_fields _ _ H) as (_ & _ & _ & <- & _). apply kindents, H.
  - intros c c2 H. apply kindents, H.
Qed.

Ltac ksteps := repeat match goal with
  | |- kstep (_ ;; _) => apply kin_then
  | |- kstep ((fl_put b) _ _) => apply kput
  | |- kstep (comma_is _) => apply kcomma
  | |- kstep deeper => apply kdeeper
  | |- kstep shallower => apply kshallower
  | |- kstep (fl_newline b) => apply knewline
  | |- kstep (fl_write_comma b) => apply kwrite_comma
  | |- kstep (fl_indent b) => apply kindent
  | |- kstep skip => apply kin_skip
  | |- kstep (fl_close_atom b) => unfold fl_close_atom
  end.
Lemma kanswer op : kaction (fun r c => Done (r, c, op)).
Proof. apply (kin_answer _ _ (fun c => c)); auto. Qed.
Lemma kfield (a : bytes -> action conv) (z : action conv) : (forall k, kaction (a k)) -> kaction z -> kaction (fun r c => match field c with None => z r c | Some k => a k r c end).
Proof.
  intros Ha Hb. split.
  - intros r c1 c2 H. destruct (same_fields _ _ H) as (_ & _ & <- & _). destruct (field c1); [apply Ha, H|apply Hb, H].
  - intros r c c2 H. destruct (field c2); [apply Ha, H|apply Hb, H].
Qed.

(** ** The entry points *)
Definition flush_results (x1 x2 : outcome (writer * result unit (conversion_error * nat))) : Prop :=
  match x1, x2 with
  | Done (w1, v1), Done (w2, v2) => (Rw w1 w2 /\ v1 = v2) \/ (exists e i, v1 = Err (e, i) /\ (Bl (Some e) \/ Bl None /\ exists s, e = CScan s)) /\ Dw w1 w2
  | Done (_, v1), _ => exists e, v1 = Err e
  | Panic, Panic | Diverge, Diverge => True
  | _, _ => False
  end.
Lemma flush_convert {B} (R D : B -> B -> Prop) (cb : callbacks B) (cv : B -> conv) slots fuel rd rb xb u1 u2 : twins R D cb ->
  (forall c1 c2, R c1 c2 -> near_conv (cv c1) (cv c2)) -> (forall c1 c2, D c1 c2 -> gone_conv (cv c1) (cv c2)) -> R u1 u2 ->
  flush_results (do (c, v) <- convert cb cv slots fuel rd rb xb u1; Done (cout (cv c), v)) (do (c, v) <- convert cb cv slots fuel rd rb xb u2; Done (cout (cv c), v)).
Proof.
  intros T HR HD Hu. unfold convert. destruct (pool_new true xb slots) as [[p|e]| |]; cbn [obind]; try exact I.
  - destruct (kin_scan R D cb T (mkOptions [] false) fuel) as (K & _). specialize (K (mkS (rj_new rd rb) u1 p) (mkS (rj_new rd rb) u2 p)).
    assert (Hp : pair R (mkS (rj_new rd rb) u1 p) (mkS (rj_new rd rb) u2 p)) by (repeat split; exact Hu). apply K in Hp. clear K. unfold twin in Hp.
    destruct (scan cb _ fuel (mkS (rj_new rd rb) u1 p)) as [[s1 v1]| |], (scan cb _ fuel (mkS (rj_new rd rb) u2 p)) as [[s2 v2]| |]; cbn [obind]; try contradiction; try exact I.
    + destruct Hp as [((Hr & _ & H) & <-)|((e & ->) & H)].
      * left. apply HR in H. split; [apply H|]. destruct (same_fields _ _ H) as (_ & _ & _ & _ & <-). rewrite <- Hr. reflexivity.
      * right. apply HD in H as (H & He). split; [|exact H]. eexists _, _. split; [reflexivity|]. destruct (last_error (cv (user s1))) as [e0|]; [left; exact He|right; split; [exact He|eexists; reflexivity]].
    + destruct Hp as (e & ->). eexists. reflexivity.
    + destruct Hp as (e & ->). eexists. reflexivity.
  - left. split; [apply HR, Hu|reflexivity].
Qed.

(** ** To DynamoDB *)
Section To.
Context (HnB : forall o, Bn o -> Bl o).
Lemma kclose_atom : kstep (fl_close_atom b).
Proof. unfold fl_close_atom. ksteps. Qed.
Lemma kflush c : flush_long b c = match flush1 b (cout c) with (w, Ok _) => Done (set_cout c w, Ok tt) | (w, Err k) => Done (set_error (set_cout c w) (CIo k "flushing after write_long_bytes"), Err "Failed to flush writer"%string) end.
Proof. unfold flush_long, flush1. destruct b; [reflexivity|]. destruct c. reflexivity. Qed.
Lemma kstring : kaction (fl_on_string_value b).
Proof.
  unfold fl_on_string_value. apply (kin_first _ _ _ (fun r c => do (r, w, v) <- write_long_bytes r (cout c);
      match v with
      | Err _ => Done (r, set_cout c w, OpError "Failed to write string value")
      | Ok _ => act_of (flush_long b ;; fl_put b [QUOTE] "writing S type closing quote" ;; fl_close_atom b) ValueIsConsumed r (set_cout c w)
      end)); [ksteps|].
  apply (gl_long near_conv gone_conv cout set_cout last_error) with (h := fun _ c => c) (g := fun k c => set_error c (CIo k "flushing after write_long_bytes")) (m' := "Failed to flush writer"%string).
  - intros c1 c2 (H & _). apply H.
  - reflexivity.
  - intros c1 c2 (H & _). apply H.
  - intros c1 c2 w1 w2 ((_ & Hn) & E) H. split; [split; [exact H|exact Hn]|]. rewrite E. reflexivity.
  - intros c1 c2. reflexivity.
  - reflexivity.
  - reflexivity.
  - reflexivity.
  - intros _ c _. apply HnB.
  - eexists. reflexivity.
  - auto.
  - reflexivity.
  - apply kflush.
  - apply kin_then; [apply kput|apply kclose_atom].
Qed.
Lemma kbool : kaction (fl_on_bool_value b).
Proof.
  unfold fl_on_bool_value. refine (kin_method _ _ peek (fun v r c => match v with Ok p => _ | Err _ => Done (r, c, OpError "Failed to peek boolean value") end) _). intros [p|e]; [|apply kanswer].
  apply (kin_first _ _ (fl_indent b) (fun r c => if N.eqb p PeekTrue then
            do (r, _) <- known_bool p r;
            act_of ((fl_put b) (bs """BOOL"":true") "writing BOOL true" ;; (fl_close_atom b)) ValueIsConsumed r c
          else if N.eqb p PeekFalse then
            do (r, _) <- known_bool p r;
            act_of ((fl_put b) (bs """BOOL"":false") "writing BOOL false" ;; (fl_close_atom b)) ValueIsConsumed r c
          else Done (r, c, OpError "Expected boolean value"))); [apply kindent|].
  destruct (N.eqb p PeekTrue); [|destruct (N.eqb p PeekFalse); [|apply kanswer]].
  - apply (kin_method _ _ (known_bool p)). intros _. apply kin_act_of, kin_then; [apply kput|apply kclose_atom].
  - apply (kin_method _ _ (known_bool p)). intros _. apply kin_act_of, kin_then; [apply kput|apply kclose_atom].
Qed.
Lemma knull : kaction (fl_on_null_value b).
Proof.
  unfold fl_on_null_value. refine (kin_method _ _ peek (fun v r c => match v with Ok p => _ | Err _ => Done (r, c, OpError "Failed to peek null value") end) _). intros [p|e]; [|apply kanswer].
  destruct (N.eqb p PeekNull); [|apply kanswer]. apply (kin_method _ _ known_null). intros _. apply kin_act_of. ksteps. 
Qed.
Lemma katom : kaction (fl_on_atom_value b).
Proof.
  unfold fl_on_atom_value. apply (kin_first _ _ (fl_write_comma b) (fun r c => do (r, v) <- peek r;
      match v with
      | Err _ => Done (r, c, OpError "Failed to peek atom value")
      | Ok p =>
          if N.eqb p QUOTE then (fl_on_string_value b) r c
          else if N.eqb p PeekTrue || N.eqb p PeekFalse then (fl_on_bool_value b) r c
          else if N.eqb p PeekNull then (fl_on_null_value b) r c
          else
            do (r, v) <- next_number_bytes r;
            match v with
            | Err _ => Done (r, c, OpError "Failed to parse number")
            | Ok number =>
                act_of ((fl_indent b) ;; (fl_put b) (bs """N"":""") "writing N type opening" ;;
                        (fl_put b) (firstn 32 number) "writing number value" ;;
                        (fl_put b) [QUOTE] "writing N type closing quote" ;; (fl_close_atom b)) ValueIsConsumed r c
            end
      end)); [apply kwrite_comma|].
  refine (kin_method _ _ peek (fun v r c => match v with Ok p => _ | Err _ => Done (r, c, OpError "Failed to peek atom value") end) _). intros [p|e]; [|apply kanswer].
  destruct (N.eqb p QUOTE); [apply kstring|]. destruct (N.eqb p PeekTrue || N.eqb p PeekFalse); [apply kbool|]. destruct (N.eqb p PeekNull); [apply knull|].
  refine (kin_method _ _ next_number_bytes (fun v r c => match v with Ok number => _ | Err _ => Done (r, c, OpError "Failed to parse number") end) _). intros [n|e]; [|apply kanswer].
  apply kin_act_of. ksteps.
Qed.
Lemma kroot_literal : kaction (fl_on_root_literal b).
Proof.
  unfold fl_on_root_literal. apply (kin_first _ _ ((fl_put b) [LBRACE] "writing root literal opening brace" ;; deeper) (fun r c => do (r, c, op) <- (fl_on_atom_value b) r c;
      act_of ((fl_put b) [10%N] "writing final newline" ;; comma_is false) op r c)); [ksteps|].
  assert (K : forall op, kaction (act_of ((fl_put b) [10%N] "writing final newline" ;; comma_is false) op)) by (intros op; apply kin_act_of; ksteps).
  destruct katom as (A1 & A2). split.
  - intros r c1 c2 H. apply (A1 r) in H. unfold twin_op in H. destruct (fl_on_atom_value b r c1) as [[[r1 d1] o1]| |]; [|destruct (fl_on_atom_value b r c2) as [[[r2 d2] o2]| |]; cbn; assumption || contradiction ..].
    assert (E1 : forall m, exists d' m', act_of (fl_put b [10%N] "writing final newline" ;; comma_is false) (OpError m) r1 d1 = Done (r1, d', OpError m') /\
      cout d' = fst (write_through b (cout d1) [10%N]) /\ last_error d' = match snd (write_through b (cout d1) [10%N]) with Ok _ => last_error d1 | Err k => Some (CIo k "writing final newline") end).
    { intros m. unfold act_of, and_then, fl_put. destruct (write_through b (cout d1) [10%N]) as [w' [u|k]]; cbn; eexists _, _; (split; [|split]; reflexivity). }
    cbn [obind]. destruct (fl_on_atom_value b r c2) as [[[r2 d2] o2]| |]; cbn [obind].
    + destruct H as [(<- & H & <-)|((m & ->) & H)]; [apply K, H|]. destruct (E1 m) as (d' & m' & -> & Hp & Hq).
      assert (Hd : gone_conv d' d2).
      { destruct H as (H & He). pose proof (Hfirst _ _ [10%N] H) as (H1 & H2). split; [rewrite Hp; exact H1|]. rewrite Hq. destruct (snd (write_through b (cout d1) [10%N])); [exact He|apply H2]. }
       apply (K o2) with (r := r2) in Hd. unfold keeps_op in Hd. unfold twin_op.
      destruct (act_of _ o2 r2 d2) as [[[r4 c4] o4]| |]; [right; split; [eexists; reflexivity|exact Hd]| |]; eexists; reflexivity.
    + destruct H as (m & ->). destruct (E1 m) as (d' & m' & -> & Hp & Hq). eexists. reflexivity.
    + destruct H as (m & ->). destruct (E1 m) as (d' & m' & -> & Hp & Hq). eexists. reflexivity.
  - intros r c c2 H. apply (A2 r) in H. unfold keeps_op in H. destruct ((fl_on_atom_value b) r c2) as [[[r2 d2] o2]| |]; cbn [obind]; try exact I. apply K, H.
Qed.
Lemma karray_begin : kstep (fl_array_begin b).
Proof. unfold fl_array_begin. ksteps. Qed.
Lemma knested_begin : kstep (fl_nested_object_begin b).
Proof. unfold fl_nested_object_begin. ksteps. Qed.
Lemma kelement : kstep (fl_element_begin b).
Proof. unfold fl_element_begin. ksteps. Qed.
Lemma kend_nested : kstep (fl_on_nested_object_end b).
Proof. unfold fl_on_nested_object_end. ksteps. Qed.
Lemma kend_array : kstep (fl_on_array_end b).
Proof. unfold fl_on_array_end. ksteps. Qed.
Lemma kend_root wrapper : kstep ((FlushToDdb.fl_on_root_object_end b) wrapper).
Proof. unfold FlushToDdb.fl_on_root_object_end. destruct wrapper; ksteps. Qed.
Lemma kfield_key : kaction (FlushToDdb.fl_on_field_key b).
Proof.
  refine (kfield (fun name => _) (fun r c => Done (r, c, OpError _)) _ _); [|apply kanswer]. intros name. apply kin_act_of. ksteps.
Qed.
Lemma kset_field c1 c2 k : near_conv c1 c2 -> near_conv (set_field c1 k) (set_field c2 k).
Proof. intros (H & E). split; [exact H|]. rewrite E. reflexivity. Qed.
Lemma kfind_begin wrapper name x : found near_conv gone_conv kaction ((fl_n2d_find_action b) wrapper name x).
Proof.
  unfold fl_n2d_find_action. destruct (names x) as [|parent path].
  { apply found_here. destruct name; try exact I; [apply kin_act_of, karray_begin|apply katom]. }
  destruct (beq parent (bs "#top")).
  { apply found_here. destruct name; try exact I; [apply kin_act_of; ksteps; apply karray_begin|apply kin_act_of; destruct wrapper; ksteps|apply kroot_literal]. }
  destruct name.
  - apply found_here. destruct (beq parent (bs "#array")); apply kin_act_of; [apply kin_then; [apply kelement|]|]; apply karray_begin.
  - apply found_here. destruct (beq parent (bs "#array")); apply kin_act_of; [apply kin_then; [apply kelement|]|]; apply knested_begin.
  - apply found_here. destruct (beq parent (bs "#array")); [|apply katom]. apply (kin_first _ _ (fl_element_begin b) (fl_on_atom_value b)); [apply kelement|apply katom].
  - intros c0. eexists (fun c => set_field c parent), _. split; [reflexivity|]. split; [reflexivity|]. split; [intros c1 c2 H; apply kset_field, H|]. split; [intros c c2 H; exact H|]. apply kfield_key.
Qed.
Lemma kfind_end wrapper name x : found near_conv gone_conv kstep ((fl_n2d_find_end_action b) wrapper name x).
Proof.
  unfold fl_n2d_find_end_action. apply found_here. destruct (names x) as [|parent path]; [exact I|]. destruct (beq parent (bs "#top")); destruct name; try exact I.
  - apply kin_then; [apply kend_array|apply kput].
  - apply kend_root.
  - apply kend_array.
  - apply kend_nested.
  - destruct (beq parent (bs "#array")); [|exact I]. destruct path as [|g ?]; [exact I|]. destruct (beq g (bs "L")); [apply kin_skip|exact I].
Qed.
Lemma n2d_twins wrapper : twins near_conv gone_conv ((fl_n2d_callbacks b) wrapper).
Proof. apply found_twins; [apply kfind_begin|apply kfind_end]. Qed.
Lemma n2d_flushes fuel rd w1 w2 rb xb pr wr : Bn None -> Rw w1 w2 -> flush_results (fl_convert_normal_to_ddb b fuel rd w1 rb xb pr wr) (fl_convert_normal_to_ddb b fuel rd w2 rb xb pr wr).
Proof.
  intros Hn H. unfold fl_convert_normal_to_ddb. apply (flush_convert near_conv gone_conv (fl_n2d_callbacks b wr) (fun c => c)); auto.
  - apply n2d_twins.
  - split; [split; [exact H|exact Hn]|reflexivity].
Qed.
End To.

(** ** From DynamoDB *)
Section From.
Context (Hany : forall o, Bn o) (HLg : forall e m, Lg e -> Bl (Some (CRJiter (err_type e) m))).
Definition near_d2n (c1 c2 : d2n) : Prop := near_conv (base c1) (base c2) /\ at_phase c1 = at_phase c2 /\ current_type c1 = current_type c2.
Definition gone_d2n (c1 c2 : d2n) : Prop := gone_conv (base c1) (base c2).
Notation dstep := (kin_step near_d2n gone_d2n).
Notation daction := (kin_action near_d2n gone_d2n).
Lemma dbase f : kstep f -> dstep (on_base f).
Proof.
  intros (F1 & F2). split.
  - intros c1 c2 (H & Hp & Ht). apply F1 in H. unfold on_base. destruct (f (base c1)) as [[d1 v1]| |], (f (base c2)) as [[d2 v2]| |]; cbn in *; try contradiction; try exact I; try exact H.
    destruct H as [(H & <-)|H]; [left; split; [split; [exact H|split; assumption]|reflexivity]|right; exact H].
  - intros c c2 H. apply F2 in H. unfold on_base. destruct (f (base c2)) as [[d2 v2]| |]; exact H || exact I.
Qed.
Lemma dphase p : dstep (phase_is p).
Proof. apply kin_change; [intros c1 c2 (H & _ & Ht); split; [exact H|split; [reflexivity|exact Ht]]|intros c c2 H; exact H]. Qed.
Lemma dtype t : dstep (type_is t).
Proof. apply kin_change; [intros c1 c2 (H & Hp & _); split; [exact H|split; [exact Hp|reflexivity]]|intros c c2 H; exact H]. Qed.
Ltac dsteps := repeat match goal with
  | |- dstep (_ ;; _) => apply kin_then
  | |- dstep (phase_is _) => apply dphase
  | |- dstep (type_is _) => apply dtype
  | |- dstep (on_base _) => apply dbase; ksteps
  end.
(** Changes of the state that leave the writer alone. *)
Definition mild (f : d2n -> d2n) : Prop := (forall c1 c2, near_d2n c1 c2 -> near_d2n (f c1) (f c2)) /\ (forall c c2, gone_d2n c c2 -> gone_d2n c (f c2)) /\ (forall c, cout (base (f c)) = cout (base c)).
Lemma mild_id : mild (fun c => c).
Proof. split; [|split]; auto. Qed.
Lemma mild_error e : mild (fun c => set_base c (set_error (base c) e)).
Proof.
  split; [|split; [intros c c2 H; exact H|reflexivity]]. intros c1 c2 (((H & _) & E) & Hp & Ht). split; [|split; assumption]. split; [split; [exact H|apply Hany]|]. cbn [base set_base]. rewrite E. reflexivity.
Qed.
Lemma mild_field k : mild (fun c => set_base c (set_field (base c) k)).
Proof. split; [|split; [intros c c2 H; exact H|reflexivity]]. intros c1 c2 (H & Hp & Ht). split; [apply kset_field, H|split; assumption]. Qed.
Lemma mild_phase p : mild (fun c => set_phase c p).
Proof. split; [|split; [intros c c2 H; exact H|reflexivity]]. intros c1 c2 (H & Hp & Ht). split; [exact H|split; [reflexivity|assumption]]. Qed.
Lemma mild_type t : mild (fun c => set_type c t).
Proof. split; [|split; [intros c c2 H; exact H|reflexivity]]. intros c1 c2 (H & Hp & Ht). split; [exact H|split; [assumption|reflexivity]]. Qed.
Lemma mild_both f g : mild f -> mild g -> mild (fun c => g (f c)).
Proof. intros (F1 & F2 & F3) (G1 & G2 & G3). split; [|split]; auto. intros c. rewrite G3. apply F3. Qed.
Lemma danswer f op : mild f -> daction (fun r c => Done (r, f c, op)).
Proof. intros (F1 & F2 & _). apply (kin_answer _ _ f); auto. Qed.
Lemma dfinally f a : mild f -> (forall c, last_error (base (f c)) = last_error (base c)) -> daction a -> daction (finally f a).
Proof.
  intros (F1 & F2 & F3) F4 (A1 & A2). split.
  - intros r c1 c2 H. apply (A1 r) in H. unfold finally. destruct (a r c1) as [[[r1 d1] o1]| |], (a r c2) as [[[r2 d2] o2]| |]; cbn in *; try contradiction; try exact I; try exact H.
    destruct H as [(<- & H & <-)|(Hm & H)]; [left; auto|right; split; [exact Hm|]]. unfold gone_d2n, gone_conv. rewrite !F3, F4. exact H.
  - intros r c c2 H. apply (A2 r) in H. unfold finally. destruct (a r c2) as [[[r2 d2] o2]| |]; cbn in *; auto.
Qed.
Lemma dfield (a : bytes -> action d2n) (z : action d2n) : (forall k, daction (a k)) -> daction z -> daction (fun r c => match field (base c) with None => z r c | Some k => a k r c end).
Proof.
  intros Ha Hb. split.
  - intros r c1 c2 H. pose proof H as (H1 & _). destruct (same_fields _ _ H1) as (_ & _ & <- & _). destruct (field (base c1)); [apply Ha, H|apply Hb, H].
  - intros r c c2 H. destruct (field (base c2)); [apply Ha, H|apply Hb, H].
Qed.
Lemma dstring q pc wc : daction (fl_write_string_value b q pc wc).
Proof.
  unfold fl_write_string_value. refine (kin_method _ _ peek (fun v r c => match v with Ok p => _ | Err e => Done (r, store_rjiter_error c e pc, OpError "Failed to peek string value") end) _).
  intros [p|e]; [|apply (danswer (fun c => store_rjiter_error c e pc)), mild_error]. destruct (negb (N.eqb p QUOTE)); [apply (danswer (fun c => c)), mild_id|].
  apply (kin_first _ _ (on_base (fl_write_comma b ;; if q then fl_put b [QUOTE] "writing opening quote" else skip)) (fun r c =>
            do (r, w, v) <- write_long_bytes r (cout (base c));
            match v with
            | Err e => Done (r, store_rjiter_error (set_base c (set_cout (base c) w)) e wc, OpError "Failed to write value")
            | Ok _ =>
                act_of (on_base (flush_long b) ;; on_base ((if q then fl_put b [QUOTE] "writing closing quote" else skip) ;; comma_is true))
                  ValueIsConsumed r (set_base c (set_cout (base c) w))
            end)); [apply dbase; destruct q; ksteps|].
  apply (gl_long near_d2n gone_d2n (fun c => cout (base c)) (fun c w => set_base c (set_cout (base c) w)) (fun c => last_error (base c))) with (h := fun e c => store_rjiter_error c e wc)
    (g := fun k c => set_base c (set_error (base c) (CIo k "flushing after write_long_bytes"))) (m' := "Failed to flush writer"%string).
  - intros c1 c2 _. apply Hany.
  - reflexivity.
  - intros c1 c2 ((H & _) & _). apply H.
  - intros c1 c2 w1 w2 ((_ & E) & Hp & Ht) H. split; [|split; assumption]. split; [split; [exact H|apply Hany]|]. cbn [base set_base]. rewrite E. reflexivity.
  - intros c1 c2. reflexivity.
  - reflexivity.
  - reflexivity.
  - reflexivity.
  - intros x c Hx _. apply HLg, Hx.
  - eexists. reflexivity.
  - intros x c1 c2. apply (mild_error (CRJiter (err_type x) wc)).
  - reflexivity.
  - intros c. unfold on_base. rewrite kflush. destruct (flush1 b (cout (base c))) as [w [u|k]]; reflexivity.
  - apply dbase. destruct q; ksteps.
Qed.
Lemma dbool validate name : daction ((fl_handle_bool_based_type b) validate name).
Proof.
  unfold fl_handle_bool_based_type. refine (kin_method _ _ peek (fun v r c => match v with Ok p => _ | Err e => Done (r, store_rjiter_error c e name, OpError "Failed to peek value") end) _).
  intros [p|e]; [|apply (danswer (fun c => store_rjiter_error c e name)), mild_error]. destruct (validate p) as [output|m]; [|apply (danswer (fun c => c)), mild_id].
  apply (kin_first _ _ (on_base (fl_write_comma b)) (fun r c => do (r, v) <- known_bool p r;
              match v with
              | Err e => Done (r, store_rjiter_error c e name, OpError "Failed to consume boolean value")
              | Ok _ => act_of (on_base ((fl_put b) output name ;; comma_is true) ;; type_is None) ValueIsConsumed r c
              end)); [dsteps|].
  refine (kin_method _ _ (known_bool p) (fun v r c => match v with Ok _ => _ | Err e => Done (r, store_rjiter_error c e name, OpError "Failed to consume boolean value") end) _).
  intros [v|e]; [apply kin_act_of; dsteps|apply (danswer (fun c => store_rjiter_error c e name)), mild_error].
Qed.
Lemma dtype_key : daction (fl_on_type_key b).
Proof.
  refine (dfield (fun key => _) (fun r c => Done (r, c, OpError _)) _ _); [|apply (danswer (fun c => c)), mild_id]. intros key.
  repeat match goal with |- context [if ?t then _ else _] => destruct t end; try solve [apply kin_act_of; dsteps].
  - apply dfinally; [apply (mild_both (fun c => set_type c None) (fun c => set_phase c ExpectingValue)); [apply mild_type|apply mild_phase]|reflexivity|apply dstring].
  - apply dfinally; [apply (mild_both (fun c => set_type c None) (fun c => set_phase c ExpectingValue)); [apply mild_type|apply mild_phase]|reflexivity|apply dstring].
  - apply dfinally; [apply mild_phase|reflexivity|apply dbool].
  - apply dfinally; [apply mild_phase|reflexivity|apply dbool].
  - apply (danswer (fun c => store_parse_error c _ _)), mild_error.
Qed.
Lemma dfield_key : daction (FlushFromDdb.fl_on_field_key b).
Proof. refine (dfield (fun key => _) (fun r c => Done (r, c, OpError _)) _ _); [|apply (danswer (fun c => c)), mild_id]. intros key. apply kin_act_of. dsteps. Qed.
Lemma derror : daction on_error.
Proof. apply (danswer (fun c => c)), mild_id. Qed.
Lemma droot : daction (FlushFromDdb.fl_on_root_object_begin b).
Proof. apply kin_act_of, dbase. ksteps. apply kchange; reflexivity. Qed.
Lemma at_mild (Q : action d2n -> Prop) c f a find : mild f -> find c = (f c, a) -> (forall c2, near_d2n c c2 -> find c2 = (f c2, a)) -> match a with Some x => Q x | None => True end -> found_at near_d2n gone_d2n Q find c.
Proof. intros (F1 & F2 & _) E1 E2 Ha. exists f, a. auto. Qed.
Lemma at_same {X} (Q : X -> Prop) c a find : find c = (c, a) -> (forall c2, near_d2n c c2 -> find c2 = (c2, a)) -> match a with Some x => Q x | None => True end -> found_at near_d2n gone_d2n Q find c.
Proof. intros E1 E2 Ha. exists (fun c => c), a. auto. Qed.
Lemma at_error c m u find : find c = (store_parse_error c m u, Some on_error) -> (forall c2, near_d2n c c2 -> find c2 = (store_parse_error c2 m u, Some on_error)) -> found_at near_d2n gone_d2n daction find c.
Proof. intros E1 E2. apply (at_mild _ c (fun c => store_parse_error c m u) (Some on_error) find); [apply mild_error|exact E1|exact E2|apply derror]. Qed.
Lemma at_note c k a find : find c = (set_base c (set_field (base c) k), Some a) -> (forall c2, near_d2n c c2 -> find c2 = (set_base c2 (set_field (base c2) k), Some a)) -> daction a -> found_at near_d2n gone_d2n daction find c.
Proof. intros E1 E2 Ha. apply (at_mild _ c (fun c => set_base c (set_field (base c) k)) (Some a) find); [apply mild_field|exact E1|exact E2|exact Ha]. Qed.
Lemma near_d2n_fields c e : near_d2n c e -> at_phase e = at_phase c /\ current_type e = current_type c /\ level (base e) = level (base c).
Proof. intros (H & Hp & Ht). repeat split; [symmetry; exact Hp|symmetry; exact Ht|]. symmetry. apply (same_fields _ _ H). Qed.
Ltac other := let c2 := fresh "c" in let H := fresh "H" in let H1 := fresh in let H2 := fresh in let H3 := fresh in
  intros c2 H; apply near_d2n_fields in H as (H1 & H2 & H3); cbv beta zeta; rewrite ?H1, ?H2, ?H3;
  repeat match goal with E : _ = _ |- _ => rewrite E end; reflexivity.
Ltac same_here := solve [apply at_same with (a := None); [cbv beta zeta; repeat match goal with E : _ = _ |- _ => rewrite E end; reflexivity|other|exact I]].
Ltac error_here := solve [eapply at_error; [cbv beta zeta; repeat match goal with E : _ = _ |- _ => rewrite E end; reflexivity|other]].
Lemma dfind_begin mode name x : found near_d2n gone_d2n daction ((fl_d2n_find_action b) mode name x).
Proof.
  intros c. destruct name; unfold fl_d2n_find_action; cbv beta iota.
  - unfold find_action_array. destruct (current_type c) as [[]|] eqn:E; try same_here; try error_here.
    apply (at_mild _ c (fun c => set_type c None) None); [apply mild_type|rewrite E; reflexivity|other|exact I].
  - unfold fl_find_action_object. destruct (level (base c) =? 0) eqn:E; [apply at_same with (a := Some (FlushFromDdb.fl_on_root_object_begin b)); [cbv beta zeta; rewrite E; reflexivity|other|apply droot]|].
    destruct (at_phase c) eqn:Ep; try same_here; try error_here.
    + destruct (current_type c) as [[]|] eqn:Et; try same_here; try error_here.
    + destruct (parent_is (bs "#array") (names x)) eqn:Ea; try same_here; try error_here.
  - unfold fl_find_action_atom. destruct (at_phase c) eqn:Ep; try error_here. destruct (parent_is (bs "#array") (names x)) eqn:Ea; try error_here.
    destruct (current_type c) as [[]|] eqn:Et; try error_here.
    + apply at_same with (a := Some (fl_on_set_string_element b)); [cbv beta zeta; rewrite ?Ep, ?Ea, ?Et; reflexivity|other|apply dstring].
    + apply at_same with (a := Some (fl_on_set_number_element b)); [cbv beta zeta; rewrite ?Ep, ?Ea, ?Et; reflexivity|other|apply dstring].
  - unfold fl_find_action_key. destruct (names x) as [|key path]; [same_here|]. destruct (at_phase c) eqn:Ep.
    + destruct (beq key (bs "Item") && match mode with AsWrapper => parent_is (bs "#top") path | AsField => false end) eqn:Eb; [same_here|].
      eapply at_note; [cbv beta zeta; rewrite ?Ep, ?Eb; reflexivity|other|apply dfield_key].
    + eapply at_note; [cbv beta zeta; rewrite Ep; reflexivity|other|apply dtype_key].
    + destruct (in_set (current_type c)) eqn:Eb; [|error_here]. eapply at_note; [cbv beta zeta; rewrite ?Ep, ?Eb; reflexivity|other|apply dtype_key].
    + eapply at_note; [cbv beta zeta; rewrite Ep; reflexivity|other|apply dfield_key].
Qed.
Lemma dlist_end : dstep (fl_on_list_end b).
Proof.
  assert (K : dstep (on_base ((fl_put b) [RBRACK] "writing L closing bracket" ;; comma_is true) ;; phase_is ExpectingValue ;; type_is None)) by dsteps. split.
  - intros c1 c2 H. unfold fl_on_list_end. destruct (near_d2n_fields _ _ H) as (-> & _). destruct (at_phase c1); [left; auto|apply K, H|left; auto|left; auto].
  - intros c c2 H. unfold fl_on_list_end. destruct (at_phase c2); [exact H|apply K, H|exact H|exact H].
Qed.
Lemma dmap_end : dstep (fl_on_map_end b).
Proof. unfold fl_on_map_end. dsteps. Qed.
Lemma dfind_end mode name x : found near_d2n gone_d2n dstep ((fl_d2n_find_end_action b) mode name x).
Proof.
  intros c. unfold fl_d2n_find_end_action. destruct name; cbv beta iota.
  - destruct (at_phase c) eqn:Ep; try same_here.
    + apply at_same with (a := Some (fl_on_list_end b)); [cbv beta zeta; rewrite Ep; reflexivity|other|apply dlist_end].
    + apply at_same with (a := Some (fl_on_set_end b)); [cbv beta zeta; rewrite Ep; reflexivity|other|]. unfold fl_on_set_end. dsteps.
  - apply found_here. destruct (ctx_len x =? 1); [|exact I]. unfold FlushFromDdb.fl_on_root_object_end. dsteps. apply kchange; reflexivity.
  - apply found_here. exact I.
  - assert (Ha : dstep (fl_on_map_end_in_array b)) by (unfold fl_on_map_end_in_array; apply kin_then; [apply dmap_end|apply dphase]).
    apply at_same with (a := (fl_find_end_action_key b) mode (names x) c); [reflexivity| |].
    + intros c2 H. apply near_d2n_fields in H as (H1 & _). unfold fl_find_end_action_key. rewrite H1. reflexivity.
    + unfold fl_find_end_action_key. destruct (names x) as [|key path]; [exact I|]. destruct (at_phase c).
      * cbv zeta. destruct (_ && _ && _); [exact I|]. destruct (parent_is _ _); [exact Ha|apply dmap_end].
      * destruct (is_container key); [exact I|apply dphase].
      * destruct (parent_is _ _); apply dphase.
      * destruct (parent_is _ _); apply dphase.
Qed.
Lemma d2n_twins mode : twins near_d2n gone_d2n ((fl_d2n_callbacks b) mode).
Proof. apply found_twins; [apply dfind_begin|apply dfind_end]. Qed.

Lemma d2n_flushes fuel rd w1 w2 rb xb pr mode : Rw w1 w2 -> flush_results (fl_convert_ddb_to_normal b fuel rd w1 rb xb pr mode) (fl_convert_ddb_to_normal b fuel rd w2 rb xb pr mode).
Proof.
  intros H. unfold fl_convert_ddb_to_normal. apply (flush_convert near_d2n gone_d2n (fl_d2n_callbacks b mode) base).
  - apply d2n_twins.
  - intros c1 c2 Hs. apply Hs.
  - intros c1 c2 Hs. exact Hs.
  - split; [split; [split; [exact H|apply Hany]|reflexivity]|split; reflexivity].
Qed.
End From.
End Writers.
