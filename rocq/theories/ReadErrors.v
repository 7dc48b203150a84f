(** What becomes of the errors of the reader. *)
From Verif Require Import Base U8Pool Buffer BufferSpec Jiter RJiter RJiterSpec RJiterOpProofs Scan ScanSpec IdTransform.

Definition pending (b : buffer) : list io_kind :=
  flat_map (fun x => match x with Fail k => [k] | Chunk _ => [] end) (sched (rd b)).
(** Either no error was reported or one was, and the call has just ended with it. *)
Definition honest {X} (b b' : buffer) (r : result X rerror) : Prop :=
  pending b' = pending b \/ exists k e, pending b = k :: pending b' /\ r = Err e /\ err_type e = IoError k.
Lemma honest_same {X} b (r : result X rerror) : honest b b r. Proof. left. reflexivity. Qed.
Lemma honest_then {X} b b1 b2 (r : result X rerror) : pending b1 = pending b -> honest b1 b2 r -> honest b b2 r.
Proof. unfold honest. intros ->. auto. Qed.
Lemma honest_err {X Y} b b' e : honest b b' (@Err X rerror e) -> honest b b' (@Err Y rerror e).
Proof. intros [H|(k & e1 & A & C & D)]; [left; exact H|right]. injection C as <-. exists k, e. auto. Qed.
Lemma honest_ok {X} b b' (x : X) : honest b b' (Ok x) -> pending b' = pending b.
Proof. intros [H|(k & e1 & A & C & D)]; [exact H|discriminate]. Qed.
Lemma pending_shift b t f : pending (shift_buffer b t f) = pending b.
Proof. unfold pending, shift_buffer. destruct (if _ <? _ then _ else _). destruct (_ && _); reflexivity. Qed.
Lemma honest_read b b' r : read_more b = (b', r) -> honest b b' r.
Proof.
  unfold read_more, reader_read. destruct (sched (rd b)) as [|[k|k] l] eqn:E; intros H; injection H as <- <-.
  - left. unfold pending. cbn. rewrite E. reflexivity.
  - left. unfold pending. cbn. rewrite E. reflexivity.
  - right. exists k. eexists. unfold pending. rewrite E. cbn. repeat split.
Qed.
Ltac same := left; rewrite ?pending_shift; assumption || reflexivity.

Lemma honest_collect_while fuel : forall b pred p a i c sh b' r,
  collect_while_loop fuel b pred p a i c sh = Done (b', r) -> honest b b' r.
Proof.
  induction fuel as [|fuel IH]; intros b pred p a i c sh b' r E; [discriminate|]. cbn [collect_while_loop] in E. cbv zeta in E.
  destruct (_ <? n_bytes b) in E; [injection E as <- <-; apply honest_same|].
  assert (Hgo : forall b1 j1 c1 s1, pending b1 = pending b ->
    match read_more b1 with
    | (b', Err e) => Done (b', Err e)
    | (b', Ok 0) => Done (b', Ok (c1, n_bytes b'))
    | (b', Ok (S _)) => collect_while_loop fuel b' pred p a j1 c1 s1
    end = Done (b', r) -> honest b b' r).
  { intros b1 j1 c1 s1 H1 E1. destruct (read_more b1) as [b2 [[|k]|e]] eqn:E2; apply honest_read in E2.
    - injection E1 as <- <-. apply honest_ok in E2. left. congruence.
    - apply honest_ok in E2. eapply honest_then; [|eapply IH; exact E1]. congruence.
    - injection E1 as <- <-. apply (@honest_err nat). eapply honest_then; eassumption. }
  destruct (len (buf b) <=? n_bytes b).
  - destruct (negb a || sh || (p =? 0)); [injection E as <- <-; apply honest_same|].
    eapply Hgo; [|exact E]. apply pending_shift.
  - eapply Hgo; [|exact E]. reflexivity.
Qed.
Lemma honest_skip_spaces fuel : forall b p b' r, skip_spaces_loop fuel b p = Done (b', r) -> honest b b' r.
Proof.
  induction fuel as [|fuel IH]; intros b p b' r E; [discriminate|]. cbn [skip_spaces_loop] in E.
  destruct (collect_while b is_ascii_whitespace p false) as [[b1 [[x e]|e]]| |] eqn:E1; try discriminate;
    apply honest_collect_while in E1.
  - injection E as <- <-. apply honest_ok in E1. left. destruct (p <? e); rewrite ?pending_shift; exact E1.
  - destruct (err_type e) eqn:Ee; try (injection E as <- <-; exact (honest_err _ _ _ E1)).
    eapply honest_then; [|eapply IH; exact E]. rewrite pending_shift. destruct E1 as [E1|(k & e1 & A & C & D)]; [exact E1|]. injection C as <-. congruence.
Qed.
Lemma honest_feeding s p t s' r : skip_spaces_feeding s p t = Done (s', r) -> honest (bf s) (bf s') r.
Proof.
  unfold skip_spaces_feeding. intros E.
  set (b1 := if 0 <? p then shift_buffer (bf s) 0 p else bf s) in E.
  assert (H1 : pending b1 = pending (bf s)) by (unfold b1; destruct (0 <? p); auto using pending_shift).
  destruct (skip_spaces b1 0) as [[b2 [[]|e]]| |] eqn:E2; try discriminate; apply honest_skip_spaces in E2.
  2:{ injection E as <- <-. eapply honest_then; eassumption. }
  apply honest_ok in E2. rewrite H1 in E2.
  assert (Hfin : forall b, pending b = pending (bf s) -> pending (bf (if is_changed (bf s) b then create_new_jiter (with_bf s b) else with_bf s b)) = pending (bf s)).
  { intros b Hb. destruct (is_changed (bf s) b); exact Hb. }
  destruct t as [t|]; [|injection E as <- <-; left; auto].
  destruct (if n_bytes b2 =? 0 then read_more b2 else (b2, Ok 0)) as [b3 r3] eqn:E3.
  assert (H3 : honest b2 b3 r3).
  { destruct (n_bytes b2 =? 0); [apply honest_read, E3|]. injection E3 as <- <-. apply honest_same. }
  destruct r3 as [n|e]; [|injection E as <- <-; apply (@honest_err nat); eapply honest_then; [exact E2|exact H3]].
  apply honest_ok in H3. rewrite E2 in H3.
  destruct (firstn (n_bytes b3) (buf b3)) as [|y l]; [injection E as <- <-; left; auto|].
  destruct (N.eqb y t); [|injection E as <- <-; left; auto].
  destruct (skip_spaces b3 1) as [[b4 [[]|e]]| |] eqn:E4; try discriminate; apply honest_skip_spaces in E4; injection E as <- <-.
  - apply honest_ok in E4. left. apply Hfin. congruence.
  - eapply honest_then; [exact H3|exact E4].
Qed.
Lemma honest_retry {A} (f : jop A) eager fuel : forall s s' r, retry_loop fuel f eager s = Done (s', r) -> honest (bf s) (bf s') r.
Proof.
  induction fuel as [|fuel IH]; intros s s' r E; [discriminate|]. cbn [retry_loop] in E. unfold jcall in E.
  destruct (f (jview s)) as [r0 a]. cbn [bf] in E.
  set (s1 := mkRj (bf s) (jlen s) (jidx s + a)) in E.
  assert (Hgo : forall r1 : jres A, match read_more (bf s) with
    | (b, Err e) => Done (with_bf s1 b, Err e)
    | (b, Ok 0) => let s2 := with_bf s1 b in
        Done (s2, match r1 with Ok v => Ok v | Err e => Err (from_jiter_error (current_index s2) e) end)
    | (b, Ok (S _)) => retry_loop fuel f eager (create_new_jiter (with_bf s1 b))
    end = Done (s', r) -> honest (bf s) (bf s') r).
  { intros r1 E1. destruct (read_more (bf s)) as [b [[|k]|e]] eqn:E2; cbn zeta in E1; apply honest_read in E2.
    - injection E1 as <- _. apply honest_ok in E2. left. exact E2.
    - apply honest_ok in E2. eapply honest_then; [|eapply IH; exact E1]. exact E2.
    - injection E1 as <- <-. eapply honest_err, E2. }
  destruct r0 as [v|[e o]].
  - destruct (really_ok eager s1); [injection E as <- _; apply honest_same|]. exact (Hgo (Ok v) E).
  - destruct (can_retry (fst (e, jidx s + o))); [|injection E as <- _; apply honest_same]. exact (Hgo (Err (e, jidx s + o)) E).
Qed.
Lemma honest_loop {A} (f : jop A) token eager s s' r : loop_until_success f token eager s = Done (s', r) -> honest (bf s) (bf s') r.
Proof.
  unfold loop_until_success, jcall. destruct (f (jview s)) as [r0 a]. intros E.
  set (s1 := mkRj (bf s) (jlen s) (jidx s + a)) in E.
  assert (Hgo : match skip_spaces_feeding s1 (jidx s) token with
    | Done (s2, Ok tt) => retry_loop (fuel_for (bf s2)) f eager s2
    | Done (s2, Err e) => Done (s2, Err e)
    | Panic => Panic
    | Diverge => Diverge
    end = Done (s', r) -> honest (bf s) (bf s') r).
  { intros E1. destruct (skip_spaces_feeding s1 (jidx s) token) as [[s2 [[]|e]]| |] eqn:E2; try discriminate; apply honest_feeding in E2.
    - apply honest_ok in E2. eapply honest_then; [exact E2|]. eapply honest_retry; eauto.
    - injection E1 as <- <-. eapply honest_err, E2. }
  destruct r0 as [v|[e o]]; [|apply Hgo, E]. destruct (really_ok eager s1); [injection E as <- _; apply honest_same|apply Hgo, E].
Qed.
Lemma honest_finish fuel : forall s s' r, finish_loop fuel s = Done (s', r) -> honest (bf s) (bf s') r.
Proof.
  induction fuel as [|fuel IH]; intros s s' r E; [discriminate|]. cbn [finish_loop] in E. unfold jcall in E.
  destruct (j_finish (jview s)) as [[v|[e o]] a]; cbn [bf jidx] in E; [|injection E as <- _; apply honest_same].
  destruct (_ <? _) in E; [|eapply honest_then; [|eapply IH; exact E]; apply pending_shift].
  destruct (read_more (bf s)) as [b [[|k]|e]] eqn:E2; apply honest_read in E2.
  - injection E as <- _. apply honest_ok in E2. left. exact E2.
  - apply honest_ok in E2. eapply honest_then; [|eapply IH; exact E]. cbn. rewrite pending_shift. exact E2.
  - injection E as <- <-. eapply honest_err, E2.
Qed.
Lemma honest_long parser segment fuel : forall s w s' w' r, handle_long fuel parser segment s w = Done (s', w', r) -> honest (bf s) (bf s') r.
Proof.
  induction fuel as [|fuel IH]; intros s w s' w' r E; [discriminate|]. cbn [handle_long] in E. unfold jcall in E.
  destruct (parser (jview s)) as [r0 a]. set (s1 := mkRj (bf s) (jlen s) (jidx s + a)) in E. cbn zeta in E.
  destruct r0 as [v|[e o]].
  - destruct (write_all w v) as [w1 [u|e1]]; injection E as <- _ _; apply honest_same.
  - destruct (can_retry (fst (e, jidx s + o))); [|injection E as <- _ _; apply honest_same].
    set (s2 := if 0 <? jidx s1 then _ else s1) in E.
    assert (H2 : pending (bf s2) = pending (bf s)) by (unfold s2; destruct (0 <? jidx s1); cbn; rewrite ?pending_shift; reflexivity).
    clearbody s2. destruct (find_leading (buf (bf s2)) (raw_segment_end (bf s2))) as [se|]; [|discriminate].
    assert (Hgo : forall s3 w3 (err : jerr), pending (bf s3) = pending (bf s) ->
      match read_more (bf s3) with
      | (b, Err e) => Done (with_bf s3 b, w3, Err e)
      | (b, Ok 0) => let s4 := with_bf s3 b in Done (s4, w3, Err (from_jiter_error (current_index s4) err))
      | (b, Ok (S _)) => handle_long fuel parser segment (create_new_jiter (with_bf s3 b)) w3
      end = Done (s', w', r) -> honest (bf s) (bf s') r).
    { intros s3 w3 err H3 E3. destruct (read_more (bf s3)) as [b [[|k]|e3]] eqn:E4; cbn zeta in E3; apply honest_read in E4.
      - injection E3 as <- _ _. apply honest_ok in E4. left. cbn. congruence.
      - apply honest_ok in E4. eapply honest_then; [|eapply IH; exact E3]. cbn. congruence.
      - injection E3 as <- _ <-. apply (@honest_err nat). eapply honest_then; eassumption. }
    destruct (1 <? se).
    + destruct (segment (buf (bf s2)) se) as [d|e2]; [|injection E as <- _ _; left; exact H2].
      destruct (write_all w d) as [w1 [u|e1]]; [|injection E as <- _ _; left; exact H2].
      refine (Hgo _ _ (e, jidx s + o) _ E). cbn. rewrite pending_shift. exact H2.
    + exact (Hgo _ _ (e, jidx s + o) H2 E).
Qed.

(** ** The scanner *)
Definition told {X} (s s' : rj) (r : result X rerror) : Prop :=
  faults s' = faults s \/ exists k e, faults s = k :: faults s' /\ r = Err e /\ read_error k e.
Lemma told_loop {A} (f : jop A) token eager s s' r : loop_until_success f token eager s = Done (s', r) -> told s s' r.
Proof. apply honest_loop. Qed.
Lemma told_finish s s' r : finish s = Done (s', r) -> told s s' r.
Proof. apply honest_finish. Qed.
Lemma told_long s w s' w' r : write_long_bytes s w = Done (s', w', r) -> told s s' r.
Proof. apply honest_long. Qed.
Lemma told_err {X Y} s s' e : told s s' (@Err X rerror e) -> told s s' (@Err Y rerror e).
Proof. apply honest_err. Qed.

(** [I]: what holds of the user state while nothing has failed. [W k]: what the callback that met the error [k] left.
    [masks]: whether the scanner may skip an atom itself. *)
Record forwards {B} (cb : callbacks B) (I : B -> Prop) (W : io_kind -> B -> Prop) (masks : bool) : Prop := {
  fw_find : forall name c u, I u -> I (fst (find_action cb name c u));
  fw_find_end : forall name c u, I u -> I (fst (find_end_action cb name c u));
  fw_act : forall name c u u1 act s s' u' op, I u -> find_action cb name c u = (u1, Some act) -> act s u1 = Done (s', u', op) ->
    (faults s' = faults s /\ (I u' \/ exists m, op = OpError m)) \/
    (exists k m, faults s = k :: faults s' /\ op = OpError m /\ W k u');
  fw_end : forall name c u u1 act u' r, I u -> find_end_action cb name c u = (u1, Some act) -> act u1 = Done (u', r) ->
    I u' \/ exists m, r = Err m;
  fw_atom : masks = false -> forall c u, exists u1 act, find_action cb PAtom c u = (u1, Some act) /\
    forall s s' u' op, act s u1 = Done (s', u', op) -> op <> OpNone }.

Section Scanner.
Context {B : Type} (cb : callbacks B) (I : B -> Prop) (W : io_kind -> B -> Prop) (masks : bool).
Context (fw : forwards cb I W masks).

(** The errors [scan] answers with when the reader reported [k]. *)
Definition passed (k : io_kind) (u : B) (e : scan_error) : Prop :=
  (exists m i, e = ActionError m i /\ W k u) \/
  (I u /\ ((exists e', e = RJiterError e' /\ read_error k e') \/ (masks = true /\ exists x i, e = UnhandledPeek x i))).
Definition fine {X} (s s' : sstate B) (r : result X scan_error) : Prop :=
  (faults (parser s') = faults (parser s) /\ (I (user s') \/ exists e, r = Err e)) \/
  (exists k e, faults (parser s) = k :: faults (parser s') /\ r = Err e /\ passed k (user s') e).
Definition verdict_result (v : verdict) : result unit scan_error := match v with Continue _ => Ok tt | Return r => r end.

Lemma fine_err {X Y} s s' e : fine s s' (@Err X scan_error e) -> fine s s' (@Err Y scan_error e).
Proof.
  intros [[A [C|(e1 & C)]]|(k & e1 & A & C & D)].
  - left. auto.
  - left. split; [exact A|right; eauto].
  - right. injection C as <-. eauto.
Qed.
Lemma fine_ok {X} s s' (x : X) : fine s s' (Ok x) -> faults (parser s') = faults (parser s) /\ I (user s').
Proof. intros [[A [C|(e1 & C)]]|(k & e1 & A & C & D)]; try discriminate. auto. Qed.
Lemma fine_then {X} s s1 s2 (r : result X scan_error) : faults (parser s1) = faults (parser s) -> fine s1 s2 r -> fine s s2 r.
Proof. unfold fine. intros ->. auto. Qed.
Lemma fine_refl {X} s s' (r : result X scan_error) : parser s' = parser s -> I (user s') -> fine s s' r.
Proof. unfold fine. intros -> H. left. auto. Qed.
Lemma fine_fail {X} s s' e : parser s' = parser s -> fine s s' (@Err X scan_error e).
Proof. unfold fine. intros ->. left. eauto. Qed.
Lemma fine_sbind {X Y} s (x : sres B X) (f : sstate B -> X -> sres B Y) s' r :
  sbind x f = Done (s', r) -> (forall s1 r1, x = Done (s1, r1) -> fine s s1 r1) ->
  (forall s1 v, I (user s1) -> f s1 v = Done (s', r) -> fine s1 s' r) -> fine s s' r.
Proof.
  intros E H1 H2. destruct x as [[s1 [v|e]]| |]; try discriminate; cbn [sbind] in E.
  - destruct (fine_ok _ _ _ (H1 _ _ eq_refl)) as [A C]. eapply fine_then; [exact A|]. eapply H2; eassumption.
  - injection E as <- <-. eapply fine_err, H1. reflexivity.
Qed.
Lemma fine_parse {X} (op : rj -> outcome (rj * result X rerror)) s s' r :
  (forall t t' v, op t = Done (t', v) -> told t t' v) -> I (user s) -> parse op s = Done (s', r) -> fine s s' r.
Proof.
  intros H HI. unfold parse. destruct (op (parser s)) as [[t v]| |] eqn:E; try discriminate. intros E1. injection E1 as <- <-.
  destruct (H _ _ _ E) as [A|(k & e & A & -> & C)]; [left; cbn; auto|].
  right. exists k, (RJiterError e). cbn. repeat split; [exact A|]. right. split; [exact HI|]. left. eauto.
Qed.
Lemma fine_run_begin name s s' r : I (user s) -> run_begin cb name s = Done (s', r) ->
  fine s s' r /\ (name = PAtom -> masks = false -> r <> Ok false).
Proof.
  intros HI. unfold run_begin. destruct (context_of (stack s)) as [c| |]; try discriminate. cbn [obind].
  destruct (find_action cb name c (user s)) as [u [act|]] eqn:E.
  - destruct (act (parser s) u) as [[[t u'] op]| |] eqn:E1; try discriminate. intros E2. injection E2 as <- <-. split.
    + destruct (fw_act _ _ _ _ fw _ _ _ _ _ _ _ _ _ HI E E1) as [[A [C|(m & ->)]]|(k & m & A & -> & C)].
      * left. cbn. auto.
      * left. cbn. eauto.
      * right. exists k. eexists. cbn. repeat split; [exact A|]. left. eauto.
    + intros -> Hm. destruct (fw_atom _ _ _ _ fw Hm c (user s)) as (u1 & act1 & E3 & H). rewrite E in E3. injection E3 as <- <-.
      apply H in E1. destruct op; congruence.
  - intros E2. injection E2 as <- <-. split.
    + apply fine_refl; [reflexivity|]. cbn. pose proof (fw_find _ _ _ _ fw name c _ HI) as H. rewrite E in H. exact H.
    + intros -> Hm. destruct (fw_atom _ _ _ _ fw Hm c (user s)) as (u1 & act1 & E3 & H). rewrite E in E3. discriminate.
Qed.
Lemma fine_look_up name s s1 a : I (user s) -> look_up_end cb name s = Done (s1, a) ->
  parser s1 = parser s /\ I (user s1) /\
  (forall s2 s' r, user s2 = user s1 -> run_end_action a s2 = Done (s', r) -> fine s2 s' r).
Proof.
  intros HI. unfold look_up_end. destruct (context_of (stack s)) as [c| |]; try discriminate. cbn [obind].
  destruct (find_end_action cb name c (user s)) as [u act] eqn:E. intros E1. injection E1 as <- <-. cbn.
  pose proof (fw_find_end _ _ _ _ fw name c _ HI) as H. rewrite E in H. cbn in H. split; [reflexivity|split; [exact H|]].
  intros s2 s' r Hu. destruct act as [act|]; cbn [run_end_action].
  - destruct (act (user s2)) as [[u' v]| |] eqn:E1; try discriminate. intros E2. injection E2 as <- <-. rewrite Hu in E1.
    destruct (fw_end _ _ _ _ fw _ _ _ _ _ _ _ HI E E1) as [C|(m & ->)]; [apply fine_refl; auto|apply fine_fail; reflexivity].
  - intros E2. injection E2 as <- <-. apply fine_refl; [reflexivity|congruence].
Qed.
Lemma fine_run_end name s s' r : I (user s) -> run_end cb name s = Done (s', r) -> fine s s' r.
Proof.
  intros HI. unfold run_end. destruct (look_up_end cb name s) as [[s1 a]| |] eqn:E; try discriminate. cbn [obind].
  destruct (fine_look_up _ _ _ _ HI E) as (A & _ & C). intros E1. eapply fine_then; [rewrite A; reflexivity|]. eapply C; eauto.
Qed.
Lemma fine_top_position m s s' r : I (user s) -> top_position m s = Done (s', r) -> fine s s' r.
Proof.
  intros HI. unfold top_position. destruct (top_assoc_obj (stack s) pos_ty) as [[a|]| |]; try discriminate; cbn [obind].
  - destruct (pos_of a); [|discriminate]. intros E. injection E as <- <-. apply fine_refl; auto.
  - intros E. injection E as <- <-. apply fine_refl; auto.
Qed.
Lemma fine_handle_object pos s s' r : I (user s) -> handle_object cb pos s = Done (s', r) -> fine s s' r.
Proof.
  intros HI. unfold handle_object. cbv zeta.
  match goal with |- (if _ then _ else ?e) = _ -> _ =>
    let t := eval pattern s in e in match t with ?g _ =>
      assert (Hrest : forall s s' r, I (user s) -> g s = Done (s', r) -> fine s s' r) end end.
  { clear s s' r HI. intros s s' r HI E. cbv beta in E.
    eapply fine_sbind; [exact E| |].
    - intros s1 r1 E1. destruct (pos_eqb pos ObjectBegin).
      + injection E1 as <- <-. apply fine_refl; auto.
      + destruct (look_up_end cb PNone s) as [[s2 a]| |] eqn:E2; try discriminate. cbn [obind] in E1.
        destruct (fine_look_up _ _ _ _ HI E2) as (A & D & C).
        destruct (pop_assoc (stack s2) pos_ty) as [[p x]| |]; try discriminate. cbn [obind] in E1.
        apply C in E1; [|reflexivity]. eapply fine_then; [|exact E1]. cbn. rewrite A. reflexivity.
    - clear E s HI. intros s [] HI E. eapply fine_sbind; [exact E| |].
      + intros s1 r1 E1. eapply fine_parse; [|exact HI|exact E1]. intros t t' v. destruct (pos_eqb pos ObjectBegin); apply told_loop.
      + clear E s HI. intros s [key|] HI E.
        * destruct (push_assoc (stack s) pos_ty [pos_code ObjectMiddle] key) as [[p q]| |]; try discriminate. cbn [obind] in E.
          destruct q as [q|e]; [|destruct e; injection E as <- <-; apply fine_refl; auto].
          eapply (fine_then _ (mkS (parser s) (user s) p)); [reflexivity|]. eapply fine_sbind; [exact E| |].
          -- intros s1 r1 E1. eapply (fine_run_begin PNone); [|exact E1]. exact HI.
          -- intros s1 v HI1 E1. injection E1 as <- <-. apply fine_refl; auto.
        * eapply fine_sbind; [exact E| |].
          -- intros s1 r1 E1. exact (fine_run_end _ _ _ _ HI E1).
          -- intros s1 v HI1 E1. exact (fine_top_position _ _ _ _ HI1 E1). }
  destruct (pos_eqb pos ObjectBegin); [|exact (Hrest _ _ _ HI)].
  intros E. eapply fine_sbind; [exact E| |].
  - intros s1 r1 E1. eapply (fine_run_begin PObject); [|exact E1]. exact HI.
  - intros s1 [|] HI1 E1; [exact (fine_top_position _ _ _ _ HI1 E1)|exact (Hrest _ _ _ HI1 E1)].
Qed.
Lemma fine_handle_array pos s s' r : I (user s) -> handle_array cb pos s = Done (s', r) -> fine s s' r.
Proof.
  intros HI. unfold handle_array. cbv zeta.
  match goal with |- (if _ then _ else ?e) = _ -> _ =>
    let t := eval pattern s in e in match t with ?g _ =>
      assert (Hstep : forall s s' r, I (user s) -> g s = Done (s', r) -> fine s s' r) end end.
  { clear s s' r HI. intros s s' r HI E. cbv beta in E.
    eapply fine_sbind; [exact E| |].
    - intros s1 r1 E1. eapply fine_parse; [|exact HI|exact E1]. intros t t' v. destruct (pos_eqb pos ArrayBegin); apply told_loop.
    - clear E s HI. intros s [x|] HI E; [injection E as <- <-; apply fine_refl; auto|].
      destruct (pop_assoc (stack s) pos_ty) as [[p q]| |]; try discriminate. cbn [obind] in E.
      destruct q as [q|]; [|injection E as <- <-; apply fine_refl; auto].
      eapply (fine_then _ (mkS (parser s) (user s) p)); [reflexivity|]. eapply fine_sbind; [exact E| |].
      + intros s1 r1 E1. eapply fine_run_end; [|exact E1]. exact HI.
      + intros s1 v HI1 E1. eapply fine_sbind; [exact E1| |].
        * intros s2 r2 E2. exact (fine_top_position _ _ _ _ HI1 E2).
        * intros s2 v2 HI2 E2. injection E2 as <- <-. apply fine_refl; auto. }
  destruct (pos_eqb pos ArrayBegin); [|exact (Hstep _ _ _ HI)].
  intros E. eapply fine_sbind; [exact E| |].
  - intros s1 r1 E1. eapply (fine_run_begin PArray); [|exact E1]. exact HI.
  - intros s1 [|] HI1 E1.
    + eapply fine_sbind; [exact E1| |].
      * intros s2 r2 E2. exact (fine_top_position _ _ _ _ HI1 E2).
      * intros s2 v2 HI2 E2. injection E2 as <- <-. apply fine_refl; auto.
    + destruct (push_assoc (stack s1) pos_ty [pos_code ArrayMiddle] (bs "#array")) as [[p q]| |]; try discriminate. cbn [obind] in E1.
      eapply (fine_then _ (mkS (parser s1) (user s1) p)); [reflexivity|].
      destruct q as [q|e]; [exact (Hstep (mkS (parser s1) (user s1) p) _ _ HI1 E1)|injection E1 as <- <-; apply fine_refl; auto].
Qed.
Lemma told_sink r r' v : (do (r', _, v) <- write_long_bytes r (mkWriter [] None); Done (r', v)) = Done (r', v) -> told r r' v.
Proof.
  destruct (write_long_bytes r (mkWriter [] None)) as [[[r1 w] v1]| |] eqn:E; try discriminate. cbn [obind].
  intros E1. injection E1 as <- <-. eapply told_long. exact E.
Qed.
(** A skipped atom: an error of the reader is an error, whichever. *)
Lemma fine_skip x s s' r : I (user s) -> skip_basic_values x s = Done (s', r) ->
  I (user s') /\ (faults (parser s') = faults (parser s) \/ exists k e, faults (parser s) = k :: faults (parser s') /\ r = Err e).
Proof.
  intros HI. unfold skip_basic_values.
  assert (Hgo : forall X (op : rj -> outcome (rj * result X rerror)), (forall t t' v, op t = Done (t', v) -> told t t' v) ->
    sbind (parse op s) (fun s _ => Done (s, Ok tt)) = Done (s', r) ->
    I (user s') /\ (faults (parser s') = faults (parser s) \/ exists k e, faults (parser s) = k :: faults (parser s') /\ r = Err e)).
  { intros X op H E. unfold parse in E. destruct (op (parser s)) as [[t v]| |] eqn:E1; try discriminate. cbn [obind] in E.
    apply H in E1. destruct v as [v|e]; cbn [sbind] in E; injection E as <- <-; cbn; (split; [exact HI|]);
      destruct E1 as [A|(k & e1 & A & C & D)]; eauto; discriminate. }
  destruct (N.eqb x QUOTE); [apply Hgo; intros t t' v; apply told_sink|].
  destruct (N.eqb x PeekNull); [apply Hgo; intros t t' v; apply told_loop|].
  destruct (N.eqb x PeekTrue); [apply Hgo; intros t t' v; apply told_loop|].
  destruct (N.eqb x PeekFalse); [apply Hgo; intros t t' v; apply told_loop|].
  destruct (next_number_bytes (parser s)) as [[t v]| |] eqn:E; try discriminate. cbn [obind].
  intros E1. injection E1 as <- <-. cbn. split; [exact HI|]. apply told_loop in E.
  destruct E as [A|(k & e1 & A & -> & D)]; eauto.
Qed.
Lemma fine_vbind {X} s (x : sres B X) (f : sstate B -> X -> sverdict B) s' v :
  vbind x f = Done (s', v) -> (forall s1 r1, x = Done (s1, r1) -> fine s s1 r1) ->
  (forall s1 y, I (user s1) -> x = Done (s1, Ok y) -> f s1 y = Done (s', v) -> fine s1 s' (verdict_result v)) ->
  fine s s' (verdict_result v).
Proof.
  intros E H1 H2. destruct x as [[s1 [y|e]]| |]; try discriminate; cbn [vbind] in E.
  - destruct (fine_ok _ _ _ (H1 _ _ eq_refl)) as [A C]. eapply fine_then; [exact A|]. eapply H2; eauto.
  - injection E as <- <-. cbn. eapply fine_err, H1. reflexivity.
Qed.
Lemma fine_scan_value stop pos x s s' v : I (user s) -> scan_value cb (mkOptions [] stop) pos x s = Done (s', v) -> fine s s' (verdict_result v).
Proof.
  intros HI. unfold scan_value. set (q := match pos with ObjectBetweenKV => ObjectMiddle | p => p end). clearbody q.
  destruct (N.eqb x LBRACK); [intros E; injection E as <- <-; apply fine_refl; auto|].
  destruct (N.eqb x LBRACE); [intros E; injection E as <- <-; apply fine_refl; auto|].
  intros E. eapply fine_vbind; [exact E| |].
  - intros s1 r1 E1. eapply (fine_run_begin PAtom); [|exact E1]. exact HI.
  - intros s1 [|] HI1 E0 E1; [injection E1 as <- <-; apply fine_refl; auto|].
    assert (Hm : masks = true).
    { destruct (fine_run_begin _ _ _ _ HI E0) as [_ H]. destruct masks; [reflexivity|]. destruct (H eq_refl eq_refl eq_refl). }
    destruct (skip_basic_values x s1) as [[s2 r2]| |] eqn:E2; try discriminate. cbn [obind] in E1.
    destruct (fine_skip _ _ _ _ HI1 E2) as [HI2 H].
    destruct r2 as [[]|e].
    + injection E1 as <- <-. left. split; [|auto]. destruct H as [A|(k & e1 & A & C)]; [exact A|discriminate].
    + cbn [sse_tokens skip_tokens] in E1. assert (E3 : Done (s2, Return (Err (UnhandledPeek x (current_index (parser s2))))) = Done (s', v)).
      { destruct (_ || _) in E1; cbn [obind] in E1; exact E1. }
      injection E3 as <- <-. cbn. destruct H as [A|(k & e1 & A & C)]; [left; auto|].
      right. exists k. eexists. repeat split; [exact A|]. right. split; [exact HI2|]. right. eauto.
Qed.
Lemma fine_iter stop pos s s' v : I (user s) -> scan_iter cb (mkOptions [] stop) pos s = Done (s', v) -> fine s s' (verdict_result v).
Proof.
  intros HI.
  assert (Hpeek : forall q, (do (r, v) <- peek (parser s);
      let s := mkS r (user s) (stack s) in
      match v with
      | Ok x => scan_value cb (mkOptions [] stop) q x s
      | Err e =>
          match err_type e with
          | JsonError EofWhileParsingValue =>
              if pos_eqb q Top then vbind (parse finish s) (fun s _ => Done (s, Return (Ok tt)))
              else Done (s, Return (Err (UnbalancedJson (current_index r))))
          | _ => Done (s, Return (Err (RJiterError e)))
          end
      end) = Done (s', v) -> fine s s' (verdict_result v)).
  { intros q. destruct (peek (parser s)) as [[t [x|e]]| |] eqn:E; try discriminate; cbn [obind]; cbv zeta; apply told_loop in E.
    - intros E1. destruct E as [A|(k & e1 & A & C & D)]; [|discriminate].
      eapply (fine_then _ (mkS t (user s) (stack s))); [exact A|]. eapply fine_scan_value; [|exact E1]. exact HI.
    - assert (Hfail : forall e1, (forall k, faults (parser s) = k :: faults t -> read_error k e -> e1 = RJiterError e) ->
        fine s (mkS t (user s) (stack s)) (@Err unit scan_error e1)).
      { intros e1 H1. destruct E as [A|(k & e2 & A & C & D)]; [left; cbn; auto|]. injection C as <-.
        right. exists k, e1. cbn. repeat split; [exact A|]. right. split; [exact HI|]. left. exists e. split; [exact (H1 k A D)|exact D]. }
      destruct (err_type e) as [j|x y|k|] eqn:Et; try (intros E1; injection E1 as <- <-; apply Hfail; auto).
      destruct j; try (intros E1; injection E1 as <- <-; apply Hfail; auto).
      destruct (pos_eqb q Top).
      + intros E1. eapply fine_vbind; [exact E1| |].
        * intros s1 r1 E2. destruct E as [A|(k & e2 & A & C & D)]; [|injection C as <-; unfold read_error in D; congruence].
          eapply (fine_then _ (mkS t (user s) (stack s))); [exact A|]. eapply fine_parse; [|exact HI|exact E2]. intros t1 t2 v1. apply told_finish.
        * intros s1 y HI1 E2 E3. injection E3 as <- <-. apply fine_refl; auto.
      + intros E1. injection E1 as <- <-. apply Hfail. intros k _ Hk. unfold read_error in Hk. congruence. }
  destruct pos; cbn [scan_iter]; try apply Hpeek.
  - intros E. eapply fine_vbind; [exact E| |].
    + intros s1 r1 E1. eapply fine_handle_object; eassumption.
    + intros s1 y HI1 E1 E2. injection E2 as <- <-. apply fine_refl; auto.
  - intros E. eapply fine_vbind; [exact E| |].
    + intros s1 r1 E1. eapply fine_handle_object; eassumption.
    + intros s1 y HI1 E1 E2. injection E2 as <- <-. apply fine_refl; auto.
  - intros E. eapply fine_vbind; [exact E| |].
    + intros s1 r1 E1. eapply fine_handle_array; eassumption.
    + intros s1 y HI1 E1 E2. destruct y as [[x|] []]; try (injection E2 as <- <-; apply fine_refl; auto); eapply fine_scan_value; eassumption.
  - intros E. eapply fine_vbind; [exact E| |].
    + intros s1 r1 E1. eapply fine_handle_array; eassumption.
    + intros s1 y HI1 E1 E2. destruct y as [[x|] []]; try (injection E2 as <- <-; apply fine_refl; auto); eapply fine_scan_value; eassumption.
Qed.
Lemma fine_loop stop fuel : forall pr pos s s' r, I (user s) -> scan_loop cb (mkOptions [] stop) fuel pr pos s = Done (s', r) -> fine s s' r.
Proof.
  induction fuel as [|fuel IH]; intros pr pos s s' r HI E; [discriminate|]. cbn [scan_loop] in E.
  destruct (_ && _ && _); [injection E as <- <-; apply fine_refl; auto|].
  destruct (scan_iter cb (mkOptions [] stop) pos s) as [[s1 [p|r1]]| |] eqn:E1; try discriminate; apply fine_iter in E1; try exact HI.
  - destruct (fine_ok _ _ _ E1) as [A C]. eapply fine_then; [exact A|]. eapply IH; eassumption.
  - injection E as <- <-. exact E1.
Qed.
Lemma fine_scan stop fuel s s' r : I (user s) -> scan cb (mkOptions [] stop) fuel s = Done (s', r) -> fine s s' r.
Proof.
  intros HI. unfold scan. destruct (push_assoc _ _ _ _) as [[p q]| |]; try discriminate. cbn [obind].
  intros E. eapply (fine_then _ (mkS (parser s) (user s) p)); [reflexivity|].
  destruct q as [q|e]; [eapply fine_loop; [|exact E]; exact HI|injection E as <- <-; apply fine_refl; auto].
Qed.
End Scanner.
(** ** Callbacks and the identity transform *)
Lemma scan_reads {B} (cb : callbacks B) stop fuel s s' r : passes_on cb -> scan cb (mkOptions [] stop) fuel s = Done (s', r) ->
  faults (parser s') = faults (parser s) \/
  exists k e, faults (parser s) = k :: faults (parser s') /\ r = Err e /\
    ((exists e', e = RJiterError e' /\ read_error k e') \/ (exists m i, e = ActionError m i) \/ (exists x i, e = UnhandledPeek x i)).
Proof.
  intros Hc E. assert (fw : forwards cb (fun _ => True) (fun _ _ => True) true).
  { split; auto; [|discriminate]. intros name c u u1 act t t' u' op _ E1 E2.
    destruct (Hc _ _ _ _ _ _ _ _ _ E1 E2) as [A|(k & m & A & C)]; [left; auto|right; exists k, m; auto]. }
  destruct (fine_scan cb _ _ _ fw _ _ _ _ _ Logic.I E) as [[A _]|(k & e & A & C & D)]; [left; exact A|right].
  exists k, e. repeat split; auto. destruct D as [(m & i & D & _)|[_ [D|[_ D]]]]; eauto.
Qed.

Definition clean (t : idt) : Prop := io_error t = None /\ rjiter_error t = None /\ stored_scan_error t = None.
Definition spotted (k : io_kind) (t : idt) : Prop :=
  io_error t = Some k \/
  (io_error t = None /\ rjiter_error t = None /\ exists x i, stored_scan_error t = Some (UnhandledPeek x i) /\ ~ In x (QUOTE :: bs "ntf")).
Lemma put_all_clean parts : forall t t' r, clean t -> put_all t parts = (t', r) -> clean t' \/ exists m, r = Err m.
Proof.
  induction parts as [|[d m] l IH]; intros t t' r H E; cbn [put_all] in E; [injection E as <- <-; auto|].
  destruct (write_all (out t) d) as [w [u|k]]; [|injection E as <- <-; eauto]. eapply IH; [|exact E]. exact H.
Qed.
Lemma write_seqpos_clean t t' r : clean t -> write_seqpos t = (t', r) -> clean t' \/ exists m, r = Err m.
Proof.
  intros H. unfold write_seqpos.
  assert (Hgo : forall parts, match put_all t parts with (t, Ok tt) => (set_seq t InMiddle, Ok tt) | (t, Err m) => (t, Err m) end = (t', r) ->
    clean t' \/ exists m, r = Err m).
  { intros parts. destruct (put_all t parts) as [t1 [[]|m]] eqn:E; intros E1; injection E1 as <- <-; [|eauto].
    destruct (put_all_clean _ _ _ _ H E) as [A|(m & A)]; [left; exact A|discriminate]. }
  destruct (seq t); try apply Hgo; intros E; injection E as <- <-; left; exact H.
Qed.
Lemma copy_atom_told x r w r' w' v : copy_atom x r w = Done (r', w', v) ->
  faults r' = faults r \/ exists k e, faults r = k :: faults r' /\ v = Err e /\
    ((exists e', e = RJiterError e' /\ read_error k e') \/ (exists i, e = UnhandledPeek x i) /\ ~ In x (QUOTE :: bs "ntf")).
Proof.
  unfold copy_atom. cbv zeta. intros E.
  assert (Hlit : forall X (op : rj -> outcome (rj * result X rerror)) d,
    (forall t t' v, op t = Done (t', v) -> told t t' v) ->
    (do (r', v) <- op r;
     match v with
     | Ok _ => match write_all w d with (w', Ok _) => Done (r', w', Ok tt) | (w', Err e) => Done (r', w', Err (IOError e)) end
     | Err e => Done (r', w, Err (RJiterError e))
     end) = Done (r', w', v) ->
    faults r' = faults r \/ exists k e, faults r = k :: faults r' /\ v = Err e /\ exists e', e = RJiterError e' /\ read_error k e').
  { intros X op d H E1. destruct (op r) as [[t y]| |] eqn:E2; try discriminate. cbn [obind] in E1. apply H in E2.
    destruct y as [y|e].
    - destruct (write_all w d) as [w1 [u|e1]]; injection E1 as <- _ _; destruct E2 as [A|(k & e2 & A & C & D)]; auto; discriminate.
    - injection E1 as <- _ <-. destruct E2 as [A|(k & e2 & A & C & D)]; [auto|]. injection C as <-. right. exists k. eexists. repeat split; eauto. }
  assert (Hlit' : (faults r' = faults r \/ exists k e, faults r = k :: faults r' /\ v = Err e /\ exists e', e = RJiterError e' /\ read_error k e') ->
    faults r' = faults r \/ exists k e, faults r = k :: faults r' /\ v = Err e /\
    ((exists e', e = RJiterError e' /\ read_error k e') \/ (exists i, e = UnhandledPeek x i) /\ ~ In x (QUOTE :: bs "ntf"))).
  { intros [A|(k & e & A & C & D)]; [auto|]. right. exists k, e. auto. }
  destruct (N.eqb x QUOTE) eqn:E1.
  { apply Hlit'. destruct (write_all w [QUOTE]) as [w1 [u|e1]]; [|injection E as <- _ _; auto].
    destruct (write_long_bytes r w1) as [[[t w2] y]| |] eqn:E2; try discriminate. cbn [obind] in E. apply told_long in E2.
    destruct y as [y|e].
    - destruct (write_all w2 [QUOTE]) as [w3 [u'|e1]]; injection E as <- _ _; destruct E2 as [A|(k & e2 & A & C & D)]; auto; discriminate.
    - injection E as <- _ <-. destruct E2 as [A|(k & e2 & A & C & D)]; [auto|]. injection C as <-. right. exists k. eexists. repeat split; eauto. }
  destruct (N.eqb x PeekNull) eqn:E2; [apply Hlit'; eapply Hlit; [|exact E]; intros; eapply told_loop; eassumption|].
  destruct (N.eqb x PeekTrue) eqn:E3; [apply Hlit'; eapply Hlit; [|exact E]; intros; eapply told_loop; eassumption|].
  destruct (N.eqb x PeekFalse) eqn:E4; [apply Hlit'; eapply Hlit; [|exact E]; intros; eapply told_loop; eassumption|].
  destruct (next_number_bytes r) as [[t y]| |] eqn:E5; try discriminate. cbn [obind] in E. apply told_loop in E5.
  destruct y as [y|e].
  - destruct (write_all w y) as [w1 [u|e1]]; injection E as <- _ _; destruct E5 as [A|(k & e2 & A & C & D)]; auto; discriminate.
  - injection E as <- _ <-. destruct E5 as [A|(k & e2 & A & C & D)]; [auto|]. right. exists k. eexists. repeat split; [exact A|].
    right. split; [eauto|]. apply N.eqb_neq in E1, E2, E3, E4.
    intros [H|[H|[H|[H|[]]]]]; subst x; first [apply E1; reflexivity|apply E2; reflexivity|apply E3; reflexivity|apply E4; reflexivity].
Qed.
Lemma on_atom_told t s s' t' op : clean t -> on_atom s t = Done (s', t', op) ->
  op <> OpNone /\
  ((faults s' = faults s /\ (clean t' \/ exists m, op = OpError m)) \/
   (exists k m, faults s = k :: faults s' /\ op = OpError m /\ spotted k t')).
Proof.
  intros H. unfold on_atom. destruct (write_seqpos t) as [t1 [[]|m]] eqn:E.
  2:{ intros E1. injection E1 as <- <- <-. split; [discriminate|]. left. eauto. }
  destruct (write_seqpos_clean _ _ _ H E) as [Ht|(m & ?)]; [|discriminate]. clear E H t. cbv zeta.
  destruct (peek s) as [[r v]| |] eqn:E; try discriminate. cbn [obind]. apply told_loop in E. destruct v as [x|e].
  - destruct (copy_atom x r (out t1)) as [[[r1 w] v]| |] eqn:E1; try discriminate. cbn [obind].
    assert (A : faults r = faults s) by (destruct E as [A|(k & e & A & C & D)]; [exact A|discriminate]).
    apply copy_atom_told in E1. rewrite A in E1. destruct v as [u|e]; intros E2; injection E2 as <- <- <-; (split; [discriminate|]).
    + left. destruct E1 as [C|(k & e & C & D & _)]; [|discriminate]. split; [exact C|]. left. exact Ht.
    + destruct E1 as [C|(k & e1 & C & D & G)]; [left; eauto|]. injection D as <-. right. exists k. eexists. repeat split; [exact C|].
      destruct G as [(e' & -> & G)|[(i & ->) G]].
      * left. rewrite G. reflexivity.
      * right. destruct Ht as (T1 & T2 & T3). cbn. repeat split; auto. exists x, i. auto.
  - intros E2. injection E2 as <- <- <-. split; [discriminate|].
    destruct E as [A|(k & e1 & A & C & D)]; [left; eauto|]. injection C as <-. right. exists k. eexists. repeat split; [exact A|].
    left. rewrite D. reflexivity.
Qed.
Lemma struct_told d t s s' t' op : clean t -> on_struct d s t = Done (s', t', op) -> s' = s /\ (clean t' \/ exists m, op = OpError m).
Proof.
  intros H. unfold on_struct. destruct (write_seqpos t) as [t1 [[]|m]] eqn:E.
  2:{ intros E1. injection E1 as <- <- <-. eauto. }
  destruct (write_seqpos_clean _ _ _ H E) as [Ht|(m & ?)]; [|discriminate].
  destruct (put_all t1 _) as [t2 [[]|m]] eqn:E2; intros E1; injection E1 as <- <- <-; [|eauto].
  split; [reflexivity|]. left. destruct (put_all_clean _ _ _ _ Ht E2) as [A|(m & A)]; [exact A|discriminate].
Qed.
Lemma key_told t s s' t' op : clean t -> on_key s t = Done (s', t', op) -> s' = s /\ (clean t' \/ exists m, op = OpError m).
Proof.
  intros H. unfold on_key. destruct (write_seqpos t) as [t1 [[]|m]] eqn:E; intros E1; injection E1 as <- <- <-; [|eauto].
  destruct (write_seqpos_clean _ _ _ H E) as [Ht|(m & ?)]; [|discriminate]. auto.
Qed.
Lemma done_inj {X} (x y : X) : Done x = Done y -> x = y. Proof. intros E. injection E as <-. reflexivity. Qed.
Lemma idt_forwards : forwards idt_callbacks clean spotted false.
Proof.
  split.
  - intros name c u H. destruct name; try exact H. cbn. destruct (names c) as [|key l]; [exact H|]. destruct (_ && _); exact H.
  - intros name c u H. exact H.
  - intros name c u u1 act s s' u' op H E E1. cbn in E. destruct name.
    + injection E as <- <-. apply struct_told in E1; [|exact H]. left. destruct E1 as [-> A]. auto.
    + injection E as <- <-. apply struct_told in E1; [|exact H]. left. destruct E1 as [-> A]. auto.
    + injection E as <- <-. apply on_atom_told in E1; [|exact H]. apply E1.
    + cbn in E. destruct (names c) as [|key l]; [discriminate|]. destruct (_ && _) in E; [|discriminate]. injection E as <- <-.
      apply key_told in E1; [|exact H]. left. destruct E1 as [-> A]. auto.
  - intros name c u u1 act u' r H E E1. cbn in E. destruct name; try discriminate; injection E as <- <-; unfold on_struct_end in E1; apply done_inj in E1;
      (eapply put_all_clean; [|exact E1]; exact H).
  - intros _ c u. eexists. eexists. split; [reflexivity|]. intros s s' u' op. unfold on_atom.
    destruct (write_seqpos _) as [t1 [[]|m]]; [|intros E; injection E as _ _ <-; discriminate].
    destruct (peek s) as [[r [x|e]]| |]; cbn [obind]; try discriminate; [|intros E; injection E as _ _ <-; discriminate].
    destruct (copy_atom x r (out t1)) as [[[r1 w] [v|e]]| |]; cbn [obind]; try discriminate; intros E; injection E as _ _ <-; discriminate.
Qed.
Lemma idt_reads fuel r w p r' w' p' v : idtransform fuel r w p = Done (r', w', p', v) ->
  faults r' = faults r \/
  exists k e, faults r = k :: faults r' /\ v = Err e /\
    (e = IOError k \/ (exists e', e = RJiterError e' /\ read_error k e') \/
     (exists x i, e = UnhandledPeek x i /\ ~ In x (QUOTE :: bs "ntf"))).
Proof.
  unfold idtransform. destruct (scan idt_callbacks (mkOptions [] true) fuel (mkS r (idt_new w) p)) as [[s v1]| |] eqn:E; try discriminate.
  cbn [obind]. intros E1. injection E1 as <- <- <- <-.
  assert (HI : clean (user (mkS r (idt_new w) p))) by (repeat split).
  destruct (fine_scan _ _ _ _ idt_forwards _ _ _ _ _ HI E) as [[A _]|(k & e & A & -> & D)]; [left; exact A|right].
  cbn [parser] in A. exists k.
  destruct D as [(m & i & -> & [D|(D1 & D2 & x & j & D3 & D4)])|[(D1 & D2 & D3) [(e' & -> & D)|[D _]]]].
  - rewrite D. eexists. split; [exact A|split; [reflexivity|]]. auto.
  - rewrite D1, D2, D3. eexists. split; [exact A|split; [reflexivity|]]. right. right. eauto.
  - rewrite D1, D2, D3. eexists. split; [exact A|split; [reflexivity|]]. right. left. eauto.
  - discriminate.
Qed.
