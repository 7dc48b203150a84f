(** What the build without overflow checks does with an item at which the other build panics. *)
From Verif Require Import Base U8Pool Buffer Jiter RJiter Scan Conv DdbToNormal Wrapping.

(** ** Some rounds of the main loop *)
Fixpoint rounds {B} (cb : callbacks B) (o : options) (k : nat) (pos : position) (s : sstate B) : option (position * sstate B) :=
  match k with
  | 0 => Some (pos, s)
  | S k =>
      match scan_iter cb o pos s with
      | Done (s', Continue p) => rounds cb o k p s'
      | _ => None
      end
  end.
Lemma rounds_loop {B} (cb : callbacks B) o fuel : stop_early o = false -> forall k b pos s pos' s', rounds cb o k pos s = Some (pos', s') ->
  exists b', scan_loop cb o (k + fuel) b pos s = scan_loop cb o fuel b' pos' s'.
Proof.
  intros Ho. induction k as [|k IH]; intros b pos s pos' s' E; cbn [rounds] in E.
  - injection E as <- <-. exists b. reflexivity.
  - cbn [Nat.add scan_loop]. rewrite Ho, andb_false_r. cbn [andb]. destruct (scan_iter cb o pos s) as [[s1 [p|r]]| |]; try discriminate. apply IH, E.
Qed.
Lemma loop_ends {B} (cb : callbacks B) o fuel b pos s s' r : stop_early o = false -> scan_iter cb o pos s = Done (s', Return r) -> scan_loop cb o (S fuel) b pos s = Done (s', r).
Proof. intros Ho E. cbn [scan_loop]. rewrite Ho, andb_false_r. cbn [andb]. rewrite E. reflexivity. Qed.

(** ** Indentation for a writer that gives up *)
Lemma write_plain w d k e : wcap w = 0 -> wfail w = Some (k, e) ->
  write_all w d = if len d <=? k then (mkBuffered (delivered w ++ d) (held w) 0 (Some (k - len d, e)), Ok tt)
                  else (mkBuffered (delivered w ++ firstn k d) (held w) 0 (Some (0, e)), Err e).
Proof. intros E1 E2. unfold write_all, deliver. rewrite E1, E2. cbn [Nat.eqb]. destruct (len d <=? k); reflexivity. Qed.
Lemma indents_fail n : forall c k e, wcap (cout c) = 0 -> wfail (cout c) = Some (k, e) -> k < 2 * n ->
  exists c', indents n c = Done (c', Err "Write failed"%string) /\ len (delivered (cout c')) = len (delivered (cout c)) + k /\
    last_error c' = Some (CIo e "writing indentation").
Proof.
  induction n as [|n IH]; intros c k e E1 E2 Hk; [lia|]. cbn [indents]. unfold and_then, put. rewrite (write_plain _ _ k e E1 E2). change (len [32%N; 32%N]) with 2.
  destruct (2 <=? k) eqn:El.
  - apply Nat.leb_le in El. cbn [obind]. destruct (IH (set_cout c (mkBuffered (delivered (cout c) ++ [32%N; 32%N]) (held (cout c)) 0 (Some (k - 2, e)))) (k - 2) e) as (c' & E & L & H);
      [reflexivity|reflexivity|lia|]. exists c'. split; [exact E|]. split; [|exact H]. rewrite L. cbn [set_cout cout delivered]. rewrite app_length. cbn [List.length]. lia.
  - apply Nat.leb_gt in El. cbn [obind]. eexists. split; [reflexivity|]. cbn [set_error set_cout cout delivered last_error]. split; [|reflexivity].
    rewrite app_length, firstn_length. cbn [List.length]. lia.
Qed.
Lemma map_end_fails top u k e : pretty (base u) = true -> level (base u) = 0 -> wcap (cout (base u)) = 0 -> wfail (cout (base u)) = Some (S k, e) -> k < 2 * top ->
  exists u', on_map_end_wrapping top u = Done (u', Err "Write failed"%string) /\ len (delivered (cout (base u'))) = len (delivered (cout (base u))) + S k /\
    last_error (base u') = Some (CIo e "writing indentation").
Proof.
  intros Ep El E1 E2 Hk. unfold on_map_end_wrapping. set (more := type_is None ;; _). set (more' := put [RBRACE] _ ;; _).
  unfold on_base, newline, and_then. rewrite Ep. unfold put at 1. rewrite (write_plain _ _ (S k) e E1 E2). change (len [10%N] <=? S k) with true. cbn [obind].
  unfold shallower_wrapping, change_to. cbn [level set_cout]. rewrite El. cbn [obind]. unfold indent. cbn [pretty set_level set_cout level]. rewrite Ep.
  destruct (indents_fail top (set_level (set_cout (base u) (mkBuffered (delivered (cout (base u)) ++ [10%N]) (held (cout (base u))) 0 (Some (S k - len [10%N], e)))) top) k e)
    as (c' & E & L & H); [reflexivity|cbn [set_level set_cout cout wfail]; f_equal; f_equal; cbn [List.length]; lia|exact Hk|].
  unfold set_level, set_cout in E. cbn [cout pending pretty field level last_error] in E. rewrite Ep in E. unfold set_level, set_cout. cbn [cout pending pretty field level last_error].
  rewrite ?Ep in *. rewrite E. cbn [obind]. eexists. split; [reflexivity|]. cbn [set_base base]. split; [|exact H]. rewrite L. cbn [set_level set_cout cout delivered].
  rewrite app_length. cbn [List.length]. lia.
Qed.

(** ** A case *)
(** An item with keys behind its type keys. *)
Definition endless : bytes := bs "{""a"":{""S"":""x"",""b"":{""S"":""x"",""c"":{""S"":""x"",""d"":{""S"":""x"",""e"":{""S"":""y""}}}}}}".
Definition endless_start (n : nat) (e : io_kind) (p : pool) : sstate d2n := mkS (rj_new (mkReader endless []) (repeat 0%N 200)) (d2n_new (mkWriter [] (Some (n, e))) true) p.
Lemma endless_rounds t m e : exists p0 p1 z s p2 x y, pool_new true (repeat 0%N 600) 68 = Done (Ok p0) /\ push_assoc p0 pos_ty [pos_code Top] (bs "#top") = Done (p1, Ok z) /\
  rounds (wrapping_callbacks (10 + t) AsWrapper) (mkOptions [] false) 20 Top (endless_start (100 + m) e p1) = Some (ObjectMiddle, s) /\
  context_of (stack s) = Done (mkCtx [bs "b"; bs "a"; bs "#top"] x) /\ pop_assoc (stack s) pos_ty = Done (p2, y) /\
  at_phase (user s) = ExpectingField /\ pretty (base (user s)) = true /\ level (base (user s)) = 0 /\ wcap (cout (base (user s))) = 0 /\ wfail (cout (base (user s))) = Some (43 + m, e) /\
  len (delivered (cout (base (user s)))) = 57.
Proof.
  do 7 eexists. split; [vm_compute; reflexivity|]. split; [vm_compute; reflexivity|]. split; [vm_compute; reflexivity|]. split; [vm_compute; reflexivity|].
  split; [vm_compute; reflexivity|]. vm_compute. auto 10.
Qed.
Lemma endless_iter t m e s p2 x y : context_of (stack s) = Done (mkCtx [bs "b"; bs "a"; bs "#top"] x) -> pop_assoc (stack s) pos_ty = Done (p2, y) ->
  at_phase (user s) = ExpectingField -> pretty (base (user s)) = true -> level (base (user s)) = 0 -> wcap (cout (base (user s))) = 0 -> wfail (cout (base (user s))) = Some (S m, e) ->
  m < 2 * t -> exists s' i, scan_iter (wrapping_callbacks t AsWrapper) (mkOptions [] false) ObjectMiddle s = Done (s', Return (Err (ActionError "Write failed" i))) /\
    len (delivered (cout (base (user s')))) = len (delivered (cout (base (user s)))) + S m /\ last_error (base (user s')) = Some (CIo e "writing indentation").
Proof.
  intros Hx Hp Ha H1 H2 H3 H4 Hm. destruct (map_end_fails t (user s) m e H1 H2 H3 H4 Hm) as (u' & E & L & H).
  exists (mkS (parser s) u' p2), (current_index (parser s)). split; [|split; [exact L|exact H]].
  cbn [scan_iter]. unfold handle_object. cbn [pos_eqb pos_code N.eqb]. cbn [find_end_action wrapping_callbacks]. unfold look_up_end. rewrite Hx. cbn [obind find_end_action wrapping_callbacks find_end_action_wrapping].
  unfold find_end_action_key_wrapping. cbn [names]. rewrite Ha. cbv zeta.
  replace (beq (bs "b") (bs "Item")) with false by reflexivity. cbn [andb]. replace (parent_is (bs "#array") [bs "a"; bs "#top"]) with false by reflexivity.
  cbn [obind parser user stack]. change (N.eqb (pos_code ObjectMiddle) (pos_code ObjectBegin)) with false. cbn iota. rewrite Hp. cbn [obind run_end_action user parser stack]. rewrite E. reflexivity.
Qed.
Lemma endless_output top n e : 10 <= top -> 100 <= n -> n <= 2 * top -> exists w i,
  convert_ddb_to_normal_wrapping top 60 (mkReader endless []) (mkWriter [] (Some (n, e))) (repeat 0%N 200) (repeat 0%N 600) true AsWrapper =
    Done (w, Err (CIo e "writing indentation", i)) /\ len (delivered w) = n.
Proof.
  intros Ht Hn1 Hn2. destruct (endless_rounds (top - 10) (n - 100) e) as (p0 & p1 & z & s & p2 & x & y & E0 & E1 & E2 & A1 & A2 & A3 & A4 & A5 & A6 & A7 & A8).
  replace (10 + (top - 10)) with top in E2 by lia. replace (100 + (n - 100)) with n in E2 by lia. replace (43 + (n - 100)) with (S (n - 58)) in A7 by lia.
  destruct (endless_iter top (n - 58) e s p2 x y A1 A2 A3 A4 A5 A6 A7 ltac:(lia)) as (s' & i & E3 & L & H).
  exists (cout (base (user s'))), i. split; [|rewrite L, A8; lia].
  unfold convert_ddb_to_normal_wrapping, convert. rewrite E0. cbn [obind]. unfold scan. cbn [stack]. rewrite E1. cbn [obind parser user].
  destruct (rounds_loop _ (mkOptions [] false) 40 eq_refl 20 false Top _ _ _ E2) as (b & E4). unfold endless_start in E4. change (20 + 40) with 60 in E4. rewrite E4.
  rewrite (loop_ends _ (mkOptions [] false) 39 b _ _ _ _ eq_refl E3). cbn [obind]. rewrite H. reflexivity.
Qed.
