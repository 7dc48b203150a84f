(** Whole scans. *)
From Verif Require Import Base U8Pool PoolSpec PoolProofs Buffer BufferSpec Jiter RJiter RJiterSpec RJiterLookProofs Scan ScanSpec ScanTokens ScanParser ScanStack ScanProofs.

Lemma eventually_add {X} (F : nat -> X) v : (exists n, forall k, F (n + k) = v) -> eventually F v.
Proof. intros (n & H). exists n. intros fuel Hf. replace fuel with (n + (fuel - n)) by lia. apply H. Qed.
Definition top_entry : entry := (pos_code Top, bs "#top").
Lemma home_top es : home (top_entry :: es) Top.
Proof. eexists _, _, _. split; reflexivity. Qed.
Lemma stops_outcome {B} (F : nat -> sres B unit) u why Q : stops F u why -> outcome_is F u (Stopped why) Q.
Proof.
  destruct why as [m| |x|]; cbn; try (intros (n & s' & e & H & K); exists s', e; split; [apply eventually_add; exists n; exact H|exact K]).
  intros H. apply eventually_add, H.
Qed.
(** The first step of a scan. *)
Lemma scan_enters {B} (cb : callbacks B) o d s es : stack_of d (stack s) es ->
  exists p, match admit_name d (path_of es) (bs "#top") with
  | None => stack_of d p (top_entry :: es) /\ forall fuel, scan cb o fuel s = scan_loop cb o fuel false Top (mkS (parser s) (user s) p)
  | Some x => forall fuel, scan cb o fuel s = Done (mkS (parser s) (user s) p, Err (MaxNestingExceeded (current_index (parser s)) 0))
  end.
Proof.
  intros Hst. destruct (stack_push d (stack s) es (pos_code Top) (bs "#top") Hst) as (p & r & E & H). exists p.
  destruct (admit_name d (path_of es) (bs "#top")) as [x|].
  - destruct H as (_ & e & -> & _). intros fuel. unfold scan. rewrite E. reflexivity.
  - destruct H as (-> & H). split; [exact H|]. intros fuel. unfold scan. rewrite E. reflexivity.
Qed.

Section Scans.
Context {B : Type} (cb : callbacks B) (o : options) (beh : behaviour B) (m : setting) (d : dims).
Context (HM : sane m) (HR : respects (between m) (layout m) cb beh) (HS : may_fail m = true -> sse_tokens o = []).
Notation walks := (walk_items beh d (may_fail m)).

Lemma scan_top W s es Q : stack_of d (stack s) es ->
  (forall p, stack_of d p (top_entry :: es) -> exists u' st, W (bs "#top" :: path_of es) (user s) u' st /\
     outcome_is (fun fuel => scan_loop cb o fuel false Top (mkS (parser s) (user s) p)) u' st Q) ->
  exists u' st, walk_top d W (path_of es) (user s) u' st /\ outcome_is (fun fuel => scan cb o fuel s) u' st Q.
Proof.
  intros Hst H. destruct (scan_enters cb o d s es Hst) as (p & K). unfold walk_top.
  destruct (admit_name d (path_of es) (bs "#top")) as [x|].
  - eexists (user s), _. split; [split; reflexivity|]. destruct x; exists (mkS (parser s) (user s) p), (MaxNestingExceeded (current_index (parser s)) 0);
      (split; [exists 0; intros fuel _; apply K|]); (split; [reflexivity|]); cbn; eauto.
  - destruct K as (Hp & K). destruct (H p Hp) as (u' & st & A & C). exists u', st. split; [exact A|].
    assert (HE : forall v, eventually (fun fuel => scan_loop cb o fuel false Top (mkS (parser s) (user s) p)) v -> eventually (fun fuel => scan cb o fuel s) v).
    { intros v (n & Hn). exists n. intros fuel Hf. rewrite K. auto. }
    destruct st as [|[mm| |xx|]]; cbn in *; try (destruct C as (s' & C & D); exists s'; split; auto); try (destruct C as (s' & e & C & D); exists s', e; split; auto); auto.
Qed.
Lemma scan_sequence s es vs : stop_early o = false -> start m (parser s) -> documents (layout m) vs (rest (parser s)) -> stack_of d (stack s) es ->
  exists u' st, walk_top d (fun path => walks path vs) (path_of es) (user s) u' st /\
    outcome_is (fun fuel => scan cb o fuel s) u' st
      (fun s' => start m (parser s') /\ rest (parser s') = [] /\ stack_of d (stack s') (top_entry :: es)).
Proof.
  intros Hse HG Hd Hst. apply (scan_top (fun path => walks path vs)); [exact Hst|]. intros p Hp.
  destruct (top_documents cb o beh d _ _ _ _ (setting_facts m HM) HR HS Hse vs _ Hd (top_entry :: es) (user s) (mkS (parser s) (user s) p) false
    (home_top es) HG eq_refl (conj eq_refl Hp)) as (u' & st & A & C).
  exists u', st. split; [exact A|]. destruct st as [|why]; [|apply stops_outcome, C].
  destruct C as (n & s' & C & (D1 & D2) & D3 & D4). exists s'. split; [apply eventually_add; exists n; exact C|]. auto.
Qed.
Lemma scan_single s es v r : stop_early o = true -> start m (parser s) -> document (layout m) v (rest (parser s)) r -> stack_of d (stack s) es ->
  exists u' st, walk_top d (fun path => walk_value beh d (may_fail m) path v) (path_of es) (user s) u' st /\
    outcome_is (fun fuel => scan cb o fuel s) u' st
      (fun s' => between m (parser s') /\ rest (parser s') = r /\ stack_of d (stack s') (top_entry :: es)).
Proof.
  intros Hse HG Hd Hst. apply (scan_top (fun path => walk_value beh d (may_fail m) path v)); [exact Hst|]. intros p Hp.
  destruct (top_single cb o beh d _ _ _ _ (setting_facts m HM) HR HS v _ r (top_entry :: es) (user s) (mkS (parser s) (user s) p) Hse Hd
    (home_top es) HG eq_refl (conj eq_refl Hp)) as (u' & st & A & C).
  exists u', st. split; [exact A|]. destruct st as [|why]; [|apply stops_outcome, C].
  destruct C as (n & s' & C & D1 & D2 & D3 & D4). exists s'. split; [apply eventually_add; exists n; exact C|]. auto.
Qed.
Lemma scan_blank s es : start m (parser s) -> spaces (rest (parser s)) -> stack_of d (stack s) es ->
  exists u' st, walk_top d (fun path => walks path []) (path_of es) (user s) u' st /\
    outcome_is (fun fuel => scan cb o fuel s) u' st
      (fun s' => start m (parser s') /\ rest (parser s') = [] /\ stack_of d (stack s') (top_entry :: es)).
Proof.
  intros HG Hd Hst. apply (scan_top (fun path => walks path [])); [exact Hst|]. intros p Hp.
  destruct (top_blank cb o beh d _ _ _ _ (setting_facts m HM) (top_entry :: es) (user s) (mkS (parser s) (user s) p) _ Hd
    (home_top es) HG eq_refl (conj eq_refl Hp)) as (st & A & C).
  exists (user s), st. split; [exact A|]. destruct st as [|why]; [|apply stops_outcome, C].
  destruct C as (n & s' & C & (D1 & D2) & D3 & D4). exists s'. split; [apply eventually_add; exists n; exact C|]. auto.
Qed.
End Scans.

(** ** The observer *)
Definition observer_behaviour : behaviour (list note) := mkBehaviour
  (fun name path v u u' op => u' = u ++ [Begin name path] /\ op = Some OpNone)
  (fun name path u u' e => u' = u ++ [End name path] /\ e = Some (Ok tt)).
Lemma observer_respects G P : respects G P observer observer_behaviour.
Proof.
  split; cbn.
  - intros name b v l r path s u Ha HG Hl Hv Hb. right. exists s, (u ++ [Begin name path]), OpNone. auto 10.
  - intros v w l r path s u HG Hl Hw Hv. right. exists s, (u ++ [Begin PNone path]), OpNone. split; [reflexivity|]. split; [auto|]. eauto.
  - intros name path u Hn. right. eexists _, _. split; [reflexivity|]. auto.
Qed.
Scheme walk_value_ind' := Minimality for walk_value Sort Prop
  with walk_items_ind' := Minimality for walk_items Sort Prop
  with walk_members_ind' := Minimality for walk_members Sort Prop
  with walk_member_ind' := Minimality for walk_member Sort Prop.
Combined Scheme walk_ind from walk_value_ind', walk_items_ind', walk_members_ind', walk_member_ind'.

Definition traced (t : trace) (u u' : list note) (st : status) : Prop := u' = u ++ fst t /\ st = end_of t.
Lemma traced_nil u : traced ([], None) u u Through.
Proof. split; [rewrite app_nil_r; reflexivity|reflexivity]. Qed.
Lemma traced_once x u : traced (once x) u (u ++ [x]) Through.
Proof. split; reflexivity. Qed.
Lemma traced_chain a b u u1 u2 st : traced a u u1 Through -> traced b u1 u2 st -> traced (chain a b) u u2 st.
Proof.
  destruct a as [l [x|]]; unfold traced, end_of; cbn; intros (-> & A) (-> & C); [discriminate|]. rewrite app_assoc. auto.
Qed.
Lemma traced_stop a b u u1 why : traced a u u1 (Stopped why) -> traced (chain a b) u u1 (Stopped why).
Proof. destruct a as [l [x|]]; unfold traced, end_of; cbn; intros (-> & A); [auto|discriminate]. Qed.
Definition member_trace (d : dims) (path : list bytes) (v : json) : trace :=
  chain (once (Begin PNone path)) (chain (trace_value d path v) (once (End PNone path))).
Definition members_trace (d : dims) (path : list bytes) (ms : list (bytes * json)) : trace :=
  fold_right (fun '(k, v) => chain (room d path k (member_trace d (k :: path) v))) ([], None) ms.
Lemma observer_walk d :
  (forall path v u u' st, walk_value observer_behaviour d false path v u u' st -> traced (trace_value d path v) u u' st) /\
  (forall path vs u u' st, walk_items observer_behaviour d false path vs u u' st -> traced (trace_values d path vs) u u' st) /\
  (forall path ms u u' st, walk_members observer_behaviour d false path ms u u' st -> traced (members_trace d path ms) u u' st) /\
  (forall path v u u' st, walk_member observer_behaviour d false path v u u' st -> traced (member_trace d path v) u u' st).
Proof.
  apply (walk_ind _ observer_behaviour d false
    (fun path v u u' st => traced (trace_value d path v) u u' st) (fun path vs u u' st => traced (trace_values d path vs) u u' st)
    (fun path ms u u' st => traced (members_trace d path ms) u u' st) (fun path v u u' st => traced (member_trace d path v) u u' st));
    try discriminate.
  - intros path v u u' op Ha (-> & ->). cbn. destruct v; try contradiction; apply traced_once.
  - intros path vs u u' op why (-> & ->). discriminate.
  - intros path vs u u' (_ & H). discriminate.
  - intros path vs u u' x (-> & _) Hx. cbn [trace_value]. eapply traced_chain; [apply traced_once|]. unfold room. rewrite Hx.
    split; [cbn; rewrite app_nil_r; reflexivity|reflexivity].
  - intros path vs u u1 u2 why (-> & _) Hx _ IH. cbn [trace_value]. eapply traced_chain; [apply traced_once|]. unfold room. rewrite Hx.
    apply traced_stop, IH.
  - intros path vs u u1 u2 u3 e (-> & _) Hx _ IH (-> & ->). cbn [trace_value]. eapply traced_chain; [apply traced_once|]. unfold room. rewrite Hx.
    eapply traced_chain; [exact IH|apply traced_once].
  - intros path vs u u' op why (-> & ->). discriminate.
  - intros path vs u u' (_ & H). discriminate.
  - intros path vs u u1 u2 why (-> & _) _ IH. cbn [trace_value]. eapply traced_chain; [apply traced_once|]. apply traced_stop, IH.
  - intros path vs u u1 u2 u3 e (-> & _) _ IH (-> & ->). cbn [trace_value]. eapply traced_chain; [apply traced_once|].
    eapply traced_chain; [exact IH|apply traced_once].
  - intros. apply traced_nil.
  - intros path v vs u u' why _ IH. cbn. apply traced_stop, IH.
  - intros path v vs u u1 u2 st _ IH _ IH2. cbn. eapply traced_chain; [exact IH|exact IH2].
  - intros. apply traced_nil.
  - intros path k v ms u x Hx. cbn. apply traced_stop. unfold room. rewrite Hx. split; [cbn; rewrite app_nil_r; reflexivity|reflexivity].
  - intros path k v ms u u' why Hx _ IH. cbn. apply traced_stop. unfold room. rewrite Hx. exact IH.
  - intros path k v ms u u1 u2 st Hx _ IH _ IH2. cbn. eapply traced_chain; [|exact IH2]. unfold room. rewrite Hx. exact IH.
  - intros path v u u' op why (-> & ->). discriminate.
  - intros path v u u1 u2 e (_ & H). discriminate.
  - intros path v u u1 u2 why (-> & _) _ IH. eapply traced_chain; [apply traced_once|]. apply traced_stop, IH.
  - intros path v u u1 u2 u3 e (-> & _) _ IH (-> & ->). eapply traced_chain; [apply traced_once|]. eapply traced_chain; [exact IH|apply traced_once].
Qed.
Lemma observe_top d t u u' st (W : list bytes -> list note -> list note -> status -> Prop) : (forall p, W p u u' st -> traced (t p) u u' st) ->
  walk_top d W [] u u' st -> traced (room d [] (bs "#top") (t [bs "#top"])) u u' st.
Proof.
  intros H. unfold walk_top, room. destruct (admit_name d [] (bs "#top")) as [x|] eqn:E; [|apply H].
  intros (-> & ->). split; [cbn; rewrite app_nil_r; reflexivity|]. destruct x as [n|]; [|reflexivity].
  pose proof (admit_deep _ _ _ _ E) as HD. cbn in HD. unfold admit_name in E. rewrite (proj2 (N.leb_le _ _)) in E by exact HD. cbn. repeat f_equal. injection E. lia.
Qed.
Lemma observe_sequence m d o s vs : sane m -> may_fail m = false -> stop_early o = false -> start m (parser s) ->
  documents (layout m) vs (rest (parser s)) -> stack_of d (stack s) [] ->
  let t := room d [] (bs "#top") (trace_values d [bs "#top"] vs) in
  outcome_is (fun fuel => scan observer o fuel s) (user s ++ fst t) (end_of t)
    (fun s' => start m (parser s') /\ rest (parser s') = [] /\ stack_of d (stack s') [top_entry]).
Proof.
  intros HM HF Hse HG Hd Hst t. assert (HS : may_fail m = true -> sse_tokens o = []) by congruence.
  destruct (scan_sequence observer o observer_behaviour m d HM (observer_respects _ _) HS s [] vs Hse HG Hd Hst) as (u' & st & A & C).
  rewrite HF in A. apply (observe_top d (fun p => trace_values d p vs)) in A; [|intros p; apply observer_walk].
  destruct A as (-> & ->). exact C.
Qed.
Lemma observe_single m d o s v r : sane m -> may_fail m = false -> stop_early o = true -> start m (parser s) ->
  document (layout m) v (rest (parser s)) r -> stack_of d (stack s) [] ->
  let t := room d [] (bs "#top") (trace_value d [bs "#top"] v) in
  outcome_is (fun fuel => scan observer o fuel s) (user s ++ fst t) (end_of t)
    (fun s' => between m (parser s') /\ rest (parser s') = r /\ stack_of d (stack s') [top_entry]).
Proof.
  intros HM HF Hse HG Hd Hst t. assert (HS : may_fail m = true -> sse_tokens o = []) by congruence.
  destruct (scan_single observer o observer_behaviour m d HM (observer_respects _ _) HS s [] v r Hse HG Hd Hst) as (u' & st & A & C).
  rewrite HF in A. apply (observe_top d (fun p => trace_value d p v)) in A; [|intros p; apply observer_walk].
  destruct A as (-> & ->). exact C.
Qed.

(** ** Limits *)
Section JsonInd.
Context (Q : json -> Prop) (HA : forall v, atom v -> Q v) (HL : forall vs, Forall Q vs -> Q (JArray vs))
  (HO : forall ms, Forall (fun kv => Q (snd kv)) ms -> Q (JObject ms)).
Fixpoint json_induction (v : json) : Q v :=
  match v return Q v with
  | JNull => HA JNull I | JTrue => HA JTrue I | JFalse => HA JFalse I
  | JNumber t => HA (JNumber t) I | JString t => HA (JString t) I
  | JArray vs =>
      HL vs ((fix all (vs : list json) : Forall Q vs :=
                match vs with [] => Forall_nil _ | v :: vs' => Forall_cons v (json_induction v) (all vs') end) vs)
  | JObject ms =>
      HO ms ((fix all (ms : list (bytes * json)) : Forall (fun kv => Q (snd kv)) ms :=
                match ms with [] => Forall_nil _ | kv :: ms' => Forall_cons kv (json_induction (snd kv)) (all ms') end) ms)
  end.
End JsonInd.
Definition too_deep (d : dims) (n : nat) : option denial := if (slices d <? N.of_nat n)%N then Some (TooDeep (slices d)) else None.
Lemma list_max_cons n l : list_max (n :: l) = Nat.max n (list_max l).
Proof. reflexivity. Qed.
Lemma chain_none a b : snd a = None -> snd (chain a b) = snd b.
Proof. destruct a as [l [x|]]; cbn; [discriminate|reflexivity]. Qed.
Lemma chain_some a b x : snd a = Some x -> snd (chain a b) = Some x.
Proof. destruct a as [l [y|]]; cbn; [auto|discriminate]. Qed.
Lemma chain_once a x : snd (chain a (once x)) = snd a.
Proof. destruct a as [l [y|]]; reflexivity. Qed.
Lemma chain_deep d a b n i j : snd a = too_deep d (n + i) -> snd b = too_deep d (n + j) -> snd (chain a b) = too_deep d (n + Nat.max i j).
Proof.
  intros Ha Hb. unfold too_deep in *. destruct (N.ltb_spec (slices d) (N.of_nat (n + i))).
  - rewrite (chain_some _ _ _ Ha). destruct (N.ltb_spec (slices d) (N.of_nat (n + Nat.max i j))); [reflexivity|lia].
  - rewrite (chain_none _ _ Ha), Hb. destruct (N.ltb_spec (slices d) (N.of_nat (n + j))), (N.ltb_spec (slices d) (N.of_nat (n + Nat.max i j))); try reflexivity; lia.
Qed.
Definition fits_bytes (d : dims) (n : nat) : Prop := n <= space_for d /\ (N.of_nat n <= 65535)%N.
Lemma room_deep d path k t j : fits_bytes d (weight path + S (len k)) -> snd t = too_deep d (S (List.length path) + j) ->
  snd (room d path k t) = too_deep d (List.length path + S j).
Proof.
  intros (H1 & H2) Ht. unfold room, admit_name, too_deep in *.
  destruct (N.leb_spec (slices d) (N.of_nat (List.length path))).
  - cbn. destruct (N.ltb_spec (slices d) (N.of_nat (List.length path + S j))); [reflexivity|lia].
  - rewrite (proj2 (Nat.ltb_ge _ _)) by lia. rewrite !(proj2 (N.ltb_ge _ _)) by lia. rewrite Ht. replace (S (List.length path) + j) with (List.length path + S j) by lia. reflexivity.
Qed.
Lemma trace_deep d v : forall path, fits_bytes d (weight path + mass v) -> (N.of_nat (List.length path) <= slices d)%N ->
  snd (trace_value d path v) = too_deep d (List.length path + depth v).
Proof.
  assert (H0 : forall n, (N.of_nat n <= slices d)%N -> too_deep d (n + 0) = None).
  { intros n Hn. unfold too_deep. rewrite Nat.add_0_r, (proj2 (N.ltb_ge _ _)) by lia. reflexivity. }
  induction v as [v Ha|vs IH|ms IH] using json_induction; intros path Hm Hp.
  - replace (depth v) with 0 by (destruct v; try contradiction; reflexivity). rewrite H0 by exact Hp. destruct v; try contradiction; reflexivity.
  - cbn [trace_value depth mass] in *. rewrite chain_none by reflexivity.
    assert (HW : fits_bytes d (weight (bs "#array" :: path) + list_max (map mass vs))).
    { unfold fits_bytes in *. change (weight (bs "#array" :: path)) with (S (len (bs "#array")) + weight path). lia. }
    destruct (N.leb_spec (slices d) (N.of_nat (List.length path))) as [Hs|Hs].
    { unfold room, admit_name. rewrite (proj2 (N.leb_le _ _) Hs). cbn. unfold too_deep. rewrite (proj2 (N.ltb_lt _ _)) by lia. reflexivity. }
    apply room_deep; [unfold fits_bytes in *; lia|]. rewrite chain_once. change (S (List.length path)) with (List.length (bs "#array" :: path)).
    assert (HP : (N.of_nat (List.length (bs "#array" :: path)) <= slices d)%N) by (cbn [List.length]; lia).
    revert HW HP. generalize (bs "#array" :: path). clear Hm Hs Hp path. intros path Hm Hp.
    induction IH as [|v vs Hv _ IHvs]; cbn [fold_right map] in *; [rewrite H0 by exact Hp; reflexivity|].
    rewrite list_max_cons in *. apply chain_deep; [apply Hv; [unfold fits_bytes in *; lia|exact Hp]|apply IHvs; unfold fits_bytes in *; lia].
  - cbn [trace_value depth mass] in *. rewrite chain_none by reflexivity. rewrite chain_once.
    induction IH as [|[k v] ms Hv _ IHms]; cbn [fold_right map] in *; [rewrite H0 by exact Hp; reflexivity|].
    rewrite list_max_cons in *. apply chain_deep; [|apply IHms; unfold fits_bytes in *; lia].
    destruct (N.leb_spec (slices d) (N.of_nat (List.length path))) as [Hs|Hs].
    { unfold room, admit_name. rewrite (proj2 (N.leb_le _ _) Hs). cbn. unfold too_deep. rewrite (proj2 (N.ltb_lt _ _)) by lia. reflexivity. }
    apply room_deep; [unfold fits_bytes in *; lia|]. rewrite chain_none by reflexivity. rewrite chain_once. apply (Hv (k :: path)).
    + cbn [snd]. change (weight (k :: path)) with (S (len k) + weight path). unfold fits_bytes in *. lia.
    + cbn [List.length]. lia.
Qed.
Lemma traces_deep d vs path : fits_bytes d (weight path + list_max (map mass vs)) -> (N.of_nat (List.length path) <= slices d)%N ->
  snd (trace_values d path vs) = too_deep d (List.length path + list_max (map depth vs)).
Proof.
  intros Hm Hp. induction vs as [|v vs IH].
  - cbn. unfold too_deep. rewrite Nat.add_0_r, (proj2 (N.ltb_ge _ _)) by lia. reflexivity.
  - cbn [trace_values fold_right map] in *. rewrite list_max_cons in *. apply chain_deep; [apply trace_deep; [unfold fits_bytes in *; lia|exact Hp]|].
    apply IH. unfold fits_bytes in *. lia.
Qed.

(** ** Matching *)
Lemma match_path_prefix e : forall path, match_path e path = true <-> prefix e path.
Proof.
  induction e as [|x e IH]; intros path; cbn [match_path].
  - split; [exists path; reflexivity|reflexivity].
  - destruct path as [|y path].
    + split; [discriminate|]. intros (t & H). discriminate.
    + destruct (beq x y) eqn:E.
      * apply beq_eq in E. subst y. rewrite IH. split; intros (t & H); exists t; cbn in *; congruence.
      * split; [discriminate|]. intros (t & H). injection H as -> _. rewrite (proj2 (beq_eq x x) eq_refl) in E. discriminate.
Qed.
Lemma iter_match_spec expected s path : iter_match expected s path = true <-> matches expected s path.
Proof.
  unfold iter_match, matches.
  assert (HS : forall name, match expected with x :: e' => if beq x name then match_path e' path else false | [] => true end = true <->
    expected = [] \/ exists e, expected = name :: e /\ prefix e path).
  { intros name. destruct expected as [|x e]; [split; auto|]. destruct (beq x name) eqn:E.
    - apply beq_eq in E. subst x. rewrite match_path_prefix. split; [eauto|]. intros [H|(e' & H & K)]; [discriminate|]. injection H as <-. exact K.
    - split; [discriminate|]. intros [H|(e' & H & K)]; [discriminate|]. injection H as -> _. rewrite (proj2 (beq_eq name name) eq_refl) in E. discriminate. }
  destruct s; cbn [event_name]; try apply HS. apply match_path_prefix.
Qed.
