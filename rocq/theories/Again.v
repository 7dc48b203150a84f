(** Proofs: idtransform, called again and again. *)
From Verif Require Import Base U8Pool Buffer BufferSpec Jiter RJiter RJiterSpec Scan ScanSpec IdTransform IdSpec AgainSpec.
From Verif Require Import RJiterLookProofs ScanTokens ScanParser ScanStack ScanProofs IdProofs.

Lemma again_values m d vs : forall ps r w l, sane m -> may_fail m = false -> Forall ordinary vs -> Forall (has_room d) vs -> wfail w = None ->
  start m r -> values_then (layout m) vs (rest r) l -> Forall (fresh d) ps -> List.length ps = List.length vs ->
  exists r' w', calls ps r w r' w' /\ spent w (List.concat (map compact vs)) w' /\ start m r' /\ rest r' = l.
Proof.
  induction vs as [|v vs IH]; intros ps r w l HM HF HO HR HW HS HD HP HL.
  - destruct ps; [|discriminate]. inversion HD; subst. exists r, w. split; [constructor|]. split; [apply spent_refl|]. split; [exact HS|reflexivity].
  - destruct ps as [|p ps]; [discriminate|]. inversion HD as [|? ? ? l1 ? D1 D2]; subst. inversion HO; subst. inversion HR; subst. inversion HP; subst.
    destruct (idt_compact m d v r w p l1 HM HF) as (r1 & w1 & p1 & E1 & W1 & B1 & R1); auto.
    pose proof (pf_start _ _ _ _ (setting_facts m HM) r1 B1) as S1. rewrite <- R1 in D2.
    destruct (IH ps r1 w1 l HM HF) as (r' & w' & C & W & S & R); auto; [apply (spent_open _ _ _ W1 HW)|].
    exists r', w'. split; [econstructor; eauto|]. cbn [map List.concat]. split; [|split; assumption].
    eapply spent_trans; eauto.
Qed.
Lemma again_end m d r w p : sane m -> may_fail m = false -> start m r -> spaces (rest r) -> fresh d p -> (1 <= slices d)%N -> 5 <= space_for d ->
  exists r' p', eventually (fun fuel => idtransform fuel r w p) (Done (r', w, p', Ok tt)) /\ start m r' /\ rest r' = [].
Proof.
  intros HM HF HS HD Hp H1 H5. destruct (pf_end _ _ _ _ (setting_facts m HM) r HS HD) as (s' & e & Hpeek & [(He & s2 & v & Hfin & Hv)|(_ & K)]); [|congruence].
  destruct v as [[]|x]; [|congruence]. destruct Hv as [R2 S2].
  destruct (stack_push d p [] (pos_code Top) (bs "#top") (stack_fresh _ _ Hp)) as (p' & x & Hpush & Hx).
  assert (A : admit_name d (path_of []) (bs "#top") = None).
  { unfold admit_name. cbn [path_of map List.length weight list_sum fold_right]. destruct (N.leb_spec (slices d) (N.of_nat 0)); [lia|].
    change (len (bs "#top")) with 4. destruct (Nat.ltb_spec (space_for d) (0 + 5)); [lia|]. reflexivity. }
  rewrite A in Hx. destruct Hx as [-> _].
  exists s2, p'. split; [|split; assumption]. exists 1. intros fuel Hf. destruct fuel as [|fuel]; [lia|].
  unfold idtransform, scan. cbn [stack parser user]. rewrite Hpush. cbn [obind]. cbv zeta. cbn [scan_loop andb scan_iter parser user stack].
  rewrite Hpeek. cbn [obind]. rewrite He. cbn [pos_eqb]. unfold parse. cbn [parser user stack]. rewrite Hfin. reflexivity.
Qed.
Lemma between_reads m r : sane m -> may_fail m = false -> between m r -> valid r /\ 0 < rcap r /\ rquiet r = true.
Proof.
  destruct m as [c b|c|c b|c b n]; cbn [sane may_fail between]; intros HM HF HB; [| |discriminate|].
  - destruct HB as (V & C & _ & Q). split; [exact V|]. split; [lia|exact Q].
  - destruct HB as (V & C & _ & Q). split; [exact V|]. split; [lia|exact Q].
  - destruct HB as ((V & C & _ & Q) & _). split; [exact V|]. split; [lia|]. unfold rquiet, quiet. rewrite Q. reflexivity.
Qed.
Lemma blank_jw l : skip_jw l = [] -> spaces l.
Proof.
  unfold skip_jw, spaces. induction l as [|x l IH]; [constructor|]. cbn [run_length]. destruct (json_ws x) eqn:E; [|discriminate].
  cbn [skipn]. intros H. constructor; [|exact (IH H)]. unfold json_ws in E. unfold space. repeat (apply Bool.orb_true_iff in E as [E|E]); apply N.eqb_eq in E; auto.
Qed.
Lemma then_finish m d v r w p l : sane m -> may_fail m = false -> ordinary v -> has_room d v -> wfail w = None ->
  start m r -> document (layout m) v (rest r) l -> fresh d p ->
  exists r1 w1 p1 r2 x, eventually (fun fuel => idtransform fuel r w p) (Done (r1, w1, p1, Ok tt)) /\ spent w (compact v) w1 /\
    finish r1 = Done (r2, x) /\ (x = Ok tt <-> spaces l) /\ (forall e, x = Err e -> err_type e = JsonError TrailingCharacters).
Proof.
  intros HM HF Ho HR Hw HS HD Hp. destruct (idt_compact m d v r w p l HM HF Ho HR Hw HS HD Hp) as (r1 & w1 & p1 & E1 & W1 & B1 & R1).
  destruct (between_reads m r1 HM HF B1) as (V & C & Q). destruct (finish_spec r1 V C) as (r2 & x & Ef & Hx).
  exists r1, w1, p1, r2, x. split; [exact E1|]. split; [exact W1|]. split; [exact Ef|]. destruct x as [[]|e].
  - split; [|discriminate]. split; [intros _; rewrite <- R1; apply blank_jw, Hx|reflexivity].
  - destruct Hx as [[_ H]|(H & Hn & _)]; [congruence|]. split; [|intros e' E; injection E as <-; exact H].
    split; [discriminate|]. intros Hl. elim Hn. rewrite R1. apply jw_blank. exact Hl.
Qed.
