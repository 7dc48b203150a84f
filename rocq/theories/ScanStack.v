(** The working buffer of the scanner as a list of (position code, name) entries, innermost first. *)
From Verif Require Import Base U8Pool PoolSpec PoolProofs Buffer Jiter RJiter RJiterSpec Scan ScanSpec.

Definition entry : Type := byte * bytes.
Definition entry_bytes (x : entry) : bytes := fst x :: snd x.
Definition path_of (es : list entry) : list bytes := map snd es.
Definition stack_of (d : dims) (p : pool) (es : list entry) : Prop :=
  exists s, Inv p s /\ tight s /\ map snd s = map entry_bytes es /\ max_slices p = slices d /\ len (data p) = space_for d /\
    (4 * slices d <= N.of_nat (len (descriptor p)))%N.

Lemma stack_length s (es : list entry) : map (@snd nat bytes) s = map entry_bytes es -> List.length s = List.length es.
Proof. intros H. apply (f_equal (@List.length bytes)) in H. rewrite !map_length in H. exact H. Qed.
Lemma path_length es : List.length (path_of es) = List.length es.
Proof. apply map_length. Qed.
Lemma total_rev (l : list bytes) : total_length (rev l) = list_sum (map len l).
Proof.
  induction l as [|x l IH]; [reflexivity|]. cbn [rev map]. rewrite total_length_snoc, IH. cbn [list_sum fold_right]. unfold list_sum. cbn. lia.
Qed.
Lemma stack_weight s es : tight s -> map (@snd nat bytes) s = map entry_bytes es -> used s = weight (path_of es).
Proof.
  intros (H & _) E. rewrite H. unfold strings. rewrite E, total_rev. unfold weight, path_of. rewrite !map_map. f_equal.
Qed.
Lemma admit_deep d path k n : admit_name d path k = Some (TooDeep n) -> (slices d <= N.of_nat (List.length path))%N.
Proof.
  unfold admit_name. destruct (N.leb_spec (slices d) (N.of_nat (List.length path))); [auto|].
  destruct (space_for d <? _); [discriminate|]. destruct (65535 <? N.of_nat (weight path))%N; [discriminate|]. destruct (65535 <? N.of_nat (S (len k)))%N; discriminate.
Qed.
Lemma stack_count d p es : stack_of d p es -> pool_len p = List.length es /\ (N.of_nat (List.length es) <= slices d)%N.
Proof.
  intros (s & HI & _ & HE & HM & _). rewrite <- (stack_length _ _ HE), <- HM. unfold pool_len. destruct HI as (HI & HJ & _). split; [exact HI|rewrite <- HI; exact HJ].
Qed.
Lemma stack_push d p es c k : stack_of d p es ->
  exists p' r, push_assoc p pos_ty [c] k = Done (p', r) /\
  match admit_name d (path_of es) k with
  | None => r = Ok ([c], k) /\ stack_of d p' ((c, k) :: es)
  | Some x => stack_of d p' es /\ exists e, r = Err e /\
      (match x with TooDeep n => n = slices d /\ e = SliceLimitExceeded n | NoSpace => forall m, e <> SliceLimitExceeded m end)
  end.
Proof.
  intros (s & HI & HT & HE & HM & HD & HL). pose proof (stack_weight _ _ HT HE) as HW. pose proof (stack_length _ _ HE) as HN.
  destruct (push_assoc_spec p s pos_ty [c] k HI) as (p' & A & B & C & D); [cbn; lia|reflexivity|].
  assert (HD2 : len (data p') = space_for d) by congruence.
  unfold push_error in D. unfold admit_name. rewrite path_length. rewrite next_multiple_1 in D. cbn [pos_ty t_size t_align] in D.
  rewrite HN, HW in D. rewrite HM, HD in D.
  destruct (slices d <=? N.of_nat (List.length es))%N eqn:E1.
  { destruct D as (D1 & D2). exists p', (Err (SliceLimitExceeded (slices d))). split; [exact D1|]. split; [exists s; rewrite B, A; auto 10|].
    eexists. split; [reflexivity|split; reflexivity]. }
  replace (weight (path_of es) + 1 + len k) with (weight (path_of es) + S (len k)) in D by lia.
  destruct (space_for d <? weight (path_of es) + S (len k)).
  { destruct D as (D1 & D2). eexists p', _. split; [exact D1|]. split; [exists s; rewrite B, A; auto 10|].
    eexists. split; [reflexivity|discriminate]. }
  replace (1 + len k) with (S (len k)) in D by lia.
  destruct (65535 <? N.of_nat (weight (path_of es)))%N.
  { destruct D as (D1 & D2). eexists p', _. split; [exact D1|]. split; [exists s; rewrite B, A; auto 10|].
    eexists. split; [reflexivity|discriminate]. }
  destruct (65535 <? N.of_nat (S (len k)))%N.
  { destruct D as (D1 & D2). eexists p', _. split; [exact D1|]. split; [exists s; rewrite B, A; auto 10|].
    eexists. split; [reflexivity|discriminate]. }
  destruct (Nat.ltb_spec (List.length (descriptor p)) (List.length es * 4 + 4)) as [Hlt|Hge].
  { exfalso. apply N.leb_gt in E1. unfold bytes, byte in *. lia. }
  destruct D as (D1 & D2). exists p', (Ok ([c], k)). split; [exact D1|]. split; [reflexivity|].
  exists ((weight (path_of es), [c] ++ k) :: s). rewrite B, A. split; [exact D2|].
  split; [rewrite <- HW; apply tight_cons, HT|]. split; [cbn; rewrite HE; reflexivity|]. auto.
Qed.
Lemma last_strings st c s : last_opt (strings ((st, c) :: s)) = Some c.
Proof. rewrite strings_cons. apply last_opt_snoc. Qed.
Lemma stack_pop d p c k es : stack_of d p ((c, k) :: es) ->
  exists p', pop_assoc p pos_ty = Done (p', Some ([c], k)) /\ stack_of d p' es.
Proof.
  intros (s & HI & HT & HE & HM & HD & HL). destruct s as [|[st x] s]; [discriminate|]. cbn in HE. injection HE as -> HE.
  pose proof (pop_assoc_spec p _ pos_ty HI) as H. rewrite last_strings in H. cbn [obind_opt] in H.
  change (entry_bytes (c, k)) with ([c] ++ k) in H. rewrite (split_value_app pos_ty [c] k) in H by reflexivity.
  destruct H as (H1 & H2 & _). eexists. split; [exact H1|]. exists s. split; [exact H2|]. split; [apply (tight_tl _ HT)|]. auto.
Qed.
Lemma stack_top d p es : stack_of d p es -> top_assoc_obj p pos_ty = Done (match es with [] => None | (c, _) :: _ => Some [c] end).
Proof.
  intros (s & HI & HT & HE & HM & HD & HL). rewrite (top_assoc_obj_spec p s pos_ty HI). destruct es as [|(c, k) es], s as [|[st x] s]; try discriminate; [reflexivity|].
  cbn in HE. injection HE as -> HE. rewrite last_strings. cbn [obind_opt]. change (entry_bytes (c, k)) with ([c] ++ k).
  rewrite (split_value_app pos_ty [c] k) by reflexivity. reflexivity.
Qed.
Lemma stack_len d p es : stack_of d p es -> pool_len p = List.length es.
Proof. intros (s & HI & HT & HE & _). unfold pool_len. rewrite (proj1 HI). apply stack_length, HE. Qed.
Lemma names_spec p s : Inv p s -> forall r (es0 : list entry) s0 es, s = s0 ++ r -> map (@snd nat bytes) r = map entry_bytes es ->
  names_from p (List.length r) = Done (path_of es).
Proof.
  intros HI r. induction r as [|[st x] r IH]; intros es0 s0 es E1 E2.
  - destruct es; [reflexivity|discriminate].
  - destruct es as [|(c, k) es]; [discriminate|]. cbn in E2. injection E2 as -> E2. cbn [List.length names_from].
    rewrite (get_assoc_spec p s pos_ty _ HI). unfold strings. rewrite E1, map_app, rev_app_distr. cbn [map rev].
    rewrite nth_error_app1. 2:{ rewrite app_length, rev_length, map_length. cbn. lia. }
    rewrite nth_error_app2. 2:{ rewrite rev_length, map_length. lia. }
    rewrite rev_length, map_length, Nat.sub_diag. cbn [nth_error snd obind_opt]. change (entry_bytes (c, k)) with ([c] ++ k).
    rewrite (split_value_app pos_ty [c] k) by reflexivity. cbn [obind].
    rewrite (IH es0 (s0 ++ [(st, entry_bytes (c, k))]) es); [reflexivity| |exact E2]. rewrite E1, <- app_assoc. reflexivity.
Qed.
Lemma stack_context d p es : stack_of d p es -> context_of p = Done (mkCtx (path_of es) (List.length es)).
Proof.
  intros H. pose proof (stack_len _ _ _ H) as HL. destruct H as (s & HI & HT & HE & _). unfold context_of. rewrite HL.
  rewrite <- (stack_length s es HE). rewrite (names_spec p s HI s [] [] es eq_refl HE). cbn [obind]. rewrite (stack_length s es HE). reflexivity.
Qed.
Lemma stack_new checks buffer lim p : pool_new checks buffer lim = Done (Ok p) -> (lim * 4 + 1 < usize_modulus)%N ->
  stack_of (mkDims lim (len buffer - N.to_nat (lim * 4))) p [].
Proof.
  intros E H. destruct (Inv_new _ _ _ _ E) as (HI & HM). destruct (new_dims _ _ _ _ E H) as (A & B & C).
  exists []. split; [exact HI|]. split; [split; [reflexivity|intros [|k]; reflexivity]|]. split; [reflexivity|].
  cbn [slices space_for]. split; [exact HM|]. split; [exact B|]. unfold bytes, byte in *. lia.
Qed.
Lemma stack_fresh d p : fresh d p -> stack_of d p [].
Proof.
  intros (checks & buffer & E & H & K). destruct d as [n sp]. cbn in *. subst sp. exact (stack_new checks buffer n p E H).
Qed.
