(** Proofs about the converter in Python: it does what the benchmark program in Rust does. *)
From Coq Require Import ZArith Lia.
From Verif Require Import Base Buffer Jiter RJiter RJiterSpec ScanSpec ValueSpec DdbSpec ConvSpec Cli CliSpec Bench BenchSpec PyBench PyBenchSpec.
From Verif Require Import RJiterLookProofs RJiterLongProofs ScanProofs ScanParser IdProofs TwinConv CliProofs BenchProofs BenchRun BenchTrim.
Local Opaque default_capacity.

Section Values.
Context {float R : Type} (float_of : bytes -> option float) (str_float : float -> bytes) (show' : R -> bytes) (read' : bytes -> option R).
Context (alike : pynum float -> R -> Prop) (Hn : shown_alike alike (py_show str_float) show').
Notation readable := (read_alike alike (py_read float_of) read').
Notation same := (same alike).
Lemma same_items l m : same (SArray l) (SArray m) <-> Forall2 same l m.
Proof.
  cbn [PyBenchSpec.same]. revert m. induction l as [|x l IH]; intros [|y m]; (split; intros H); try exact I; try (inversion H; fail); try contradiction; [constructor| |].
  - constructor; [apply H|]. apply IH, H.
  - inversion H; subst. split; [assumption|]. apply IH. assumption.
Qed.
Definition same_member (a : bytes * value (pynum float)) (b : bytes * value R) : Prop := fst a = fst b /\ same (snd a) (snd b).
Lemma same_members l m : same (SObject l) (SObject m) <-> Forall2 same_member l m.
Proof.
  cbn [PyBenchSpec.same]. revert m. induction l as [|[j x] l IH]; intros [|[k y] m]; (split; intros H); try exact I; try (inversion H; fail); try contradiction; [constructor| |].
  - constructor; [split; apply H|]. apply IH, H.
  - inversion H as [|? ? ? ? (A & B) ?]; subst. split; [exact A|]. split; [exact B|]. apply IH. assumption.
Qed.
Lemma same_insert k x y : same x y -> forall l m, Forall2 same_member l m -> Forall2 same_member (insert k x l) (insert k y m).
Proof.
  intros Hxy. induction 1 as [|[j a] [j' b] l m (E & Hab) Hlm IH]; cbn [insert]; [constructor; [split; [reflexivity|exact Hxy]|constructor]|].
  cbn [fst snd] in E, Hab. subst j'. destruct (beq k j); constructor; try (split; assumption); try (split; [reflexivity|assumption]); auto.
Qed.
Notation follow f g := (fun x y => ends_alike same (f x) (g y)).
Lemma members_alike f g l m : Forall2 (fun a b => fst a = fst b /\ follow f g (snd a) (snd b)) l m -> forall out out', Forall2 same_member out out' ->
  ends_alike (Forall2 same_member) (py_members f l out) (each_member g m out').
Proof.
  induction 1 as [|[j a] [j' b] l m (E & H) _ IH]; intros out out' Ho; [exact Ho|]. cbn [fst snd] in *. subst j'. cbn [py_members each_member].
  destruct (f a) as [y|c], (g b) as [y'|e]; cbn [ends_alike] in H; try contradiction; [|exact H]. apply IH. apply same_insert; assumption.
Qed.
Lemma items_alike f g l m : Forall2 (follow f g) l m -> forall out out', Forall2 same out out' ->
  ends_alike (Forall2 same) (py_items f l out) (each_item g m out').
Proof.
  induction 1 as [|a b l m H _ IH]; intros out out' Ho; [exact Ho|]. cbn [py_items each_item].
  destruct (f a) as [y|c], (g b) as [y'|e]; cbn [ends_alike] in H; try contradiction; [|exact H]. apply IH. apply Forall2_app; auto.
Qed.
Lemma number_alike msg x y : same x y -> Forall readable (string_in x) -> ends_alike same (py_number float_of msg x) (parse_number read' msg y).
Proof.
  destruct x, y; try contradiction; intros H Hr; try (constructor; fail). cbn in H. subst s0. cbn [py_number parse_number string_in] in *. inversion Hr as [|? ? Hs _]; subst. unfold read_alike in Hs.
  destruct (py_read float_of s), (read' s); try contradiction; [exact Hs|constructor].
Qed.
Lemma Forall2_with {X Y} (P : X -> Prop) (Q S : X -> Y -> Prop) l m : (forall x y, P x -> Q x y -> S x y) -> Forall P l -> Forall2 Q l m -> Forall2 S l m.
Proof. intros H HP HQ. induction HQ; constructor; inversion HP; subst; auto. Qed.
Lemma Forall2_impl {X Y} (Q S : X -> Y -> Prop) : (forall x y, Q x y -> S x y) -> forall l m, Forall2 Q l m -> Forall2 S l m.
Proof. intros H l m HQ. induction HQ; constructor; auto. Qed.
Lemma marshall_alike x : forall y, same x y -> ends_alike same (py_marshall str_float x) (marshall_value show' y).
Proof.
  induction x as [|b|n|s|l IH|m IH] using value_induction; intros [|b'|n'|s'|l'|m'] H; try contradiction.
  - cbn. auto. - cbn in *. subst. auto.
  - cbn. cbn in H. rewrite (Hn _ _ H). auto.
  - cbn in *. subst. auto.
  - apply same_items in H. cbn [py_marshall marshall_value].
    assert (K : ends_alike (Forall2 same) (py_items (py_marshall str_float) l []) (each_item (marshall_value show') l' [])).
    { apply items_alike; [|constructor]. revert IH H. apply Forall2_with. auto. }
    destruct (py_items _ l []) as [o|c], (each_item _ l' []) as [o'|e]; cbn [ends_alike] in K; try contradiction; [|exact K].
    cbn [ends_alike insert]. apply same_members. constructor; [|constructor]. split; [reflexivity|]. cbn [snd]. apply same_items. exact K.
  - apply same_members in H. cbn [py_marshall marshall_value].
    assert (K : ends_alike (Forall2 same_member) (py_members (py_marshall str_float) m []) (each_member (marshall_value show') m' [])).
    { apply members_alike; [|constructor]. revert IH H. apply Forall2_with. intros [j x] [j' y] A (B & C). split; auto. }
    destruct (py_members _ m []) as [o|c], (each_member _ m' []) as [o'|e]; cbn [ends_alike] in K; try contradiction; [|exact K].
    cbn [ends_alike insert]. apply same_members. constructor; [|constructor]. split; [reflexivity|]. cbn [snd]. apply same_members. exact K.
Qed.
Lemma to_alike x y wrap : same x y -> ends_alike same (py_to str_float x wrap) (to_dynamodb show' y wrap).
Proof.
  destruct x as [|b|n|s|l|m], y as [|b'|n'|s'|l'|m']; intros H; try contradiction; try (constructor; fail). apply same_members in H. cbn [py_to to_dynamodb].
  assert (K : ends_alike (Forall2 same_member) (py_members (py_marshall str_float) m []) (each_member (marshall_value show') m' [])).
  { apply members_alike; [|constructor]. revert H. apply Forall2_impl. intros [j x] [j' y] (B & C). split; [exact B|]. apply marshall_alike. exact C. }
  destruct (py_members _ m []) as [o|c], (each_member _ m' []) as [o'|e]; cbn [ends_alike] in K; try contradiction; [|exact K].
  destruct wrap; cbn [ends_alike insert]; apply same_members; [|exact K]. constructor; [|constructor]. split; [reflexivity|]. cbn [snd]. apply same_members. exact K.
Qed.
Lemma Forall_and_inv' {X} (P Q : X -> Prop) l : Forall (fun x => P x /\ Q x) l <-> Forall P l /\ Forall Q l.
Proof. split; [intros H; split; (eapply Forall_impl; [|exact H]); intros x (A & B); assumption|]. intros (A & B). revert B. induction A; intros B; constructor; inversion B; auto. Qed.
Lemma readable_items (l : list (value (pynum float))) : Forall readable (number_texts (SArray l)) -> Forall (fun x => Forall readable (number_texts x)) l.
Proof. cbn [number_texts]. induction l as [|x l IH]; cbn [flat_map]; intros H; constructor; apply Forall_app in H; [apply H|apply IH, H]. Qed.
Lemma readable_members (m : list (bytes * value (pynum float))) : Forall readable (number_texts (SObject m)) -> Forall (fun kx => Forall readable (number_texts (snd kx))) m.
Proof.
  cbn [number_texts]. induction m as [|[k x] l IH]; cbn [flat_map]; intros H; constructor; apply Forall_app in H; [|apply IH, H]. destruct H as (H & _). apply Forall_app in H. destruct H as (_ & H). apply Forall_app in H. apply H.
Qed.
Lemma readable_strings (l : list (value (pynum float))) : Forall readable (flat_map string_in l) -> Forall (fun x => Forall readable (string_in x)) l.
Proof. induction l as [|x l IH]; cbn [flat_map]; intros H; constructor; apply Forall_app in H; [apply H|apply IH, H]. Qed.
Lemma unmarshall_alike : forall n x, BenchRun.depth x <= n -> forall y, same x y -> Forall readable (number_texts x) -> ends_alike same (py_unmarshall float_of x) (unmarshall_value read' y).
Proof.
  induction n as [n IHn] using lt_wf_ind. intros x Hd y H Hr.
  destruct x as [|b|p|s|l|m], y as [|b'|p'|s'|l'|m']; try contradiction; try (constructor; fail). apply same_members in H.
  destruct H as [|[k t] [k' t'] m m' (E & Ht) H]; [constructor|]. destruct H as [|a b m m' Hab H]; [|destruct b; constructor]. cbn [fst snd] in E, Ht. subst k'.
  assert (HN : (beq k (bs "N") = true -> Forall readable (string_in t)) /\ (beq k (bs "NS") = true -> forall l, t = SArray l -> Forall readable (flat_map string_in l)) /\ Forall readable (number_texts t)).
  { change (number_texts (SObject [(k, t)])) with (((if beq k (bs "N") then string_in t else []) ++ (if beq k (bs "NS") then match t with SArray l => flat_map string_in l | _ => [] end else []) ++ number_texts t) ++ []) in Hr.
    rewrite app_nil_r in Hr. apply Forall_app in Hr. destruct Hr as (A & Hr). apply Forall_app in Hr. destruct Hr as (B & C). split; [|split; [|exact C]].
    - intros Hk. rewrite Hk in A. exact A.
    - intros Hk l ->. rewrite Hk in B. exact B. }
  destruct HN as (HN & HNS & Hrt). clear Hr.
  assert (HL : forall l l', t = SArray l -> Forall2 same l l' -> ends_alike (Forall2 same) (py_items (py_unmarshall float_of) l []) (each_item (unmarshall_value read') l' [])).
  { intros l l' -> Hl. apply items_alike; [|constructor]. pose proof (depth_items (fun _ => None) (fun _ => None) (fun _ => []) (fun _ => []) l _ (le_n _)) as K. pose proof (readable_items l Hrt) as K2.
    pose proof (proj2 (Forall_and_inv' _ _ l) (conj K K2)) as K3. revert K3 Hl. apply Forall2_with. intros x y (Hx & Hx2) Hxy. apply (IHn (BenchRun.depth x)); [cbn [BenchRun.depth fold_right] in *; lia|lia|exact Hxy|exact Hx2]. }
  assert (HM : forall l l', t = SObject l -> Forall2 same_member l l' -> ends_alike (Forall2 same_member) (py_members (py_unmarshall float_of) l []) (each_member (unmarshall_value read') l' [])).
  { intros l l' -> Hl. apply members_alike; [|constructor]. pose proof (depth_members (fun _ => None) (fun _ => None) (fun _ => []) (fun _ => []) l _ (le_n _)) as K. pose proof (readable_members l Hrt) as K2.
    pose proof (proj2 (Forall_and_inv' _ _ l) (conj K K2)) as K3. revert K3 Hl. apply Forall2_with. intros x y (Hx & Hx2) (A & Hxy). split; [exact A|]. apply (IHn (BenchRun.depth (snd x))); [cbn [BenchRun.depth fold_right] in *; lia|lia|exact Hxy|exact Hx2]. }
  rewrite unmarshall_single. unfold unmarshall_one. cbn [py_unmarshall].
  destruct (beq k (bs "S")); [exact Ht|]. destruct (beq k (bs "N")); [apply number_alike; [exact Ht|apply HN; reflexivity]|]. destruct (beq k (bs "BOOL")); [exact Ht|]. destruct (beq k (bs "NULL")); [exact I|].
  destruct (beq k (bs "M")).
  { destruct t as [|b|p|s|l|m], t' as [|b'|p'|s'|l'|m']; try contradiction; try (constructor; fail). apply same_members in Ht. specialize (HM m m' eq_refl Ht).
    destruct (py_members _ m []), (each_member _ m' []); try contradiction; [|exact HM]. apply same_members. exact HM. }
  destruct (beq k (bs "L")).
  { destruct t as [|b|p|s|l|m], t' as [|b'|p'|s'|l'|m']; try contradiction; try (constructor; fail). apply same_items in Ht. specialize (HL l l' eq_refl Ht).
    destruct (py_items _ l []), (each_item _ l' []); try contradiction; [|exact HL]. apply same_items. exact HL. }
  destruct (beq k (bs "SS")); [exact Ht|]. destruct (beq k (bs "NS")).
  { destruct t as [|b|p|s|l|m], t' as [|b'|p'|s'|l'|m']; try contradiction; try (constructor; fail). apply same_items in Ht.
    assert (K : ends_alike (Forall2 same) (py_items (py_number float_of "NS items must be strings") l []) (each_item (parse_number read' "NS items must be strings") l' [])).
    { apply items_alike; [|constructor]. pose proof (readable_strings l (HNS eq_refl l eq_refl)) as K. revert K Ht. apply Forall2_with. intros a b Ha Hab. apply number_alike; assumption. }
    destruct (py_items _ l []), (each_item _ l' []); try contradiction; [|exact K]. apply same_items. exact K. }
  destruct (beq k (bs "BS")); [exact Ht|]. destruct (beq k (bs "B")); [exact Ht|]. constructor.
Qed.
Lemma from_alike x y : same x y -> Forall readable (number_texts x) -> ends_alike same (py_from float_of x) (from_dynamodb read' y).
Proof.
  destruct x as [|b|n|s|l|m], y as [|b'|n'|s'|l'|m']; intros H Hr; try contradiction; try (constructor; fail). apply same_members in H. apply readable_members in Hr. cbn [py_from from_dynamodb].
  set (u := match m with [(k, t)] => _ | _ => Ok m end). set (u' := match m' with [(k, t)] => _ | _ => Ok m' end).
  assert (K : ends_alike (Forall2 same_member) u u' /\ forall o, u = Ok o -> Forall (fun kx => Forall readable (number_texts (snd kx))) o).
  { subst u u'. destruct H as [|[k t] [k' t'] m m' (E & Ht) H]; [split; [constructor|intros o X; injection X as <-; constructor]|]. cbn [fst snd] in *. subst k'.
    destruct H as [|a b m m' Hab H]; [|split; [destruct b; cbn [ends_alike]; constructor; [split; [reflexivity|assumption]|constructor; assumption]|intros o X; injection X as <-; exact Hr]].
    destruct (beq k (bs "Item")); [|split; [cbn [ends_alike]; constructor; [split; [reflexivity|assumption]|constructor]|intros o X; injection X as <-; exact Hr]].
    destruct t as [|b|p|s|l|m], t' as [|b'|p'|s'|l'|m']; try contradiction; try (split; [constructor|discriminate]). split; [apply same_members; exact Ht|].
    intros o X. injection X as <-. inversion Hr; subst. apply readable_members. assumption. }
  destruct K as (K & Kr). destruct u as [o|c], u' as [o'|e]; try contradiction; [|exact K]. cbn [ends_alike] in K. specialize (Kr o eq_refl).
  assert (K' : ends_alike (Forall2 same_member) (py_members (py_unmarshall float_of) o []) (each_member (unmarshall_value read') o' [])).
  { apply members_alike; [|constructor]. revert Kr K. apply Forall2_with. intros a b Ha (A & B). split; [exact A|]. apply (unmarshall_alike _ _ (le_n _)); assumption. }
  destruct (py_members _ o []), (each_member _ o' []); try contradiction; [|exact K']. apply same_members. exact K'.
Qed.

(** ** The program *)
Context (loads : bytes -> option (option (value (pynum float)))) (dumps dumps_pretty : value (pynum float) -> bytes).
Context (from_str : bytes -> option (value R)) (to_string to_string_pretty : value R -> bytes).
Notation handle := (handle show' read' from_str to_string to_string_pretty).
Notation line_loop := (line_loop show' read' from_str to_string to_string_pretty).
Notation py_handle := (py_handle float_of str_float loads dumps dumps_pretty).
Notation py_loop := (py_loop float_of str_float loads dumps dumps_pretty).
Notation process := (process show' read' from_str to_string to_string_pretty).
Definition beside (a : bargs) : bytes -> bytes -> Prop :=
  side_by_side alike (if bpretty a then dumps_pretty else dumps) (if bpretty a then to_string_pretty else to_string).
Definition step_alike (a : bargs) (r : bytes * result unit complaint) (r' : writer * result unit trouble) : Prop :=
  exists d', fst r' = mkWriter d' None /\ beside a (fst r) d' /\ ends_alike (fun _ _ => True) (snd r) (snd r').
Lemma beside_nil a : beside a [] [].
Proof. exists []. repeat split. constructor. Qed.
Lemma beside_more a d d' x y : beside a d d' -> same x y -> beside a (d ++ (if bpretty a then dumps_pretty x else dumps x) ++ [10%N]) (d' ++ print to_string to_string_pretty a y ++ [10%N]).
Proof.
  intros (xs & H & -> & ->) Hxy. exists (xs ++ [(x, y)]). split; [apply Forall_app; split; [exact H|]; constructor; [exact Hxy|constructor]|].
  rewrite !map_app, !concat_app. cbn [map List.concat fst snd]. rewrite !app_nil_r. unfold print. destruct (bpretty a); split; reflexivity.
Qed.
Lemma convert_alike a x y : same x y -> Forall readable (number_texts x) -> ends_alike same (py_convert float_of str_float a x) (convert_value show' read' a y).
Proof. intros H Hr. unfold py_convert, convert_value. destruct (bmode a); [apply from_alike; assumption|apply to_alike; assumption]. Qed.
Lemma handle_alike' a c e t d d' : like c e -> parsed_alike alike (py_read float_of) read' (loads t) (from_str t) -> beside a d d' -> step_alike a (py_handle a c t d) (handle a e t (mkWriter d' None)).
Proof.
  intros Hc Hp Hb. unfold PyBench.py_handle, Bench.handle. destruct (loads t) as [[x|]|], (from_str t) as [y|]; try contradiction.
  - cbn [parsed_alike] in Hp. pose proof (convert_alike a x y (proj1 Hp) (proj2 Hp)) as K. destruct (py_convert _ _ a x) as [x'|c'], (convert_value show' read' a y) as [y'|e']; try contradiction.
    + unfold writeln. destruct (write_open (mkWriter d' None) (print to_string to_string_pretty a y') eq_refl) as (w1 & E1 & S1). rewrite E1. apply spent_plain in S1. subst w1.
      destruct (write_open (mkWriter (d' ++ print to_string to_string_pretty a y') None) [10%N] eq_refl) as (w2 & E2 & S2). rewrite E2. apply spent_plain in S2. subst w2. rewrite <- app_assoc.
      eexists. split; [reflexivity|]. split; [|exact I]. apply beside_more; assumption.
    + exists d'. split; [reflexivity|]. split; [exact Hb|exact K].
  - exists d'. split; [reflexivity|]. split; [exact Hb|exact Hc].
Qed.
Definition line_alike (r : result bytes complaint) (r' : result bytes trouble) : Prop :=
  ends_alike (fun p p' => strip p = trim p' /\ (trim p' <> [] -> parsed_alike alike (py_read float_of) read' (loads (trim p')) (from_str (trim p')))) r r'.
Lemma loop_alike' a l l' : Forall2 line_alike l l' -> forall n d d', beside a d d' -> step_alike a (py_loop a n l d) (line_loop a n l' (mkWriter d' None)).
Proof.
  induction 1 as [|r r' l l' H _ IH]; intros n d d' Hb; [exists d'; split; [reflexivity|split; [exact Hb|exact I]]|].
  cbn [PyBench.py_loop Bench.line_loop]. destruct r as [p|c], r' as [p'|e]; try contradiction.
  2:{ exists d'. split; [reflexivity|split; [exact Hb|exact H]]. }
  destruct H as (E & H). rewrite E. destruct (trim p') as [|x t] eqn:T; [apply IH; exact Hb|]. specialize (H ltac:(discriminate)).
  pose proof (handle_alike' a (BadLine n) (InvalidLine n) (x :: t) d d' (LikeLine n) H Hb) as (d2 & A & B & C).
  destruct (py_handle a (BadLine n) (x :: t) d) as [o v], (handle a (InvalidLine n) (x :: t) (mkWriter d' None)) as [w v']. cbn [fst snd] in *. subst w.
  destruct v as [u|c], v' as [u'|e]; try contradiction; [apply IH; exact B|]. exists d2. split; [reflexivity|split; [exact B|exact C]].
Qed.
End Values.

(** ** Texts *)
Lemma translate_same l : Forall (fun x => x <> 13)%N l -> translate l = l.
Proof. induction 1 as [|x l Hx _ IH]; [reflexivity|]. cbn [translate]. destruct (N.eqb_spec x 13); [contradiction|]. rewrite IH. reflexivity. Qed.
Definition separator (x : byte) : Prop := (28 <= x <= 31)%N.
Lemma find_more l (chars : list bytes) : Forall (fun x => ~ separator x) l -> find (fun p => starts_with p l) ([[28]; [29]; [30]; [31]]%N ++ chars) = find (fun p => starts_with p l) chars.
Proof.
  intros H. destruct l as [|x l]; [reflexivity|]. inversion H as [|? ? Hx _]; subst. unfold separator in Hx. cbn [app find starts_with].
  destruct (N.eqb_spec 28 x), (N.eqb_spec 29 x), (N.eqb_spec 30 x), (N.eqb_spec 31 x); try lia. reflexivity.
Qed.
Lemma trim_start_more (chars : list bytes) : forall l skip, Forall (fun x => ~ separator x) l -> trim_start ([[28]; [29]; [30]; [31]]%N ++ chars) skip l = trim_start chars skip l.
Proof.
  induction l as [|x l IH]; intros skip H; [reflexivity|]. cbn [trim_start]. destruct skip as [|k].
  - rewrite (find_more (x :: l) chars H). inversion H; subst. destruct (find _ chars); [apply IH; assumption|reflexivity].
  - inversion H; subst. apply IH; assumption.
Qed.
Lemma trim_start_suffix chars : forall l skip, exists p, l = p ++ trim_start chars skip l.
Proof.
  induction l as [|x l IH]; intros skip; [exists []; reflexivity|]. cbn [trim_start]. destruct skip as [|k].
  - destruct (find _ chars) as [p|]; [|exists []; reflexivity]. destruct (IH (len p - 1)) as (q & E). exists (x :: q). cbn [app]. rewrite <- E. reflexivity.
  - destruct (IH k) as (q & E). exists (x :: q). cbn [app]. rewrite <- E. reflexivity.
Qed.
Lemma strip_trim l : Forall (fun x => ~ separator x) l -> strip l = trim l.
Proof.
  intros H. unfold strip, trim, py_space. rewrite trim_start_more by exact H. rewrite map_app. change (map (@rev byte) [[28]; [29]; [30]; [31]]%N) with [[28]; [29]; [30]; [31]]%N.
  rewrite trim_start_more; [reflexivity|]. apply Forall_rev. destruct (trim_start_suffix white_space l 0) as (p & E). rewrite E in H. apply Forall_app in H. apply H.
Qed.
Lemma leading_feed : leading 10%N.
Proof. unfold leading. reflexivity. Qed.
Lemma utf8_lines a b : is_utf8 ((a ++ [10%N]) ++ b) -> is_utf8 (a ++ [10%N]) /\ is_utf8 b.
Proof.
  intros H. rewrite <- app_assoc in H. pose proof (utf8_cut (len a) a 10%N b (le_n _) H leading_feed) as Ha.
  assert (H2 : is_utf8 (10%N :: b)) by (apply (utf8_app (len a) a (10%N :: b) (le_n _) Ha); exact H).
  assert (K : is_utf8 (a ++ [10%N])). { apply (utf8_app (len a) a [10%N] (le_n _) Ha). reflexivity. }
  split; [exact K|]. rewrite app_assoc in H. apply (utf8_app (len (a ++ [10%N])) (a ++ [10%N]) b (le_n _) K). exact H.
Qed.
