(** Proofs about the benchmark program: its output and its lines. *)
From Verif Require Import Base Buffer Jiter RJiter RJiterSpec ScanSpec ConvSpec Cli CliSpec Bench BenchSpec.
From Verif Require Import RJiterLookProofs RJiterLongProofs ScanProofs ScanParser IdProofs TwinConv CliProofs BenchProofs.
From Coq Require Import Lia.
Local Opaque default_capacity.

Section Program.
Context {num : Type} (show_num : num -> bytes) (read_num : bytes -> option num).
Context (from_str : bytes -> option (value num)) (to_string to_string_pretty : value num -> bytes).
Notation convert_value := (convert_value show_num read_num).
Notation print := (print to_string to_string_pretty).
Notation handle := (handle show_num read_num from_str to_string to_string_pretty).
Notation line_loop := (line_loop show_num read_num from_str to_string to_string_pretty).
Notation process_jsonl := (process_jsonl show_num read_num from_str to_string to_string_pretty).
Notation process_json := (process_json show_num read_num from_str to_string to_string_pretty).
Notation detect := (@detect num from_str).
Notation bench_run := (bench_run show_num read_num from_str to_string to_string_pretty).
Notation bench_main := (bench_main show_num read_num from_str to_string to_string_pretty).
Notation line_output := (line_output show_num read_num from_str to_string to_string_pretty).
Notation step := (writer -> writer * result unit trouble).

(** ** Two writers, the second without limit *)
Definition grows (F : step) : Prop := forall w, exists p, spent w p (fst (F w)).
Definition twins (F : step) : Prop := forall w01 w02 w1 w2, wfail w02 = None -> sync w01 w02 w1 w2 ->
  (sync w01 w02 (fst (F w1)) (fst (F w2)) /\ snd (F w1) = snd (F w2)) \/
  (exists k, snd (F w1) = Err (Unwritable k) /\ exhausted (fst (F w1)) k) /\ lost w01 w02 (fst (F w1)) (fst (F w2)).
Definition follows (F G : step) : step := fun w => match F w with (w, Err e) => (w, Err e) | (w, Ok _) => G w end.
Lemma grows_still v : grows (fun w => (w, v)).
Proof. intros w. exists []. apply spent_refl. Qed.
Lemma twins_still v : twins (fun w => (w, v)).
Proof. intros w01 w02 w1 w2 _ H. left. split; [exact H|reflexivity]. Qed.
Lemma grows_follows F G : grows F -> grows G -> grows (follows F G).
Proof.
  intros HF HG w. unfold follows. destruct (HF w) as (p & Hp). destruct (F w) as [w' [u|e]]; cbn [fst] in *; [|eauto]. destruct (HG w') as (q & Hq). exists (p ++ q). eapply spent_trans; eassumption.
Qed.
Lemma twins_follows F G : twins F -> grows G -> twins G -> twins (follows F G).
Proof.
  intros HF HGg HG w01 w02 w1 w2 Ho H. unfold follows. specialize (HF w01 w02 w1 w2 Ho H).
  destruct (F w1) as [w1' v1], (F w2) as [w2' v2]. cbn [fst snd] in *. destruct HF as [(A & ->)|((k & -> & B) & A)].
  - destruct v2 as [u|e]; [exact (HG _ _ _ _ Ho A)|left; auto].
  - right. destruct v2 as [u|e]; cbn [fst snd]; split; try exact A; eauto. destruct (HGg w2') as (q & Hq). eapply lost_second; eassumption.
Qed.
Definition put (d : bytes) : step := fun w => match write_all w d with (w, Err k) => (w, Err (Unwritable k)) | (w, Ok _) => (w, Ok tt) end.
Lemma grows_put d : grows (put d).
Proof.
  intros w. unfold put. destruct (write_all_spent w d) as (w' & r & -> & H). destruct r as [u|k]; cbn [fst]; [eauto|]. destruct H as (p & q & _ & _ & H & _). eauto.
Qed.
Lemma twins_put d : twins (put d).
Proof.
  intros w01 w02 w1 w2 Ho H. unfold put. destruct (sync_write _ _ Ho w1 w2 d H) as (w1' & w2' & r & -> & -> & Hr). destruct r as [u|k]; cbn [fst snd]; [left; auto|].
  right. split; [exists k; split; [reflexivity|apply Hr]|apply Hr].
Qed.
Lemma writeln_puts t w : writeln w t = follows (put t) (put [10%N]) w.
Proof. unfold writeln, follows, put. destruct (write_all w t) as [w' [u|k]]; reflexivity. Qed.
Lemma same_grows F G : (forall w, F w = G w) -> grows G -> grows F.
Proof. intros E H w. rewrite E. apply H. Qed.
Lemma same_twins F G : (forall w, F w = G w) -> twins G -> twins F.
Proof. intros E H w01 w02 w1 w2. rewrite !E. apply H. Qed.
Lemma writeln_fine t : grows (fun w => writeln w t) /\ twins (fun w => writeln w t).
Proof.
  split; [eapply same_grows; [apply writeln_puts|]; apply grows_follows; apply grows_put|].
  eapply same_twins; [apply writeln_puts|]. apply twins_follows; [apply twins_put|apply grows_put|apply twins_put].
Qed.
Lemma handle_fine a e t : grows (handle a e t) /\ twins (handle a e t).
Proof.
  unfold Bench.handle. destruct (from_str t) as [x|]; [|split; [apply grows_still|apply twins_still]]. destruct (convert_value a x) as [y|e']; [apply writeln_fine|split; [apply grows_still|apply twins_still]].
Qed.
Lemma loop_fine a l : forall n, grows (line_loop a n l) /\ twins (line_loop a n l).
Proof.
  induction l as [|[line|e] l IH]; intros n; cbn [Bench.line_loop]; [split; [apply grows_still|apply twins_still]| |split; [apply grows_still|apply twins_still]].
  destruct (trim line) as [|x t]; [apply IH|]. destruct (handle_fine a (InvalidLine n) (x :: t)), (IH (S n)). fold (follows (handle a (InvalidLine n) (x :: t)) (line_loop a (S n) l)).
  split; [apply grows_follows|apply twins_follows]; assumption.
Qed.
Definition first_step (a : bargs) (first_line : bytes) : step := fun w => match trim first_line with [] => (w, Ok tt) | t => handle a (InvalidLine 1) t w end.
Lemma first_fine a l : grows (first_step a l) /\ twins (first_step a l).
Proof. unfold first_step. destruct (trim l); [split; [apply grows_still|apply twins_still]|apply handle_fine]. Qed.
Lemma jsonl_steps a l i w : process_jsonl a l i w = follows (first_step a l) (line_loop a 2 (lines_of i)) w.
Proof. unfold Bench.process_jsonl, follows, first_step. destruct (match trim l with [] => _ | _ => _ end) as [w' [u|e]]; reflexivity. Qed.
Lemma jsonl_fine a l i : grows (process_jsonl a l i) /\ twins (process_jsonl a l i).
Proof.
  destruct (first_fine a l) as (A & B), (loop_fine a (lines_of i) 2) as (C & D).
  split; [eapply same_grows; [apply jsonl_steps|apply grows_follows; assumption]|eapply same_twins; [apply jsonl_steps|apply twins_follows; assumption]].
Qed.
Lemma json_fine a l i : grows (process_json a l i) /\ twins (process_json a l i).
Proof. unfold Bench.process_json. destruct (read_to_string i); [apply handle_fine|split; [apply grows_still|apply twins_still]]. Qed.
Definition process (a : bargs) (jsonl : bool) (l : bytes) (i : input) : step := fun w => if jsonl then process_jsonl a l i w else process_json a l i w.
Lemma process_fine a jsonl l i : grows (process a jsonl l i) /\ twins (process a jsonl l i).
Proof. unfold process. destruct jsonl; [apply jsonl_fine|apply json_fine]. Qed.

(** ** The whole output *)
Definition plan : args := mkArgs ToDdb None None false false false.
Lemma plan_opened room : opened plan room = mkBuffered [] [] default_capacity room.
Proof. reflexivity. Qed.
Lemma plain_run (F : step) : grows F -> F (mkWriter [] None) = (mkWriter (delivered (fst (F (mkWriter [] None)))) None, snd (F (mkWriter [] None))).
Proof. intros H. destruct (H (mkWriter [] None)) as (p & Hp). destruct (F (mkWriter [] None)) as [w v]. cbn [fst snd] in *. apply spent_plain in Hp. subst w. reflexivity. Qed.
Lemma run_whole a jsonl l i room text v0 : process a jsonl l i (mkWriter [] None) = (mkWriter text None, v0) ->
  exists v, bench_run a jsonl l i room = (match room with None => text | Some (n, _) => firstn n text end, v) /\
    match room with
    | None => v = v0
    | Some (n, k) => if n <? len text then v = Err (Unwritable k) \/ v = v0 /\ v0 <> Ok tt else v = v0
    end.
Proof.
  intros E. unfold Bench.bench_run. fold (process a jsonl l i (mkBuffered [] [] default_capacity room)). rewrite <- plan_opened.
  destruct (process_fine a jsonl l i) as (_ & T). specialize (T (opened plan room) (mkWriter [] None) (opened plan room) (mkWriter [] None) eq_refl).
  rewrite E in T. destruct (process a jsonl l i (opened plan room)) as [w v]. cbn [fst snd] in T.
  destruct T as [((p & A & B) & ->)|((k0 & -> & X0) & p & k & A & a1 & b1 & Hp & Hb & w1 & j & S1 & X & S2)].
  - exists []. split; apply spent_refl.
  - apply spent_plain in B. injection B as ->. pose proof A as A0. apply opened_spent in A. destruct A as (h & Hp & Hl & Hc & Hh & Hf).
    assert (wcap w = 0 -> held w = []) as HH.
    { intros Z. destruct A0 as (_ & Q & _ & y & _ & Q2 & _). rewrite Q in Z. destruct (Q2 Z) as (_ & Q3). exact Q3. }
    assert (h = held w) as Hh' by (destruct (wcap w =? 0) eqn:Z; [apply Nat.eqb_eq in Z; rewrite (HH Z); exact Hh|exact Hh]).
    pose proof (flushed w h Hh HH) as HF. destruct (flush_held w) as [w2 f] eqn:EF. cbn [fst] in HF. rewrite HF. unfold flush_held, deliver in EF. rewrite <- Hh' in EF.
    destruct room as [[n k]|].
    + destruct Hf as (Q1 & Q2). rewrite Q2 in *. exists (match v0, f with Err e, _ => Err e | Ok _, Err k => Err (Unwritable k) | Ok _, Ok _ => Ok tt end).
      rewrite Hp. rewrite (firstn_app n), (firstn_all2 (n:=n) (delivered w)) by (unfold bytes, byte in *; lia). split; [reflexivity|].
      rewrite app_length. destruct (len h <=? n - len (delivered w)) eqn:Y; injection EF as <- <-.
      * apply Nat.leb_le in Y. destruct (Nat.ltb_spec n (len (delivered w) + len h)); [unfold bytes, byte in *; lia|]. destruct v0 as [[]|e]; reflexivity.
      * apply Nat.leb_gt in Y. destruct (Nat.ltb_spec n (len (delivered w) + len h)); [|unfold bytes, byte in *; lia]. destruct v0 as [[]|e]; [left; reflexivity|right; split; [reflexivity|discriminate]].
    + rewrite Hf in *. injection EF as <- <-. exists v0. rewrite <- Hp. split; [destruct v0 as [[]|e]; reflexivity|reflexivity].
  - apply spent_plain in A. injection A as ->. apply opened_spent in S1. destruct S1 as (h & Hp1 & Hl & Hc & Hh & Hf). unfold exhausted in X, X0. rewrite X in Hf.
    destruct room as [[n k']|]; [|discriminate]. destruct Hf as (Q1 & Q2). injection Q2 as Q2 <-.
    assert (n = len (delivered w1)) as -> by lia.
    destruct S2 as (_ & _ & _ & y & R1 & _ & R2). rewrite X in R2. destruct R2 as (R2 & R3). assert (y = []) as -> by (destruct y; [reflexivity|cbn [List.length] in R2; lia]).
    rewrite X0 in R3. injection R3 as ->. rewrite app_nil_r in R1. exists (Err (Unwritable k)). destruct (flush_held w) as [w2 f] eqn:EF.
    assert (delivered w2 = delivered w) as ->.
    { unfold flush_held, deliver in EF. rewrite X0 in EF. destruct (len (held w) <=? 0) eqn:Y; injection EF as <- <-; cbn [delivered firstn]; [|apply app_nil_r].
      apply Nat.leb_le in Y. destruct (held w); [apply app_nil_r|cbn [List.length] in Y; lia]. }
    rewrite R1. subst p a1. split.
    + f_equal. rewrite <- app_assoc, firstn_app, firstn_all, Nat.sub_diag, firstn_O, app_nil_r. reflexivity.
    + destruct (Nat.ltb_spec (len (delivered w1)) (len ((delivered w1 ++ h) ++ b1))) as [|Z]; [left; reflexivity|].
      rewrite !app_length in Z. assert (len b1 <> 0) by (destruct b1; [contradiction|discriminate]). unfold bytes, byte in *; lia.
Qed.
Lemma run_room a jsonl l i d v n k : bench_run a jsonl l i None = (d, v) ->
  exists v', bench_run a jsonl l i (Some (n, k)) = (firstn n d, v') /\ if n <? len d then v' = Err (Unwritable k) \/ v' = v /\ v <> Ok tt else v' = v.
Proof.
  intros E. pose proof (plain_run (process a jsonl l i) (proj1 (process_fine a jsonl l i))) as P.
  destruct (run_whole a jsonl l i None _ _ P) as (v1 & E1 & H1). rewrite E in E1. injection E1 as -> ->. subst v1.
  exact (run_whole a jsonl l i (Some (n, k)) _ _ P).
Qed.
Lemma main_room a o p d v n k : bbudget o (boutput a) = Some None -> bench_main a o = (Some d, v) -> bbudget p (boutput a) = Some (Some (n, k)) -> bfile p = bfile o -> bstdin p = bstdin o ->
  exists v', bench_main a p = (Some (firstn n d), v') /\ if n <? len d then v' = Err (Unwritable k) \/ v' = v /\ v <> Ok tt else v' = v.
Proof.
  intros H1 H H2 H3 H4. unfold Bench.bench_main in *. rewrite H3, H4, H2. rewrite H1 in H. destruct (match binput a with Some p => _ | None => _ end) as [i|]; [|discriminate].
  destruct (detect a i) as [[[jsonl line] i']|e]; [|discriminate]. destruct (bench_run a jsonl line _ None) as [d' v'] eqn:E. injection H as -> ->.
  destruct (run_room _ _ _ _ _ _ n k E) as (v1 & E1 & H). rewrite E1. exists v1. auto.
Qed.

(** ** A writer without limit *)
Definition open_text (F : step) (d : bytes) : bytes * result unit trouble -> Prop := fun x => F (mkWriter d None) = (mkWriter (d ++ fst x) None, snd x).
Lemma open_shift F t v d : grows F -> twins F -> F (mkWriter [] None) = (mkWriter t None, v) -> F (mkWriter d None) = (mkWriter (d ++ t) None, v).
Proof.
  intros HG HT E. specialize (HT (mkWriter d None) (mkWriter [] None) (mkWriter d None) (mkWriter [] None) eq_refl). rewrite E in HT.
  destruct (HG (mkWriter d None)) as (q & Hq). destruct (F (mkWriter d None)) as [w v'] eqn:EF. cbn [fst snd] in *. pose proof Hq as Hw. apply spent_plain in Hw.
  destruct HT as [((p & A & B) & ->)|((k & _ & X) & _)].
  - exists []. split; apply spent_refl.
  - apply spent_plain in A. apply spent_plain in B. injection B as ->. rewrite A. reflexivity.
  - subst w. discriminate.
Qed.

(** ** Errors of values *)
Lemma member_about (f : value num -> result (value num) trouble) m : Forall (fun kx => forall e, f (snd kx) = Err e -> about_value e) m -> forall out e, each_member f m out = Err e -> about_value e.
Proof.
  induction 1 as [|[k x] m Hx _ IH]; intros out e; cbn [each_member]; [discriminate|]. destruct (f x) as [y|e'] eqn:E; [apply IH|]. intros X. injection X as <-. exact (Hx _ E).
Qed.
Lemma item_about (f : value num -> result (value num) trouble) l : Forall (fun x => forall e, f x = Err e -> about_value e) l -> forall out e, each_item f l out = Err e -> about_value e.
Proof.
  induction 1 as [|x l Hx _ IH]; intros out e; cbn [each_item]; [discriminate|]. destruct (f x) as [y|e'] eqn:E; [apply IH|]. intros X. injection X as <-. exact (Hx _ eq_refl).
Qed.
Lemma marshall_about x : forall e, marshall_value show_num x = Err e -> about_value e.
Proof.
  induction x as [|b|n|s|l IH|m IH] using value_induction; intros e; try discriminate.
  - change (match each_item (marshall_value show_num) l [] with Err e => Err e | Ok items => Ok (SObject (insert (bs "L") (SArray items) [])) end = Err e -> about_value e).
    destruct (each_item _ l []) as [y|e'] eqn:E; [discriminate|]. intros X. injection X as <-. eapply item_about; eassumption.
  - change (match each_member (marshall_value show_num) m [] with Err e => Err e | Ok items => Ok (SObject (insert (bs "M") (SObject items) [])) end = Err e -> about_value e).
    destruct (each_member _ m []) as [y|e'] eqn:E; [discriminate|]. intros X. injection X as <-. eapply member_about; eassumption.
Qed.
Lemma number_about msg x e : parse_number read_num msg x = Err e -> about_value e.
Proof. destruct x as [|b|n|s|l|m]; cbn [parse_number]; try (intros X; injection X as <-; exact I). destruct (read_num s); [discriminate|]. intros X; injection X as <-; exact I. Qed.
(** What becomes of the content of a type, as a function of its own. *)
Definition unmarshall_one (k : bytes) (t : value num) : result (value num) trouble :=
  if beq k (bs "S") then Ok t
  else if beq k (bs "N") then parse_number read_num "N type must be string" t
  else if beq k (bs "BOOL") then Ok t
  else if beq k (bs "NULL") then Ok SNull
  else if beq k (bs "M") then
    match t with
    | SObject m => match each_member (unmarshall_value read_num) m [] with Err e => Err e | Ok out => Ok (SObject out) end
    | _ => Err (Said "M type must be object")
    end
  else if beq k (bs "L") then
    match t with
    | SArray l => match each_item (unmarshall_value read_num) l [] with Err e => Err e | Ok out => Ok (SArray out) end
    | _ => Err (Said "L type must be array")
    end
  else if beq k (bs "SS") then Ok t
  else if beq k (bs "NS") then
    match t with
    | SArray l => match each_item (parse_number read_num "NS items must be strings") l [] with Err e => Err e | Ok out => Ok (SArray out) end
    | _ => Err (Said "NS type must be array")
    end
  else if beq k (bs "BS") then Ok t
  else if beq k (bs "B") then Ok t
  else Err (UnknownType k).
Lemma unmarshall_single k t : unmarshall_value read_num (SObject [(k, t)]) = unmarshall_one k t.
Proof. reflexivity. Qed.
Fixpoint depth (x : value num) : nat :=
  match x with
  | SArray l => S (fold_right (fun x n => Nat.max (depth x) n) 0 l)
  | SObject m => S (fold_right (fun '(_, x) n => Nat.max (depth x) n) 0 m)
  | _ => 0
  end.
Lemma depth_items l n : depth (SArray l) <= n -> Forall (fun x => depth x < n) l.
Proof.
  cbn [depth]. revert n. induction l as [|x l IH]; intros n H; constructor; cbn [fold_right] in H; [lia|]. apply IH. cbn. lia.
Qed.
Lemma depth_members m n : depth (SObject m) <= n -> Forall (fun kx => depth (snd kx) < n) m.
Proof.
  cbn [depth]. revert n. induction m as [|[k x] m IH]; intros n H; constructor; cbn [fold_right snd] in *; [lia|]. apply IH. cbn. lia.
Qed.
Lemma unmarshall_about : forall n x, depth x <= n -> forall e, unmarshall_value read_num x = Err e -> about_value e.
Proof.
  induction n as [n IHn] using lt_wf_ind. intros x Hd e.
  destruct x as [|b|m|s|l|[|[k t] [|kx m]]]; try (intros X; injection X as <-; exact I).
  rewrite unmarshall_single. cbn [depth fold_right] in Hd. unfold unmarshall_one.
  assert (HL : forall l out e, t = SArray l -> each_item (unmarshall_value read_num) l out = Err e -> about_value e).
  { intros l out e' ->. apply item_about. pose proof (depth_items l _ (le_n _)) as H. eapply Forall_impl; [|exact H]. cbn beta. intros x Hx e0. apply (IHn (depth x)); cbn [depth] in *; lia. }
  assert (HM : forall m out e, t = SObject m -> each_member (unmarshall_value read_num) m out = Err e -> about_value e).
  { intros m out e' ->. apply member_about. pose proof (depth_members m _ (le_n _)) as H. eapply Forall_impl; [|exact H]. cbn beta. intros x Hx e0. apply (IHn (depth (snd x))); cbn [depth] in *; lia. }
  repeat match goal with |- (if ?b then _ else _) = _ -> _ => destruct b end; try discriminate; try (intros X; injection X as <-; exact I); try apply number_about.
  - destruct t as [|b|z|s|l|m]; try (intros X; injection X as <-; exact I). destruct (each_member _ m []) as [y|e'] eqn:E; [discriminate|]. intros X. injection X as <-. eapply HM; [reflexivity|exact E].
  - destruct t as [|b|z|s|l|m]; try (intros X; injection X as <-; exact I). destruct (each_item _ l []) as [y|e'] eqn:E; [discriminate|]. intros X. injection X as <-. eapply HL; [reflexivity|exact E].
  - destruct t as [|b|z|s|l|m]; try (intros X; injection X as <-; exact I). destruct (each_item _ l []) as [y|e'] eqn:E; [discriminate|]. intros X. injection X as <-.
    eapply item_about; [|exact E]. apply Forall_forall. intros x _ e0. apply number_about.
Qed.
Lemma convert_about a x e : convert_value a x = Err e -> about_value e.
Proof.
  unfold Bench.convert_value, from_dynamodb, to_dynamodb. destruct (bmode a), x as [|b|n|s|l|m]; try (intros X; injection X as <-; exact I).
  all: assert (HM : forall m out e, each_member (unmarshall_value read_num) m out = Err e -> about_value e)
    by (intros m0 out e0; apply member_about; apply Forall_forall; intros kx _ e1; apply (unmarshall_about (depth (snd kx))); lia).
  all: assert (HN : forall m out e, each_member (marshall_value show_num) m out = Err e -> about_value e)
    by (intros m0 out e0; apply member_about; apply Forall_forall; intros kx _ e1; apply marshall_about).
  2: destruct (each_member _ m []) as [y|e'] eqn:E; [discriminate|]; intros X; injection X as <-; eapply HN; exact E.
  destruct (match m with [] => Ok m | _ => _ end) as [m'|e'] eqn:E.
  - destruct (each_member _ m' []) as [y|e'] eqn:E'; [discriminate|]. intros X. injection X as <-. eapply HM; exact E'.
  - intros X. injection X as <-. destruct m as [|[k t] [|kx m]]; try discriminate. destruct (beq k (bs "Item")); [|discriminate].
    destruct t; try (injection E as <-; exact I). discriminate.
Qed.

(** ** Lines *)
Definition no_number (e : trouble) : Prop := forall n, e <> InvalidLine n.
Lemma handle_further a n m t w : handle a (InvalidLine (m + n)) t w = let '(w', v) := handle a (InvalidLine n) t w in (w', further m v).
Proof.
  unfold Bench.handle. destruct (from_str t) as [x|]; [|reflexivity]. destruct (convert_value a x) as [y|e] eqn:E.
  - unfold writeln. destruct (write_all w (print a y)) as [w1 [u|k]]; [|reflexivity]. destruct (write_all w1 [10%N]) as [w2 [u'|k]]; reflexivity.
  - pose proof (convert_about a x e E) as H. destruct e; try reflexivity. destruct H.
Qed.
Lemma loop_further a m : forall l n w, Forall (fun x => forall e, x = Err e -> no_number e) l ->
  line_loop a (m + n) l w = let '(w', v) := line_loop a n l w in (w', further m v).
Proof.
  induction l as [|[line|e] l IH]; intros n w H; cbn [Bench.line_loop]; [reflexivity| |].
  - inversion H as [|? ? _ H']; subst. replace (S (m + n)) with (m + S n) by lia. destruct (trim line) as [|x t]; [apply IH; exact H'|].
    rewrite handle_further. destruct (handle a (InvalidLine n) (x :: t) w) as [w1 [u|e]]; cbn [further].
    + apply IH. exact H'.
    + destruct e; reflexivity.
  - inversion H as [|? ? He _]; subst. specialize (He e eq_refl). destruct e; cbn [further]; try reflexivity. destruct (He n0 eq_refl).
Qed.
Lemma loop_app a l2 : forall l1 n w, line_loop a n (l1 ++ l2) w = match line_loop a n l1 w with (w, Err e) => (w, Err e) | (w, Ok _) => line_loop a (List.length l1 + n) l2 w end.
Proof.
  induction l1 as [|[line|e] l1 IH]; intros n w; cbn [Bench.line_loop app List.length plus]; [reflexivity| |reflexivity].
  replace (S (List.length l1 + n)) with (List.length l1 + S n) by lia.
  destruct (trim line) as [|x t]; [apply IH|]. destruct (handle a (InvalidLine n) (x :: t) w) as [w1 [u|e]]; [apply IH|reflexivity].
Qed.
Lemma pieces_whole l2 : forall l, pieces ((l ++ [10%N]) ++ l2) = pieces (l ++ [10%N]) ++ pieces l2 /\ pieces (l ++ [10%N]) <> [].
Proof.
  induction l as [|x l (IH & IH')]; cbn [app pieces]; [split; [reflexivity|discriminate]|]. rewrite IH. destruct (N.eqb x 10); [split; [reflexivity|discriminate]|].
  destruct (pieces (l ++ [10%N])) as [|p ps]; [contradiction|]. split; [reflexivity|discriminate].
Qed.
Lemma pieces_app l1 l2 : whole_lines l1 -> pieces (l1 ++ l2) = pieces l1 ++ pieces l2.
Proof. intros [->|(l & ->)]; [reflexivity|]. apply pieces_whole. Qed.
Lemma pieces_count : forall l, List.length (pieces (l ++ [10%N])) = line_feeds (l ++ [10%N]).
Proof.
  unfold line_feeds. induction l as [|x l IH]; [reflexivity|]. cbn [app pieces filter]. destruct (N.eqb x 10); [cbn [List.length]; rewrite IH; reflexivity|].
  pose proof (proj2 (pieces_whole [] l)) as H. destruct (pieces (l ++ [10%N])) as [|p ps]; [contradiction|]. exact IH.
Qed.
Lemma last_cons (x : byte) p d : p <> [] -> last (x :: p) d = last p d.
Proof. destruct p; [contradiction|reflexivity]. Qed.
Lemma pieces_full : forall l, Forall (fun p => p <> []) (pieces l).
Proof.
  induction l as [|x l IH]; cbn [pieces]; [constructor|]. destruct (N.eqb x 10); [constructor; [discriminate|exact IH]|].
  destruct (pieces l) as [|p ps]; constructor; try discriminate; [constructor|]. inversion IH; assumption.
Qed.
Lemma pieces_ended : forall l, filter Bench.ended (pieces (l ++ [10%N])) = pieces (l ++ [10%N]).
Proof.
  induction l as [|x l IH]; [reflexivity|]. cbn [app pieces]. destruct (N.eqb x 10) eqn:E; [cbn [filter]; unfold Bench.ended at 1; cbn [last]; rewrite E, IH; reflexivity|].
  pose proof (proj2 (pieces_whole [] l)) as H. pose proof (pieces_full (l ++ [10%N])) as F. destruct (pieces (l ++ [10%N])) as [|p ps]; [contradiction|]. cbn [filter] in *. inversion F; subst.
  unfold Bench.ended at 1. rewrite last_cons by assumption. unfold Bench.ended at 1 in IH. destruct (N.eqb (last p 0%N) 10); [injection IH as IH; rewrite IH; reflexivity|].
  exfalso. assert (List.length (filter Bench.ended ps) <= List.length ps) as Q by (clear; induction ps as [|y ps IH]; cbn [filter]; [lia|]; destruct (Bench.ended y); cbn [List.length]; lia).
  rewrite IH in Q. cbn [List.length] in Q. lia.
Qed.
Lemma lines_app l1 l2 b : whole_lines l1 -> lines_of (mkInput (l1 ++ l2) b) = lines_of (mkInput l1 None) ++ lines_of (mkInput l2 b) /\ List.length (lines_of (mkInput l1 None)) = line_feeds l1.
Proof.
  intros H. unfold lines_of. cbn [broken coming]. rewrite (pieces_app l1 l2 H), map_length. destruct H as [->|(l & ->)]; [split; [destruct b|]; reflexivity|]. split; [|apply pieces_count].
  destruct b as [k|]; [|apply map_app]. rewrite filter_app, pieces_ended, map_app, <- app_assoc. reflexivity.
Qed.
Lemma lines_numbers i : Forall (fun x => forall e, x = Err e -> no_number e) (lines_of i).
Proof.
  assert (HT : forall ps, Forall (fun x => forall e, x = Err e -> no_number e) (map as_text ps)).
  { intros ps. apply Forall_forall. intros x Hx e ->. apply in_map_iff in Hx. destruct Hx as (p & Hp & _). unfold as_text in Hp. destruct (utf8_invalid 0 p); [injection Hp as <-|discriminate]. intros m. discriminate. }
  unfold lines_of. destruct (broken i); [|apply HT]. apply Forall_app. split; [apply HT|]. constructor; [|constructor]. intros e X. injection X as <-. intros n. discriminate.
Qed.

(** ** Whole runs *)
Lemma main_alone a i : bench_main a (alone i) =
  match detect a i with
  | Err e => (None, Err e)
  | Ok (jsonl, line, i) => let '(d, v) := bench_run a jsonl line (if bsame_file a then in_memory line i else i) None in (Some d, v)
  end.
Proof. unfold Bench.bench_main. cbn [alone bfile bstdin bbudget]. destruct (binput a); reflexivity. Qed.
Lemma run_open a jsonl l i t v : process a jsonl l i (mkWriter [] None) = (mkWriter t None, v) -> bench_run a jsonl l i None = (t, v).
Proof. intros E. destruct (run_whole a jsonl l i None t v E) as (v' & -> & ->). reflexivity. Qed.
Lemma run_opened a jsonl l i t v : bench_run a jsonl l i None = (t, v) -> process a jsonl l i (mkWriter [] None) = (mkWriter t None, v).
Proof.
  intros H. rewrite (plain_run (process a jsonl l i) (proj1 (process_fine a jsonl l i))) in *.
  pose proof (run_open a jsonl l i _ _ (plain_run (process a jsonl l i) (proj1 (process_fine a jsonl l i)))) as E. rewrite H in E. injection E as <- <-. reflexivity.
Qed.
Lemma named_loop a i : as_jsonl a = true -> bsame_file a = false ->
  exists t v, line_loop a 2 (lines_of i) (mkWriter [] None) = (mkWriter t None, v) /\ bench_main a (alone i) = (Some t, v).
Proof.
  intros H1 H2. pose proof (plain_run (line_loop a 2 (lines_of i)) (proj1 (loop_fine a (lines_of i) 2))) as E. eexists _, _. split; [exact E|].
  rewrite main_alone. unfold Bench.detect. fold (as_jsonl a). rewrite H1, H2. rewrite (run_open a true [] i _ _ E). reflexivity.
Qed.
Lemma named_join a l1 l2 b d1 v1 d2 v2 : as_jsonl a = true -> bsame_file a = false -> whole_lines l1 ->
  bench_main a (alone (mkInput l1 None)) = (Some d1, v1) -> bench_main a (alone (mkInput l2 b)) = (Some d2, v2) ->
  bench_main a (alone (mkInput (l1 ++ l2) b)) = match v1 with Ok _ => (Some (d1 ++ d2), further (line_feeds l1) v2) | Err e => (Some d1, Err e) end.
Proof.
  intros H1 H2 H E1 E2. destruct (named_loop a (mkInput l1 None) H1 H2) as (t1 & u1 & L1 & M1). destruct (named_loop a (mkInput l2 b) H1 H2) as (t2 & u2 & L2 & M2).
  destruct (named_loop a (mkInput (l1 ++ l2) b) H1 H2) as (t & u & L & M). rewrite M1 in E1. injection E1 as -> ->. rewrite M2 in E2. injection E2 as -> ->. rewrite M.
  destruct (lines_app l1 l2 b H) as (A & B). rewrite A, loop_app, L1, B in L. destruct v1 as [x|e]; [|injection L as -> ->; reflexivity].
  rewrite (loop_further a (line_feeds l1) _ 2 _ (lines_numbers _)) in L. destruct (loop_fine a (lines_of (mkInput l2 b)) 2) as (G & T).
  rewrite (open_shift _ d2 v2 d1 G T L2) in L. injection L as -> ->. reflexivity.
Qed.
(** The first line of an input. *)
Lemma take_one line rest : one_line line rest -> take_line (line ++ rest) = (line, rest) /\ pieces (line ++ rest) = line :: pieces rest.
Proof.
  intros (A & B & C). induction line as [|x line IH]; [contradiction|]. cbn [app take_line pieces]. destruct (N.eqb x 10) eqn:E.
  - destruct line as [|y line]; [split; reflexivity|]. exfalso. apply B. cbn [removelast]. left. apply N.eqb_eq in E. exact E.
  - destruct line as [|y line].
    + destruct C as [C|C]; [cbn [last] in C; subst x; discriminate|]. subst rest. split; reflexivity.
    + destruct IH as (IH1 & IH2); [discriminate|intros Hi; apply B; cbn [removelast] in *; right; exact Hi|exact C|]. rewrite IH1, IH2. split; reflexivity.
Qed.
Lemma some_line : forall l, l <> [] -> exists line rest, l = line ++ rest /\ one_line line rest.
Proof.
  induction l as [|x l IH]; intros H; [contradiction|]. clear H. destruct (N.eqb x 10) eqn:E.
  - apply N.eqb_eq in E. exists [x], l. split; [reflexivity|]. split; [discriminate|]. split; [intros []|left; exact E].
  - destruct l as [|y l].
    + exists [x], []. split; [reflexivity|]. split; [discriminate|]. split; [intros []|right; reflexivity].
    + destruct (IH ltac:(discriminate)) as (line & rest & E' & A & B & C). exists (x :: line), rest. rewrite E'. split; [reflexivity|]. split; [discriminate|].
      destruct line as [|z line]; [contradiction|]. split; [|exact C]. change (removelast (x :: z :: line)) with (x :: removelast (z :: line)). intros [->|Hi]; [discriminate|exact (B Hi)].
Qed.
Lemma one_line_ended line rest : one_line line rest -> Bench.ended line = true \/ rest = [] /\ Bench.ended line = false.
Proof. intros (A & B & [C|C]); unfold Bench.ended; [left; rewrite C; reflexivity|]. destruct (N.eqb (last line 0%N) 10) eqn:E; auto. Qed.
(** What becomes of a line, as [line_output] in BenchSpec.v. *)
Definition line_out (a : bargs) (line out : bytes) : Prop :=
  utf8_invalid 0 line = None /\
  (trim line = [] /\ out = [] \/ trim line <> [] /\ exists x y, from_str (trim line) = Some x /\ convert_value a x = Ok y /\ out = print a y ++ [10%N]).
Lemma handle_done a e t d w : handle a e t (mkWriter d None) = (w, Ok tt) <->
  exists x y, from_str t = Some x /\ convert_value a x = Ok y /\ w = mkWriter (d ++ print a y ++ [10%N]) None.
Proof.
  unfold Bench.handle. destruct (from_str t) as [x|]; [|split; [discriminate|intros (x & y & X & _); discriminate]].
  destruct (convert_value a x) as [y|e'] eqn:E; [|split; [discriminate|intros (x' & y & X & Y & _); injection X as <-; congruence]].
  unfold writeln. destruct (write_open (mkWriter d None) (print a y) eq_refl) as (w1 & E1 & S1). rewrite E1. apply spent_plain in S1. subst w1.
  destruct (write_open (mkWriter (d ++ print a y) None) [10%N] eq_refl) as (w2 & E2 & S2). rewrite E2. apply spent_plain in S2. subst w2. rewrite <- app_assoc.
  split; [intros X; injection X as <-; eauto|]. intros (x' & y' & X & Y & ->). injection X as <-. rewrite E in Y. injection Y as <-. reflexivity.
Qed.
Lemma loop_done a : forall ps n d text, line_loop a n (map as_text ps) (mkWriter d None) = (mkWriter (d ++ text) None, Ok tt) <->
  exists outs, Forall2 (line_out a) ps outs /\ text = List.concat outs.
Proof.
  induction ps as [|p ps IH]; intros n d text; cbn [map Bench.line_loop].
  - split; [intros X; exists []; split; [constructor|]; injection X as X; symmetry in X; apply (app_inv_head d); rewrite app_nil_r; exact X|].
    intros (outs & H & ->). inversion H; subst. cbn [List.concat]. rewrite app_nil_r. reflexivity.
  - unfold as_text at 1. destruct (utf8_invalid 0 p) as [z|] eqn:U.
    { split; [discriminate|]. intros (outs & H & _). inversion H as [|? ? ? ? (X & _)]; subst. congruence. }
    destruct (trim p) as [|x t] eqn:T.
    + rewrite IH. split; intros (outs & H & ->).
      * exists ([] :: outs). split; [constructor; [|exact H]|reflexivity]. split; [exact U|]. left. auto.
      * inversion H as [|? o ? os (X & [(_ & ->)|(Y & _)]) H']; subst; [exists os; auto|congruence].
    + destruct (handle a (InvalidLine n) (x :: t) (mkWriter d None)) as [w [[]|e]] eqn:E.
      * apply handle_done in E. destruct E as (v & y & A & B & ->). split.
        -- intros X. assert (exists t2, text = (print a y ++ [10%N]) ++ t2) as (t2 & ->).
           { destruct (loop_fine a (map as_text ps) (S n)) as (G & _). destruct (G (mkWriter (d ++ print a y ++ [10%N]) None)) as (q & Hq). rewrite X in Hq. cbn [fst] in Hq. apply spent_plain in Hq. injection Hq as Hq.
             exists q. apply (app_inv_head d). rewrite Hq, <- !app_assoc. reflexivity. }
           rewrite (app_assoc d (print a y ++ [10%N]) t2) in X. apply IH in X. destruct X as (outs & H & ->). exists ((print a y ++ [10%N]) :: outs). split; [constructor; [|exact H]|reflexivity].
           split; [exact U|]. right. rewrite T. split; [discriminate|]. exists v, y. auto.
        -- intros (outs & H & ->). inversion H as [|? o ? os (X & [(Y & _)|(_ & v' & y' & A' & B' & ->)]) H']; subst; [congruence|]. rewrite T in A'. rewrite A in A'. injection A' as <-. rewrite B in B'. injection B' as <-.
           cbn [List.concat]. rewrite (app_assoc d (print a y ++ [10%N]) (List.concat os)). apply IH. eauto.
      * split; [discriminate|]. intros (outs & H & ->). inversion H as [|? o ? os (X & [(Y & _)|(_ & v' & y' & A' & B' & ->)]) H']; subst; [congruence|]. rewrite T in A'.
        assert (handle a (InvalidLine n) (x :: t) (mkWriter d None) = (mkWriter (d ++ print a y' ++ [10%N]) None, Ok tt)) as Z by (apply handle_done; eauto). rewrite E in Z. discriminate.
Qed.
Lemma by_pieces f : forall l text, line_by_line f l text <-> exists outs, Forall2 f (pieces l) outs /\ text = List.concat outs.
Proof.
  intros l text. split.
  - induction 1 as [|line rest out text H Hf _ (outs & IH & ->)]; [exists []; split; [constructor|reflexivity]|]. rewrite (proj2 (take_one line rest H)). exists (out :: outs). split; [constructor; assumption|reflexivity].
  - remember (len l) as n eqn:Hn. assert (len l <= n) as Hl by lia. clear Hn. revert l text Hl. induction n as [|n IH]; intros l text Hl (outs & H & ->).
    + destruct l; [|cbn [List.length] in Hl; lia]. inversion H; subst. constructor.
    + destruct l as [|x l]; [inversion H; subst; constructor|]. destruct (some_line (x :: l) ltac:(discriminate)) as (line & rest & E & Ho). rewrite E in *. rewrite (proj2 (take_one line rest Ho)) in H.
      inversion H as [|? o ? os Hf H']; subst. cbn [List.concat]. constructor; [exact Ho|exact Hf|]. apply IH; [|eauto]. rewrite app_length in Hl. destruct Ho as (Ho & _). destruct line; [contradiction|cbn [List.length] in Hl; unfold bytes, byte in *; lia].
Qed.
Lemma named_lines a l text : as_jsonl a = true -> bsame_file a = false ->
  (bench_main a (alone (mkInput l None)) = (Some text, Ok tt) <-> line_by_line (line_output a) l text).
Proof.
  intros H1 H2. change (line_output a) with (line_out a). destruct (named_loop a (mkInput l None) H1 H2) as (t & v & L & ->). rewrite by_pieces. rewrite <- (loop_done a (pieces l) 2 [] text). cbn [app].
  unfold lines_of in L. cbn [broken coming] in L. rewrite L. split; intros X; injection X as -> ->; reflexivity.
Qed.
(** The same without the name. *)
Lemma detect_first a line rest b : as_jsonl a = false -> one_line line rest -> utf8_invalid 0 line = None -> (b = None \/ last line 0%N = 10%N) ->
  detect a (mkInput (line ++ rest) b) = Ok (match trim line with [] => false | t => match from_str t with Some _ => true | None => false end end, line, mkInput rest b).
Proof.
  intros H1 H U Hb. unfold Bench.detect. fold (as_jsonl a). rewrite H1. unfold read_line. cbn [coming broken]. rewrite (proj1 (take_one line rest H)).
  assert ((if Bench.ended line then None else b) = None) as ->. { unfold Bench.ended. destruct Hb as [-> | ->]; [destruct (N.eqb _ _); reflexivity|reflexivity]. }
  unfold as_text. rewrite U. destruct (trim line); reflexivity.
Qed.
Lemma handle_alike a a' : bmode a' = bmode a -> bpretty a' = bpretty a -> bwithout_item a' = bwithout_item a -> forall e t w, handle a' e t w = handle a e t w.
Proof.
  intros E1 E2 E3 e t w. unfold Bench.handle. destruct (from_str t) as [z|]; [|reflexivity]. unfold Bench.convert_value, Bench.print. rewrite E1, E2, E3. reflexivity.
Qed.
Lemma loop_alike a a' : bmode a' = bmode a -> bpretty a' = bpretty a -> bwithout_item a' = bwithout_item a -> forall l n w, line_loop a' n l w = line_loop a n l w.
Proof.
  intros E1 E2 E3. induction l as [|[p|e] l IH]; intros n w; cbn [Bench.line_loop]; [reflexivity| |reflexivity]. destruct (trim p); [apply IH|]. rewrite (handle_alike a a' E1 E2 E3).
  destruct (handle a _ _ w) as [w1 [u|e]]; [apply IH|reflexivity].
Qed.
Lemma run_alike a a' : bmode a' = bmode a -> bpretty a' = bpretty a -> bwithout_item a' = bwithout_item a -> forall jsonl l i room, bench_run a' jsonl l i room = bench_run a jsonl l i room.
Proof.
  intros E1 E2 E3 jsonl l i room. unfold Bench.bench_run. fold (process a' jsonl l i (mkBuffered [] [] default_capacity room)). fold (process a jsonl l i (mkBuffered [] [] default_capacity room)).
  assert (process a' jsonl l i (mkBuffered [] [] default_capacity room) = process a jsonl l i (mkBuffered [] [] default_capacity room)) as ->; [|reflexivity].
  unfold process. destruct jsonl.
  - rewrite !jsonl_steps. unfold follows, first_step. destruct (trim l); [apply (loop_alike a a' E1 E2 E3)|]. rewrite (handle_alike a a' E1 E2 E3). destruct (handle a _ _ _) as [w [u|e]]; [apply (loop_alike a a' E1 E2 E3)|reflexivity].
  - unfold Bench.process_json. destruct (read_to_string i); [apply (handle_alike a a' E1 E2 E3)|reflexivity].
Qed.
Lemma detected a a' line rest b x d v : as_jsonl a = false -> bsame_file a = false -> as_jsonl a' = true -> bsame_file a' = false ->
  bmode a' = bmode a -> bpretty a' = bpretty a -> bwithout_item a' = bwithout_item a ->
  one_line line rest -> utf8_invalid 0 line = None -> (b = None \/ last line 0%N = 10%N) -> trim line <> [] -> from_str (trim line) = Some x ->
  bench_main a (alone (mkInput (line ++ rest) b)) = (Some d, v) -> bench_main a' (alone (mkInput (line ++ rest) b)) = (Some d, further 1 v).
Proof.
  intros H1 H2 H3 H4 E1 E2 E3 H U Hb T F M.
  pose proof (loop_alike a a' E1 E2 E3) as EL.
  rewrite main_alone, (detect_first a line rest b H1 H U Hb), H2 in M. destruct (trim line) as [|y t] eqn:ET; [contradiction|]. rewrite F in M.
  destruct (bench_run a true line (mkInput rest b) None) as [d' v'] eqn:ER. injection M as -> ->. apply run_opened in ER. cbn [process] in ER. rewrite jsonl_steps in ER. unfold follows, first_step in ER. rewrite ET in ER.
  destruct (named_loop a' (mkInput (line ++ rest) b) H3 H4) as (t' & u & L & ->). rewrite EL in L.
  assert (lines_of (mkInput (line ++ rest) b) = Ok line :: lines_of (mkInput rest b)) as EQ.
  { unfold lines_of. cbn [broken coming]. rewrite (proj2 (take_one line rest H)). destruct b as [k|]; cbn [filter map].
    - assert (Bench.ended line = true) as -> by (destruct Hb as [X|X]; [discriminate|unfold Bench.ended; rewrite X; reflexivity]). cbn [map app]. unfold as_text at 1. rewrite U. reflexivity.
    - unfold as_text at 1. rewrite U. reflexivity. }
  rewrite EQ in L. cbn [Bench.line_loop] in L. rewrite ET in L. change (InvalidLine 2) with (InvalidLine (1 + 1)) in L. rewrite (handle_further a 1 1) in L.
  destruct (handle a (InvalidLine 1) (y :: t) (mkWriter [] None)) as [w1 [z|e]]; cbn [further] in L.
  - change 3 with (1 + 2) in L. rewrite (loop_further a 1 _ 2 _ (lines_numbers _)), ER in L. injection L as <- <-. reflexivity.
  - injection ER as -> <-. destruct e; injection L as <- <-; reflexivity.
Qed.
(** A document whose first line is not a document. *)
Lemma document a line rest : as_jsonl a = false -> bsame_file a = false -> one_line line rest -> utf8_invalid 0 line = None -> utf8_invalid 0 rest = None ->
  (trim line = [] \/ from_str (trim line) = None) ->
  bench_main a (alone (mkInput (line ++ rest) None)) =
    match from_str (line ++ rest) with
    | None => (Some [], Err InvalidJson)
    | Some x => match convert_value a x with Ok y => (Some (print a y ++ [10%N]), Ok tt) | Err e => (Some [], Err e) end
    end.
Proof.
  intros H1 H2 H U1 U2 T. rewrite main_alone, (detect_first a line rest None H1 H U1 (or_introl eq_refl)), H2.
  assert (match trim line with [] => false | t => match from_str t with Some _ => true | None => false end end = false) as ->.
  { destruct (trim line); [reflexivity|]. destruct T as [T|T]; [discriminate|]. rewrite T. reflexivity. }
  assert (exists t v, process a false line (mkInput rest None) (mkWriter [] None) = (mkWriter t None, v) /\
    (Some t, v) = match from_str (line ++ rest) with
    | None => (Some [], Err InvalidJson)
    | Some x => match convert_value a x with Ok y => (Some (print a y ++ [10%N]), Ok tt) | Err e => (Some [], Err e) end
    end) as (t & v & E & <-).
  { cbn [process]. unfold Bench.process_json, read_to_string. cbn [broken coming]. unfold as_text. rewrite U2.
    destruct (from_str (line ++ rest)) as [x|] eqn:F; [|unfold Bench.handle; rewrite F; eexists _, _; split; reflexivity].
    destruct (convert_value a x) as [y|e] eqn:C; [|unfold Bench.handle; rewrite F, C; eexists _, _; split; reflexivity].
    eexists (print a y ++ [10%N]), (Ok tt). split; [|reflexivity]. apply handle_done. exists x, y. auto. }
  rewrite (run_open _ _ _ _ _ _ E). reflexivity.
Qed.

(** ** The number of the line in an error *)
Lemma line_feeds_app a b : line_feeds (a ++ b) = line_feeds a + line_feeds b.
Proof. unfold line_feeds. rewrite filter_app, app_length. reflexivity. Qed.
Lemma one_feed line rest : one_line line rest -> last line 0%N = 10%N -> line_feeds line = 1 /\ whole_lines line.
Proof.
  intros (A & B & _) C. destruct (exists_last A) as (l & x & ->). rewrite last_last in C. subst x. rewrite removelast_last in B. split; [|right; eauto].
  rewrite line_feeds_app. unfold line_feeds. replace (filter (fun x => N.eqb x 10) l) with (@nil byte); [reflexivity|].
  induction l as [|y l IH]; [reflexivity|]. cbn [filter]. destruct (N.eqb y 10) eqn:E; [apply N.eqb_eq in E; destruct B; left; exact E|]. apply IH; [discriminate || (destruct l; discriminate)|]. intros Hi. apply B. right. exact Hi.
Qed.
Lemma whole_app a b : whole_lines a -> whole_lines b -> whole_lines (a ++ b).
Proof. intros Ha [->|(l & ->)]; [rewrite app_nil_r; exact Ha|]. right. exists (a ++ l). apply app_assoc. Qed.
Lemma nth_piece : forall i l p, nth_error (pieces l) i = Some p ->
  exists before rest, l = before ++ p ++ rest /\ whole_lines before /\ line_feeds before = i /\ one_line p rest.
Proof.
  induction i as [|i IH]; intros l p H; (destruct l as [|x l]; [discriminate|]); destruct (some_line (x :: l) ltac:(discriminate)) as (line & rest & E & Ho); rewrite E in *; rewrite (proj2 (take_one line rest Ho)) in H; cbn [nth_error] in H.
  - injection H as <-. exists [], rest. split; [reflexivity|]. split; [left; reflexivity|]. split; [reflexivity|exact Ho].
  - destruct (IH rest p H) as (before & rest' & -> & A & B & C). destruct (one_line_ended _ _ Ho) as [D|(D & _)].
    + unfold Bench.ended in D. apply N.eqb_eq in D. destruct (one_feed _ _ Ho D) as (F & G). exists (line ++ before), rest'. rewrite <- app_assoc. split; [reflexivity|]. split; [apply whole_app; assumption|].
      rewrite line_feeds_app, F, B. split; [reflexivity|exact C].
    + rewrite D in H. destruct i; discriminate.
Qed.
Lemma nth_ended : forall i l p, nth_error (filter Bench.ended (pieces l)) i = Some p -> nth_error (pieces l) i = Some p.
Proof.
  induction i as [|i IH]; intros l p H; (destruct l as [|x l]; [discriminate|]); destruct (some_line (x :: l) ltac:(discriminate)) as (line & rest & E & Ho); rewrite E in *; rewrite (proj2 (take_one line rest Ho)) in *;
    cbn [filter] in H; (destruct (one_line_ended _ _ Ho) as [D|(-> & D)]; rewrite D in H; cbn [nth_error pieces filter] in *; [|discriminate]); [exact H|apply IH; exact H].
Qed.
Lemma handle_number a n t w w' k : handle a (InvalidLine n) t w = (w', Err (InvalidLine k)) -> k = n /\ from_str t = None.
Proof.
  unfold Bench.handle. destruct (from_str t) as [x|]; [|intros X; injection X as _ <-; auto]. destruct (convert_value a x) as [y|e] eqn:E.
  - unfold writeln. destruct (write_all w (print a y)) as [w1 [u|e]]; [|discriminate]. destruct (write_all w1 [10%N]) as [w2 [u'|e]]; discriminate.
  - intros X. injection X as _ ->. destruct (convert_about a x _ E).
Qed.
Lemma loop_number a : forall l n w w' k, Forall (fun x => forall e, x = Err e -> no_number e) l -> line_loop a n l w = (w', Err (InvalidLine k)) ->
  exists i p, nth_error l i = Some (Ok p) /\ k = n + i /\ trim p <> [] /\ from_str (trim p) = None.
Proof.
  induction l as [|[p|e] l IH]; intros n w w' k HF; cbn [Bench.line_loop]; [discriminate| |].
  - inversion HF as [|? ? _ HF']; subst. assert (HR : forall w, line_loop a (S n) l w = (w', Err (InvalidLine k)) -> exists i q, nth_error (Ok p :: l) i = Some (Ok q) /\ k = n + i /\ trim q <> [] /\ from_str (trim q) = None).
    { intros w1 H. destruct (IH _ _ _ _ HF' H) as (i & q & A & -> & B). exists (S i), q. split; [exact A|]. split; [lia|exact B]. }
    destruct (trim p) as [|x t] eqn:T; [apply HR|]. destruct (handle a (InvalidLine n) (x :: t) w) as [w1 [u|e]] eqn:E; [apply HR|].
    intros X. injection X as -> ->. apply handle_number in E. destruct E as (-> & E). exists 0, p. split; [reflexivity|]. split; [lia|]. rewrite T. split; [discriminate|exact E].
  - inversion HF as [|? ? He _]; subst. intros X. injection X as _ ->. destruct (He _ eq_refl k eq_refl).
Qed.
Lemma nth_line i j p : nth_error (lines_of i) j = Some (Ok p) -> nth_error (pieces (coming i)) j = Some p.
Proof.
  assert (HT : forall ps j, nth_error (map as_text ps) j = Some (Ok p) -> nth_error ps j = Some p).
  { intros ps m H. rewrite nth_error_map in H. destruct (nth_error ps m) as [q|]; [|discriminate]. cbn [option_map] in H. unfold as_text in H. destruct (utf8_invalid 0 q); [discriminate|]. injection H as ->. reflexivity. }
  unfold lines_of. destruct (broken i) as [k|]; [|apply HT]. intros H. destruct (Nat.lt_ge_cases j (List.length (map as_text (filter Bench.ended (pieces (coming i)))))) as [L|L].
  - rewrite nth_error_app1 in H by exact L. apply nth_ended, HT, H.
  - rewrite nth_error_app2 in H by exact L. destruct (j - _) as [|m]; [discriminate|]. destruct m; discriminate.
Qed.
Lemma wrong_line a i d k : bsame_file a = false -> bench_main a (alone i) = (d, Err (InvalidLine k)) ->
  exists before line rest, coming i = before ++ line ++ rest /\ whole_lines before /\ one_line line rest /\ trim line <> [] /\ from_str (trim line) = None /\ k = (if as_jsonl a then 2 else 1) + line_feeds before.
Proof.
  intros H2 M. destruct (as_jsonl a) eqn:H1.
  - destruct (named_loop a i H1 H2) as (t & v & L & E). rewrite E in M. injection M as <- ->. apply loop_number in L; [|apply lines_numbers]. destruct L as (j & p & A & -> & B).
    apply nth_line, nth_piece in A. destruct A as (before & rest & -> & C & <- & D). exists before, p, rest. split; [reflexivity|]. split; [exact C|]. split; [exact D|]. split; [apply B|]. split; [apply B|reflexivity].
  - rewrite main_alone, H2 in M. destruct (detect a i) as [[[jsonl line] i']|e] eqn:ED.
    2:{ injection M as _ ->. unfold Bench.detect in ED. fold (as_jsonl a) in ED. rewrite H1 in ED. unfold read_line in ED. destruct (take_line (coming i)) as [ln os].
        destruct (if Bench.ended ln then None else broken i); [discriminate|]. unfold as_text in ED. destruct (utf8_invalid 0 ln); [discriminate|]. destruct (trim ln); discriminate. }
    destruct (bench_run a jsonl line i' None) as [d' v'] eqn:ER. injection M as <- ->. apply run_opened in ER.
    unfold Bench.detect in ED. fold (as_jsonl a) in ED. rewrite H1 in ED. unfold read_line in ED. destruct (take_line (coming i)) as [ln os] eqn:TL.
    destruct (if Bench.ended ln then None else broken i) eqn:EE; [discriminate|]. unfold as_text in ED. destruct (utf8_invalid 0 ln) eqn:U; [discriminate|].
    destruct jsonl; cbn [process] in ER.
    2:{ unfold Bench.process_json in ER. destruct (read_to_string i') as [o|e] eqn:EO; [|unfold read_to_string in EO; destruct (broken i'); [injection EO as <-; discriminate|]; unfold as_text in EO; destruct (utf8_invalid 0 (coming i')); [injection EO as <-; discriminate|discriminate]].
        unfold Bench.handle in ER. destruct (from_str (line ++ o)) as [x|]; [|discriminate]. destruct (convert_value a x) as [y|e] eqn:E; [|injection ER as _ ->; destruct (convert_about a x _ E)].
        unfold writeln in ER. destruct (write_all _ (print a y)) as [w1 [u|e]]; [|discriminate]. destruct (write_all w1 [10%N]) as [w2 [u'|e]]; discriminate. }
    destruct (trim ln) as [|y t] eqn:T; [discriminate|]. destruct (from_str (y :: t)) as [x|] eqn:F; [|discriminate]. injection ED as <- <-.
    rewrite jsonl_steps in ER. unfold follows, first_step in ER. rewrite T in ER. destruct (handle a (InvalidLine 1) (y :: t) (mkWriter [] None)) as [w1 [u|e]] eqn:EH.
    2:{ injection ER as -> ->. apply handle_number in EH. destruct EH as (_ & EH). congruence. }
    apply loop_number in ER; [|apply lines_numbers]. destruct ER as (j & p & A & -> & B). apply nth_line in A. cbn [coming] in A. destruct (coming i) as [|z l] eqn:EC.
    { cbn [take_line] in TL. injection TL as <- <-. discriminate. }
    destruct (some_line (z :: l) ltac:(discriminate)) as (line & rest & E & Ho). rewrite E in *. rewrite (proj1 (take_one line rest Ho)) in TL. injection TL as <- <-.
    assert (nth_error (pieces (line ++ rest)) (S j) = Some p) as A' by (rewrite (proj2 (take_one line rest Ho)); exact A). apply nth_piece in A'. destruct A' as (before & rest' & -> & C & D & Q).
    exists before, p, rest'. split; [reflexivity|]. split; [exact C|]. split; [exact Q|]. split; [apply B|]. split; [apply B|]. rewrite D. reflexivity.
Qed.

(** ** The input file as output file *)
Lemma capacity_positive : 0 < default_capacity.
Proof. apply Nat.ltb_lt. vm_compute. reflexivity. Qed.
Lemma take_line_app : forall l, let '(a, b) := take_line l in l = a ++ b /\ (l <> [] -> a <> []).
Proof.
  induction l as [|x l IH]; cbn [take_line]; [split; [reflexivity|auto]|]. destruct (N.eqb x 10); [split; [reflexivity|discriminate]|]. destruct (take_line l) as [a b]. destruct IH as (-> & _). split; [reflexivity|discriminate].
Qed.
Lemma all_in_memory line i : line <> [] -> len line + len (coming i) <= default_capacity -> in_memory line i = i.
Proof.
  intros H L. unfold in_memory. assert ((len line + default_capacity - 1) / default_capacity = 1) as ->.
  { pose proof capacity_positive. assert (len line <> 0) by (destruct line; [contradiction|discriminate]). symmetry. apply (Nat.div_unique _ _ 1 (len line - 1)); unfold bytes, byte in *; lia. }
  rewrite Nat.mul_1_l, firstn_all2 by (unfold bytes, byte in *; lia). destruct i; reflexivity.
Qed.
Lemma in_place a q o i f : binput a = Some f -> boutput a = Some f -> named_jsonl a = false -> bfile o f = Some i -> len (coming i) <= default_capacity ->
  q <> Some f -> bbudget o q = bbudget o (Some f) ->
  bench_main a o = bench_main (mkBargs (bmode a) (binput a) (named_jsonl a) q (bpretty a) (bwithout_item a)) o.
Proof.
  intros H1 H2 H3 H4 H5 H6 H7. unfold Bench.bench_main. cbn [binput boutput]. rewrite H1, H2, H4, H7. unfold Bench.detect. cbn [binput named_jsonl]. rewrite H1, H3.
  assert (bsame_file a = true) as -> by (unfold bsame_file; rewrite H1, H2; apply String.eqb_refl).
  assert (bsame_file (mkBargs (bmode a) (Some f) false q (bpretty a) (bwithout_item a)) = false) as ->.
  { unfold bsame_file. cbn [binput boutput]. destruct q as [q|]; [|reflexivity]. apply String.eqb_neq. congruence. }
  unfold read_line. pose proof (take_line_app (coming i)) as T. destruct (take_line (coming i)) as [ln os]. destruct T as (T & Tn).
  destruct (if Bench.ended ln then None else broken i); [reflexivity|]. unfold as_text. destruct (utf8_invalid 0 ln); [reflexivity|].
  assert (in_memory ln (mkInput os (broken i)) = mkInput os (broken i)) as EM.
  { destruct (coming i) as [|x l] eqn:EC.
    - destruct ln; [|discriminate]. destruct os; [|discriminate]. unfold in_memory. cbn [coming broken]. rewrite firstn_nil. reflexivity.
    - apply all_in_memory; [apply Tn; discriminate|]. cbn [coming]. rewrite T, app_length in H5. exact H5. }
  assert (EA : forall jsonl room, bench_run a jsonl ln (mkInput os (broken i)) room = bench_run (mkBargs (bmode a) (Some f) false q (bpretty a) (bwithout_item a)) jsonl ln (mkInput os (broken i)) room).
  { intros jsonl room. symmetry. apply run_alike; reflexivity. }
  destruct (trim ln) as [|y t]; [|destruct (from_str (y :: t))]; (destruct (bbudget o (Some f)) as [room|]; [|reflexivity]); rewrite EM, EA; reflexivity.
Qed.
End Program.
