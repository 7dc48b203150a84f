(** Proofs about the command line program. *)
From Verif Require Import Base U8Pool Buffer BufferSpec Jiter RJiter RJiterSpec Scan ScanSpec IdSpec Conv NormalToDdb DdbToNormal DdbSpec ConvSpec Cli CliSpec.
From Verif Require Import RJiterLookProofs ScanProofs IdProofs ConvResults EndResults TwinConv.
From Coq Require Import Lia.
Lemma under_way_is a : under_way a = if unbuffered a then 0 else default_capacity.
Proof. reflexivity. Qed.
Local Opaque default_capacity rjiter_buffer context_buffer.

Definition opened (a : args) (room : option (nat * io_kind)) : writer := mkBuffered [] [] (if unbuffered a then 0 else default_capacity) room.
Lemma conversion_twin a fuel rd w1 w2 : wfail w2 = None -> twin_results w1 w2 (conversion a fuel rd w1) (conversion a fuel rd w2).
Proof. intros H. unfold conversion. destruct (to_convert a); [apply d2n_twin|apply n2d_twin]; exact H. Qed.

(** What a writer of the program has received, and where it is. *)
Lemma opened_spent a room p w : spent (opened a room) p w ->
  exists h, p = delivered w ++ h /\ len h <= wcap w /\ wcap w = (if unbuffered a then 0 else default_capacity) /\ h = (if wcap w =? 0 then [] else held w) /\
    match room with None => wfail w = None | Some (n, k) => len (delivered w) <= n /\ wfail w = Some (n - len (delivered w), k) end.
Proof.
  intros (A & B & C & x & D & E & F). cbn [opened wcap held delivered wfail app] in *. rewrite D in *. exists (if wcap w =? 0 then [] else held w).
  assert (len (held w) <= wcap w) as G by (rewrite B; apply C; cbn; lia).
  assert (written (opened a room) = []) as K by (unfold written, opened; cbn [wcap delivered held app]; destruct (_ =? 0); reflexivity).
  rewrite K in A. cbn [app] in A. rewrite <- A. unfold written. rewrite D. repeat split.
  - destruct (wcap w =? 0); [rewrite app_nil_r|]; reflexivity.
  - destruct (wcap w =? 0) eqn:X; cbn [List.length]; lia.
  - exact B.
  - destruct room as [[n k]|]; exact F.
Qed.
Lemma flushed w h : h = (if wcap w =? 0 then [] else held w) -> (wcap w = 0 -> held w = []) ->
  delivered (fst (flush_held w)) = delivered w ++ match wfail w with None => h | Some (n, _) => firstn n h end.
Proof.
  intros -> H. unfold flush_held, deliver. destruct (wcap w =? 0) eqn:X.
  - rewrite (H ltac:(now apply Nat.eqb_eq)). destruct (wfail w) as [[n k]|]; cbn; [rewrite firstn_nil|]; reflexivity.
  - destruct (wfail w) as [[n k]|]; [|reflexivity]. destruct (len (held w) <=? n) eqn:Y; cbn [fst delivered]; [|reflexivity].
    rewrite firstn_all2; [reflexivity|]. apply Nat.leb_le in Y. exact Y.
Qed.

Definition run_cases (a : args) (room : option (nat * io_kind)) (x1 : outcome (bytes * ending)) (x2 : outcome (writer * result unit (conversion_error * nat))) : Prop :=
  match x1, x2 with
  | Done (d, x), Done (w0, v0) => exists text, w0 = mkWriter text None /\
      (answered v0 x /\ x = Success /\ arrives room text d /\ match room with None => True | Some (n, _) => len text <= n + under_way a end \/
       answered v0 x /\ x <> Success /\ (exists missing, text = d ++ missing /\ len missing <= under_way a) /\ match room with None => True | Some (n, _) => len d <= n end \/
       (exists e i, x = Failure e i) /\ arrives room text d /\ too_small room text)
  | Done (_, x), _ => exists e i, x = Failure e i
  | Panic, Panic | Diverge, Diverge => True
  | _, _ => False
  end.
Lemma run_exact a fuel rd room : run_cases a room (run a fuel rd room) (conversion a fuel rd (mkWriter [] None)).
Proof.
  unfold run. fold (opened a room). pose proof (conversion_twin a fuel rd (opened a room) (mkWriter [] None) eq_refl) as T.
  destruct (conversion a fuel rd (opened a room)) as [[w v]| |], (conversion a fuel rd (mkWriter [] None)) as [[w0 v0]| |];
    unfold twin_results in T; unfold run_cases; cbn [obind]; try exact T; try (destruct T as [[e i] ->]; exists e, i; reflexivity).
  unfold sync, lost in T. destruct T as [((p & A & B) & ->)|(([e i] & ->) & p & k & A & a1 & b1 & Hp & Hb & w1 & j & S1 & X & S2)].
  - apply spent_plain in B. cbn [app] in B. subst w0. pose proof A as A0. apply opened_spent in A. destruct A as (h & Hp & Hl & Hc & Hh & Hf).
    assert (wcap w = 0 -> held w = []) as HH.
    { intros Z. destruct A0 as (_ & Q & _ & y & _ & Q2 & _). rewrite Q in Z. destruct (Q2 Z) as (_ & Q3). exact Q3. }
    destruct v0 as [[]|[e i]]; (exists p; split; [reflexivity|]).
    + left. split; [reflexivity|]. split; [reflexivity|]. rewrite (flushed w h Hh HH). rewrite under_way_is, <- Hc. destruct room as [[n k]|]; cbn [arrives].
      * destruct Hf as (Q1 & Q2). rewrite Q2. rewrite Hp. rewrite firstn_app. rewrite (firstn_all2 (n:=n) (delivered w)) by (unfold bytes, byte in *; lia).
        split; [reflexivity|]. rewrite app_length. unfold bytes, byte in *; lia.
      * rewrite Hf. split; [symmetry; exact Hp|exact I].
    + right. left. split; [reflexivity|]. split; [discriminate|]. rewrite under_way_is, <- Hc. split; [exists h; split; [exact Hp|exact Hl]|]. destruct room as [[n k]|]; [apply Hf|exact I].
  - apply spent_plain in A. cbn [app] in A. subst w0. exists p. split; [reflexivity|]. right. right. split; [exists e, i; reflexivity|].
    apply opened_spent in S1. destruct S1 as (h & Hp1 & Hl & Hc & Hh & Hf). unfold exhausted in X. rewrite X in Hf.
    destruct room as [[n k']|]; [|discriminate]. destruct Hf as (Q1 & Q2). injection Q2 as Q2 <-. cbn [arrives].
    assert (n = len (delivered w1)) as -> by lia.
    destruct S2 as (_ & _ & _ & y & R1 & _ & R2). rewrite X in R2. destruct R2 as (R2 & _). assert (y = []) as -> by (destruct y; [reflexivity|cbn [List.length] in R2; lia]).
    rewrite app_nil_r in R1. rewrite R1. subst p a1. split.
    + rewrite <- app_assoc, firstn_app, firstn_all, Nat.sub_diag, firstn_O, app_nil_r. reflexivity.
    + exists (len (delivered w1)), k. split; [reflexivity|]. rewrite !app_length. assert (len b1 <> 0) by (destruct b1; [contradiction|discriminate]). unfold bytes, byte in *; lia.
Qed.

Lemma cli_complete a fuel rd room d : run a fuel rd room = Done (d, Success) ->
  exists text missing, conversion a fuel rd (mkWriter [] None) = Done (mkWriter text None, Ok tt) /\ text = d ++ missing /\ len missing <= under_way a /\
    match room with None => missing = [] | Some (n, _) => missing <> [] -> len d = n end.
Proof.
  intros E. pose proof (run_exact a fuel rd room) as H. rewrite E in H.
  destruct (conversion a fuel rd (mkWriter [] None)) as [[w0 v0]| |]; cbn [run_cases] in H; try (destruct H as (e & i & H); discriminate).
  destruct H as (text & -> & [(A & _ & B & C)|[(_ & A & _)|((e & i & A) & _)]]); [|congruence|discriminate].
  destruct v0 as [[]|[e i]]; cbn [answered] in A; [|discriminate]. destruct room as [[n k]|]; cbn [arrives] in B; subst d.
  - exists text, (skipn n text). split; [reflexivity|]. rewrite firstn_skipn. split; [reflexivity|]. rewrite skipn_length. split; [unfold bytes, byte in *; lia|].
    intros X. apply firstn_length_le. assert (len (skipn n text) <> 0) as Y by (destruct (skipn n text); [contradiction|discriminate]). rewrite skipn_length in Y. unfold bytes, byte in *; lia.
  - exists text, []. rewrite app_nil_r. split; [reflexivity|]. split; [reflexivity|]. split; [cbn; lia|reflexivity].
Qed.
Lemma cli_status a fuel rd room d x : run a fuel rd room = Done (d, x) -> status x = 0 ->
  exists text missing, conversion a fuel rd (mkWriter [] None) = Done (mkWriter text None, Ok tt) /\ text = d ++ missing /\ len missing <= under_way a /\
    match room with None => missing = [] | Some (n, _) => missing <> [] -> len d = n end.
Proof. intros E H. destruct x; try discriminate. exact (cli_complete a fuel rd room d E). Qed.
Lemma cli_kept a fuel rd room d e i text v : run a fuel rd room = Done (d, Failure e i) -> conversion a fuel rd (mkWriter [] None) = Done (mkWriter text None, v) ->
  exists missing, text = d ++ missing /\
    (v = Err (e, i) /\ len missing <= under_way a \/ exists k, room = Some (len d, k) /\ missing <> []).
Proof.
  intros E F. pose proof (run_exact a fuel rd room) as H. rewrite E, F in H. cbn [run_cases] in H. destruct H as (t & X & H). injection X as <-.
  destruct H as [(_ & A & _)|[(A & _ & (missing & B & C) & _)|(_ & B & n & k & -> & C)]]; [discriminate| |].
  - exists missing. split; [exact B|]. left. split; [|exact C]. destruct v as [[]|[e' i']]; cbn [answered] in A; [discriminate|]. injection A as <- <-. reflexivity.
  - cbn [arrives] in B. exists (skipn n text). subst d. rewrite firstn_skipn. split; [reflexivity|]. right. exists k.
    rewrite firstn_length_le by (unfold bytes, byte in *; lia). split; [reflexivity|]. intros Y. assert (len (skipn n text) = 0) as Z by (rewrite Y; reflexivity). rewrite skipn_length in Z. unfold bytes, byte in *; lia.
Qed.
Lemma cli_full a fuel rd n k text v : unbuffered a = true -> conversion a fuel rd (mkWriter [] None) = Done (mkWriter text None, v) ->
  exists x, run a fuel rd (Some (n, k)) = Done (firstn n text, x) /\ if n <? len text then exists e i, x = Failure e i else answered v x.
Proof.
  intros U F. pose proof (run_exact a fuel rd (Some (n, k))) as H. rewrite F in H. destruct (run a fuel rd (Some (n, k))) as [[d x]| |]; cbn [run_cases] in H; try contradiction.
  destruct H as (t & X & H). injection X as <-. exists x. unfold under_way in H. rewrite U in H.
  destruct H as [(A & _ & B & C)|[(A & _ & (missing & B & C) & D)|((e & i & A) & B & n' & k' & X & C)]].
  - cbn [arrives] in B. subst d. split; [reflexivity|]. destruct (Nat.ltb_spec n (len text)); [unfold bytes, byte in *; lia|exact A].
  - assert (missing = []) as -> by (destruct missing; [reflexivity|cbn [List.length] in C; lia]). rewrite app_nil_r in B. subst d.
    rewrite firstn_all2 by exact D. split; [reflexivity|]. destruct (Nat.ltb_spec n (len text)); [unfold bytes, byte in *; lia|exact A].
  - cbn [arrives] in B. subst d. injection X as <- <-. split; [reflexivity|]. destruct (Nat.ltb_spec n (len text)); [exists e, i; exact A|unfold bytes, byte in *; lia].
Qed.
(** A working output. *)
Lemma cli_open a fuel rd : 
  match conversion a fuel rd (mkWriter [] None) with
  | Done (w, v) => exists d x text, run a fuel rd None = Done (d, x) /\ w = mkWriter text None /\ answered v x /\
      exists missing, text = d ++ missing /\ len missing <= under_way a /\ (x = Success -> missing = [])
  | Panic => run a fuel rd None = Panic
  | Diverge => run a fuel rd None = Diverge
  end.
Proof.
  unfold run. fold (opened a None). pose proof (conversion_twin a fuel rd (mkWriter [] None) (opened a None) eq_refl) as T.
  pose proof (run_exact a fuel rd None) as H. unfold run in H. fold (opened a None) in H.
  destruct (conversion a fuel rd (opened a None)) as [[w v]| |], (conversion a fuel rd (mkWriter [] None)) as [[w0 v0]| |];
    unfold twin_results in T; cbn [obind run_cases] in *; try contradiction; try reflexivity.
  destruct (match v with Ok _ => _ | Err _ => _ end) as [d x]. destruct H as (text & -> & H). exists d, x, text. split; [reflexivity|]. split; [reflexivity|].
  destruct H as [(A & -> & B & _)|[(A & X & (missing & B & C) & _)|(_ & _ & n & k & X & _)]]; [| |discriminate].
  - cbn [arrives] in B. subst d. split; [exact A|]. exists []. rewrite app_nil_r. split; [reflexivity|]. split; [cbn; lia|reflexivity].
  - split; [exact A|]. exists missing. split; [exact B|]. split; [exact C|]. intros Y. contradiction.
Qed.
Lemma cli_alike a1 a2 fuel rd : to_convert a1 = to_convert a2 -> pretty_print a1 = pretty_print a2 -> without_item a1 = without_item a2 ->
  match run a1 fuel rd None, run a2 fuel rd None with
  | Done (d1, x1), Done (d2, x2) => x1 = x2 /\ (x1 = Success -> d1 = d2) /\
      exists text missing1 missing2, text = d1 ++ missing1 /\ text = d2 ++ missing2 /\ len missing1 <= under_way a1 /\ len missing2 <= under_way a2
  | Panic, Panic | Diverge, Diverge => True
  | _, _ => False
  end.
Proof.
  intros E1 E2 E3. pose proof (cli_open a1 fuel rd) as A. pose proof (cli_open a2 fuel rd) as B.
  assert (conversion a1 fuel rd (mkWriter [] None) = conversion a2 fuel rd (mkWriter [] None)) as E by (unfold conversion; rewrite E1, E2, E3; reflexivity).
  rewrite E in A. destruct (conversion a2 fuel rd (mkWriter [] None)) as [[w v]| |]; [|rewrite A, B; exact I..].
  destruct A as (d1 & x1 & t1 & -> & -> & A & m1 & P1 & L1 & S1). destruct B as (d2 & x2 & t2 & -> & X & B & m2 & P2 & L2 & S2). injection X as <-.
  assert (x1 = x2) as <- by (destruct v as [[]|[e i]]; cbn [answered] in *; congruence). split; [reflexivity|]. split.
  - intros X. rewrite (S1 X) in P1. rewrite (S2 X) in P2. rewrite !app_nil_r in *. congruence.
  - exists t1, m1, m2. auto.
Qed.

Lemma main_success a o fuel input text : input_of a o = Some input -> budget o (output_path a) = Some None -> same_file a = false ->
  conversion a fuel (mkReader input (chunks o)) (mkWriter [] None) = Done (mkWriter text None, Ok tt) ->
  main a fuel o = Done (write_file (output_path a) text (untouched o), Success).
Proof.
  intros H1 H2 H3 H4. unfold main. unfold input_of in H1. rewrite H1, H2, H3. pose proof (cli_open a fuel (mkReader input (chunks o))) as A. rewrite H4 in A.
  destruct A as (d & x & t & -> & X & A & m & P & _ & S). cbn [answered] in A. subst x. injection X as <-. rewrite (S eq_refl), app_nil_r in P. subst d. reflexivity.
Qed.
Lemma write_leaves a o d : leaves a o d (write_file (output_path a) d (untouched o)).
Proof.
  unfold leaves. destruct (output_path a) as [p|]; cbn [write_file new_file stdout untouched]; [|split; reflexivity]. split; [rewrite String.eqb_refl; reflexivity|]. split; [|reflexivity].
  intros q Hq. apply String.eqb_neq in Hq. rewrite Hq. reflexivity.
Qed.
Lemma program_status a fuel o c x : same_file a = false -> main a fuel o = Done (c, x) -> status x = 0 ->
  exists input room d text missing, input_of a o = Some input /\ budget o (output_path a) = Some room /\ leaves a o d c /\
    conversion a fuel (mkReader input (chunks o)) (mkWriter [] None) = Done (mkWriter text None, Ok tt) /\ text = d ++ missing /\
    len missing <= under_way a /\ match room with None => missing = [] | Some (n, _) => missing <> [] -> len d = n end.
Proof.
  intros F E H. unfold main in E. fold (input_of a o) in E. fold (untouched o) in E. destruct (input_of a o) as [input|] eqn:Ei; [|injection E as <- <-; discriminate].
  destruct (budget o (output_path a)) as [room|] eqn:Eb; [|injection E as <- <-; discriminate]. rewrite F in E. destruct (run a fuel (mkReader input (chunks o)) room) as [[d y]| |] eqn:Er; try discriminate.
  cbn [obind] in E. injection E as <- <-. destruct (cli_status a fuel _ room d y Er H) as (text & missing & A & B & C & D).
  exists input, room, d, text, missing. split; [reflexivity|]. split; [reflexivity|]. split; [apply write_leaves|]. auto.
Qed.
Lemma program_stopped a fuel o : input_of a o = None \/ budget o (output_path a) = None -> exists c x, main a fuel o = Done (c, x) /\ nothing_changed o c /\ status x = 1.
Proof.
  intros H. unfold main. fold (input_of a o). fold (untouched o). destruct (input_of a o) as [input|]; [|do 2 eexists; split; [reflexivity|]; split; [split; reflexivity|reflexivity]].
  destruct H as [H|H]; [discriminate|]. rewrite H. do 2 eexists; split; [reflexivity|]; split; [split; reflexivity|reflexivity].
Qed.
Lemma main_to_ddb m vs a o input : to_convert a = ToDdb -> input_of a o = Some input -> budget o (output_path a) = Some None -> same_file a = false ->
  sane m -> may_fail m = false -> start m (rj_new (mkReader input (chunks o)) rjiter_buffer) -> documents (layout m) vs input ->
  n2d_room context_buffer vs -> Forall ordinary vs -> atoms_apart false vs -> Forall (numbers_within 32) vs ->
  exists text c, eventually (fun fuel => main a fuel o) (Done (c, Success)) /\ leaves a o text c /\
    documents any_layout (map (record (negb (without_item a))) vs) text /\ (pretty_print a = false -> text = lines (map (record (negb (without_item a))) vs)).
Proof.
  intros Hd Hi Hb Hf S M St D R O A N.
  destruct (n2d_correct m vs (mkReader input (chunks o)) (mkWriter [] None) rjiter_buffer context_buffer (pretty_print a) (negb (without_item a)) S M St D R O A N eq_refl)
    as (text & w' & (n & E) & Sp & D' & L).
  apply spent_plain in Sp. cbn [app] in Sp. subst w'. exists text, (write_file (output_path a) text (untouched o)). split; [|split; [apply write_leaves|auto]]. exists n. intros fuel F. apply (main_success a o fuel input text Hi Hb Hf).
  unfold conversion. rewrite Hd. apply E, F.
Qed.
Lemma main_from_ddb m (items : item_stream) a o input : to_convert a = FromDdb -> input_of a o = Some input -> budget o (output_path a) = Some None -> same_file a = false ->
  sane m -> may_fail m = false -> start m (rj_new (mkReader input (chunks o)) rjiter_buffer) -> documents (layout m) (map item_of items) input ->
  d2n_room context_buffer (map item_of items) -> Forall (fit AsWrapper) items -> Forall (fun x => well_formed_item (snd x)) items ->
  exists text c, eventually (fun fuel => main a fuel o) (Done (c, Success)) /\ leaves a o text c /\
    documents any_layout (map (fun x => plain_item (snd x)) items) text /\ (pretty_print a = false -> text = lines (map (fun x => plain_item (snd x)) items)).
Proof.
  intros Hd Hi Hb Hf S M St D R O A.
  destruct (d2n_stream m items (mkReader input (chunks o)) (mkWriter [] None) rjiter_buffer context_buffer (pretty_print a) AsWrapper S M St D R O A eq_refl)
    as (text & w' & (n & E) & Sp & D' & L).
  apply spent_plain in Sp. cbn [app] in Sp. subst w'. exists text, (write_file (output_path a) text (untouched o)). split; [|split; [apply write_leaves|auto]]. exists n. intros fuel F. apply (main_success a o fuel input text Hi Hb Hf).
  unfold conversion. rewrite Hd. apply E, F.
Qed.
Lemma main_round_trip m1 m2 vs a1 a2 o1 o2 input there back :
  to_convert a1 = ToDdb -> input_of a1 o1 = Some input -> output_path a1 = Some there -> budget o1 (Some there) = Some None -> same_file a1 = false ->
  to_convert a2 = FromDdb -> input_path a2 = Some there -> output_path a2 = Some back -> budget o2 (Some back) = Some None -> there <> back ->
  sane m1 -> sane m2 -> may_fail m1 = false -> readable m2 (pretty_print a1) ->
  Forall is_object vs -> Forall ordinary vs -> Forall (numbers_within 32) vs -> Forall (suits (layout (tight m2 (pretty_print a1)))) vs ->
  Forall (way_back (negb (without_item a1)) AsWrapper) vs ->
  start m1 (rj_new (mkReader input (chunks o1)) rjiter_buffer) -> documents (layout m1) vs input ->
  n2d_room context_buffer vs -> d2n_room context_buffer (map (record (negb (without_item a1))) vs) ->
  exists c1 text, eventually (fun fuel => main a1 fuel o1) (Done (c1, Success)) /\ new_file c1 there = Some text /\
    (start m2 (rj_new (mkReader text (chunks o2)) rjiter_buffer) ->
     exists c2 out, eventually (fun fuel => main a2 fuel (later c1 o2)) (Done (c2, Success)) /\ new_file c2 back = Some out /\
       documents any_layout vs out /\ (pretty_print a2 = false -> out = lines vs)).
Proof.
  intros D1 I1 O1 B1 F1 D2 I2 O2 B2 F2 S1 S2 M R Ob Or Nu Su W St Do R1 R2.
  destruct (round_trip m1 m2 vs (mkReader input (chunks o1)) rjiter_buffer context_buffer
    (mkReader [] (chunks o2)) rjiter_buffer context_buffer (pretty_print a1) (pretty_print a2) (negb (without_item a1)) AsWrapper S1 S2 M R Ob Or Nu Su W St Do R1 R2) as (text & E1 & _).
  destruct (round_trip m1 m2 vs (mkReader input (chunks o1)) rjiter_buffer context_buffer
    (mkReader text (chunks o2)) rjiter_buffer context_buffer (pretty_print a1) (pretty_print a2) (negb (without_item a1)) AsWrapper S1 S2 M R Ob Or Nu Su W St Do R1 R2) as (text' & E1' & H).
  assert (text' = text) as ->.
  { destruct E1 as (n & E1), E1' as (n' & E1'). specialize (E1 (n + n') ltac:(lia)). specialize (E1' (n + n') ltac:(lia)). rewrite E1 in E1'. unfold mkWriter in E1'. congruence. }
  exists (write_file (Some there) text (untouched o1)), text. split; [|split].
  - destruct E1 as (n & E1). exists n. intros fuel F. rewrite <- O1. apply (main_success a1 o1 fuel input text I1); [rewrite O1; exact B1|exact F1|].
    unfold conversion. rewrite D1. apply E1, F.
  - cbn [write_file new_file]. rewrite String.eqb_refl. reflexivity.
  - intros St2. destruct (H eq_refl St2) as (out & (n & E2) & Dout & L). exists (write_file (Some back) out (untouched (later (write_file (Some there) text (untouched o1)) o2))), out.
    split; [|split; [|auto]].
    + exists n. intros fuel F. rewrite <- O2. apply (main_success a2 _ fuel text out).
      * unfold input_of. rewrite I2. cbn [later file write_file new_file]. rewrite String.eqb_refl. reflexivity.
      * rewrite O2. exact B2.
      * unfold same_file. rewrite I2, O2. apply String.eqb_neq, F2.
      * unfold conversion. rewrite D2. apply E2, F.
    + cbn [write_file new_file]. rewrite String.eqb_refl. reflexivity.
Qed.

Lemma main_spares a fuel o c x : main a fuel o = Done (c, x) ->
  (forall p, output_path a <> Some p -> new_file c p = file o p) /\ (output_path a <> None -> stdout c = []) /\
  (input_of a o = None -> c = untouched o /\ x = NoInput).
Proof.
  unfold main, input_of. fold (untouched o). destruct (match input_path a with Some p => _ | None => _ end) as [input|].
  - destruct (budget o (output_path a)) as [room|]; [|intros E; injection E as <- <-; repeat split; intros; discriminate].
    destruct (run a fuel _ room) as [[d y]| |]; cbn [obind]; intros E; try discriminate. injection E as <- <-. split; [|split].
    + intros p Hp. destruct (output_path a) as [q|]; cbn [write_file new_file]; [|reflexivity].
      destruct (String.eqb_spec p q) as [-> |]; [congruence|reflexivity].
    + intros H. destruct (output_path a); [reflexivity|contradiction].
    + discriminate.
  - intros E. injection E as <- <-. repeat split; reflexivity.
Qed.
Lemma big_buffer : 8 <= len rjiter_buffer.
Proof. Local Transparent rjiter_buffer. unfold rjiter_buffer, zeros. rewrite repeat_length. lia. Local Opaque rjiter_buffer. Qed.
Lemma main_ends a fuel o input : input_of a o = Some input ->
  (to_convert a = FromDdb -> 2 * len input + 2 <= fuel -> main a fuel o <> Diverge) /\ (to_convert a = ToDdb -> main a fuel o <> Panic).
Proof.
  intros Hi. unfold main. unfold input_of in Hi. rewrite Hi. destruct (budget o (output_path a)) as [room|]; [|split; discriminate].
  unfold run. fold (opened a room). unfold conversion. split; intros ->.
  - intros F. pose proof (d2n_ends fuel (mkReader (if same_file a then [] else input) (chunks o)) (opened a room) rjiter_buffer context_buffer (pretty_print a) AsWrapper big_buffer) as H.
    destruct (convert_ddb_to_normal _ _ _ _ _ _ _) as [[w v]| |]; cbn [obind]; try discriminate.
    + destruct v as [[]|[e i]]; discriminate.
    + intros _. apply H; [|reflexivity]. cbn [src]. destruct (same_file a); cbn [List.length]; unfold bytes, byte in *; lia.
  - pose proof (n2d_no_panic fuel (mkReader (if same_file a then [] else input) (chunks o)) (opened a room) rjiter_buffer context_buffer (pretty_print a) (negb (without_item a)) big_buffer) as H.
    destruct (convert_normal_to_ddb _ _ _ _ _ _ _) as [[w v]| |]; cbn [obind]; try discriminate; [destruct v as [[]|[e i]]; discriminate|intros _; exact (H eq_refl)].
Qed.

(** ** A literal that is cut short keeps the program busy forever *)
Local Transparent rjiter_buffer context_buffer.
Definition busy_conv (W : bytes) : conv := mkConv (mkWriter W None) false false None 0 None.
Definition busy_new : pool := match pool_new true context_buffer 34 with Done (Ok p) => p | _ => mkPool 0 0 [] [] end.
Definition busy_pool : pool := match push_assoc busy_new pos_ty [pos_code Top] (bs "#top") with Done (p, _) => p | _ => busy_new end.
Definition busy_first : sverdict conv := scan_iter (n2d_callbacks true) (mkOptions [] false) Top (mkS (rj_new (mkReader (bs "tru ") []) rjiter_buffer) (busy_conv []) busy_pool).
Definition busy_parser : rj := match busy_first with Done (s, _) => parser s | _ => rj_new (mkReader [] []) [] end.
Definition same_rj (r s : rj) : bool :=
  beq (buf (bf r)) (buf (bf s)) && (n_bytes (bf r) =? n_bytes (bf s)) && (n_shifted_out (bf r) =? n_shifted_out (bf s)) && (pos_line (bf r) =? pos_line (bf s)) &&
  (pos_col (bf r) =? pos_col (bf s)) && beq (src (rd (bf r))) (src (rd (bf s))) && match sched (rd (bf r)), sched (rd (bf s)) with [], [] => true | _, _ => false end &&
  (jlen r =? jlen s) && (jidx r =? jidx s).
Definition same_pool (p q : pool) : bool := N.eqb (max_slices p) (max_slices q) && (count p =? count q) && beq (descriptor p) (descriptor q) && beq (data p) (data q).
Definition idle (c : conv) : bool :=
  match held (cout c), wfail (cout c), field c, last_error c with
  | [], None, None, None => (wcap (cout c) =? 0) && negb (pending c) && negb (pretty c) && (level c =? 0)
  | _, _, _, _ => false
  end.
Definition busy_again (x : sverdict conv) : bool :=
  match x with
  | Done (s, Continue Top) => same_rj (parser s) busy_parser && same_pool (stack s) busy_pool && idle (user s)
  | _ => false
  end.
Lemma same_rj_eq r s : same_rj r s = true -> r = s.
Proof.
  destruct r as [[b1 n1 o1 l1 c1 [s1 h1]] j1 i1], s as [[b2 n2 o2 l2 c2 [s2 h2]] j2 i2]. unfold same_rj. cbn [bf buf n_bytes n_shifted_out pos_line pos_col rd src sched jlen jidx].
  destruct h1, h2; rewrite ?Bool.andb_false_r; cbn [andb]; try discriminate. rewrite !Bool.andb_true_iff, !Nat.eqb_eq, !beq_eq. intuition congruence.
Qed.
Lemma same_pool_eq p q : same_pool p q = true -> p = q.
Proof. destruct p, q. unfold same_pool. cbn. rewrite !Bool.andb_true_iff, !Nat.eqb_eq, !beq_eq, N.eqb_eq. intuition congruence. Qed.
Lemma idle_is c : idle c = true -> exists W, c = busy_conv W.
Proof.
  destruct c as [[d h k f] p y fl l e]. unfold idle. cbn. destruct h, f, fl, e; try discriminate. rewrite !Bool.andb_true_iff, !Bool.negb_true_iff, !Nat.eqb_eq. intros (((-> & ->) & ->) & ->).
  exists d. reflexivity.
Qed.
Lemma busy_again_is x : busy_again x = true -> exists W, x = Done (mkS busy_parser (busy_conv W) busy_pool, Continue Top).
Proof.
  destruct x as [[[r u p] [[]| ]]| |]; try discriminate. unfold busy_again. cbn [parser stack user]. rewrite !Bool.andb_true_iff. intros ((A & B) & C).
  apply same_rj_eq in A. apply same_pool_eq in B. apply idle_is in C. destruct C as (W & ->). subst. exists W. reflexivity.
Qed.
Lemma busy_step W : busy_again (scan_iter (n2d_callbacks true) (mkOptions [] false) Top (mkS busy_parser (busy_conv W) busy_pool)) = true.
Proof. vm_compute. reflexivity. Qed.
Lemma busy_start : busy_again busy_first = true.
Proof. vm_compute. reflexivity. Qed.
Lemma busy_loop fuel : forall W b, scan_loop (n2d_callbacks true) (mkOptions [] false) fuel b Top (mkS busy_parser (busy_conv W) busy_pool) = Diverge.
Proof.
  induction fuel as [|fuel IH]; intros W b; [reflexivity|]. cbn [scan_loop stop_early]. rewrite Bool.andb_false_r. cbn [andb].
  destruct (busy_again_is _ (busy_step W)) as (W' & ->). apply IH.
Qed.
Definition to_ddb_unbuffered : args := mkArgs ToDdb None None false false true.
Lemma busy_conversion fuel : conversion to_ddb_unbuffered fuel (mkReader (bs "tru ") []) (mkWriter [] None) = Diverge.
Proof.
  unfold conversion, to_ddb_unbuffered, convert_normal_to_ddb, convert. cbn [to_convert pretty_print without_item negb].
  assert (match pool_new true context_buffer 34 with Done (Ok p) => same_pool p busy_new | _ => false end = true) as E0 by (vm_compute; reflexivity).
  destruct (pool_new true context_buffer 34) as [[p|e]| |]; try discriminate. apply same_pool_eq in E0. subst p. cbn [obind]. unfold scan. cbn [stack].
  assert (match push_assoc busy_new pos_ty [pos_code Top] (bs "#top") with Done (p, Ok _) => same_pool p busy_pool | _ => false end = true) as E1 by (vm_compute; reflexivity).
  destruct (push_assoc busy_new pos_ty [pos_code Top] (bs "#top")) as [[p [x|e]]| |]; try discriminate. apply same_pool_eq in E1. subst p. cbn [obind]. cbn [parser user].
  destruct fuel as [|fuel]; [reflexivity|]. cbn [scan_loop andb]. destruct (busy_again_is _ busy_start) as (W & H). unfold busy_first, busy_conv in H. unfold conv_new.
  rewrite H. fold (busy_conv W). rewrite busy_loop. reflexivity.
Qed.
Lemma busy_main fuel : main to_ddb_unbuffered fuel (mkWorld (fun _ => None) (bs "tru ") [] (fun _ => Some None)) = Diverge.
Proof. cbn [main to_ddb_unbuffered input_path output_path same_file stdin chunks budget]. pose proof (cli_open to_ddb_unbuffered fuel (mkReader (bs "tru ") [])) as H. rewrite busy_conversion in H. rewrite H. reflexivity. Qed.

(** An input that one read brings into the buffer. *)
Definition whole : setting := InBuffer (N.to_nat 65536).
Lemma whole_loads l : len l <= N.to_nat 65536 -> start whole (rj_new (mkReader l []) rjiter_buffer).
Proof.
  intros H. assert (len rjiter_buffer = N.to_nat 65536) as E by (unfold rjiter_buffer, zeros; apply repeat_length).
  split; [|split; [exact E|split; [|reflexivity]]].
  - unfold valid, wf. cbn [rj_new buffer_new bf buf n_bytes rd src jlen jidx]. repeat split; auto with arith.
  - right. split; [reflexivity|]. split; [reflexivity|]. change (len l <= len rjiter_buffer). rewrite E. exact H.
Qed.
(** The input file is the output file. *)
Lemma main_destroys mode pr pl direct p contents : exists a o c, a = mkArgs mode (Some p) (Some p) pr pl direct /\ file o p = Some contents /\
  main a 10 o = Done (c, Success) /\ new_file c p = Some [].
Proof.
  exists (mkArgs mode (Some p) (Some p) pr pl direct), (mkWorld (fun _ => Some contents) [] [] (fun _ => Some None)). eexists.
  split; [reflexivity|]. split; [reflexivity|]. unfold main. cbn [input_path output_path file budget chunks same_file]. rewrite String.eqb_refl. cbn [same_file].
  assert (run (mkArgs mode (Some p) (Some p) pr pl direct) 10 (mkReader [] []) None = Done ([], Success)) as ->.
  { destruct mode, pr, pl, direct; vm_compute; reflexivity. }
  cbn [obind]. split; [reflexivity|]. cbn [write_file new_file]. rewrite String.eqb_refl. reflexivity.
Qed.
