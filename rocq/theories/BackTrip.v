(** Proofs: from DynamoDB JSON to plain JSON and back. *)
From Verif Require Import Base U8Pool Buffer BufferSpec Jiter RJiter RJiterSpec Scan ScanSpec IdSpec DdbSpec Conv NormalToDdb DdbToNormal ConvSpec BackSpec.
From Verif Require Import IdTransform RJiterLookProofs ScanTokens ScanParser ScanStack ScanProofs ScanTop ScanSse IdProofs Transducer ConvProofs N2dProofs D2nProofs ConvResults.

(** ** The layout of the plain text *)
Section Layout.
Context (pr : bool) (P : profile).
Notation nl := (nl pr).
Notation tab := (tab pr).
Notation row := (row pr).
Notation opens := (N2dProofs.opens pr).
Context (Hopen : forall b l, opens l -> open_ok P b l).
Lemma nl_spaces : spaces nl. Proof. apply D2nProofs.nl_spaces. Qed.
Lemma tab_spaces n : spaces (tab n). Proof. apply D2nProofs.tab_spaces. Qed.
Lemma spaces_app a b : spaces a -> spaces b -> spaces (a ++ b). Proof. intros. apply Forall_app; auto. Qed.
Hint Resolve nl_spaces tab_spaces spaces_app : spaces.
Ltac flat := repeat first [rewrite <- app_assoc | progress cbn [app]].
Lemma opens_nl w x : opens (nl ++ w ++ x). Proof. apply N2dProofs.opens_nl. Qed.

Definition placed (v : json) (t : bytes) : Prop := forall b r, delimited r -> r <> [] \/ (forall n, v <> JNumber n) -> value_at P b v (t ++ r) r.
Lemma row_more ts x y : row true ts ++ x :: y <> [].
Proof. destruct ts; discriminate. Qed.
Lemma row_end ts w x y : row true ts ++ w ++ x :: y <> [].
Proof. destruct ts; [destruct w|]; discriminate. Qed.
Hint Resolve row_more row_end : more.
Lemma items_placed vs ts : Forall2 placed vs ts -> forall r, items_at P vs (row true ts ++ RBRACK :: r) r.
Proof.
  induction 1 as [|v t vs ts Hv _ IH]; intros r; [apply (items_end P []); constructor|]. cbn [ConvProofs.row ConvProofs.lead]. flat.
  apply (items_more P [] nl v vs (t ++ row true ts ++ RBRACK :: r) (row true ts ++ RBRACK :: r) r); [constructor|apply nl_spaces| |apply IH].
  apply Hv; [apply delimited_row; auto|left; auto with more].
Qed.
Lemma array_placed vs ts : Forall2 placed vs ts -> placed (JArray vs) (LBRACK :: row false ts ++ [RBRACK]).
Proof.
  intros H b r _ _. destruct H as [|v t vs ts Hv H]; [apply (at_array_empty P b []); constructor|]. cbn [ConvProofs.row ConvProofs.lead]. flat.
  apply (at_array P b [] v vs (t ++ row true ts ++ RBRACK :: r) (row true ts ++ RBRACK :: r) r); [constructor| |apply items_placed, H].
  apply Hv; [apply delimited_row; auto|left; auto with more].
Qed.
Definition placed_member (n : nat) (kv : bytes * json) (t : bytes) : Prop :=
  exists u, (string_text (fst kv) /\ key_ok P (fst kv) []) /\ placed (snd kv) u /\ t = tab n ++ QUOTE :: fst kv ++ QUOTE :: COLON :: u.
Lemma members_placed n ms ts : Forall2 (placed_member n) ms ts -> forall w r, spaces w -> members_at P ms (row true ts ++ w ++ RBRACE :: r) r.
Proof.
  induction 1 as [|[k v] t ms ts (u & (Hk & Hk') & Hv & ->) H IH]; intros w r Hw; [apply members_end, Hw|]. cbn [ConvProofs.row ConvProofs.lead fst snd] in *. flat.
  rewrite (app_assoc nl). apply (members_more P [] (nl ++ tab n) k [] [] v ms (u ++ row true ts ++ w ++ RBRACE :: r) (row true ts ++ w ++ RBRACE :: r) r); try (constructor; fail); auto with spaces.
  apply Hv; [inversion H; subst; [apply delimited_spaces; auto|reflexivity]|left; auto with more].
Qed.
Lemma object_placed n ms ts w : Forall2 (placed_member n) ms ts -> spaces w -> placed (JObject ms) (LBRACE :: nl ++ row false ts ++ w ++ [RBRACE]).
Proof.
  intros H Hw b r _ _. destruct H as [|[k v] t ms ts (u & (Hk & Hk') & Hv & ->) H].
  - cbn [ConvProofs.row]. flat. rewrite app_assoc. apply at_object_empty; [auto with spaces|apply Hopen; rewrite <- app_assoc; apply opens_nl].
  - cbn [ConvProofs.row ConvProofs.lead fst snd] in *. flat. rewrite (app_assoc nl).
    apply (at_object P b (nl ++ tab n) k [] [] v ms (u ++ row true ts ++ w ++ RBRACE :: r) (row true ts ++ w ++ RBRACE :: r) r); try (constructor; fail); auto with spaces.
    + apply Hopen. rewrite <- app_assoc. apply opens_nl.
    + apply Hv; [inversion H; subst; [apply delimited_spaces; auto|reflexivity]|left; auto with more].
    + eapply members_placed; eassumption.
Qed.
Lemma string_placed t : string_text t /\ string_ok P t -> placed (JString t) (quoted t).
Proof. intros (H & H') b r _ _. unfold quoted. flat. constructor; assumption. Qed.
Lemma number_placed t : number_text t /\ (forall r, r <> [] -> number_ok P t r) -> placed (JNumber t) t.
Proof. intros (H & H') b r Hr [Hne|Hne]; [constructor; auto|destruct (Hne t eq_refl)]. Qed.
Lemma set_placed (f : bytes -> json) (g : bytes -> bytes) l : (forall x, seated P (f x) -> placed (f x) (g x)) -> seated P (JArray (map f l)) -> Forall2 placed (map f l) (map g l).
Proof. intros Hf. induction l as [|x l IH]; cbn; intros H; constructor; [apply Hf, H|apply IH, H]. Qed.
Lemma ddb_placed d : seated P (plain d) -> forall n, placed (plain d) (vtext pr n d).
Proof.
  induction d as [d Hl|l IH|ms IH] using ddb_induction; intros Hw n.
  - destruct d as [t|t|t|b| |l|l|l|l|ms]; try contradiction Hl; cbn [plain vtext] in *.
    + apply string_placed, Hw.
    + apply string_placed, Hw.
    + apply number_placed, Hw.
    + destruct b; intros b0 r _ _; constructor.
    + intros b0 r _ _. constructor.
    + apply array_placed. apply (set_placed JString quoted); auto. apply string_placed.
    + apply array_placed. apply (set_placed JString quoted); auto. apply string_placed.
    + apply array_placed. rewrite <- (map_id l) at 2. apply (set_placed JNumber (fun t => t)); auto. apply number_placed.
  - cbn [plain vtext seated] in *. apply array_placed. clear - IH Hw. induction IH as [|d l Hd _ IH2]; cbn in *; constructor; [apply Hd, Hw|apply IH2, Hw].
  - cbn [plain vtext seated] in *. rewrite (app_assoc nl (tab n)). apply object_placed with (n := S n); [|auto with spaces].
    clear - IH Hw. induction IH as [|[k d] ms Hd _ IH2]; cbn in *; constructor; [|apply IH2, Hw]. exists (vtext pr (S n) d). split; [apply Hw|]. split; [apply Hd, Hw|reflexivity].
Qed.
Lemma compact_placed v : pr = false -> seated P v -> placed v (compact v).
Proof. intros Hp Hv. pose proof (ddb_placed (to_ddb v)) as H. rewrite to_ddb_plain in H. specialize (H Hv 0). rewrite Hp, vtext_compact, to_ddb_plain in H. exact H. Qed.
Lemma item_placed ms r : seated P (plain_item ms) -> value_at P false (plain_item ms) (D2nProofs.root_text pr ms ++ r) (10%N :: r).
Proof.
  intros Hw. assert (HW : Forall2 (placed_member 1) (map (fun '(k, d) => (k, plain d)) ms) (map (fun '(k, d) => tab 1 ++ QUOTE :: k ++ QUOTE :: COLON :: vtext pr 1 d) ms)).
  { unfold plain_item in Hw. cbn [seated] in Hw. induction ms as [|[k d] ms IH2]; cbn in *; constructor; [|apply IH2, Hw]. exists (vtext pr 1 d). split; [apply Hw|]. split; [apply ddb_placed, Hw|reflexivity]. }
  pose proof (object_placed 1 _ _ nl HW nl_spaces false (10%N :: r) eq_refl ltac:(left; discriminate)) as H. unfold D2nProofs.root_text, D2nProofs.fields. revert H. flat. auto.
Qed.
Lemma items_laid (l : list (list (bytes * ddb))) : Forall (fun ms => seated P (plain_item ms)) l -> documents P (map plain_item l) (List.concat (map (D2nProofs.root_text pr) l)).
Proof.
  intros H. assert (HW : forall w, spaces w -> documents P (map plain_item l) (w ++ List.concat (map (D2nProofs.root_text pr) l))); [|apply (HW []); constructor].
  induction H as [|ms l Hm _ IH]; intros w Hw.
  - cbn. rewrite app_nil_r. constructor. exact Hw.
  - cbn [map List.concat]. apply docs_more with (r := 10%N :: List.concat (map (D2nProofs.root_text pr) l)).
    + eexists w, _. split; [reflexivity|]. split; [exact Hw|]. apply item_placed, Hm.
    + apply (IH [10%N]). constructor; [cbv; auto|constructor].
Qed.
End Layout.

(** ** The way there and back *)
Lemma seated_short c clean pad v : seated (layout (tight (Filling c clean pad) false)) v -> seated (short_layout c clean pad) v.
Proof.
  induction v as [v Ha|vs IH|ms IH] using json_induction; cbn [tight layout seated].
  - destruct v; try contradiction Ha; auto. cbn [seated filling_layout short_layout number_ok]. intros (H & H'). split; [exact H|]. intros r Hr. specialize (H' r Hr). destruct H'. split; [lia|assumption].
  - intros H. induction IH as [|v vs Hv _ IH2]; cbn [fold_right] in *; [exact I|]. split; [apply Hv, H|apply IH2, H].
  - intros H. induction IH as [|[k v] ms Hv _ IH2]; cbn [fold_right] in *; [exact I|]. destruct H as ((H1 & H2) & H3 & H4). split; [split; [exact H1|]|split; [apply Hv, H3|apply IH2, H4]].
    cbn [key_ok short_layout filling_layout] in *. lia.
Qed.
Lemma seated_wf P d : seated P (plain d) -> well_formed d.
Proof.
  induction d as [d Hl|l IH|ms IH] using ddb_induction; intros Hw.
  - destruct d as [t|t|t|b| |l|l|l|l|ms]; try contradiction Hl; cbn in *; try apply Hw; try exact I;
      induction l as [|x l IH]; cbn in *; constructor; try apply Hw; apply IH, Hw.
  - cbn in *. induction IH as [|d l Hd _ IH2]; cbn in *; [exact I|]. split; [apply Hd, Hw|apply IH2, Hw].
  - cbn in *. induction IH as [|[k d] ms Hd _ IH2]; cbn in *; [exact I|]. split; [split; [apply Hw|apply Hd, Hw]|apply IH2, Hw].
Qed.
Lemma seated_wf_item P ms : seated P (plain_item ms) -> well_formed_item ms.
Proof.
  unfold plain_item, well_formed_item. cbn [seated]. induction ms as [|[k d] ms IH]; cbn; intros H; constructor; [split; [apply H|eapply seated_wf, H]|apply IH, H].
Qed.
Lemma typed_plain d : expressible d -> typed (plain d) = ddb_json d.
Proof.
  induction d as [d Hl|l IH|ms IH] using ddb_induction; intros He.
  - destruct d as [t|t|t|b| |l|l|l|l|ms]; try contradiction Hl; try contradiction He; try reflexivity. destruct b; reflexivity.
  - cbn in *. rewrite map_map. do 3 f_equal. f_equal. induction IH as [|d l Hd _ IH2]; cbn in *; [reflexivity|]. f_equal; [apply Hd, He|apply IH2, He].
  - cbn in *. rewrite map_map. do 3 f_equal. f_equal. induction IH as [|[k d] ms Hd _ IH2]; cbn in *; [reflexivity|]. f_equal; [f_equal; apply Hd, He|apply IH2, He].
Qed.
Lemma record_plain wr ms : Forall (fun '(_, d) => expressible d) ms -> record wr (plain_item ms) = item_json wr ms.
Proof.
  intros H. unfold record, plain_item, item_json. rewrite map_map.
  assert (HE : map (fun x => let '(k, v) := let '(k, d) := x in (k, plain d) in (k, typed v)) ms = map (fun '(k, d) => (k, ddb_json d)) ms).
  { induction H as [|[k d] ms Hd _ IH]; [reflexivity|]. cbn [map]. rewrite (typed_plain _ Hd), IH. reflexivity. }
  rewrite HE. reflexivity.
Qed.
Lemma there_and_back m1 m2 (ws : item_stream) rd1 rb1 xb1 rd2 rb2 xb2 pr1 pr2 wr mode : sane m1 -> sane m2 -> may_fail m1 = false -> readable m2 pr1 ->
  Forall (fit mode) ws -> let vs := map (fun x => plain_item (snd x)) ws in
  Forall ordinary vs -> Forall (numbers_within 32) vs -> Forall (seated (layout (tight m2 pr1))) vs ->
  start m1 (rj_new rd1 rb1) -> documents (layout m1) (map item_of ws) (src rd1) -> d2n_room xb1 (map item_of ws) -> n2d_room xb2 vs ->
  exists text, eventually (fun fuel => convert_ddb_to_normal fuel rd1 (mkWriter [] None) rb1 xb1 pr1 mode) (Done (mkWriter text None, Ok tt)) /\
    (src rd2 = text -> start m2 (rj_new rd2 rb2) ->
     exists out, eventually (fun fuel => convert_normal_to_ddb fuel rd2 (mkWriter [] None) rb2 xb2 pr2 wr) (Done (mkWriter out None, Ok tt)) /\
       documents any_layout (map (record wr) vs) out /\ (pr2 = false -> out = lines (map (record wr) vs))).
Proof.
  intros HM1 HM2 HE HR Hf vs Ho Hn Hsu HS1 HD1 Hr1 Hr2. exists (d2n_text pr1 ws). split; [apply (d2n_plain m1); auto|]. intros Ht HS2.
  assert (HD2 : documents (layout m2) vs (src rd2)).
  { rewrite Ht. unfold vs, d2n_text. rewrite <- (map_map snd plain_item). unfold vs in Hsu. rewrite <- (map_map snd plain_item) in Hsu. rewrite Forall_map in Hsu.
    destruct m2 as [c cl|c| |c cl pad]; [| |contradiction|destruct pr1].
    - destruct HR as (Hc & ->). apply items_laid; [|exact Hsu]; cbn [layout chunk_layout key_ok open_ok].
      intros b l Hl. right. destruct (Hl eq_refl) as (x & q & -> & Hsp). auto.
    - apply items_laid; [|exact Hsu]; intros; exact I.
    - cbn in HR. apply items_laid; [|exact Hsu]; cbn [layout filling_layout key_ok open_ok].
      intros b l Hl. right. left. destruct (Hl eq_refl) as (x & q & -> & Hsp). auto.
    - apply short_documents. apply items_laid; [intros; exact I|].
      revert Hsu. apply Forall_impl. intros ms. apply seated_short. }
  destruct (n2d_correct m2 vs rd2 (mkWriter [] None) rb2 xb2 pr2 wr) as (out & w' & H1 & H2 & H3 & H4); auto.
  - destruct m2; try reflexivity; contradiction.
  - unfold vs. clear. assert (H : forall b, atoms_apart b (map (fun x : bool * list (bytes * ddb) => plain_item (snd x)) ws)); [|apply H].
    induction ws as [|x ws IH]; intros b; [exact I|]. split; [|apply IH]. intros _ [].
  - apply spent_plain in H2. subst w'. exists out. auto.
Qed.
Lemma there_and_back_same m1 m2 (ws : item_stream) rd1 rb1 xb1 rd2 rb2 xb2 pr1 wr mode : sane m1 -> sane m2 -> may_fail m1 = false -> readable m2 pr1 ->
  Forall (fit mode) ws -> let vs := map (fun x => plain_item (snd x)) ws in
  Forall ordinary vs -> Forall (numbers_within 32) vs -> Forall (seated (layout (tight m2 pr1))) vs ->
  Forall (fun x => fst x = wr /\ Forall (fun '(_, d) => expressible d) (snd x)) ws ->
  start m1 (rj_new rd1 rb1) -> documents (layout m1) (map item_of ws) (src rd1) -> d2n_room xb1 (map item_of ws) -> n2d_room xb2 vs ->
  exists text, eventually (fun fuel => convert_ddb_to_normal fuel rd1 (mkWriter [] None) rb1 xb1 pr1 mode) (Done (mkWriter text None, Ok tt)) /\
    (src rd2 = text -> start m2 (rj_new rd2 rb2) ->
     exists out, eventually (fun fuel => convert_normal_to_ddb fuel rd2 (mkWriter [] None) rb2 xb2 false wr) (Done (mkWriter out None, Ok tt)) /\
       out = lines (map item_of ws)).
Proof.
  intros HM1 HM2 HE HR Hf vs Ho Hn Hsu Hex HS1 HD1 Hr1 Hr2.
  destruct (there_and_back m1 m2 ws rd1 rb1 xb1 rd2 rb2 xb2 pr1 false wr mode) as (text & H1 & H2); auto. exists text. split; [exact H1|]. intros Ht HS2.
  destruct (H2 Ht HS2) as (out & H3 & _ & H4). exists out. split; [exact H3|]. rewrite (H4 eq_refl). f_equal. rewrite map_map. apply map_ext_Forall.
  revert Hex. apply Forall_impl. intros [b ms] (<- & He). cbn [fst snd] in *. apply record_plain, He.
Qed.

(** ** The identity transform twice *)
Lemma compact_document m v : readable m false -> seated (layout (tight m false)) v -> (forall n, v <> JNumber n) -> document (layout m) v (compact v) [].
Proof.
  intros HR Hs Hn. exists [], (compact v). split; [reflexivity|]. split; [constructor|]. rewrite <- (app_nil_r (compact v)).
  destruct m as [c cl|c| |c cl pad].
  - destruct HR. discriminate.
  - apply (compact_placed false); [intros; exact I|reflexivity|exact Hs|exact I|right; exact Hn].
  - contradiction.
  - apply short_filling. apply (compact_placed false); [intros; exact I|reflexivity|apply seated_short, Hs|exact I|right; exact Hn].
Qed.
Lemma idt_twice m1 m2 d v r1 p1 l r2 p2 : sane m1 -> sane m2 -> may_fail m1 = false -> readable m2 false ->
  ordinary v -> has_room d v -> seated (layout (tight m2 false)) v -> (forall n, v <> JNumber n) ->
  start m1 r1 -> document (layout m1) v (rest r1) l -> fresh d p1 ->
  exists text r1' p1', eventually (fun fuel => idtransform fuel r1 (mkWriter [] None) p1) (Done (r1', mkWriter text None, p1', Ok tt)) /\
    (rest r2 = text -> start m2 r2 -> fresh d p2 ->
     exists r2' p2', eventually (fun fuel => idtransform fuel r2 (mkWriter [] None) p2) (Done (r2', mkWriter text None, p2', Ok tt)) /\ rest r2' = []).
Proof.
  intros HM1 HM2 HE HR Ho Hr Hs Hn HS1 HD1 Hf1.
  destruct (idt_compact m1 d v r1 (mkWriter [] None) p1 l) as (r1' & w1 & p1' & H1 & H2 & _); auto. apply spent_plain in H2. subst w1.
  exists (compact v), r1', p1'. split; [exact H1|]. intros Ht HS2 Hf2.
  destruct (idt_compact m2 d v r2 (mkWriter [] None) p2 []) as (r2' & w2 & p2' & H3 & H4 & _ & H5); auto.
  - destruct m2; try reflexivity; contradiction.
  - rewrite Ht. apply compact_document; assumption.
  - apply spent_plain in H4. subst w2. exists r2', p2'. auto.
Qed.

(** ** Streams of items *)
Lemma d2n_returns m (ws : item_stream) rd w rb xb pr mode : sane m -> start m (rj_new rd rb) -> documents (layout m) (map item_of ws) (src rd) ->
  277 <= len xb -> Forall (fit mode) ws -> exists w' v n, forall fuel, n <= fuel -> convert_ddb_to_normal fuel rd w rb xb pr mode = Done (w', v).
Proof. intros HM HS HD Hx Hf. destruct (d2n_run' m ws rd w rb xb pr mode HM HS HD Hx Hf) as (w' & v & (n & Hn) & _). exists w', v, n. exact Hn. Qed.
