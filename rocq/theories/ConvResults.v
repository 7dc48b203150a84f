(** Proofs of the properties of the converters. *)
From Verif Require Import Base U8Pool Buffer BufferSpec Jiter RJiter RJiterSpec Scan ScanSpec IdSpec DdbSpec Conv NormalToDdb DdbToNormal ConvSpec.
From Verif Require Import RJiterLookProofs ScanTokens ScanParser ScanStack ScanProofs ScanTop ScanSse IdProofs Transducer ConvProofs N2dProofs D2nProofs.

(** ** Values that have been read *)
Lemma read_suits P :
  (forall b v l r, value_at P b v l r -> suits any_layout v) /\
  (forall vs l r, items_at P vs l r -> Forall (suits any_layout) vs) /\
  (forall ms l r, members_at P ms l r -> Forall (fun '(k, v) => string_text k /\ suits any_layout v) ms).
Proof.
  assert (HA : forall vs, Forall (suits any_layout) vs -> suits any_layout (JArray vs)) by (intros vs H; induction H; cbn; auto).
  assert (HO : forall ms, Forall (fun '(k, v) => string_text k /\ suits any_layout v) ms -> suits any_layout (JObject ms)).
  { intros ms H. induction H as [|[k v] ms (Hk & Hv) _ IH]; cbn; auto. }
  apply grammar_ind; intros; try (cbn; auto; fail).
  - apply HA. constructor; assumption.
  - apply HO. constructor; auto.
Qed.
Lemma documents_suits P vs l : documents P vs l -> Forall (suits any_layout) vs.
Proof. induction 1 as [|v vs l r (w & l' & _ & _ & Hv) _ IH]; constructor; [eapply (proj1 (read_suits P)), Hv|exact IH]. Qed.

(** Short keys may follow an opening brace directly. *)
Definition short_layout (c : nat) (clean : bool) (pad : nat) : profile :=
  mkProfile (fun k w => len k + len w + 4 + pad < c) (filled_text clean) (fun t r => len t < c /\ r <> []) (fun _ _ => True) (fun l => ~ opening l).
Lemma short_filling c clean pad :
  let P := short_layout c clean pad in let Q := filling_layout c clean pad in
  (forall b v l r, value_at P b v l r -> value_at Q b v l r) /\
  (forall vs l r, items_at P vs l r -> items_at Q vs l r) /\
  (forall ms l r, members_at P ms l r -> members_at Q ms l r).
Proof.
  cbv zeta. apply grammar_ind; intros; try (constructor; assumption).
  - eapply at_array; eassumption.
  - constructor; [assumption|]. right. left. destruct w as [|x w]; [right; reflexivity|left]. inversion H; assumption.
  - eapply at_object; try eassumption; cbn [key_ok short_layout filling_layout] in *; [lia|]. right. destruct w as [|x w].
    + right. exists k, w1, (w2 ++ l). auto.
    + left. left. inversion H; assumption.
  - eapply items_more; eassumption.
  - eapply members_more; try eassumption. cbn [key_ok short_layout filling_layout] in *. lia.
Qed.
Lemma short_documents c clean pad vs l : documents (short_layout c clean pad) vs l -> documents (filling_layout c clean pad) vs l.
Proof.
  induction 1 as [|v vs l r (w & l' & -> & Hw & Hv) _ IH]; econstructor; eauto. exists w, l'. split; [reflexivity|]. split; [exact Hw|].
  apply (proj1 (short_filling c clean pad)), Hv.
Qed.

(** ** To DynamoDB *)
Lemma roots_any pr wr vs : Forall (suits any_layout) vs -> Forall (numbers_within 32) vs ->
  documents any_layout (map (record wr) vs) (List.concat (map (N2dProofs.root_text pr wr) vs)).
Proof. intros. apply roots_laid; auto; intros; exact I. Qed.
Lemma n2d_correct m vs rd w rb xb pr wr : sane m -> may_fail m = false -> start m (rj_new rd rb) -> documents (layout m) vs (src rd) ->
  n2d_room xb vs -> Forall ordinary vs -> atoms_apart false vs -> Forall (numbers_within 32) vs -> wfail w = None ->
  exists text w', eventually (fun fuel => convert_normal_to_ddb fuel rd w rb xb pr wr) (Done (w', Ok tt)) /\ spent w text w' /\
    documents any_layout (map (record wr) vs) text /\ (pr = false -> text = lines (map (record wr) vs)).
Proof.
  intros HM HE HS HD (Hx & Hr) Ho Ha Hn Hw. exists (List.concat (map (N2dProofs.root_text pr wr) vs)). destruct (n2d_converts m vs rd w rb xb pr wr) as (w' & Hev & Hs); auto. exists w'. split; [exact Hev|]. split; [exact Hs|]. split.
  - apply roots_any; [eapply documents_suits, HD|exact Hn].
  - intros ->. apply roots_compact, Hn.
Qed.

(** Numbers are cut. *)
Definition clipped (v : json) : Prop := forall pr n, N2dProofs.inner pr n v = N2dProofs.inner pr n (clip 32 v).
Lemma inner_clip v : clipped v.
Proof.
  induction v as [v Hv|vs IH|ms IH] using json_induction; intros pr n.
  - destruct v; try contradiction Hv; try reflexivity. cbn [clip N2dProofs.inner atom_text]. rewrite firstn_firstn. reflexivity.
  - cbn [clip N2dProofs.inner]. rewrite map_map. do 4 f_equal. f_equal. apply map_ext_Forall. revert IH. apply Forall_impl. intros v Hv. rewrite Hv. reflexivity.
  - cbn [clip N2dProofs.inner]. rewrite map_map. do 4 f_equal. f_equal. apply map_ext_Forall. revert IH. apply Forall_impl. intros [k v] Hv. cbn [snd] in Hv. rewrite Hv. reflexivity.
Qed.
Lemma root_clip pr wr v : N2dProofs.root_text pr wr v = N2dProofs.root_text pr wr (clip 32 v).
Proof.
  pose proof (inner_clip v pr 0) as H. destruct v as [| | |t|t|vs|ms]; cbn [clip] in *; unfold N2dProofs.root_text in *; try reflexivity; try (rewrite H; reflexivity).
  assert (HF : forall n p, N2dProofs.fields pr n p ms = N2dProofs.fields pr n p (map (fun '(k, v) => (k, clip 32 v)) ms)).
  { intros n p. unfold N2dProofs.fields. rewrite map_map. f_equal. apply map_ext. intros [k v]. rewrite (inner_clip v). reflexivity. }
  rewrite !HF. reflexivity.
Qed.
Lemma clip_within n v : numbers_within n (clip n v).
Proof.
  induction v as [v Hv|vs IH|ms IH] using json_induction.
  - destruct v; try contradiction Hv; try exact I. cbn [clip numbers_within]. rewrite firstn_length. lia.
  - cbn [clip numbers_within]. induction IH; cbn; auto.
  - cbn [clip numbers_within]. induction IH as [|[k v] ms Hv _ IH2]; cbn; auto.
Qed.
Lemma n2d_clips m vs rd w rb xb wr : sane m -> may_fail m = false -> start m (rj_new rd rb) -> documents (layout m) vs (src rd) ->
  n2d_room xb vs -> Forall ordinary vs -> atoms_apart false vs -> wfail w = None ->
  exists w', eventually (fun fuel => convert_normal_to_ddb fuel rd w rb xb false wr) (Done (w', Ok tt)) /\
    spent w (lines (map (record wr) (map (clip 32) vs))) w'.
Proof.
  intros HM HE HS HD (Hx & Hr) Ho Ha Hw. rewrite <- roots_compact.
  2: { apply Forall_map. apply Forall_forall. intros v _. apply clip_within. }
  rewrite map_map. rewrite <- (map_ext _ _ (root_clip false wr)). eapply n2d_converts; eassumption.
Qed.

Lemma n2d_plain m vs rd rb xb pr wr : sane m -> may_fail m = false -> start m (rj_new rd rb) -> documents (layout m) vs (src rd) ->
  141 <= len xb -> Forall ordinary vs -> atoms_apart false vs -> Forall (has_room (n2d_dims xb)) vs ->
  eventually (fun fuel => convert_normal_to_ddb fuel rd (mkWriter [] None) rb xb pr wr) (Done (mkWriter (List.concat (map (N2dProofs.root_text pr wr) vs)) None, Ok tt)).
Proof. intros. destruct (n2d_converts m vs rd (mkWriter [] None) rb xb pr wr) as (w' & Hev & Hs); auto. apply spent_plain in Hs. subst w'. exact Hev. Qed.

(** ** Writers that fail *)
Lemma cut_prefix w n k text w' k' : wcap w = 0 -> wfail w = Some (n, k) -> cut_off w text w' k' -> k' = k /\ written w' = written w ++ firstn n text /\ (n <? len text) = true.
Proof.
  intros Hcap Hw (a & b & -> & Hb & Hs). pose proof (worn_exhausted _ _ _ _ Hs) as Hx. apply worn_plain in Hs; [|exact Hcap].
  destruct (spent_budget _ _ _ _ _ Hs Hcap Hw) as (Hn & Hk). destruct Hs as (Hs & _). unfold exhausted in Hx. rewrite Hk in Hx. injection Hx as Hz <-.
  assert (n = len a) as -> by lia. rewrite firstn_app, Nat.sub_diag, firstn_all, app_nil_r. split; [reflexivity|]. split; [exact Hs|].
  rewrite app_length. destruct b; [contradiction|]. apply Nat.ltb_lt. cbn. lia.
Qed.
Lemma spent_prefix w n k text w' : wcap w = 0 -> wfail w = Some (n, k) -> spent w text w' -> written w' = written w ++ firstn n text /\ (n <? len text) = false.
Proof.
  intros Hcap Hw Hs. destruct (spent_budget _ _ _ _ _ Hs Hcap Hw) as (Hn & _). destruct Hs as (Hs & _). rewrite firstn_all2 by exact Hn. split; [exact Hs|]. apply Nat.ltb_ge, Hn.
Qed.
Lemma n2d_writer m vs rd w rb xb pr wr n k : sane m -> may_fail m = false -> start m (rj_new rd rb) -> documents (layout m) vs (src rd) ->
  n2d_room xb vs -> Forall ordinary vs -> atoms_apart false vs -> wcap w = 0 -> wfail w = Some (n, k) ->
  exists text w' v, eventually (fun fuel => convert_normal_to_ddb fuel rd (mkWriter [] None) rb xb pr wr) (Done (mkWriter text None, Ok tt)) /\
    eventually (fun fuel => convert_normal_to_ddb fuel rd w rb xb pr wr) (Done (w', v)) /\
    written w' = written w ++ firstn n text /\
    if n <? len text then exists e i, v = Err (e, i) /\ ((exists x, e = CIo k x) \/ exists msg j, e = CScan (ActionError msg j)) else v = Ok tt.
Proof.
  intros HM HE HS HD (Hx & Hr) Ho Ha Hcap Hw. destruct (n2d_run m vs rd w rb xb pr wr HM HE HS HD Hx Ho Ha) as (w' & v & Hev & H). cbv zeta in H.
  exists (List.concat (map (N2dProofs.root_text pr wr) vs)), w', v. split; [apply (n2d_plain m); auto|]. split; [exact Hev|].
  destruct v as [[]|[e i]].
  - destruct (spent_prefix _ _ _ _ _ Hcap Hw H) as (H1 & ->). auto.
  - destruct H as [(k' & Hc & He)|(H & _)]; [|contradiction]. destruct (cut_prefix _ _ _ _ _ _ Hcap Hw Hc) as (-> & H1 & ->). split; [exact H1|]. eauto.
Qed.

Lemma n2d_ends m vs rd w rb xb pr wr : sane m -> may_fail m = false -> start m (rj_new rd rb) -> documents (layout m) vs (src rd) ->
  141 <= len xb -> Forall ordinary vs -> atoms_apart false vs ->
  exists w' v, eventually (fun fuel => convert_normal_to_ddb fuel rd w rb xb pr wr) (Done (w', v)) /\
    (v = Ok tt \/ (exists k, exhausted w' k) \/ ~ n2d_room xb vs).
Proof.
  intros HM HE HS HD Hx Ho Ha. destruct (n2d_run m vs rd w rb xb pr wr HM HE HS HD Hx Ho Ha) as (w' & v & Hev & H). cbv zeta in H.
  exists w', v. split; [exact Hev|]. destruct v as [[]|[e i]]; [auto|]. right. destruct H as [(k & (a & b & _ & _ & Hk) & _)|(H & _)]; [left; exists k; eapply worn_exhausted, Hk|].
  right. intros (_ & Hr). contradiction.
Qed.
Lemma n2d_independent pr wr : exists convert_one : json -> bytes,
  forall m vs rd w rb xb, sane m -> may_fail m = false -> start m (rj_new rd rb) -> documents (layout m) vs (src rd) ->
    n2d_room xb vs -> Forall ordinary vs -> atoms_apart false vs -> wfail w = None ->
    exists w', eventually (fun fuel => convert_normal_to_ddb fuel rd w rb xb pr wr) (Done (w', Ok tt)) /\
      spent w (List.concat (map convert_one vs)) w'.
Proof. exists (N2dProofs.root_text pr wr). intros m vs rd w rb xb HM HE HS HD (Hx & Hr) Ho Ha Hw. eapply n2d_converts; eassumption. Qed.

(** ** From DynamoDB *)
Lemma items_eq ws : map (fun '(wrapped, ms) => item_json wrapped ms) ws = map item_of ws.
Proof. apply map_ext. intros []. reflexivity. Qed.
Lemma texts_eq pr (ws : item_stream) : map (fun '(_, ms) => D2nProofs.root_text pr ms) ws = map (D2nProofs.root_text pr) (map snd ws).
Proof. rewrite map_map. apply map_ext. intros []. reflexivity. Qed.
Lemma items_compact (l : list (list (bytes * ddb))) : List.concat (map (D2nProofs.root_text false) l) = lines (map plain_item l).
Proof. induction l as [|ms l IH]; [reflexivity|]. unfold lines in *. cbn [map List.concat]. rewrite item_compact, IH. reflexivity. Qed.
Definition d2n_text (pr : bool) (ws : item_stream) : bytes := List.concat (map (D2nProofs.root_text pr) (map snd ws)).
Lemma d2n_text_facts pr (ws : item_stream) : Forall (fun x => well_formed_item (snd x)) ws ->
  documents any_layout (map (fun x => plain_item (snd x)) ws) (d2n_text pr ws) /\ (pr = false -> d2n_text pr ws = lines (map (fun x => plain_item (snd x)) ws)).
Proof.
  intros Hw. rewrite <- (map_map snd plain_item). split; [|intros ->; apply items_compact]. apply items_laid. apply Forall_map. exact Hw.
Qed.
Lemma fit_eq mode (ws : item_stream) : Forall (fit mode) ws -> Forall (fun '(wrapped, ms) => convertible_item ms /\ agrees mode wrapped ms) ws.
Proof. apply Forall_impl. intros []. auto. Qed.
Lemma d2n_run' m (ws : item_stream) rd w rb xb pr mode : sane m -> start m (rj_new rd rb) -> documents (layout m) (map item_of ws) (src rd) ->
  277 <= len xb -> Forall (fit mode) ws ->
  exists w' v, eventually (fun fuel => convert_ddb_to_normal fuel rd w rb xb pr mode) (Done (w', v)) /\
    match v with
    | Ok _ => spent w (d2n_text pr ws) w'
    | Err (e, _) =>
        may_fail m = true \/
        (exists k, cut_off w (d2n_text pr ws) w' k /\ exists x, e = CIo k x \/ e = CRJiter (IoError k) x) \/
        (~ Forall (has_room (pool_dims 68 xb)) (map item_of ws) /\ exists a b, d2n_text pr ws = a ++ b /\ spent w a w')
    end.
Proof.
  intros HM HS HD Hx Hf. rewrite <- items_eq in HD. destruct (d2n_run m ws rd w rb xb pr mode HM HS HD Hx (fit_eq _ _ Hf)) as (w' & v & Hev & H).
  cbv zeta in H. rewrite items_eq, texts_eq in H. exists w', v. split; [exact Hev|]. exact H.
Qed.
Lemma d2n_correct m (ws : item_stream) rd w rb xb pr mode : sane m -> may_fail m = false -> start m (rj_new rd rb) -> documents (layout m) (map item_of ws) (src rd) ->
  d2n_room xb (map item_of ws) -> Forall (fit mode) ws -> wfail w = None ->
  exists w', eventually (fun fuel => convert_ddb_to_normal fuel rd w rb xb pr mode) (Done (w', Ok tt)) /\ spent w (d2n_text pr ws) w'.
Proof.
  intros HM HE HS HD (Hx & Hr) Hf Hw. destruct (d2n_run' m ws rd w rb xb pr mode HM HS HD Hx Hf) as (w' & v & Hev & H). destruct v as [[]|[e i]].
  - eauto.
  - destruct H as [H|[(k & (a & b & _ & _ & Hs) & _)|(H & _)]]; [congruence| |contradiction]. elim (worn_open _ _ _ _ Hs Hw).
Qed.
Lemma d2n_plain m (ws : item_stream) rd rb xb pr mode : sane m -> may_fail m = false -> start m (rj_new rd rb) -> documents (layout m) (map item_of ws) (src rd) ->
  d2n_room xb (map item_of ws) -> Forall (fit mode) ws ->
  eventually (fun fuel => convert_ddb_to_normal fuel rd (mkWriter [] None) rb xb pr mode) (Done (mkWriter (d2n_text pr ws) None, Ok tt)).
Proof. intros. destruct (d2n_correct m ws rd (mkWriter [] None) rb xb pr mode) as (w' & Hev & Hs); auto. apply spent_plain in Hs. subst w'. exact Hev. Qed.
Lemma d2n_stream m (ws : item_stream) rd w rb xb pr mode : sane m -> may_fail m = false -> start m (rj_new rd rb) -> documents (layout m) (map item_of ws) (src rd) ->
  d2n_room xb (map item_of ws) -> Forall (fit mode) ws -> Forall (fun x => well_formed_item (snd x)) ws -> wfail w = None ->
  exists text w', eventually (fun fuel => convert_ddb_to_normal fuel rd w rb xb pr mode) (Done (w', Ok tt)) /\ spent w text w' /\
    documents any_layout (map (fun x => plain_item (snd x)) ws) text /\ (pr = false -> text = lines (map (fun x => plain_item (snd x)) ws)).
Proof. intros HM HE HS HD Hr Hf Hwf Hw. exists (d2n_text pr ws). destruct (d2n_correct m ws rd w rb xb pr mode) as (w' & Hev & Hs); auto. exists w'. split; [exact Hev|]. split; [exact Hs|]. apply d2n_text_facts, Hwf. Qed.
Lemma eventually_det {X} (F : nat -> outcome X) x y fuel : eventually F (Done x) -> (forall n, F (fuel + n) = Done y) -> x = y.
Proof. intros (n & H) Hy. specialize (H (fuel + n) ltac:(lia)). rewrite Hy in H. congruence. Qed.
Lemma convert_mono {B} (cb : callbacks B) base slots fuel n rd rb xb u x : convert cb base slots fuel rd rb xb u = Done x -> convert cb base slots (fuel + n) rd rb xb u = Done x.
Proof.
  unfold convert. destruct (pool_new true xb slots) as [[p|e]| |]; cbn [obind]; auto.
  destruct (scan cb (mkOptions [] false) fuel (mkS (rj_new rd rb) u p)) as [[s v]| |] eqn:E; cbn [obind]; try discriminate.
  rewrite (scan_mono cb _ n fuel _ _ E) by discriminate. auto.
Qed.
Lemma d2n_mono fuel n rd w rb xb pr mode x : convert_ddb_to_normal fuel rd w rb xb pr mode = Done x -> convert_ddb_to_normal (fuel + n) rd w rb xb pr mode = Done x.
Proof.
  unfold convert_ddb_to_normal. destruct (convert (d2n_callbacks mode) base 68 fuel rd rb xb (d2n_new w pr)) as [[c v]| |] eqn:E; cbn [obind]; try discriminate.
  rewrite (convert_mono _ _ _ _ n _ _ _ _ _ E). auto.
Qed.
Lemma d2n_honest m (ws : item_stream) rd w rb xb pr mode fuel w' : sane m -> start m (rj_new rd rb) -> documents (layout m) (map item_of ws) (src rd) ->
  277 <= len xb -> Forall (fit mode) ws -> Forall (fun x => well_formed_item (snd x)) ws ->
  convert_ddb_to_normal fuel rd w rb xb pr mode = Done (w', Ok tt) ->
  exists text, written w' = written w ++ text /\ documents any_layout (map (fun x => plain_item (snd x)) ws) text /\
    (pr = false -> text = lines (map (fun x => plain_item (snd x)) ws)).
Proof.
  intros HM HS HD Hx Hf Hwf Hrun. destruct (d2n_run' m ws rd w rb xb pr mode HM HS HD Hx Hf) as (w2 & v & Hev & H).
  pose proof (eventually_det _ _ _ fuel Hev (fun n => d2n_mono _ n _ _ _ _ _ _ _ Hrun)) as E. injection E as -> ->.
  exists (d2n_text pr ws). split; [apply H|apply d2n_text_facts, Hwf].
Qed.
Lemma d2n_writer m (ws : item_stream) rd w rb xb pr mode n k : sane m -> may_fail m = false -> start m (rj_new rd rb) -> documents (layout m) (map item_of ws) (src rd) ->
  d2n_room xb (map item_of ws) -> Forall (fit mode) ws -> wcap w = 0 -> wfail w = Some (n, k) ->
  exists text w' v, eventually (fun fuel => convert_ddb_to_normal fuel rd (mkWriter [] None) rb xb pr mode) (Done (mkWriter text None, Ok tt)) /\
    eventually (fun fuel => convert_ddb_to_normal fuel rd w rb xb pr mode) (Done (w', v)) /\
    written w' = written w ++ firstn n text /\
    if n <? len text then exists x i, v = Err (CIo k x, i) \/ v = Err (CRJiter (IoError k) x, i) else v = Ok tt.
Proof.
  intros HM HE HS HD (Hx & Hr) Hf Hcap Hw. destruct (d2n_run' m ws rd w rb xb pr mode HM HS HD Hx Hf) as (w' & v & Hev & H).
  exists (d2n_text pr ws), w', v. split; [apply (d2n_plain m); auto; split; assumption|]. split; [exact Hev|].
  destruct v as [[]|[e i]].
  - destruct (spent_prefix _ _ _ _ _ Hcap Hw H) as (H1 & ->). auto.
  - destruct H as [H|[(k' & Hc & x & He)|(H & _)]]; [congruence| |contradiction]. destruct (cut_prefix _ _ _ _ _ _ Hcap Hw Hc) as (-> & H1 & ->). split; [exact H1|].
    exists x, i. destruct He as [-> | ->]; auto.
Qed.

(** ** There and back *)
Lemma to_ddb_json v : ddb_json (to_ddb v) = typed v.
Proof.
  induction v as [v Hv|vs IH|ms IH] using json_induction.
  - destruct v; try contradiction Hv; reflexivity.
  - cbn. rewrite map_map. do 3 f_equal. f_equal. apply map_ext_Forall. exact IH.
  - cbn. rewrite map_map. do 3 f_equal. f_equal. apply map_ext_Forall. revert IH. apply Forall_impl. intros [k v] Hv. cbn [snd] in Hv. rewrite Hv. reflexivity.
Qed.
Lemma to_ddb_plain v : plain (to_ddb v) = v.
Proof.
  induction v as [v Hv|vs IH|ms IH] using json_induction.
  - destruct v; try contradiction Hv; reflexivity.
  - cbn. rewrite map_map. f_equal. rewrite <- (map_id vs) at 2. apply map_ext_Forall. exact IH.
  - cbn. rewrite map_map. f_equal. rewrite <- (map_id ms) at 2. apply map_ext_Forall. revert IH. apply Forall_impl. intros [k v] Hv. cbn [snd] in Hv. rewrite Hv. reflexivity.
Qed.
Lemma to_ddb_wf P v : suits P v -> well_formed (to_ddb v).
Proof.
  induction v as [v Hv|vs IH|ms IH] using json_induction; intros Hs.
  - destruct v; try contradiction Hv; cbn in *; auto; apply Hs.
  - cbn in *. induction IH as [|v vs Hv _ IH2]; cbn in *; [exact I|]. destruct Hs. split; [apply Hv|apply IH2]; assumption.
  - cbn in *. induction IH as [|[k v] ms Hv _ IH2]; cbn in *; [exact I|]. destruct Hs as ((Hk & _) & Hs & Hr). split; [split; [exact Hk|apply Hv, Hs]|apply IH2, Hr].
Qed.
Lemma to_ddb_not_set v : ~ is_set (to_ddb v).
Proof. destruct v; cbn; auto. Qed.
Lemma to_ddb_convertible v : ordinary v -> convertible (to_ddb v).
Proof.
  induction v as [v Hv|vs IH|ms IH] using json_induction; intros Ho.
  - destruct v; try contradiction Hv; exact I.
  - cbn [to_ddb convertible]. split.
    + cbn in Ho. induction IH as [|v vs Hv _ IH2]; cbn in *; [exact I|]. destruct Ho. split; [apply Hv|apply IH2]; assumption.
    + destruct vs as [|v vs]; [exact I|]. cbn [map tl]. clear. induction vs; cbn; [exact I|]. split; [apply to_ddb_not_set|exact IHvs].
  - cbn in *. induction IH as [|[k v] ms Hv _ IH2]; cbn in *; [exact I|]. destruct Ho as (((_ & Hk) & Ho) & Hr). split; [split; [exact Hk|apply Hv, Ho]|apply IH2, Hr].
Qed.
Definition item_form (wr : bool) (v : json) : bool * list (bytes * ddb) := (wr, match v with JObject ms => map (fun '(k, v) => (k, to_ddb v)) ms | _ => [] end).
Lemma item_form_json wr v : is_object v -> item_of (item_form wr v) = record wr v.
Proof.
  destruct v as [| | | | | |ms]; try contradiction. intros _. unfold item_of, item_form, item_json, record. cbn [fst snd]. rewrite map_map.
  assert (H : map (fun x => let '(k, d) := let '(k, v) := x in (k, to_ddb v) in (k, ddb_json d)) ms = map (fun '(k, v) => (k, typed v)) ms).
  { apply map_ext. intros [k v]. rewrite to_ddb_json. reflexivity. }
  rewrite H. reflexivity.
Qed.
Lemma item_form_plain wr v : is_object v -> plain_item (snd (item_form wr v)) = v.
Proof. destruct v as [| | | | | |ms]; try contradiction. intros _. exact (to_ddb_plain (JObject ms)). Qed.
Lemma item_form_wf P wr v : suits P v -> well_formed_item (snd (item_form wr v)).
Proof.
  intros H. destruct v as [| | | | | |ms]; try (constructor; fail). pose proof (to_ddb_wf P _ H) as HW. unfold well_formed_item. cbn in *.
  induction (map (fun '(k, v) => (k, to_ddb v)) ms) as [|[k d] l IH]; [constructor|]. cbn in HW. destruct HW. constructor; auto.
Qed.
Lemma item_form_fit wr mode v : ordinary v -> way_back wr mode v -> fit mode (item_form wr v).
Proof.
  intros Ho Hm. split.
  - destruct v as [| | | | | |ms]; try (constructor; fail). pose proof (to_ddb_convertible _ Ho) as HW. unfold convertible_item. cbn in *.
    induction (map (fun '(k, v) => (k, to_ddb v)) ms) as [|[k d] l IH]; [constructor|]. cbn in HW. destruct HW. constructor; auto.
  - unfold agrees. destruct Hm as [(-> & Hm)|(-> & ->)]; [left|right; split; reflexivity]. split; [reflexivity|]. destruct Hm as [-> |Hm]; [left; reflexivity|right].
    destruct v as [| | | | | |ms]; auto. cbn [item_form snd names_of] in *. rewrite map_map. rewrite (map_ext _ fst); [exact Hm|]. intros []. reflexivity.
Qed.
Lemma suits_short c clean pad v : suits (layout (tight (Filling c clean pad) false)) v -> suits (short_layout c clean pad) v.
Proof.
  induction v as [v Ha|vs IH|ms IH] using json_induction; cbn [tight layout suits].
  - destruct v; try contradiction Ha; auto.
  - intros H. induction IH as [|v vs Hv _ IH2]; cbn [fold_right] in *; [exact I|]. split; [apply Hv, H|apply IH2, H].
  - intros H. induction IH as [|[k v] ms Hv _ IH2]; cbn [fold_right] in *; [exact I|]. destruct H as ((H1 & H2) & H3 & H4). split; [split; [exact H1|]|split; [apply Hv, H3|apply IH2, H4]].
    cbn [key_ok short_layout filling_layout] in *. lia.
Qed.
Lemma round_trip m1 m2 vs rd1 rb1 xb1 rd2 rb2 xb2 pr1 pr2 wr mode : sane m1 -> sane m2 -> may_fail m1 = false -> readable m2 pr1 ->
  Forall is_object vs -> Forall ordinary vs -> Forall (numbers_within 32) vs -> Forall (suits (layout (tight m2 pr1))) vs -> Forall (way_back wr mode) vs ->
  start m1 (rj_new rd1 rb1) -> documents (layout m1) vs (src rd1) -> n2d_room xb1 vs -> d2n_room xb2 (map (record wr) vs) ->
  exists text, eventually (fun fuel => convert_normal_to_ddb fuel rd1 (mkWriter [] None) rb1 xb1 pr1 wr) (Done (mkWriter text None, Ok tt)) /\
    (src rd2 = text -> start m2 (rj_new rd2 rb2) ->
     exists out, eventually (fun fuel => convert_ddb_to_normal fuel rd2 (mkWriter [] None) rb2 xb2 pr2 mode) (Done (mkWriter out None, Ok tt)) /\
       documents any_layout vs out /\ (pr2 = false -> out = lines vs)).
Proof.
  intros HM1 HM2 HE HR Hob Ho Hn Hsu Hwb HS1 HD1 (Hx1 & Hr1) Hr2. exists (List.concat (map (N2dProofs.root_text pr1 wr) vs)). split.
  - apply (n2d_plain m1); auto. clear - Hob. assert (H : forall b, atoms_apart b vs); [|apply H].
    induction Hob as [|v vs Hv _ IH]; intros b; [exact I|]. split; [|apply IH]. intros _ Ha. destruct v; contradiction.
  - intros Ht HS2. set (ws := map (item_form wr) vs).
    assert (Hitems : map item_of ws = map (record wr) vs).
    { unfold ws. rewrite map_map. apply map_ext_Forall. revert Hob. apply Forall_impl. intros v. apply item_form_json. }
    assert (Hplain : map (fun x => plain_item (snd x)) ws = vs).
    { unfold ws. rewrite map_map. rewrite <- (map_id vs) at 2. apply map_ext_Forall. revert Hob. apply Forall_impl. intros v. apply item_form_plain. }
    destruct (d2n_stream m2 ws rd2 (mkWriter [] None) rb2 xb2 pr2 mode) as (out & w' & H1 & H0 & H2); auto.
    + destruct m2; try reflexivity; contradiction.
    + rewrite Hitems, Ht. assert (Hown : forall k, In k own_keys -> len k <= 4) by (intros k Hk; repeat (destruct Hk as [<- |Hk]; [vm_compute; lia|]); contradiction).
      destruct m2 as [c cl|c| |c cl pad]; [| |contradiction|destruct pr1].
      * destruct HR as (Hc & ->). apply roots_laid; auto; cbn [layout chunk_layout key_ok open_ok].
        -- intros b l Hl. right. destruct (Hl eq_refl) as (x & q & -> & Hsp). auto.
        -- intros k Hk. specialize (Hown k Hk). cbn [List.length]. lia.
      * apply roots_laid; auto; intros; exact I.
      * cbn in HR. apply roots_laid; auto; cbn [layout filling_layout key_ok open_ok].
        -- intros b l Hl. right. left. destruct (Hl eq_refl) as (x & q & -> & Hsp). auto.
        -- intros k Hk. specialize (Hown k Hk). cbn [List.length]. lia.
      * cbn in HR. apply short_documents. apply roots_laid; auto; cbn [short_layout key_ok open_ok]; auto.
        -- intros k Hk. specialize (Hown k Hk). cbn [List.length]. lia.
        -- revert Hsu. apply Forall_impl. intros v. apply suits_short.
    + rewrite Hitems. exact Hr2.
    + unfold ws. apply Forall_map. clear - Ho Hwb. induction Ho as [|v vs Hv _ IH]; [constructor|]. inversion Hwb; subst. constructor; [apply item_form_fit|apply IH]; assumption.
    + unfold ws. apply Forall_map. revert Hsu. apply Forall_impl. intros v Hv. eapply item_form_wf, Hv.
    + rewrite Hplain in H2. exists out. apply spent_plain in H0. subst w'. auto.
Qed.

(** ** A literal that is cut short keeps the converter busy forever *)
Definition lit_conv (W : bytes) : conv := mkConv (mkWriter W None) false false None 0 None.
Definition lit_new : pool := match pool_new true (repeat 0%N 200) 34 with Done (Ok p) => p | _ => mkPool 0 0 [] [] end.
Definition lit_pool : pool := match push_assoc lit_new pos_ty [pos_code Top] (bs "#top") with Done (p, _) => p | _ => lit_new end.
Definition lit_first : sverdict conv := scan_iter (n2d_callbacks false) (mkOptions [] false) Top (mkS (rj_new (mkReader (bs "tru ") []) (repeat 0%N 16)) (lit_conv []) lit_pool).
Definition lit_parser : rj := match lit_first with Done (s, _) => parser s | _ => rj_new (mkReader [] []) [] end.
Lemma lit_step W : exists W', scan_iter (n2d_callbacks false) (mkOptions [] false) Top (mkS lit_parser (lit_conv W) lit_pool) = Done (mkS lit_parser (lit_conv W') lit_pool, Continue Top).
Proof. eexists. vm_compute. reflexivity. Qed.
Lemma lit_start : exists W', lit_first = Done (mkS lit_parser (lit_conv W') lit_pool, Continue Top).
Proof. eexists. vm_compute. reflexivity. Qed.
Lemma lit_loop fuel : forall W b, scan_loop (n2d_callbacks false) (mkOptions [] false) fuel b Top (mkS lit_parser (lit_conv W) lit_pool) = Diverge.
Proof.
  induction fuel as [|fuel IH]; intros W b; [reflexivity|]. cbn [scan_loop stop_early]. rewrite Bool.andb_false_r. cbn [andb].
  destruct (lit_step W) as (W' & ->). apply IH.
Qed.
Lemma lit_diverges fuel : convert_normal_to_ddb fuel (mkReader (bs "tru ") []) (mkWriter [] None) (repeat 0%N 16) (repeat 0%N 200) false false = Diverge.
Proof.
  unfold convert_normal_to_ddb, convert. change (pool_new true (repeat 0%N 200) 34) with (Done (Ok lit_new) : outcome (result pool perror)). 
  cbn [obind]. unfold scan. cbn [stack].
  assert (exists x, push_assoc lit_new pos_ty [pos_code Top] (bs "#top") = Done (lit_pool, Ok x)) as (x & E) by (eexists; vm_compute; reflexivity).
  rewrite E. cbn [obind]. cbn [parser user]. destruct fuel as [|fuel]; [reflexivity|]. cbn [scan_loop andb].
  destruct lit_start as (W & H). unfold lit_first, lit_conv in H. unfold conv_new. rewrite H. fold (lit_conv W). rewrite lit_loop. reflexivity.
Qed.
