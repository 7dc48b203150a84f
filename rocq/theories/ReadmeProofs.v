(** Proofs about the example programs of the README files. *)
From Verif Require Import Base U8Pool Buffer BufferSpec Jiter RJiter RJiterSpec Scan ScanSpec IdSpec Readme ReadmeSpec.
From Verif Require Import RJiterLookProofs ScanTokens ScanParser ScanStack ScanProofs ScanTop ScanSse IdProofs Transducer ConvSpec ConvProofs ScanRefine.

(** ** Text from the output of a language model *)
(** The action would read a content that is not a string in its own way; a variant that does not. *)
Definition careful_content : action writer := fun r w =>
  do (r, peeked) <- peek r;
  match peeked with
  | Err _ => Done (r, w, OpError "RJiter error")
  | Ok x =>
      if N.eqb x QUOTE then
        do (r, w, v) <- write_long_bytes r w;
        Done (r, w, match v with Ok _ => ValueIsConsumed | Err _ => OpError "RJiter error" end)
      else Done (r, w, OpError "RJiter error")
  end.
Definition careful_callbacks : callbacks writer := mkCallbacks
  (fun name c w => (w,
     if iter_match [bs "content"] name (names c) then Some careful_content
     else if iter_match [bs "message"] name (names c) then Some on_begin_message
     else None))
  (fun name c w => (w, if iter_match [bs "message"] name (names c) then Some on_end_message else None)).
Lemma careful_stricter : stricter llm_callbacks careful_callbacks.
Proof.
  split; [reflexivity|]. intros name c u. cbn [find_action careful_callbacks llm_callbacks].
  destruct (iter_match [bs "content"] name (names c)); [|destruct (iter_match [bs "message"] name (names c)); auto].
  split; [reflexivity|]. intros r. unfold careful_content, on_content. destruct (peek r) as [[r1 [x|e]]| |]; cbn [obind]; auto.
  destruct (N.eqb x QUOTE); [auto|]. right. eauto.
Qed.

(** What the callbacks write. *)
Definition title : bytes := bs "(new message)" ++ [10%N].
Definition llm_tb (name : pseudoname) (path : list bytes) (v : json) (m : unit) : option (bytes * unit * bool) :=
  match name, path with
  | PNone, k :: _ =>
      if beq (bs "content") k then match v with JString t => Some (t, tt, true) | _ => None end
      else if beq (bs "message") k then Some (title, tt, false) else Some ([], tt, false)
  | _, _ => Some ([], tt, false)
  end.
Definition llm_te (name : pseudoname) (path : list bytes) : @tstep unit := fun _ =>
  match name, path with
  | PNone, k :: _ => if beq (bs "message") k then Some ([10%N], tt) else Some ([], tt)
  | _, _ => Some ([], tt)
  end.
Definition open_writer (w : writer) : Prop := wfail w = None.
Notation llm_behaviour := (transducer (fun w : writer => w) (fun _ => tt) open_writer (fun _ _ => True) false llm_tb llm_te).
Lemma write_open w d : open_writer w -> exists w', write_all w d = (w', Ok tt) /\ spent w d w' /\ open_writer w'.
Proof.
  intros Hw. destruct (write_all_spent w d) as (w' & r & E & H). destruct r as [[]|k].
  - exists w'. split; [exact E|]. split; [exact H|]. exact (spent_open _ _ _ H Hw).
  - exfalso. destruct H as (p & q & _ & _ & Hs & He). apply (spent_open _ _ _ Hs) in Hw. unfold exhausted in He. congruence.
Qed.
Lemma quote_value P b v l r l0 : value_at P b v l r -> l = QUOTE :: l0 ->
  exists t, v = JString t /\ string_text t /\ string_ok P t /\ l = QUOTE :: t ++ QUOTE :: r.
Proof.
  intros H. destruct H; intros E; try discriminate E; [|eauto 6]. exfalso. destruct (number_head _ H) as (x & q & -> & Hn). injection E as -> _. destruct (number_solid _ Hn) as (_ & F). discriminate F.
Qed.
Section Respects.
Context (G0 G : rj -> Prop) (P : profile) (PF : parser_facts G0 G P false).
Lemma llm_respects : respects G P careful_callbacks llm_behaviour.
Proof.
  assert (HN : forall name path v u, llm_tb name path v tt = Some ([], tt, false) -> on_begin llm_behaviour name path v u u (Some OpNone)).
  { intros name path v u H Hg. rewrite H. split; [reflexivity|]. split; [apply spent_refl|auto]. }
  split.
  - intros name b v l r path s u Hname HG Hr Hv Hj. cbn [find_action careful_callbacks names].
    destruct name; try contradiction Hname; cbn [iter_match]; apply HN; reflexivity.
  - intros v w l r path s u HG Hr Hw Hv. cbn [find_action careful_callbacks names iter_match]. destruct path as [|k path].
    { cbn [match_path]. apply HN. reflexivity. }
    cbn [match_path]. destruct (beq (bs "content") k) eqn:Ec; [|destruct (beq (bs "message") k) eqn:Em].
    + unfold careful_content. destruct (value_head _ _ _ _ _ Hv) as (x & l0 & El & Hx & _).
      destruct (pf_peek _ _ _ _ PF s w x l0 (pf_start _ _ _ _ PF _ HG)) as (s1 & res & -> & Hp); [rewrite Hr, El; reflexivity|exact Hw|exact Hx|].
      cbn [obind]. right. destruct res as [y|e]; [|destruct Hp; discriminate]. destruct Hp as (-> & Hr1 & HG1).
      assert (HB : forall u' op, (forall t, v <> JString t) -> on_begin llm_behaviour PNone (k :: path) v u u' op).
      { intros u' op Ht Hg. cbn [llm_tb]. rewrite Ec. destruct v; auto. elim (Ht _ eq_refl). }
      destruct (N.eqb_spec x QUOTE) as [->|Hq].
      * destruct (quote_value _ _ _ _ _ _ Hv El) as (t & -> & Ht & Ho & El2). clear Hv.
        destruct (pf_string _ _ _ _ PF s1 u t r HG1) as (s2 & w2 & res & p & q & -> & Ept & Hsp & Hres); [congruence|exact Ht|exact Ho|]. cbn [obind].
        eexists _, _, _. split; [reflexivity|]. destruct res as [[]|e].
        -- destruct Hres as (-> & Hr2 & HG2). rewrite app_nil_r in Ept. subst p. split; [|auto]. intros Hg. cbn [llm_tb]. rewrite Ec.
           split; [reflexivity|]. split; [exact Hsp|]. split; [reflexivity|]. exact (spent_open _ _ _ Hsp Hg).
        -- split; [|exact I]. intros Hg. cbn [llm_tb]. rewrite Ec. destruct Hres as [H|(k0 & _ & He & _)]; [discriminate|].
           exfalso. apply (spent_open _ _ _ Hsp) in Hg. unfold exhausted in He. congruence.
      * eexists _, _, _. split; [reflexivity|]. split; [|exact I]. apply HB. intros t ->. inversion Hv; subst. congruence.
    + unfold on_begin_message. change (bs "(new message)" ++ [10%N]) with title. destruct (wfail u) as [f|] eqn:Ef.
      * assert (HB : forall u' op, on_begin llm_behaviour PNone (k :: path) v u u' op) by (intros u' op Hg; unfold open_writer in Hg; congruence).
        destruct (write_all u title) as [u' [y|e]]; cbn [unwrapped]; [right; exists s, u', OpNone; eauto 10|left; split; [reflexivity|exists u; apply HB]].
      * destruct (write_open u title Ef) as (u' & -> & Hs & Ho). cbn [unwrapped]. right. exists s, u', OpNone. split; [reflexivity|]. split; [|eauto].
        intros _. cbn [llm_tb]. rewrite Ec, Em. split; [reflexivity|]. split; [exact Hs|auto].
    + apply HN. cbn [llm_tb]. rewrite Ec, Em. reflexivity.
  - intros name path u Hname. cbn [find_end_action careful_callbacks names].
    assert (HE : llm_te name path tt = Some ([], tt) -> on_end llm_behaviour name path u u (Some (Ok tt))).
    { intros H Hg. rewrite H. split; [apply spent_refl|auto]. }
    destruct name; try (apply HE; reflexivity). cbn [iter_match]. destruct path as [|k path]; [apply HE; reflexivity|]. cbn [match_path].
    destruct (beq (bs "message") k) eqn:Em; [|apply HE; cbn [llm_te]; rewrite Em; reflexivity].
    unfold on_end_message. destruct (wfail u) as [f|] eqn:Ef.
    + assert (HB : forall u' e, on_end llm_behaviour PNone (k :: path) u u' e) by (intros u' e Hg; unfold open_writer in Hg; congruence).
      destruct (write_all u [10%N]) as [u' [y|e]]; cbn [unwrapped]; [right; exists u', (Ok tt); auto|left; split; [reflexivity|exists u; apply HB]].
    + destruct (write_open u [10%N] Ef) as (u' & -> & Hs & Ho). cbn [unwrapped]. right. exists u', (Ok tt). split; [reflexivity|].
      intros _. cbn [llm_te]. rewrite Em. split; [exact Hs|auto].
Qed.
End Respects.

Notation run_value := (Transducer.run_value llm_tb llm_te).
Notation run_items := (Transducer.run_items llm_tb llm_te).
Notation run_members := (Transducer.run_members llm_tb llm_te).
Lemma beq_flip a b : beq a b = beq b a.
Proof.
  destruct (beq a b) eqn:E.
  - apply beq_eq in E. subst. symmetry. apply beq_eq. reflexivity.
  - destruct (beq b a) eqn:E2; [|reflexivity]. apply beq_eq in E2. subst. rewrite (proj2 (beq_eq a a) eq_refl) in E. discriminate.
Qed.
Lemma run_said v : chatty v -> forall path, run_value path v tt = Some (said v, tt).
Proof.
  induction v as [v Ha|vs IH|ms IH] using json_induction; intros Hc path.
  - destruct v; try contradiction Ha; reflexivity.
  - rewrite run_array. cbn [llm_tb]. unfold t_then at 1. cbn [chatty said] in *.
    assert (HI : forall path, run_items path vs tt = Some (List.concat (map said vs), tt)).
    { clear path. intros path. induction IH as [|v vs Hv _ IH2]; [reflexivity|]. cbn [Transducer.run_items fold_right map List.concat] in *. unfold t_then.
      rewrite (Hv (proj1 Hc)), (IH2 (proj2 Hc)). reflexivity. }
    unfold t_then. rewrite HI. cbn [llm_te app]. rewrite app_nil_r. reflexivity.
  - rewrite run_object. cbn [llm_tb]. unfold t_then at 1. cbn [chatty said] in *.
    match goal with |- context [List.concat ?x] => set (text := List.concat x) end.
    assert (HI : forall path, run_members path ms tt = Some (text, tt)).
    { subst text. clear path. intros path. induction IH as [|[k v] ms Hv _ IH2]; [reflexivity|]. cbn [Transducer.run_members fold_right map List.concat] in *. destruct Hc as (Hk & Hc).
      specialize (IH2 Hc). unfold t_then at 1. unfold run_member, t_begin. cbn [llm_tb]. rewrite (beq_flip (bs "content") k), (beq_flip (bs "message") k).
      destruct (beq k (bs "content")) eqn:Ek.
      - destruct Hk as (t & ->). unfold t_then. cbn [llm_te]. assert (beq (bs "message") k = false) as ->; [|rewrite IH2, app_nil_r; reflexivity].
        apply beq_eq in Ek. subst k. reflexivity.
      - destruct (beq k (bs "message")) eqn:Em; unfold t_then; rewrite (Hv Hk); cbn [llm_te]; rewrite (beq_flip (bs "message") k), Em, IH2.
        + unfold title. do 3 (cbn [app]; rewrite <- ?app_assoc). reflexivity.
        + rewrite app_nil_r. reflexivity. }
    unfold t_then. rewrite HI. cbn [llm_te app]. rewrite app_nil_r. reflexivity.
Qed.
Lemma run_all_said vs : Forall chatty vs -> forall path, run_items path vs tt = Some (List.concat (map said vs), tt).
Proof.
  intros H path. induction H as [|v vs Hv _ IH]; [reflexivity|]. cbn [Transducer.run_items map List.concat]. unfold t_then. rewrite (run_said v Hv), IH. reflexivity.
Qed.

Lemma llm_output m vs json : sane m -> may_fail m = false -> start m (rj_new (mkReader json []) (repeat 0%N 32)) ->
  sequence llm_tokens (layout m) true vs None json -> Forall chatty vs -> Forall (has_room llm_room) vs ->
  eventually (fun fuel => scan_llm_output fuel json) (Done (List.concat (map said vs))).
Proof.
  intros HM HE HS HD Hc Hr.
  assert (H5 : size_of m = 32) by (destruct m; cbn [start size_of] in *; [destruct HS as (_ & H & _)|destruct HS as (_ & H & _)|destruct HS as (_ & H & _)|destruct HS as ((_ & H & _) & _)]; rewrite <- H; reflexivity).
  destruct (pool_new true (repeat 0%N 512) 20) as [[p|e]| |] eqn:Ep; try (vm_compute in Ep; discriminate).
  assert (HF : fresh llm_room p) by (exists true, (repeat 0%N 512); split; [exact Ep|]; split; reflexivity).
  pose proof (setting_facts m HM) as PF. rewrite HE in PF.
  destruct (prop_tokens careful_callbacks llm_behaviour m llm_room (mkOptions llm_tokens false) true
    (mkS (rj_new (mkReader json []) (repeat 0%N 32)) (mkWriter [] None) p) vs None HM (llm_respects _ _ _ PF) HE eq_refl) as (u & st & Hw & Hout); auto.
  - unfold llm_tokens. repeat constructor; cbn; lia.
  - intros _. split; [reflexivity|]. intros u. repeat split.
  - assert (HN : forall x, st <> Stopped (Denied x)).
    { apply (proj1 (proj2 (walk_accepted _ llm_room false)) _ _ _ _ _ Hw (room_trace _ _ Hr)). }
    apply (proj1 (proj2 (transducer_walk (fun w : writer => w) (fun _ => tt) open_writer (fun _ _ => True) false llm_tb llm_te llm_room))) in Hw.
    specialize (Hw eq_refl _ _ (run_all_said vs Hc _)). cbn [user] in *.
    destruct st as [|why].
    + destruct Hout as (s & (n & Hn) & Hu & _). destruct Hw as (Hw & _). exists n. intros fuel Hf. unfold scan_llm_output. rewrite Ep. cbn [obind].
      rewrite (scan_follows _ _ careful_stricter _ _ _ _ _ (Hn fuel Hf)). cbn [obind unwrapped]. rewrite Hu. apply spent_plain in Hw. rewrite Hw. reflexivity.
    + exfalso. destruct why as [msg| |x|]; cbn [interrupted] in Hw; [|contradiction|elim (HN _ eq_refl)|discriminate].
      destruct Hw as [Hw|(a & b & k & _ & _ & (w1 & j & Hs & He & _) & _)]; [discriminate|]. pose proof (spent_open _ _ _ Hs eq_refl) as Ho. unfold exhausted in He. congruence.
Qed.
(** The slice fills what it is asked to fill. *)
Lemma llm_output_filled clean pad vs json : (clean = true -> Forall leading json) -> indented pad json ->
  sequence llm_tokens (filling_layout 32 clean pad) true vs None json -> Forall chatty vs -> Forall (has_room llm_room) vs ->
  eventually (fun fuel => scan_llm_output fuel json) (Done (List.concat (map said vs))).
Proof.
  intros Hl Hi. apply (llm_output (Filling 32 clean pad)); [cbn; lia|reflexivity|].
  split; [|split; [exact Hi|]].
  - split; [unfold valid, wf; cbn; repeat split; repeat constructor; lia|]. split; [reflexivity|]. split; [|reflexivity]. intros Hb.
    split; [vm_compute; repeat constructor|exact (Hl Hb)].
  - intros _. right. right. right. reflexivity.
Qed.
