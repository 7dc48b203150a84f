(** When a conversion to DynamoDB JSON does not end, if the reader does not fail. *)
From Verif Require Import Base U8Pool PoolSpec PoolProofs Buffer BufferSpec Jiter RJiter RJiterSpec Scan ScanSpec IdSpec DdbSpec Conv NormalToDdb ConvSpec EndsSpec.
From Verif Require Import BufferProofs JiterProofs RJiterProofs RJiterIndexProofs RJiterOpProofs RJiterInvProofs RJiterEndProofs RJiterLookProofs ScanTokens ScanParser ScanStack ScanProofs ScanTop ScanSse ScanBalance ScanEnds EndResults IdProofs Transducer ConvProofs N2dProofs ConvResults.
From Verif Require Import SoundSpec SoundParser ScanSound SoundResults ConvSound N2dSound.

(** ** Texts *)
Lemma lax_shorter whole :
  (forall b v l r, lax_value whole b v l r -> len r < len l) /\
  (forall vs l r, lax_items whole vs l r -> len r < len l) /\
  (forall ms l r, lax_members whole ms l r -> len r < len l).
Proof.
  apply lax_ind; intros; repeat (rewrite ?app_length in *; cbn [List.length] in *); try lia; try (cbn; lia).
  match goal with H : number_text _ |- _ => destruct H as (s & i & f & e & -> & _ & Hi & _) end. rewrite !app_length.
  assert (1 <= len i); [|lia]. destruct i; [|cbn; lia]. exfalso. destruct Hi as [Hi|(x & d & Hi & _)]; discriminate.
Qed.
Lemma document_shorter whole b v l r : lax_document whole b v l r -> len r < len l.
Proof. intros (w & l' & -> & _ & H). apply (proj1 (lax_shorter whole)) in H. rewrite app_length. lia. Qed.
Lemma blank_solid x : x = PeekTrue \/ x = PeekFalse \/ x = PeekNull -> ~ blank x.
Proof. intros [-> | [-> | ->]] [H|H]; try discriminate; cbv in H; intuition discriminate. Qed.
Lemma stuck_blanks l : stuck l -> ~ blanks l.
Proof. intros ((x & m & -> & Hx) & _) H. inversion H; subst. eapply blank_solid; eauto. Qed.
Lemma stuck_unread whole b v l r : stuck l -> ~ lax_document whole b v l r.
Proof.
  intros ((x & m & -> & Hx) & Hno) H. pose proof H as (w & l' & E & Hw & Hv).
  destruct w as [|y w]; [|injection E as <- _; inversion Hw; subst; eapply blank_solid; eauto]. cbn in E. subst l'.
  assert (HA : atom v); [|exact (Hno _ _ _ _ HA H)].
  assert (HB : forall j l2, (j = [] \/ (b = true /\ junk j)) -> x :: m = j ++ LBRACE :: l2 -> False).
  { intros j l2 [-> | (_ & [-> | (k & w1 & -> & _)])] E; cbn in E; injection E as -> _; destruct Hx as [Hx|[Hx|Hx]]; discriminate. }
  inversion Hv; subst; cbn; auto; exfalso; try (destruct Hx as [Hx|[Hx|Hx]]; discriminate); eapply HB; eauto.
Qed.
Lemma stuck_cut l : stuck l -> cut_literal l.
Proof.
  intros ((x & m & -> & Hx) & Hno).
  assert (H : forall word v b, atom v -> (forall r, lax_value true b v (word ++ r) r) -> forall r, x :: m <> word ++ r).
  { intros word v b HA Hv r E. apply (Hno true b v r HA). apply document_value. rewrite E. apply Hv. }
  destruct Hx as [-> | [-> | ->]]; [exists (bs "true")|exists (bs "false")|exists (bs "null")]; (split; [cbn; auto|]); (split; [exists m; reflexivity|]).
  - apply (H _ JTrue true I). intros r. constructor.
  - apply (H _ JFalse true I). intros r. constructor.
  - apply (H _ JNull true I). intros r. constructor.
Qed.

(** ** Rounds: up to the next time the scan is at top level *)
Section Rounds.
Context (pr wr whole : bool) (c : nat) (H8 : 8 <= c) (d : dims).
Notation cb := (n2d_callbacks wr).
Notation o0 := (mkOptions [] false).
Notation o1 := (mkOptions [] true).
Notation beh := (exact_transducer cout cmode (cgood pr) (n2d_tb pr wr) (n2d_te pr wr)).
Notation top := [top_entry].
Definition halts (r : rj) : Prop := calmly true false c r /\ stuck (rest r).
Lemma ready_calmly r : ready c true r -> calmly true false c r.
Proof. intros (V & C & Q). split; [split; [exact V|split; [exact C|discriminate]]|auto]. Qed.
Lemma n2d_steady : cooperative c true true true halts (kept wr) cb.
Proof.
  destruct (n2d_cooperative wr c true H8) as [C1 C2 C3 _ _ C6 C7 C8]. constructor; auto.
  - intros name L r u HR Hb. specialize (C3 name L r u HR Hb).
    assert (HL : name <> PNone -> path_of L <> []).
    { intros Hn. destruct L; [|discriminate]. exfalso. destruct name; try congruence; destruct Hb as ([] & _). }
    assert (HV : name <> PNone -> let '(u1, a) := find_action cb name (context_for L) u in forall act, a = Some act -> forall r' u', act r u1 = Done (r', u', ValueIsConsumed) ->
      left r' < left r \/ (name = PAtom /\ halts r')).
    { intros Hn. unfold context_for. replace (List.length L) with (List.length (path_of L)) by apply path_length.
      pose proof (hc_begin _ _ _ _ _ (n2d_heeds pr wr false c H8) name true (path_of L) r u Hn (HL Hn) (ready_calmly r HR) ltac:(discriminate)) as H.
      destruct (find_action cb name _ u) as [u1 [act|]]; [|discriminate]. intros act' E r' u' Ea. injection E as <-. specialize (H _ _ _ Ea).
      destruct H as [(v & _ & _ & _ & _ & H)|(Hname & _ & HG & Hs & _)]; [left; exact (document_shorter _ _ _ _ _ H)|right]. split; [exact Hname|]. split; assumption. }
    destruct (find_action cb name (context_for L) u) as [u1 [act|]]; [|exact C3].
    destruct (act r u1) as [[[r' u'] op]| |] eqn:Ea; [|exact C3|exact C3]. destruct op as [| |m]; [exact C3| |exact I].
    destruct C3 as (A1 & A2 & _ & A4). split; [exact A1|]. split; [exact A2|]. split; [|exact A4]. intros _ Hn. exact (HV Hn _ eq_refl _ _ Ea).
  - intros r r' v ((HA & _) & Hs). apply (stuck_no_step false c ltac:(lia)); assumption.
  - intros r r' v ((HA & _) & Hs). apply (stuck_no_key false c ltac:(lia)); assumption.
Qed.
Lemma iter_same p s : scan_iter cb o0 p s = scan_iter cb o1 p s.
Proof. reflexivity. Qed.
(** From a round of the impatient scan to the patient one. *)
Lemma round_then : forall j pg p s sf v, scan_loop cb o1 j pg p s = Done (sf, v) ->
  (exists z, (pg && pos_eqb p Top)%bool = false /\ (forall k pg', scan_loop cb o0 (j + k) pg' p s = Done (sf, z)) /\ v = z) \/
  (v = Ok tt /\ exists j', j' < j /\ (forall k pg', exists pg2, scan_loop cb o0 (j' + k) pg' p s = scan_loop cb o0 k pg2 Top sf)).
Proof.
  induction j as [|j IH]; intros pg p s sf v E; [discriminate|]. cbn [scan_loop stop_early] in E. rewrite andb_true_r in E.
  destruct (pg && pos_eqb p Top)%bool eqn:Et.
  - right. injection E as <- <-. split; [reflexivity|]. exists 0. split; [lia|]. intros k pg'. apply andb_prop in Et as (_ & Et).
    destruct p; try discriminate. exists pg'. reflexivity.
  - assert (Hstep : forall k pg', scan_loop cb o0 (S k) pg' p s = match scan_iter cb o0 p s with
        | Done (s', Continue p) => scan_loop cb o0 k true p s' | Done (s', Return r) => Done (s', r) | Panic => Panic | Diverge => Diverge end).
    { intros k pg'. cbn [scan_loop stop_early]. rewrite andb_false_r. reflexivity. }
    rewrite <- iter_same in E. destruct (scan_iter cb o0 p s) as [[s1 [p1|r]]| |]; try discriminate.
    + destruct (IH _ _ _ _ _ E) as [(z & _ & H & ->)|(-> & j' & Hj & H)].
      * left. exists z. split; [reflexivity|]. split; [|reflexivity]. intros k pg'. cbn [plus]. rewrite Hstep. apply H.
      * right. split; [reflexivity|]. exists (S j'). split; [lia|]. intros k pg'. cbn [plus]. rewrite Hstep. apply H.
    + left. injection E as <- <-. exists r. split; [reflexivity|]. split; [|reflexivity]. intros k pg'. cbn [plus]. apply Hstep.
Qed.
Definition ends (s : sstate conv) : Prop := exists n x, forall k pg, n <= k -> scan_loop cb o0 k pg Top s = Done x.
Lemma then_speaks {M} (f g : @tstep M) m text m' : (forall x m1, f m = Some (x, m1) -> x <> []) -> t_then f g m = Some (text, m') -> text <> [].
Proof.
  intros Hf H. unfold t_then in H. destruct (f m) as [[x m1]|]; [|discriminate]. destruct (g m1) as [[y m2]|]; [|discriminate]. injection H as <- _.
  specialize (Hf _ _ eq_refl). destruct x; [contradiction|discriminate].
Qed.
Lemma root_speaks v m text m' : atom v -> run_value (n2d_tb pr wr) (n2d_te pr wr) [bs "#top"] v m = Some (text, m') -> text <> [].
Proof.
  intros Hv Ht. assert (H : t_root_literal pr v m = Some (text, m')).
  { destruct v; try contradiction; cbn [run_value n2d_tb] in Ht; change (beq (bs "#top") (bs "#top")) with true in Ht; cbv iota in Ht;
    unfold takes in Ht; destruct (t_root_literal pr _ m) as [[a m1]|]; congruence. }
  apply (then_speaks _ _ _ _ _ (fun x m1 (E : t_then (t_put [LBRACE]) t_deeper m = Some (x, m1)) => ltac:(injection E as <- _; discriminate)) H).
Qed.
Lemma round_ends b u s : open_at d true whole c b top u s -> cgood pr u ->
  ends s \/ exists sf, (ends sf -> ends s) /\ cgood pr (user sf) /\
    ((st d true whole c top (user sf) sf /\ stuck (rest (parser sf)) /\ (exists w, blanks w /\ rest (parser s) = w ++ rest (parser sf)) /\
       exists text, text <> [] /\ spent (cout u) text (cout (user sf))) \/
     (exists v, lax_document whole b v (rest (parser s)) (rest (parser sf)) /\ past d true whole c top (user sf) sf /\
       exists text, spent (cout u) text (cout (user sf)))).
Proof.
  intros Ho Hg. pose proof Ho as ((HB & HQ) & _ & Hu & Hst).
  assert (HR : ready c true (parser s)) by (split; [apply HB|split; [apply HB|intros _; auto]]).
  assert (Hsd : stands (kept wr) d [] Top s).
  { exists []. split; [split; [constructor|reflexivity]|]. split; [exact Hst|]. split; [left; reflexivity|]. cbn. lia. }
  pose proof (loop_goes c true true true halts (kept wr) cb n2d_steady o1 d [] H8 (Forall_nil _) (or_introl eq_refl) (or_introl eq_refl)
    (S (weighs Top (left (parser s)))) false Top s Hsd HR) as HL.
  destruct (scan_loop cb o1 (S (weighs Top (left (parser s)))) false Top s) as [[sf v]| |] eqn:E; cbn [concludes] in HL; [|discriminate|specialize (HL eq_refl); lia].
  clear HL. destruct (round_then _ _ _ _ _ _ E) as [(z & _ & H & ->)|(-> & j' & _ & H)].
  { left. exists (S (weighs Top (left (parser s)))), (sf, z). intros k pg Hk. rewrite <- (H (k - S (weighs Top (left (parser s)))) pg). f_equal. lia. }
  destruct (top_first cb o1 beh d true whole c ltac:(lia) (n2d_heeds pr wr whole c H8) eq_refl sf eq_refl _ b top u s home_top Ho E) as [(_ & _ & z & Hz)|H2].
  { left. exists 1, (z, Ok tt). intros k pg Hk. destruct k as [|k]; [lia|]. cbn [scan_loop stop_early]. rewrite andb_false_r. cbn [andb]. rewrite iter_same, Hz. reflexivity. }
  right. exists sf. split.
  { intros (n & x & Hx). exists (j' + n), x. intros k pg Hk. destruct (H (k - j') pg) as (pg2 & H'). replace (j' + (k - j')) with k in H' by lia. rewrite H'. apply Hx. lia. }
  destruct H2 as [(_ & _ & _ & A4 & A5 & A6 & v & A7 & A8)|(v & A1 & A2 & A3)].
  - apply (proj1 (exact_walk cout cmode (cgood pr) (n2d_tb pr wr) (n2d_te pr wr) _)) in A8. destruct (A8 eq_refl Hg) as (text & m' & Ht & Hs & _ & Hg').
    split; [exact Hg'|]. left. split; [exact A4|]. split; [exact A5|]. split; [exact A6|]. exists text. split; [|exact Hs]. exact (root_speaks _ _ _ _ A7 Ht).
  - apply (proj1 (exact_walk cout cmode (cgood pr) (n2d_tb pr wr) (n2d_te pr wr) _)) in A2. destruct (A2 eq_refl Hg) as (text & m' & Ht & Hs & _ & Hg').
    split; [exact Hg'|]. right. exists v. split; [exact A1|]. split; [exact A3|]. exists text. exact Hs.
Qed.
(** What a writer that fails can still take. *)
Definition room (w : writer) (n : nat) : nat := n + wcap w - len (RJiter.held w).
Lemma spent_room w w' text n k : len (RJiter.held w) <= wcap w -> wfail w = Some (n, k) -> spent w text w' ->
  len (RJiter.held w') <= wcap w' /\ exists n', wfail w' = Some (n', k) /\ room w' n' + len text = room w n.
Proof.
  intros Hh Hf (Hw & Hc & Hh' & a & Hd & H0 & Hn). rewrite Hf in Hn. destruct Hn as (Ha & Hn). specialize (Hh' Hh). split; [lia|].
  exists (n - len a). split; [exact Hn|]. unfold room. rewrite Hc. unfold written in Hw. rewrite Hc in Hw. destruct (Nat.eqb_spec (wcap w) 0) as [E|E].
  - destruct (H0 E) as (-> & ->). lia.
  - rewrite Hd in Hw. apply (f_equal (@List.length byte)) in Hw. rewrite !app_length in Hw. lia.
Qed.
Lemma stuck_open (u : conv) s : st d true whole c top u s -> open_at d true whole c true top u s.
Proof. intros (HG & Hu & Hst). split; [split; [apply after_before, (proj1 HG)|apply (proj2 HG)]|]. split; [discriminate|]. auto. Qed.
Lemma stuck_ends : forall m u s n k, room (cout u) n <= m -> st d true whole c top u s -> stuck (rest (parser s)) -> cgood pr u ->
  len (RJiter.held (cout u)) <= wcap (cout u) -> wfail (cout u) = Some (n, k) -> ends s.
Proof.
  induction m as [m IH] using lt_wf_ind. intros u s n k Hm Hs Hk Hg Hh Hf.
  destruct (round_ends true u s (stuck_open _ _ Hs) Hg) as [H|(sf & He & Hg' & [(A1 & A2 & _ & text & A4 & A5)|(v & Hv & _)])]; [exact H| |].
  - apply He. destruct (spent_room _ _ _ _ _ Hh Hf A5) as (B1 & n' & B2 & B3). destruct text as [|x text]; [contradiction|]. cbn [List.length] in B3.
    apply (IH (room (cout (user sf)) n') ltac:(lia) (user sf) sf n' k (le_n _)); auto.
  - destruct (stuck_unread _ _ _ _ _ Hk Hv).
Qed.
Lemma ends_or : forall m b u s, left (parser s) <= m -> open_at d true whole c b top u s -> cgood pr u -> len (RJiter.held (cout u)) <= wcap (cout u) ->
  ends s \/ (wfail (cout u) = None /\ exists vs w l, lax_documents whole b vs (rest (parser s)) (w ++ l) /\ blanks w /\ cut_literal l).
Proof.
  induction m as [m IH] using lt_wf_ind. intros b u s Hm Ho Hg Hh.
  destruct (round_ends b u s Ho Hg) as [H|(sf & He & Hg' & [(A1 & A2 & (w & A3 & A3') & text & A4 & A5)|(v & Hv & Hp & text & A5)])]; [left; exact H| |].
  - destruct (wfail (cout u)) as [[n k]|] eqn:Hf.
    + left. apply He. destruct (spent_room _ _ _ _ _ Hh Hf A5) as (B1 & n' & B2 & B3). eapply stuck_ends; eauto.
    + right. split; [reflexivity|]. exists [], w, (rest (parser sf)). rewrite A3'. split; [constructor|]. split; [exact A3|apply stuck_cut, A2].
  - assert (Hn : wfail (cout (user sf)) = None -> wfail (cout u) = None).
    { destruct A5 as (_ & _ & _ & a & _ & _ & A5). destruct (wfail (cout u)) as [[n k]|]; [|reflexivity]. destruct A5 as (_ & ->). discriminate. }
    assert (Hh' : len (RJiter.held (cout (user sf))) <= wcap (cout (user sf))) by (destruct A5 as (_ & -> & A5 & _); auto).
    pose proof (document_shorter _ _ _ _ _ Hv) as Hl.
    destruct (IH (left (parser sf)) ltac:(unfold left in *; lia) (negb whole) (user sf) sf (le_n _) (past_open cb beh d true whole c (n2d_heeds pr wr whole c H8) _ _ _ Hp) Hg' Hh') as [H|(H1 & vs & w & l & H2 & H3 & H4)].
    + left. exact (He H).
    + right. split; [auto|]. exists (v :: vs), w, l. split; [econstructor; eauto|auto].
Qed.
End Rounds.

(** ** The other direction: a literal cut short at top level *)
Definition flows (f : step conv) (a b : nat) : Prop := forall u, wfail (cout u) = None -> a <= level u ->
  exists u', f u = Done (u', Ok tt) /\ wfail (cout u') = None /\ b <= level u'.
Lemma flows_then f g a b e : flows f a b -> flows g b e -> flows (f ;; g) a e.
Proof. intros Hf Hg u Hn Ha. unfold and_then. destruct (Hf u Hn Ha) as (u1 & E & H1 & H2). rewrite E. cbn [obind]. apply Hg; assumption. Qed.
Lemma flows_put d m a : flows (put d m) a a.
Proof.
  intros u Hn Ha. unfold put. destruct (write_all_spent (cout u) d) as (w' & r & E & H). rewrite E.
  assert (Hs : forall p w1, spent (cout u) p w1 -> wfail w1 = None) by (intros p w1 (_ & _ & _ & x & _ & _ & Hx); rewrite Hn in Hx; exact Hx).
  destruct r as [[]|k]; [|destruct H as (p & q & _ & _ & H & Hk); specialize (Hs _ _ H); unfold exhausted in Hk; congruence].
  eexists. split; [reflexivity|]. split; [exact (Hs _ _ H)|exact Ha].
Qed.
Lemma flows_skip a : flows skip a a.
Proof. intros u Hn Ha. eexists. split; [reflexivity|auto]. Qed.
Lemma flows_newline a : flows newline a a.
Proof. intros u Hn Ha. unfold newline. destruct (pretty u); [apply flows_put|apply flows_skip]; assumption. Qed.
Lemma flows_comma_is b a : flows (comma_is b) a a.
Proof. intros u Hn Ha. eexists. split; [reflexivity|auto]. Qed.
Lemma flows_deeper a : flows deeper a (S a).
Proof. intros u Hn Ha. eexists. split; [reflexivity|]. split; [exact Hn|]. cbn. lia. Qed.
Lemma flows_shallower a : flows shallower (S a) a.
Proof. intros u Hn Ha. unfold shallower. destruct (level u) as [|n] eqn:E; [lia|]. eexists. split; [reflexivity|]. split; [exact Hn|]. cbn. lia. Qed.
Lemma flows_indents n a : flows (indents n) a a.
Proof. induction n as [|n IH]; [apply flows_skip|]. cbn [indents]. eapply flows_then; [apply flows_put|exact IH]. Qed.
Lemma flows_indent a : flows indent a a.
Proof. intros u Hn Ha. unfold indent. destruct (pretty u); [apply flows_indents|apply flows_skip]; assumption. Qed.
Lemma flows_write_comma a : flows write_comma a a.
Proof.
  intros u Hn Ha. unfold write_comma. destruct (pending u); [|apply flows_skip; assumption].
  revert u Hn Ha. eapply flows_then; [apply flows_put|]. eapply flows_then; [apply flows_newline|]. apply (flows_comma_is false).
Qed.
Ltac flow := repeat first
  [ apply flows_put | apply flows_newline | apply flows_comma_is | apply flows_deeper | apply flows_shallower | apply flows_indent | apply flows_write_comma
  | apply flows_skip | eapply flows_then ].
Lemma flows_act f op r u a b : flows f a b -> wfail (cout u) = None -> a <= level u ->
  exists u', act_of f op r u = Done (r, u', op) /\ wfail (cout u') = None /\ b <= level u'.
Proof. intros Hf Hn Ha. unfold act_of. destruct (Hf u Hn Ha) as (u' & E & H). rewrite E. exists u'. auto. Qed.

Section Cut.
Context (c : nat) (H8 : 8 <= c).
Notation G := (calmly true false c).
Lemma cut_stuck l : cut_literal l -> stuck l.
Proof.
  intros (word & Hw & (m & ->) & Hno).
  assert (HX : forall x, (x = PeekTrue \/ x = PeekFalse \/ x = PeekNull) -> (x = PeekTrue -> forall r, x :: m <> bs "true" ++ r) ->
    (x = PeekFalse -> forall r, x :: m <> bs "false" ++ r) -> (x = PeekNull -> forall r, x :: m <> bs "null" ++ r) -> stuck (x :: m)).
  { intros x Hx Ht Hf Hn. split; [eauto|]. intros w b v r Ha Hd.
    destruct (lax_literal b v w x m r Ha Hd Hx) as [(X & Y)|[(X & Y)|(X & Y)]]; [exact (Ht X r Y)|exact (Hf X r Y)|exact (Hn X r Y)]. }
  destruct Hw as [<-|[<-|[<-|[]]]]; cbn [firstn bs app] in *; apply HX; try (cbn; tauto); try discriminate; intros _; exact Hno.
Qed.
(** The literals of the model fail where the word is not there. *)
Lemma cut_bool s x l : G s -> rest s = x :: l -> x = PeekTrue \/ x = PeekFalse -> stuck (rest s) -> exists s' e, known_bool x s = Done (s', Err e) /\ G s' /\ rest s' = rest s.
Proof.
  intros HG HR Hx Hs. pose proof HG as ((V & C & _) & Q).
  destruct (method_ready c true _ _ _ _ _ s (m_known_bool x) ltac:(lia) ltac:(split; [exact V|split; [exact C|auto]])) as (s' & v & E & _). destruct v as [v|e].
  - exfalso. destruct (calm_bool true false c ltac:(lia) x s s' v l Hx HG HR E) as (_ & _ & Hr & _). destruct Hs as (_ & Hs).
    destruct (N.eqb_spec x PeekTrue); [apply (Hs false true JTrue (rest s') I)|apply (Hs false true JFalse (rest s') I)]; apply document_value; rewrite Hr; constructor.
  - exists s', e. split; [exact E|]. destruct (bool_failed false c H8 x s s' e l Hx HG HR E) as (A & _ & B). auto.
Qed.
Lemma cut_null s l : G s -> rest s = PeekNull :: l -> stuck (rest s) -> exists s' e, known_null s = Done (s', Err e) /\ G s' /\ rest s' = rest s.
Proof.
  intros HG HR Hs. pose proof HG as ((V & C & _) & Q).
  destruct (method_ready c true _ _ _ _ _ s m_known_null ltac:(lia) ltac:(split; [exact V|split; [exact C|auto]])) as (s' & v & E & _). destruct v as [v|e].
  - exfalso. destruct (calm_null true false c ltac:(lia) s s' v l HG HR E) as (_ & _ & Hr). destruct Hs as (_ & Hs).
    apply (Hs false true JNull (rest s') I). apply document_value; rewrite Hr; constructor.
  - exists s', e. split; [exact E|]. destruct (null_failed false c H8 s s' e l HG HR E) as (A & _ & B). auto.
Qed.
Lemma cut_peek s w x l : G s -> rest s = w ++ x :: l -> spaces w -> is_ascii_whitespace x = false -> exists s', peek s = Done (s', Ok x) /\ G s' /\ rest s' = x :: l.
Proof.
  intros HG HR Hw Hx. destruct (pf_peek _ _ _ _ (chunked_facts c false H8) s w x l (chunked_calm false c s HG) HR Hw Hx) as (s' & v & E & H).
  destruct v as [v|e]; [|destruct H; discriminate]. destruct H as (-> & HR' & _). exists s'. split; [exact E|]. split; [|exact HR'].
  apply (calm_peek true false c ltac:(lia) s s' x HG E).
Qed.
Lemma cut_value s x l u : G s -> rest s = x :: l -> stuck (rest s) -> wfail (cout u) = None -> 1 <= level u ->
  exists s' u', on_atom_value s u = Done (s', u', ValueIsConsumed) /\ G s' /\ rest s' = rest s /\ wfail (cout u') = None.
Proof.
  intros HG HR Hs Hn Hl. pose proof Hs as ((x' & m & Hxm & Hx) & _). assert (x' = x /\ m = l) as (-> & ->) by (rewrite HR in Hxm; injection Hxm as -> ->; auto). clear Hxm.
  pose proof (literal_solid x Hx) as Hso. unfold on_atom_value. destruct (flows_write_comma 1 u Hn Hl) as (u1 & E1 & Hn1 & Hl1). rewrite E1. cbn [obind].
  destruct (cut_peek s [] x l HG HR (Forall_nil _) Hso) as (s1 & Ep & HG1 & HR1). rewrite Ep. cbn [obind].
  destruct (cut_peek s1 [] x l HG1 HR1 (Forall_nil _) Hso) as (s2 & Ep2 & HG2 & HR2).
  assert (Hs2 : stuck (rest s2)) by (rewrite HR2, <- HR; exact Hs).
  destruct (N.eqb_spec x QUOTE) as [->|_]; [destruct Hx as [Hx|[Hx|Hx]]; discriminate|].
  destruct (N.eqb x PeekTrue || N.eqb x PeekFalse)%bool eqn:Eb.
  - unfold on_bool_value. rewrite Ep2. cbn [obind]. destruct (flows_indent 1 u1 Hn1 Hl1) as (u2 & E2 & Hn2 & Hl2). rewrite E2. cbn [obind].
    assert (Hx' : x = PeekTrue \/ x = PeekFalse) by (apply orb_prop in Eb as [Eb|Eb]; apply N.eqb_eq in Eb; auto).
    destruct (cut_bool s2 x l HG2 HR2 Hx' Hs2) as (s3 & e & E3 & HG3 & HR3). rewrite E3. cbn [obind].
    assert (HF : forall t why, flows (put t why ;; close_atom) 1 0) by (intros t why; unfold close_atom; flow).
    destruct (N.eqb_spec x PeekTrue); [|destruct (N.eqb_spec x PeekFalse); [|tauto]];
      (match goal with |- context [act_of ?f ?op ?r ?u] => destruct (flows_act f op r u 1 0 (HF _ _) Hn2 Hl2) as (u3 & E4 & Hn3 & _) end;
       exists s3, u3; split; [exact E4|]; split; [exact HG3|]; split; [congruence|exact Hn3]).
  - destruct (N.eqb_spec x PeekNull) as [->|Hno]; [|exfalso; apply orb_false_elim in Eb as (Eb & Eb'); apply N.eqb_neq in Eb, Eb'; tauto].
    unfold on_null_value. rewrite Ep2. cbn [obind]. change (N.eqb PeekNull PeekNull) with true. cbv iota.
    destruct (cut_null s2 l HG2 HR2 Hs2) as (s3 & e & E3 & HG3 & HR3). rewrite E3. cbn [obind].
    assert (HF : flows (indent ;; put (bs """NULL"":true") "writing NULL type" ;; close_atom) 1 0) by (unfold close_atom; flow).
    destruct (flows_act _ ValueIsConsumed s3 u1 1 0 HF Hn1 Hl1) as (u3 & E4 & Hn3 & _). exists s3, u3. split; [exact E4|]. split; [exact HG3|]. split; [congruence|exact Hn3].
Qed.
Lemma cut_root s x l u : G s -> rest s = x :: l -> stuck (rest s) -> wfail (cout u) = None ->
  exists s' u', on_root_literal s u = Done (s', u', ValueIsConsumed) /\ G s' /\ rest s' = rest s /\ wfail (cout u') = None.
Proof.
  intros HG HR Hs Hn. unfold on_root_literal.
  destruct (flows_then _ _ 0 0 1 (flows_put [LBRACE] "writing root literal opening brace" 0) (flows_deeper 0) u Hn (Nat.le_0_l _)) as (u1 & E1 & Hn1 & Hl1).
  rewrite E1. cbn [obind]. destruct (cut_value s x l u1 HG HR Hs Hn1 Hl1) as (s' & u2 & E2 & HG2 & HR2 & Hn2). rewrite E2. cbn [obind].
  destruct (flows_act _ ValueIsConsumed s' u2 0 0 (flows_then _ _ 0 0 0 (flows_put [10%N] "writing final newline" 0) (flows_comma_is false 0)) Hn2 (Nat.le_0_l _)) as (u3 & E3 & Hn3 & _).
  exists s', u3. auto.
Qed.
Context (wr : bool) (d : dims).
Notation cb := (n2d_callbacks wr).
Notation o0 := (mkOptions [] false).
Lemma cut_iter s w l : G (parser s) -> rest (parser s) = w ++ l -> spaces w -> stuck l -> stack_of d (stack s) [top_entry] -> wfail (cout (user s)) = None ->
  exists s', scan_iter cb o0 Top s = Done (s', Continue Top) /\ G (parser s') /\ rest (parser s') = l /\ stack_of d (stack s') [top_entry] /\ wfail (cout (user s')) = None.
Proof.
  intros HG HR Hw Hs Hst Hn. pose proof Hs as ((x & m & -> & Hx) & _). pose proof (literal_solid x Hx) as Hso.
  destruct (cut_peek (parser s) w x m HG HR Hw Hso) as (s1 & E1 & HG1 & HR1).
  destruct (cut_root s1 x m (user s) HG1 HR1 ltac:(rewrite HR1; exact Hs) Hn) as (s2 & u2 & E2 & HG2 & HR2 & Hn2).
  exists (mkS s2 u2 (stack s)). unfold scan_iter. rewrite E1. cbn [obind]. unfold scan_value.
  destruct (N.eqb_spec x LBRACK) as [->|_]; [destruct Hx as [Hx|[Hx|Hx]]; discriminate|].
  destruct (N.eqb_spec x LBRACE) as [->|_]; [destruct Hx as [Hx|[Hx|Hx]]; discriminate|].
  unfold run_begin. cbn [parser user stack]. rewrite (stack_context _ _ _ Hst). cbn [obind find_action n2d_callbacks n2d_find_action names path_of map].
  split; [|rewrite HR2; auto].
  change (beq (snd top_entry) (bs "#top")) with true. cbv iota. rewrite E2. reflexivity.
Qed.
Lemma cut_forever fuel : forall pg s w l, G (parser s) -> rest (parser s) = w ++ l -> spaces w -> stuck l -> stack_of d (stack s) [top_entry] -> wfail (cout (user s)) = None ->
  scan_loop cb o0 fuel pg Top s = Diverge.
Proof.
  induction fuel as [|fuel IH]; intros pg s w l HG HR Hw Hs Hst Hn; [reflexivity|]. cbn [scan_loop stop_early]. rewrite andb_false_r.
  destruct (cut_iter s w l HG HR Hw Hs Hst Hn) as (s' & E & A1 & A2 & A3 & A4). rewrite E. apply (IH true s' [] l A1 A2 (Forall_nil _) Hs A3 A4).
Qed.
End Cut.

(** ** Documents before it *)
Section Until.
Context {B : Type} (cb : callbacks B) (o : options) (beh : behaviour B) (m : setting) (d : dims).
Context (HM : sane m) (HR : respects (between m) (layout m) cb beh) (HS : may_fail m = true -> sse_tokens o = []) (Hse : stop_early o = false).
Lemma documents_before vs l r : documents_until (layout m) vs l r -> forall es u s pg, home es Top -> start m (parser s) -> rest (parser s) = l -> on_stack d es u s ->
  exists u' st, walk_items beh d (may_fail m) (path_of es) vs u u' st /\
    match st with
    | Through => exists n pg' s', (forall k, scan_loop cb o (n + k) pg Top s = scan_loop cb o k pg' Top s') /\ on_stack d es u' s' /\ start m (parser s') /\ rest (parser s') = r
    | Stopped why => stops (top_run cb o pg s) u' why
    end.
Proof.
  pose proof (setting_facts m HM) as PF.
  induction 1 as [r|v vs l l1 r (w & l' & -> & Hw & Hv) Hd IH]; intros es u s pg Hh HG Hr Hst.
  - exists u, Through. split; [constructor|]. exists 0, pg, s. auto.
  - assert (HL : leads (top_run cb o pg s) (fun k => finish_iter cb o k (scan_iter cb o Top s))) by (apply top_step; rewrite Hse; apply andb_false_r).
    destruct (peeked_value cb o beh d _ _ _ _ PF v w l' l1 es Top Top u s) as (u1 & st & A & C); auto; [apply (proj1 (simulation cb o beh d _ _ _ _ PF HR HS)), Hv|].
    destruct st as [|why].
    + destruct C as (s1 & HL1 & HG1 & Hr1 & Hst1).
      destruct (IH es u1 s1 true Hh (pf_start _ _ _ _ PF _ HG1) Hr1 Hst1) as (u2 & st2 & A2 & C2).
      exists u2, st2. split; [eapply w_items; eauto|]. destruct (leads_trans _ _ _ HL HL1) as (n1 & Hn1). destruct st2 as [|why].
      * destruct C2 as (n & pg' & s' & Hn & H). exists (n1 + n), pg', s'. split; [|exact H]. intros k. rewrite <- Nat.add_assoc. rewrite <- Hn. apply (Hn1 (n + k)).
      * eapply leads_stops; [exists n1; exact Hn1|exact C2].
    + exists u1, (Stopped why). split; [apply w_items_stopped, A|]. eapply leads_stops; eauto.
Qed.
End Until.

(** ** The conversion *)
Lemma start_calm m s : may_fail m = false -> start m s -> calmly true false (size_of m) s.
Proof.
  intros HE H. destruct m as [c clean|c|c clean|c clean pad]; [| |discriminate|]; [| |pose proof (filling_quiet _ _ _ _ H) as Q; destruct H as ((V & C & _) & _); split; [split; [exact V|split; [exact C|discriminate]]|intros _; exact Q]]; destruct H as (V & C & _ & Q); (split; [split; [exact V|split; [exact C|discriminate]]|intros _; exact Q]).
Qed.
Lemma n2d_pool xb : 141 <= len xb -> exists p, pool_new true xb 34 = Done (Ok p) /\ stack_of (pool_dims 34 xb) p [] /\ admit_name (pool_dims 34 xb) [] (bs "#top") = None.
Proof.
  intros Hx. assert (exists p, pool_new true xb 34 = Done (Ok p)) as (p & Hp).
  { unfold pool_new. change (N.eqb 34 0) with false. cbv iota. destruct (Nat.eqb_spec (len xb) 0) as [H|_]; [rewrite H in Hx; lia|].
    change (usize_op true (34 * 4)) with (Done 136%N). cbn [obind]. change (usize_op true (136 + 1)) with (Done 137%N). cbn [obind].
    destruct (N.ltb_spec (N.of_nat (len xb)) 137); [lia|]. destruct (N.ltb_spec (N.of_nat (len xb)) 136); [lia|]. eauto. }
  exists p. split; [exact Hp|]. split; [apply stack_fresh; exists true, xb; split; [exact Hp|]; split; reflexivity|].
  unfold admit_name, pool_dims. cbn [List.length weight map list_sum fold_right slices space_for]. change (N.leb 34 (N.of_nat 0)) with false. cbv iota.
  change (len (bs "#top")) with 4. destruct (Nat.ltb_spec (len xb - N.to_nat (34 * 4)) (0 + 5)); [|reflexivity]. change (N.to_nat (34 * 4)) with 136 in *. lia.
Qed.
Lemma n2d_hangs m vs rd w rb xb pr wr w0 l : sane m -> 8 <= size_of m -> may_fail m = false -> start m (rj_new rd rb) ->
  documents_until (layout m) vs (src rd) (w0 ++ l) -> spaces w0 -> cut_literal l -> n2d_room xb vs -> Forall ordinary vs -> atoms_apart false vs -> wfail w = None ->
  forall fuel, convert_normal_to_ddb fuel rd w rb xb pr wr = Diverge.
Proof.
  intros HM H8 HE HS HD Hw0 Hl (Hx & Hroom) Ho Ha Hn. destruct (n2d_pool xb Hx) as (p & Hp & Hst & Htop).
  destruct (scan_enters (n2d_callbacks wr) (mkOptions [] false) _ (mkS (rj_new rd rb) (conv_new w pr) p) [] Hst) as (q & Hq). change (path_of []) with (@nil bytes) in Hq.
  rewrite Htop in Hq. destruct Hq as (Hq & Hscan). cbn [parser user] in *.
  set (beh := transducer cout cmode (cgood pr) n2d_noted (may_fail m) (n2d_tb pr wr) (n2d_te pr wr)).
  assert (HR : respects (between m) (layout m) (n2d_callbacks wr) beh).
  { unfold beh. rewrite HE. apply (n2d_respects pr wr _ _ _ ltac:(rewrite <- HE; apply setting_facts, HM)). }
  destruct (documents_before (n2d_callbacks wr) (mkOptions [] false) beh m (pool_dims 34 xb) HM HR ltac:(auto) eq_refl vs _ _ HD [top_entry] (conv_new w pr)
    (mkS (rj_new rd rb) (conv_new w pr) q) false) as (u & st & Hwalk & Hout).
  { exact (ScanTop.home_top []). } { exact HS. } { reflexivity. } { split; [reflexivity|exact Hq]. }
  assert (Hden : forall x, st <> Stopped (Denied x)).
  { intros x ->. apply (proj1 (proj2 (walk_accepted _ _ (may_fail m))) _ _ _ _ _ Hwalk (room_trace _ _ Hroom) x eq_refl). }
  destruct (run_roots pr wr vs Ho false Ha) as (p' & Ht).
  apply (proj1 (proj2 (transducer_walk cout cmode (cgood pr) n2d_noted (may_fail m) (n2d_tb pr wr) (n2d_te pr wr) _))) in Hwalk.
  assert (Hg : cgood pr (conv_new w pr)) by (split; reflexivity). specialize (Hwalk Hg _ _ Ht).
  assert (exists n pg' s', (forall k, scan_loop (n2d_callbacks wr) (mkOptions [] false) (n + k) false Top (mkS (rj_new rd rb) (conv_new w pr) q) =
      scan_loop (n2d_callbacks wr) (mkOptions [] false) k pg' Top s') /\ on_stack (pool_dims 34 xb) [top_entry] u s' /\ start m (parser s') /\ rest (parser s') = w0 ++ l /\ wfail (cout u) = None)
    as (n & pg' & s' & Hloop & (Hu & Hst') & HS' & HR' & Hnu).
  { destruct st as [|why].
    - destruct Hout as (n & pg' & s' & A1 & A2 & A3 & A4). exists n, pg', s'. do 4 (split; [assumption|]). destruct Hwalk as ((_ & _ & _ & x & _ & _ & H) & _).
      cbn [cout conv_new] in H. rewrite Hn in H. exact H.
    - exfalso. destruct why as [msg| |x|]; cbn [interrupted] in Hwalk.
      + destruct Hwalk as [H|(a & b & k & _ & _ & Hs & _)]; [congruence|]. elim (worn_open _ _ _ _ Hs Hn).
      + congruence || contradiction.
      + exact (Hden x eq_refl).
      + congruence || contradiction. }
  assert (Hdiv : forall fuel, scan_loop (n2d_callbacks wr) (mkOptions [] false) fuel false Top (mkS (rj_new rd rb) (conv_new w pr) q) = Diverge).
  { intros fuel. destruct (scan_loop _ _ fuel false Top _) as [x| |] eqn:E; [exfalso|exfalso|reflexivity];
      (pose proof (scan_loop_mono _ _ n _ _ _ _ _ E ltac:(discriminate)) as E2; rewrite (Nat.add_comm fuel n), Hloop in E2;
       rewrite (cut_forever (size_of m) H8 wr _ fuel pg' s' w0 l (start_calm m _ HE HS') HR' Hw0 (cut_stuck l Hl) Hst' ltac:(rewrite Hu; exact Hnu)) in E2; discriminate). }
  intros fuel. unfold convert_normal_to_ddb, convert. rewrite Hp. cbn [obind]. rewrite Hscan, Hdiv. reflexivity.
Qed.
Lemma n2d_hangs_only whole rd w rb xb pr wr : 8 <= len rb -> (forall e, ~ In (Fail e) (sched rd)) -> (whole = true -> sched rd = [] /\ len (src rd) <= len rb) ->
  len (RJiter.held w) <= wcap w ->
  (exists w' v, eventually (fun fuel => convert_normal_to_ddb fuel rd w rb xb pr wr) (Done (w', v))) \/
  (wfail w = None /\ exists vs w0 l, lax_documents whole true vs (src rd) (w0 ++ l) /\ blanks w0 /\ cut_literal l).
Proof.
  intros H8 Hq Hw Hcap. unfold convert_normal_to_ddb, convert.
  assert (HE : forall x : conv * result unit (conversion_error * nat), exists w' v, eventually (fun _ : nat => do (c, v) <- Done x; Done (cout c, v)) (Done (w', v))).
  { intros [c v]. exists (cout c), v. exists 0. intros fuel _. reflexivity. }
  destruct (pool_new true xb 34) as [[p|e]| |] eqn:Ep.
  - assert (HF : fresh (pool_dims 34 xb) p) by (exists true, xb; split; [exact Ep|]; split; reflexivity).
    destruct (scan_enters (n2d_callbacks wr) (mkOptions [] false) _ (mkS (rj_new rd rb) (conv_new w pr) p) [] (stack_fresh _ _ HF)) as (q & Hs).
    cbn [obind parser user] in *. destruct (admit_name _ _ _).
    + left. destruct (HE (conv_new w pr, Err (match last_error (conv_new w pr) with Some err => err | None => CScan (MaxNestingExceeded (current_index (rj_new rd rb)) 0) end,
        error_position_of (MaxNestingExceeded (current_index (rj_new rd rb)) 0) (rj_new rd rb)))) as (w' & v & n & Hn). exists w', v, n. intros fuel Hf. rewrite Hs. exact (Hn fuel Hf).
    + destruct Hs as (Hst & Hs).
      destruct (ends_or pr wr whole (len rb) H8 (pool_dims 34 xb) _ true (conv_new w pr) (mkS (rj_new rd rb) (conv_new w pr) q) (le_n _)) as [(n & [s v] & Hn)|H].
      * split; [|split; [discriminate|split; [reflexivity|exact Hst]]]. split; [|intros _; apply quiet_new, Hq].
        split; [apply valid_new|]. split; [reflexivity|]. intros Hwh. right. destruct (Hw Hwh) as (A & C). split; [exact A|]. split; [reflexivity|exact C].
      * split; reflexivity.
      * exact Hcap.
      * left. destruct v as [[]|e]; eexists _, _, n; intros fuel Hf; rewrite Hs, (Hn fuel false Hf); reflexivity.
      * right. exact H.
  - left. eexists _, _. exists 0. intros fuel _. reflexivity.
  - exfalso. revert Ep. unfold pool_new. change (N.eqb 34 0) with false. cbv iota. destruct (len xb =? 0); [discriminate|]. change (usize_op true (34 * 4)) with (Done 136%N). cbn [obind].
    change (usize_op true (136 + 1)) with (Done 137%N). cbn [obind]. destruct (N.ltb_spec (N.of_nat (len xb)) 137); [discriminate|]. destruct (N.ltb_spec (N.of_nat (len xb)) 136); [lia|discriminate].
  - exfalso. revert Ep. unfold pool_new. change (N.eqb 34 0) with false. cbv iota. destruct (len xb =? 0); [discriminate|]. change (usize_op true (34 * 4)) with (Done 136%N). cbn [obind].
    change (usize_op true (136 + 1)) with (Done 137%N). cbn [obind]. destruct (N.ltb_spec (N.of_nat (len xb)) 137); [discriminate|]. destruct (N.ltb_spec (N.of_nat (len xb)) 136); [lia|discriminate].
Qed.
