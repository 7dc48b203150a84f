(** Proofs about strings whose bytes spell no characters. *)
From Verif Require Import Base Buffer BufferSpec Jiter JiterValue RJiter RJiterSpec Scan ScanSpec ValueSpec SoundSpec TypeSpec UnicodeSpec FaultSpec FaultTextSpec.
From Verif Require Import BufferProofs JiterProofs RJiterProofs ScanTokens TypeProofs ValueProofs RJiterLongProofs UnicodeProofs FaultProofs.

Lemma says_text t d : says t d -> json_text true t d.
Proof.
  induction 1 as [|x t d H1 H2 H3 H IH|y c t d Hy H IH|h c e t d Hh Hc He H IH|h g hi lo e t d Hi Hl Hh Hg He H IH].
  - constructor.
  - apply jt_char; auto.
  - apply jt_escape; [apply escape_is; exact Hy|exact IH].
  - destruct (hex4_four _ _ Hh) as (a & b & c0 & e0 & -> & Hu & Hlt). assert (Hc' : (c < 1114112)%N) by lia. rewrite (encodes_same _ _ _ He (encode_is c Hc')).
    unfold character in Hc. apply jt_hex; auto; unfold is_low, is_high; lia.
  - destruct (hex4_four _ _ Hh) as (a & b & c0 & e0 & -> & Hu & _). destruct (hex4_four _ _ Hg) as (a' & b' & c' & e' & -> & Hv & _).
    assert (Hc' : (65536 + 1024 * hi + lo < 1114112)%N) by lia. rewrite (encodes_same _ _ _ He (encode_is _ Hc')).
    replace (65536 + 1024 * hi + lo)%N with ((55296 + hi - 55296) * 1024 + (56320 + lo - 56320) + 65536)%N by lia.
    cbn [app]. apply jt_pair; auto; unfold is_low, is_high; lia.
Qed.
Lemma says_faultless t d : says t d -> faultless t.
Proof.
  induction 1 as [|x t d H1 H2 H3 H IH|y c t d Hy H IH|h c e t d Hh Hc He H IH|h g hi lo e t d Hi Hl Hh Hg He H IH].
  - constructor.
  - apply fl_byte; auto.
  - exact (fl_escape y c t Hy IH).
  - exact (fl_hex h c t Hh Hc IH).
  - exact (fl_pair h g hi lo t Hi Hl Hh Hg IH).
Qed.
Lemma faultless_says t : faultless t -> exists d, says t d.
Proof.
  induction 1 as [|x t H1 H2 H3 H IH|y c t Hy H IH|h c t Hh Hc H IH|h g hi lo t Hi Hl Hh Hg H IH].
  - exists []. constructor.
  - destruct IH as (d & Hd). exists (x :: d). apply sy_byte; auto.
  - destruct IH as (d & Hd). exists (c :: d). apply sy_escape; auto.
  - destruct IH as (d & Hd). exists (utf8_encode c ++ d). apply sy_hex with c; auto. apply encode_is. unfold character in Hc. lia.
  - destruct IH as (d & Hd). exists (utf8_encode (65536 + 1024 * hi + lo) ++ d). apply sy_pair with hi lo; auto. apply encode_is. lia.
Qed.
Lemma misspelt_is d v : misspelt d v -> utf8_invalid 0 d = Some v.
Proof.
  intros [cs v' x b Hs Hb]. induction Hs as [|c e cs l Hc He Hs IH]; cbn [app].
  - cbn [utf8_invalid]. destruct (utf8_char (x :: b)) as [n|] eqn:E; [|reflexivity]. exfalso.
    destruct (char_encodes _ _ E) as (c & Hc & He & _). apply (Hb c (firstn n (x :: b)) (skipn n (x :: b)) Hc He). symmetry. apply firstn_skipn.
  - destruct (encodes_some _ _ He) as (y & e' & ->). rewrite <- app_assoc. cbn [app utf8_invalid].
    pose proof (encodes_char c _ (l ++ x :: b) He Hc) as E. cbn [app] in E. rewrite E. cbn [List.length]. rewrite Nat.sub_succ, Nat.sub_0_r.
    rewrite (utf8_skip e' (len e') (l ++ x :: b) (le_n _)), skipn_app, skipn_all, Nat.sub_diag. cbn [app skipn]. rewrite IH. cbn [option_map].
    rewrite app_length. reflexivity.
Qed.
Lemma spelt_or d : (exists cs, spells cs d) \/ exists v, misspelt d v.
Proof.
  remember (len d) as n eqn:En. assert (Hn : len d <= n) by lia. clear En. revert d Hn. induction n as [|n IH]; intros d Hn.
  { destruct d; [|cbn in Hn; lia]. left. exists []. constructor. }
  destruct d as [|x d]; [left; exists []; constructor|]. destruct (utf8_char (x :: d)) as [k|] eqn:E.
  - destruct (utf8_char_bound _ _ E) as [H1 H2]. destruct (char_encodes _ _ E) as (c & Hc & He & Hl).
    destruct (IH (skipn k (x :: d))) as [(cs & Hs)|(v & Hs)]; [rewrite skipn_length; lia|left|right].
    + exists (c :: cs). rewrite <- (firstn_skipn k (x :: d)). constructor; auto.
    + remember (skipn k (x :: d)) as d' eqn:Ed. destruct Hs as [cs u y b Hs Hb]. exists (len (firstn k (x :: d) ++ u)).
      rewrite <- (firstn_skipn k (x :: d)) at 1. rewrite <- Ed, app_assoc. apply (ms_at (c :: cs)); [constructor; auto|exact Hb].
  - right. exists 0. apply (ms_at [] [] x d); [constructor|]. intros c e r Hc He Heq. rewrite Heq, (encodes_char c e r He Hc) in E. discriminate E.
Qed.
Lemma says_reads t d cs : says t d -> spells cs d -> reads t cs.
Proof. intros Ht Hs. apply (text_reads (len t) t d cs (le_n _)); [apply says_text; exact Ht|exact Hs]. Qed.
Lemma closed_cases t : faultless t -> (exists cs, reads t cs) \/ exists d v, says t d /\ misspelt d v.
Proof.
  intros Ht. destruct (faultless_says t Ht) as (d & Hd). destruct (spelt_or d) as [(cs & Hs)|(v & Hs)]; [left|right].
  - exists cs. eapply says_reads; eauto.
  - exists d, v. auto.
Qed.
Lemma misspelt_named known op s w t d v r : str_method known op -> (known = true -> w = []) ->
  valid s -> 2 <= rcap s -> rest s = w ++ QUOTE :: t ++ QUOTE :: r -> blanks w -> says t d -> misspelt d v -> 2 + len t <= rcap s ->
  refused_at s (QUOTE :: t ++ QUOTE :: r) (JsonError InvalidUnicodeCodePoint) (2 + v) (op s).
Proof.
  intros Hm Hk V Hc HR Hw Ht Hd Hfit.
  assert (Hstr : forall p q, t ++ QUOTE :: r = p ++ q ->
    (j_known_str (QUOTE :: p) = (Err (JsonError EofWhileParsingString, S (len p)), 0) /\ len p < 1 + len t) \/
    j_known_str (QUOTE :: p) = (Err (JsonError InvalidUnicodeCodePoint, 2 + v), 0)).
  { intros p q E. pose proof (faultless_ends t (says_faultless t d Ht)) as Hf. unfold j_known_str. cbn [skipn].
    apply app_eq_app in E as (l & [(Et & El)|(Ep & El)]).
    - left. rewrite (Hf p l Et). split; [reflexivity|]. rewrite Et, app_length. lia.
    - destruct l as [|x l].
      + left. rewrite app_nil_r in Ep. rewrite Ep, (Hf t [] (eq_sym (app_nil_r t))). split; [reflexivity|lia].
      + right. cbn [app] in El. injection El as <- El. rewrite Ep, (scan_text _ _ _ (says_text t d Ht) l), (misspelt_is d v Hd). reflexivity. }
  assert (Hf : exists f, op = loop_until_success f None false /\ (forall l, f (QUOTE :: l) = j_known_str (QUOTE :: l)) /\
    (exists e o, f [] = (Err (JsonError e, o), 0) /\ can_retry (JsonError e) = true) /\
    (known = false -> looks f (fun x l => if N.eqb QUOTE x then j_known_str l else (wrong_type TString x l, 0)))).
  { destruct Hm; eexists; (split; [reflexivity|]).
    - split; [|split; [exists EofWhileParsingValue, 0; split; reflexivity|intros _; apply looks_next]].
      intros l. apply (looks_head _ _ QUOTE l (looks_next TString (N.eqb QUOTE) (fun _ => j_known_str))); reflexivity.
    - split; [reflexivity|]. split; [do 2 eexists; split; reflexivity|discriminate]. }
  destruct Hf as (f & -> & Hf & (en & on & En & Rn) & Hl).
  assert (Hset : settles_at f (QUOTE :: t ++ QUOTE :: r) (2 + len t) (JsonError InvalidUnicodeCodePoint) (2 + v)).
  { intros p q E. destruct p as [|x p]; [exists (JsonError en), on; split; [exact En|]; rewrite Rn; left; cbn; lia|].
    cbn [app] in E. injection E as <- E. rewrite Hf. destruct (Hstr p q E) as [(Es & Hlt)|Es]; rewrite Es; do 2 eexists; (split; [reflexivity|]).
    - left. cbn. lia.
    - cbn [can_retry]. auto. }
  apply (loop_settles_at f false s w QUOTE (t ++ QUOTE :: r) (2 + len t)); auto; [|rewrite app_length; cbn [List.length]; lia].
  rewrite HR. destruct known.
  - rewrite (Hk eq_refl). cbn [app]. intros p q E. destruct (Hset p q E) as (e' & o' & -> & _). eauto.
  - apply (looks_fail f _ w _ (Hl eq_refl) Hw); [intros m; eexists; reflexivity|].
    intros y p q E. cbn [app] in E. assert (y = QUOTE) by congruence. subst y. split; [reflexivity|]. cbn.
    assert (E' : t ++ QUOTE :: r = p ++ q) by congruence. destruct (Hstr p q E') as [(Es & _)|Es]; rewrite Es; eauto.
Qed.
