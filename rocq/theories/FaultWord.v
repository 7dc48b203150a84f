(** Proofs about misspelt literals. *)
From Verif Require Import Base Buffer BufferSpec Jiter JiterValue RJiter RJiterSpec Scan ScanSpec ValueSpec SoundSpec TypeSpec UnicodeSpec FaultSpec FaultWordSpec.
From Verif Require Import BufferProofs JiterProofs RJiterProofs ScanTokens TypeProofs FaultProofs.

Lemma ident_stops a c b : forall k, ident_rest (a ++ c :: b) a k = Some (EofWhileParsingValue, k + len a).
Proof. induction a as [|x a IH]; intros k; cbn [app ident_rest List.length]; [rewrite Nat.add_0_r; reflexivity|]. rewrite N.eqb_refl, IH. do 2 f_equal. lia. Qed.
Lemma ident_differs a c b y r : y <> c -> forall k, ident_rest (a ++ c :: b) (a ++ y :: r) k = Some (ExpectedSomeIdent, k + len a).
Proof.
  intros H. apply not_eq_sym, N.eqb_neq in H. induction a as [|x a IH]; intros k; cbn [app ident_rest List.length].
  - rewrite H, Nat.add_0_r. reflexivity.
  - rewrite N.eqb_refl, IH. do 2 f_equal. lia.
Qed.
Lemma word_step t l e k : word_wrong t l e k -> forall p q, l = p ++ q -> exists e' o', ident_rest t p 1 = Some (e', o') /\
  (if can_retry (JsonError e') then len p < S k \/ (q = [] /\ e' = e /\ o' = 1 + k) else e' = e /\ o' = 1 + k).
Proof.
  intros [a c b y r -> Hy|a c b ->] p q E.
  - apply app_eq_app in E as (m & [(-> & E)|(-> & E)]).
    + rewrite <- app_assoc. destruct m as [|z m]; cbn [app]; rewrite ident_stops; (do 2 eexists; split; [reflexivity|]); left; rewrite ?app_length; lia.
    + destruct m as [|z m].
      * rewrite app_nil_r, ident_stops. do 2 eexists. split; [reflexivity|]. left. lia.
      * cbn [app] in E. injection E as <- E. rewrite (ident_differs a c b y m Hy). do 2 eexists. split; [reflexivity|]. cbn [can_retry]. auto.
  - subst a. rewrite <- app_assoc. destruct q as [|z q]; cbn [app]; rewrite ident_stops; (do 2 eexists; split; [reflexivity|]).
    + right. rewrite app_nil_r. auto.
    + left. rewrite app_length. lia.
Qed.
Lemma word_wrong_length t l e k : word_wrong t l e k -> (e = ExpectedSomeIdent /\ S k <= len l) \/ (e = EofWhileParsingValue /\ k = len l).
Proof. intros [a c b y r -> Hy|a c b ->]; [left|right]; split; auto. rewrite app_length. cbn. lia. Qed.
Lemma method_word {A} known x (op : rj -> outcome (rj * result A rerror)) : word_method known x op -> exists (f : jop A) t v,
  op = loop_until_success f None false /\ literal x t /\ (forall l, f (x :: l) = j_ident t v (x :: l)) /\
  (exists e o, f [] = (Err (JsonError e, o), 0) /\ can_retry (JsonError e) = true) /\ is_ascii_whitespace x = false /\
  (known = false -> exists g, looks f g /\ (forall l, exists e, g 12%N (12%N :: l) = (Err e, 0)) /\ forall l, g x (x :: l) = j_ident t v (x :: l)).
Proof.
  unfold literal.
  intros [].
  - exists j_next_null, [117; 108; 108]%N, tt. split; [reflexivity|]. split; [auto|]. pose proof (looks_next TNull (N.eqb 110%N) (fun _ => j_known_null)) as L.
    split; [intros l; unfold j_next_null; rewrite (looks_head _ _ 110%N l L) by reflexivity; reflexivity|]. split; [exists EofWhileParsingValue, 0; auto|]. split; [reflexivity|].
    intros _. eexists. split; [exact L|]. split; [intros l; eexists; reflexivity|reflexivity].
  - exists j_known_null, [117; 108; 108]%N, tt. split; [reflexivity|]. split; [auto|]. split; [reflexivity|]. split; [do 2 eexists; split; reflexivity|]. split; [reflexivity|discriminate].
  - exists j_next_bool, [114; 117; 101]%N, true. split; [reflexivity|]. split; [auto|]. pose proof (looks_next TBool (fun x => N.eqb x 116%N || N.eqb x 102%N)%bool j_known_bool) as L.
    split; [intros l; unfold j_next_bool; rewrite (looks_head _ _ 116%N l L) by reflexivity; reflexivity|]. split; [exists EofWhileParsingValue, 0; auto|]. split; [reflexivity|].
    intros _. eexists. split; [exact L|]. split; [intros l; eexists; reflexivity|reflexivity].
  - exists j_next_bool, [97; 108; 115; 101]%N, false. split; [reflexivity|]. split; [auto|]. pose proof (looks_next TBool (fun x => N.eqb x 116%N || N.eqb x 102%N)%bool j_known_bool) as L.
    split; [intros l; unfold j_next_bool; rewrite (looks_head _ _ 102%N l L) by reflexivity; reflexivity|]. split; [exists EofWhileParsingValue, 0; auto|]. split; [reflexivity|].
    intros _. eexists. split; [exact L|]. split; [intros l; eexists; reflexivity|reflexivity].
  - exists (j_known_bool 116%N), [114; 117; 101]%N, true. split; [reflexivity|]. split; [auto|]. split; [reflexivity|]. split; [do 2 eexists; split; reflexivity|]. split; [reflexivity|discriminate].
  - exists (j_known_bool 102%N), [97; 108; 115; 101]%N, false. split; [reflexivity|]. split; [auto|]. split; [reflexivity|]. split; [do 2 eexists; split; reflexivity|]. split; [reflexivity|discriminate].
Qed.
Lemma literal_same x t t' : literal x t -> literal x t' -> t = t'.
Proof. unfold literal. intros [H|[H|H]] [K|[K|K]]; congruence. Qed.
Lemma word_named {A} known x (op : rj -> outcome (rj * result A rerror)) s w t l e k : word_method known x op -> (known = true -> w = []) -> literal x t ->
  valid s -> 5 <= rcap s -> rest s = w ++ x :: l -> blanks w -> word_wrong t l e k ->
  refused_at s (x :: l) (JsonError e) (1 + k) (op s).
Proof.
  intros Hm Hk Hlit V Hc HR Hw Hx. destruct (method_word known x op Hm) as (f & t' & v & -> & Hlit' & Hf & (en & on & En & Rn) & Wx & Hl).
  rewrite (literal_same x t' t Hlit' Hlit) in *. clear t' Hlit'.
  assert (Hp : forall p q, l = p ++ q -> exists e' o', j_ident t v (x :: p) = (Err (JsonError e', o'), 0) /\
    (if can_retry (JsonError e') then len p < S k \/ (q = [] /\ e' = e /\ o' = 1 + k) else e' = e /\ o' = 1 + k)).
  { intros p q E. destruct (word_step t l e k Hx p q E) as (e' & o' & Es & P). exists e', o'. split; [|exact P]. unfold j_ident. cbn [skipn]. rewrite Es. reflexivity. }
  assert (Ht : len t <= 4) by (destruct Hlit as [E|[E|E]]; injection E as _ ->; cbn; lia).
  set (K := if can_retry (JsonError e) then S k else S (S k)).
  assert (HK : K <= rcap s /\ K <= len (x :: l)).
  { assert (Hkt : k < len t) by (clear - Hx; destruct Hx as [a c b y r -> Hy|a c b ->]; rewrite app_length; cbn; lia).
    unfold K. destruct (word_wrong_length _ _ _ _ Hx) as [(-> & Ek)|(-> & Ek)]; cbn [can_retry List.length]; lia. }
  assert (Hset : settles_at f (x :: l) K (JsonError e) (1 + k)).
  { intros p q E. destruct p as [|z p]; [exists (JsonError en), on; split; [exact En|]; rewrite Rn; left; unfold K; cbn [List.length]; destruct (can_retry (JsonError e)); lia|].
    cbn [app] in E. injection E as <- E. destruct (Hp p q E) as (e' & o' & Es & P). exists (JsonError e'), o'. rewrite Hf. split; [exact Es|].
    destruct (can_retry (JsonError e')) eqn:Ee; [|destruct P as (-> & ->); auto].
    destruct P as [P|(-> & -> & ->)]; [|right; auto].
    unfold K. destruct (can_retry (JsonError e)) eqn:Er; [|left; cbn [List.length]; lia].
    destruct (word_wrong_length _ _ _ _ Hx) as [(-> & _)|(-> & Ek)]; [discriminate Er|].
    destruct q as [|z q]; [|left; subst l; rewrite app_length in Ek; cbn [List.length] in *; lia].
    right. rewrite app_nil_r in E. subst p. split; [reflexivity|].
    destruct Hx as [a c b y r -> Hy|a c b Ht']; [discriminate Er|]. rewrite Ht' in Es. unfold j_ident in Es. cbn [skipn] in Es. rewrite ident_stops in Es. injection Es as <- <-. auto. }
  apply (loop_settles_at f false s w x l K); auto; [lia| |apply HK|apply HK].
  rewrite HR. destruct known.
  - rewrite (Hk eq_refl). cbn [app]. intros p q E. destruct (Hset p q E) as (e' & o' & -> & _). eauto.
  - destruct (Hl eq_refl) as (g & Lg & G12 & G). apply (looks_fail f _ w _ Lg Hw G12).
    intros y p q E. cbn [app] in E. injection E as <- E. split; [exact Wx|]. rewrite G. destruct (Hp p q E) as (e' & o' & -> & _). eauto.
Qed.
Lemma word_cases t : forall l, (exists r, l = t ++ r) \/ exists e k, word_wrong t l e k.
Proof.
  induction t as [|c t IH]; intros l; [left; exists l; reflexivity|]. destruct l as [|y l].
  - right. exists EofWhileParsingValue, 0. apply (ww_end _ [] c t). reflexivity.
  - destruct (N.eq_dec y c) as [->|Hy].
    + destruct (IH l) as [(r & ->)|(e & k & H)]; [left; exists r; reflexivity|right]. exists e, (S k). destruct H as [a c' b y r -> Hy|a c' b ->].
      * apply (ww_letter _ (c :: a) c' b y r); [reflexivity|exact Hy].
      * apply (ww_end _ (c :: a) c' b). reflexivity.
    + right. exists ExpectedSomeIdent, 0. apply (ww_letter _ [] c t y l); [reflexivity|exact Hy].
Qed.
