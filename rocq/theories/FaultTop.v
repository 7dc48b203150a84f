(** Proofs about [idtransform] in front of an atom that is wrong. *)
From Verif Require Import Base U8Pool Buffer BufferSpec Jiter RJiter RJiterSpec Scan ScanSpec IdTransform IdSpec SoundSpec UnicodeSpec FaultSpec FaultWordSpec FaultNumberSpec FaultAtomSpec.
From Verif Require Import RJiterProofs ScanTokens ScanParser ScanStack ScanProofs IdProofs PeekTokens FaultAtom.

Lemma top_atom d r w p ws x l : valid r -> 2 <= rcap r -> rquiet r = true -> rest r = ws ++ x :: l -> spaces ws -> solid x -> x <> LBRACK -> x <> LBRACE ->
  fresh d p -> (1 <= slices d)%N -> 5 <= space_for d ->
  exists r2 p', valid r2 /\ rcap r2 = rcap r /\ rquiet r2 = true /\ total r2 = total r /\ rest r2 = x :: l /\
    forall r3 w3 e, copy_atom x r2 w = Done (r3, w3, Err e) -> (forall e', e = RJiterError e' -> is_io e' = false) ->
      eventually (fun fuel => idtransform fuel r w p) (Done (r3, w3, p', Err e)).
Proof.
  intros V Hc Q HR Hw Hx X1 X2 Hp H1 H5.
  destruct (peek_here (rcap r) (total r) r ws x l) as (r1 & P1 & (V1 & C1 & Q1 & T1) & R1); auto; [repeat split; auto; apply V|].
  destruct (peek_here (rcap r) (total r) r1 [] x l Hc) as (r2 & P2 & (V2 & C2 & Q2 & T2) & R2); [repeat split; auto; apply V1|exact R1|apply Forall_nil|exact Hx|].
  destruct (stack_push d p [] (pos_code Top) (bs "#top") (stack_fresh _ _ Hp)) as (p' & px & Hpush & Hpx).
  assert (A : admit_name d (path_of []) (bs "#top") = None).
  { unfold admit_name. cbn [path_of map List.length weight list_sum fold_right]. destruct (N.leb_spec (slices d) (N.of_nat 0)); [lia|].
    change (len (bs "#top")) with 4. destruct (Nat.ltb_spec (space_for d) (0 + 5)); [lia|]. reflexivity. }
  rewrite A in Hpx. destruct Hpx as [-> Hst].
  exists r2, p'. repeat (split; [assumption|]). intros r3 w3 e Ec He. exists 1. intros fuel Hf. destruct fuel as [|fuel]; [lia|].
  unfold idtransform, scan. cbn [stack parser user]. rewrite Hpush. cbn [obind]. cbv zeta. cbn [scan_loop andb scan_iter parser user stack].
  rewrite P1. cbn [obind]. unfold scan_value. apply N.eqb_neq in X1, X2. rewrite X1, X2.
  unfold run_begin. cbn [stack user parser]. rewrite (stack_context _ _ _ Hst). cbn [obind find_action idt_callbacks idt_find_action].
  unfold on_atom. cbn [write_seqpos idt_new set_level seq set_seq out]. rewrite P2. cbn [obind out set_seq set_level idt_new]. rewrite Ec. cbn [obind vbind].
  destruct e as [e'| | | | | |]; cbn; try reflexivity.
  specialize (He e' eq_refl). destruct e' as [[]]; cbn in He |- *; try discriminate; reflexivity.
Qed.
Lemma top_literal d r w p ws x t l e k : literal x t -> word_wrong t l e k -> valid r -> 5 <= rcap r -> rquiet r = true -> rest r = ws ++ x :: l -> spaces ws ->
  fresh d p -> (1 <= slices d)%N -> 5 <= space_for d ->
  exists r' p', eventually (fun fuel => idtransform fuel r w p) (Done (r', w, p', Err (RJiterError (mkErr (JsonError e) (total r - len (x :: l) + (1 + k)))))) /\
    valid r' /\ rest r' = x :: l.
Proof.
  intros Hlit Hx V Hc Q HR Hw Hp H1 H5.
  assert (Sx : solid x /\ x <> LBRACK /\ x <> LBRACE) by (destruct Hlit as [E|[E|E]]; injection E as -> _; repeat split; discriminate).
  destruct Sx as (Sx & X1 & X2).
  destruct (top_atom d r w p ws x l) as (r2 & p' & V2 & C2 & Q2 & T2 & R2 & H); auto; [lia|].
  destruct (literal_atom r2 w x t l e k Hlit V2) as (r3 & er & Ec & P); auto; [lia|].
  destruct P as [(_ & P)|(-> & V3 & R3)]; [congruence|]. rewrite T2 in Ec.
  exists r3, p'. split; [|auto]. apply (H r3 w _ Ec). intros e' E. injection E as <-. reflexivity.
Qed.
Lemma top_number d r w p ws x l K : no_number (x :: l) K -> x <> LBRACK -> x <> LBRACE -> valid r -> 2 <= rcap r -> K <= rcap r -> rquiet r = true ->
  rest r = ws ++ x :: l -> spaces ws -> fresh d p -> (1 <= slices d)%N -> 5 <= space_for d ->
  exists r' p', eventually (fun fuel => idtransform fuel r w p) (Done (r', w, p', Err (UnhandledPeek x (total r - len (x :: l))))) /\
    valid r' /\ rest r' = x :: l.
Proof.
  intros Hn X1 X2 V Hc HK Q HR Hw Hp H1 H5.
  assert (Sx : solid x).
  { assert (Hnum : is_num x = true -> solid x).
    { clear. unfold solid, is_num, is_digit, is_ascii_whitespace. intros Hx.
      assert (x <> 32 /\ x <> 9 /\ x <> 10 /\ x <> 13 /\ x <> 12)%N as (A1 & A2 & A3 & A4 & A5) by (repeat split; intros ->; discriminate Hx).
      apply N.eqb_neq in A1, A2, A3, A4, A5. rewrite A1, A2, A3, A4, A5. reflexivity. }
    remember (x :: l) as m eqn:Em. destruct Hn as [a e o q Ha|a b Ha|y q Hb _ _ _ _ _ _].
    - destruct (FaultNumber.wrong_head _ _ _ Ha) as (y & a' & -> & Hy). cbn [app] in Em. injection Em as -> _. auto.
    - destruct (FaultNumber.awaits_head _ _ Ha) as (y & a' & -> & Hy). injection Em as -> _. auto.
    - injection Em as -> _. unfold solid, is_ascii_whitespace.
      assert (x <> 32 /\ x <> 9 /\ x <> 10 /\ x <> 13 /\ x <> 12)%N as (A1 & A2 & A3 & A4 & A5) by (repeat split; intros ->; apply Hb; unfold blank, space; auto 10).
      apply N.eqb_neq in A1, A2, A3, A4, A5. rewrite A1, A2, A3, A4, A5. reflexivity. }
  destruct (top_atom d r w p ws x l) as (r2 & p' & V2 & C2 & Q2 & T2 & R2 & H); auto.
  destruct (number_atom r2 w x l K Hn V2) as (r3 & i & Ec & P); auto; [lia..|].
  destruct (P Q2) as (-> & V3 & R3). rewrite T2 in Ec.
  exists r3, p'. split; [|auto]. apply (H r3 w _ Ec). discriminate.
Qed.
(** [scan] without a callback for atoms. *)
Lemma basic_literal {B} (s : sstate B) x t l e k : literal x t -> valid (parser s) -> 5 <= rcap (parser s) -> rquiet (parser s) = true -> rest (parser s) = x :: l -> word_wrong t l e k ->
  exists r' er, skip_basic_values x s = Done (mkS r' (user s) (stack s), Err er) /\ valid r' /\ rest r' = x :: l /\ total r' = total (parser s).
Proof.
  intros Hlit V Hc Q HR Hx.
  assert (H : forall A (op : rj -> outcome (rj * result A rerror)), word_method true x op ->
    exists s' r, op (parser s) = Done (s', Err r) /\ valid s' /\ rest s' = x :: l /\ total s' = total (parser s)).
  { intros A op Hm. destruct (FaultWord.word_named true x op (parser s) [] t l e k Hm) as (s' & r & E & P); auto; [constructor|]. exists s', r. split; [exact E|].
    destruct P as [(_ & P)|(P1 & P2 & P3 & P4 & _ & P5 & _)]; [congruence|]. auto. }
  unfold skip_basic_values. destruct Hlit as [E|[E|E]]; injection E as -> ->; cbn [N.eqb Pos.eqb QUOTE PeekNull PeekTrue PeekFalse]; unfold parse.
  - destruct (H _ known_null wm_known_null) as (s' & r & -> & P). cbn. eauto.
  - destruct (H _ (known_bool 116%N) wm_known_true) as (s' & r & -> & P). cbn. eauto.
  - destruct (H _ (known_bool 102%N) wm_known_false) as (s' & r & -> & P). cbn. eauto.
Qed.
Lemma basic_number {B} (s : sstate B) x l K : no_number (x :: l) K -> valid (parser s) -> 2 <= rcap (parser s) -> K <= rcap (parser s) -> rquiet (parser s) = true ->
  rest (parser s) = x :: l ->
  exists r' er, skip_basic_values x s = Done (mkS r' (user s) (stack s), Err er) /\ valid r' /\ rest r' = x :: l /\ total r' = total (parser s).
Proof.
  intros Hk V Hc HK Q HR. destruct (no_number_head _ _ Hk x l eq_refl) as (H1 & H2 & H3 & H4).
  destruct (number_refused (parser s) x l K Hk V Hc HK HR) as (e & o & s' & r & E & P).
  unfold skip_basic_values, QUOTE, PeekNull, PeekTrue, PeekFalse. apply N.eqb_neq in H1, H2, H3, H4. rewrite H1, H2, H3, H4, E. cbn [obind].
  do 2 eexists. split; [reflexivity|]. destruct P as [(_ & P)|(P1 & P2 & P3 & P4 & P5 & P6 & _)]; [congruence|]. auto.
Qed.
Lemma top_scan {B} (cb : callbacks B) stop d r (u : B) p ws x l : (forall c v, exists v', find_action cb PAtom c v = (v', None)) ->
  valid r -> 2 <= rcap r -> rquiet r = true -> rest r = ws ++ x :: l -> spaces ws -> solid x -> x <> LBRACK -> x <> LBRACE ->
  fresh d p -> (1 <= slices d)%N -> 5 <= space_for d ->
  (forall s : sstate B, valid (parser s) -> rcap (parser s) = rcap r -> rquiet (parser s) = true -> total (parser s) = total r -> rest (parser s) = x :: l ->
    exists r' er, skip_basic_values x s = Done (mkS r' (user s) (stack s), Err er) /\ valid r' /\ rest r' = x :: l /\ total r' = total (parser s)) ->
  exists s', eventually (fun fuel => scan cb (mkOptions [] stop) fuel (mkS r u p)) (Done (s', Err (UnhandledPeek x (total r - len (x :: l))))) /\
    valid (parser s') /\ rest (parser s') = x :: l.
Proof.
  intros Hcb V Hc Q HR Hw Hx X1 X2 Hp H1 H5 Hb.
  destruct (peek_here (rcap r) (total r) r ws x l) as (r1 & P1 & (V1 & C1 & Q1 & T1) & R1); auto; [repeat split; auto; apply V|].
  destruct (stack_push d p [] (pos_code Top) (bs "#top") (stack_fresh _ _ Hp)) as (p' & px & Hpush & Hpx).
  assert (A : admit_name d (path_of []) (bs "#top") = None).
  { unfold admit_name. cbn [path_of map List.length weight list_sum fold_right]. destruct (N.leb_spec (slices d) (N.of_nat 0)); [lia|].
    change (len (bs "#top")) with 4. destruct (Nat.ltb_spec (space_for d) (0 + 5)); [lia|]. reflexivity. }
  rewrite A in Hpx. destruct Hpx as [-> Hst].
  pose proof (stack_context _ _ _ Hst) as Hctx. match type of Hctx with _ = Done ?c => set (ctx := c) in Hctx end.
  destruct (Hcb ctx u) as (u' & Hu).
  destruct (Hb (mkS r1 u' p')) as (r2 & er & E2 & V2 & R2 & T2); auto.
  exists (mkS r2 u' p'). split; [|auto]. exists 1. intros fuel Hf. destruct fuel as [|fuel]; [lia|].
  unfold scan. cbn [stack parser user]. rewrite Hpush. cbn [obind]. cbv zeta. cbn [scan_loop andb scan_iter parser user stack].
  rewrite P1. cbn [obind]. unfold scan_value. apply N.eqb_neq in X1, X2. rewrite X1, X2.
  unfold run_begin. cbn [stack user parser]. rewrite Hctx. cbn [obind]. rewrite Hu. cbn [vbind].
  rewrite E2. cbn [obind user stack parser pos_eqb orb sse_tokens skip_tokens].
  assert (Ei : current_index r2 = total r - len (x :: l)) by (rewrite (index_of r2 V2), R2, T2; cbn [parser]; rewrite T1; reflexivity).
  rewrite <- Ei. reflexivity.
Qed.
Lemma scan_literal {B} (cb : callbacks B) stop d r (u : B) p ws x t l e k : (forall c v, exists v', find_action cb PAtom c v = (v', None)) ->
  literal x t -> word_wrong t l e k -> valid r -> 5 <= rcap r -> rquiet r = true -> rest r = ws ++ x :: l -> spaces ws ->
  fresh d p -> (1 <= slices d)%N -> 5 <= space_for d ->
  exists s', eventually (fun fuel => scan cb (mkOptions [] stop) fuel (mkS r u p)) (Done (s', Err (UnhandledPeek x (total r - len (x :: l))))) /\
    valid (parser s') /\ rest (parser s') = x :: l.
Proof.
  intros Hcb Hlit Hx V Hc Q HR Hw Hp H1 H5.
  assert (Sx : solid x /\ x <> LBRACK /\ x <> LBRACE) by (destruct Hlit as [E|[E|E]]; injection E as -> _; repeat split; discriminate).
  destruct Sx as (Sx & X1 & X2). apply (top_scan cb stop d r u p ws x l); auto; [lia|].
  intros s V' C' Q' T' R'. apply (basic_literal s x t l e k); auto. lia.
Qed.
Lemma no_number_solid x l K : no_number (x :: l) K -> solid x.
Proof.
  intros Hn. assert (Hnum : is_num x = true -> solid x).
  { clear. unfold solid, is_num, is_digit, is_ascii_whitespace. intros Hx.
    assert (x <> 32 /\ x <> 9 /\ x <> 10 /\ x <> 13 /\ x <> 12)%N as (A1 & A2 & A3 & A4 & A5) by (repeat split; intros ->; discriminate Hx).
    apply N.eqb_neq in A1, A2, A3, A4, A5. rewrite A1, A2, A3, A4, A5. reflexivity. }
  remember (x :: l) as m eqn:Em. destruct Hn as [a e o q Ha|a b Ha|y q Hb _ _ _ _ _ _].
  - destruct (FaultNumber.wrong_head _ _ _ Ha) as (y & a' & -> & Hy). cbn [app] in Em. injection Em as -> _. auto.
  - destruct (FaultNumber.awaits_head _ _ Ha) as (y & a' & -> & Hy). injection Em as -> _. auto.
  - injection Em as -> _. unfold solid, is_ascii_whitespace.
    assert (x <> 32 /\ x <> 9 /\ x <> 10 /\ x <> 13 /\ x <> 12)%N as (A1 & A2 & A3 & A4 & A5) by (repeat split; intros ->; apply Hb; unfold blank, space; auto 10).
    apply N.eqb_neq in A1, A2, A3, A4, A5. rewrite A1, A2, A3, A4, A5. reflexivity.
Qed.
Lemma scan_number {B} (cb : callbacks B) stop d r (u : B) p ws x l K : (forall c v, exists v', find_action cb PAtom c v = (v', None)) ->
  no_number (x :: l) K -> x <> LBRACK -> x <> LBRACE -> valid r -> 2 <= rcap r -> K <= rcap r -> rquiet r = true -> rest r = ws ++ x :: l -> spaces ws ->
  fresh d p -> (1 <= slices d)%N -> 5 <= space_for d ->
  exists s', eventually (fun fuel => scan cb (mkOptions [] stop) fuel (mkS r u p)) (Done (s', Err (UnhandledPeek x (total r - len (x :: l))))) /\
    valid (parser s') /\ rest (parser s') = x :: l.
Proof.
  intros Hcb Hn X1 X2 V Hc HK Q HR Hw Hp H1 H5. apply (top_scan cb stop d r u p ws x l); auto; [apply (no_number_solid x l K Hn)|].
  intros s V' C' Q' T' R'. apply (basic_number s x l K); auto; lia.
Qed.
