(** Texts that are no JSON: a text that is refused by the scanner, for which there is no room issue, is none. *)
From Verif Require Import Base U8Pool Buffer BufferSpec Jiter RJiter RJiterSpec Scan ScanSpec.
From Verif Require Import ScanTokens ScanParser ScanStack ScanProofs ScanTop ScanSse ScanExamples IdProofs.

Lemma delimited_newline r : delimited r -> delimited (r ++ [10%N]).
Proof. destruct r; [reflexivity|auto]. Qed.
Lemma add_newline :
  (forall b v l r, value_at any_layout b v l r -> value_at buffer_layout b v (l ++ [10%N]) (r ++ [10%N])) /\
  (forall vs l r, items_at any_layout vs l r -> items_at buffer_layout vs (l ++ [10%N]) (r ++ [10%N])) /\
  (forall ms l r, members_at any_layout ms l r -> members_at buffer_layout ms (l ++ [10%N]) (r ++ [10%N])).
Proof.
  apply grammar_ind; intros; repeat first [rewrite <- app_assoc | progress cbn [app]].
  - apply at_null.
  - apply at_true.
  - apply at_false.
  - apply ScanSpec.at_number; [assumption|apply delimited_newline; assumption|]. destruct r; discriminate.
  - apply at_string; [assumption|exact I].
  - apply at_array_empty; assumption.
  - eapply at_array; eassumption.
  - apply at_object_empty; [assumption|exact I].
  - eapply at_object; try eassumption; exact I.
  - apply items_end; assumption.
  - eapply items_more; eassumption.
  - apply members_end; assumption.
  - eapply members_more; try eassumption; exact I.
Qed.
Lemma documents_newline vs l : documents any_layout vs l -> documents buffer_layout vs (l ++ [10%N]).
Proof.
  induction 1 as [l Hl|v vs l r (w & l' & -> & Hw & Hv) _ IH].
  - apply docs_end. apply Forall_app. split; [exact Hl|]. constructor; [cbv; auto|constructor].
  - rewrite <- app_assoc. apply docs_more with (r := r ++ [10%N]); [|exact IH]. exists w, (l' ++ [10%N]). split; [reflexivity|]. split; [exact Hw|]. apply add_newline, Hv.
Qed.
Definition rejects (l : bytes) : bool :=
  match scan observer (mkOptions [] false) 1000 (mkS (ex_rj (l ++ [10%N]) [] (S (len (l ++ [10%N])))) [] (ex_pool 60 5)) with
  | Done (_, Err (RJiterError _)) | Done (_, Err (UnhandledPeek _ _)) | Done (_, Err (UnbalancedJson _)) => true
  | _ => false
  end.
Lemma ex_rj_loads l : loadable (S (len l)) (ex_rj l [] (S (len l))).
Proof.
  unfold ex_rj. split; [|split].
  - unfold valid, wf. cbn. rewrite ?repeat_length. repeat split; lia.
  - cbn. rewrite repeat_length. reflexivity.
  - split; [|reflexivity]. right. cbn. rewrite repeat_length. repeat split; lia.
Qed.
Lemma rejected l : rejects l = true -> forall vs, ~ documents any_layout vs l.
Proof.
  intros H vs Hd. apply documents_newline in Hd. unfold rejects in H.
  set (s := mkS (ex_rj (l ++ [10%N]) [] (S (len (l ++ [10%N])))) [] (ex_pool 60 5)) in H.
  assert (HO := observe_sequence (InBuffer (S (len (l ++ [10%N])))) (mkDims 5 40) (mkOptions [] false) s vs).
  cbv zeta in HO. assert (HF : stack_of (mkDims 5 40) (stack s) []) by apply stack_fresh, ex_fresh.
  specialize (HO ltac:(cbn; rewrite app_length; cbn; lia) eq_refl eq_refl (ex_rj_loads _)).
  assert (HR : rest (parser s) = l ++ [10%N]) by reflexivity. rewrite HR in HO. specialize (HO Hd HF). clear HF HR Hd.
  destruct (scan observer (mkOptions [] false) 1000 s) as [[s' v]| |] eqn:E; [|discriminate..].
  assert (HE : forall x, eventually (fun fuel => scan observer (mkOptions [] false) fuel s) (Done x) -> x = (s', v)).
  { intros x (n & Hn). specialize (Hn (1000 + n) ltac:(lia)). rewrite (scan_mono observer _ n 1000 _ _ E) in Hn by discriminate. congruence. }
  unfold end_of in HO. destruct (snd _) as [[]|]; cbn [outcome_is reports] in HO.
  - destruct HO as (s1 & e & HO & _ & ->). apply HE in HO. injection HO as <- <-. discriminate.
  - destruct HO as (s1 & e & HO & _ & [(k & ->)|(k & ->)]); apply HE in HO; injection HO as <- <-; discriminate.
  - destruct HO as (s1 & HO & _). apply HE in HO. injection HO as <- <-. discriminate.
Qed.
