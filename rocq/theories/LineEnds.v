(** Proofs about the ends of lines in the converter in Python. *)
From Verif Require Import Base Bench PyBench LineEndSpec.

Lemma translate_is l l' : with_feeds l l' -> translate l = l'.
Proof.
  induction 1 as [|x l l' Hx H IH|l l' H IH|l l' Hy H IH]; cbn [translate].
  - reflexivity.
  - apply N.eqb_neq in Hx. rewrite Hx, IH. reflexivity.
  - cbn. rewrite IH. reflexivity.
  - change (N.eqb 13 13) with true. cbv iota. destruct l as [|y k]; [inversion H; reflexivity|].
    specialize (Hy y k eq_refl). apply N.eqb_neq in Hy. rewrite Hy, IH. reflexivity.
Qed.
Lemma feeds_exist l : exists l', with_feeds l l' /\ Forall (fun x => x <> 13)%N l'.
Proof.
  enough (H : forall n l, len l <= n -> exists l', with_feeds l l' /\ Forall (fun x => x <> 13)%N l') by exact (H _ _ (Nat.le_refl _)).
  clear l. induction n as [|n IH]; intros [|x l] Hl; cbn in Hl; try lia; try (exists []; split; constructor).
  destruct (N.eq_dec x 13) as [->|Hx].
  - destruct l as [|y k]; [exists [10%N]; split; [apply wf_return; [discriminate|constructor]|repeat constructor; discriminate]|].
    destruct (N.eq_dec y 10) as [->|Hy].
    + destruct (IH k) as (l' & H & F); [cbn in Hl; lia|]. exists (10%N :: l'). split; [apply wf_both, H|constructor; [discriminate|exact F]].
    + destruct (IH (y :: k)) as (l' & H & F); [lia|]. exists (10%N :: l'). split; [apply wf_return; [|exact H]|constructor; [discriminate|exact F]].
      intros y' k' E. injection E as <- <-. exact Hy.
  - destruct (IH l) as (l' & H & F); [lia|]. exists (x :: l'). split; [apply wf_other; assumption|constructor; assumption].
Qed.
Lemma feeds_same (float : Type) (float_of : bytes -> option float) (str_float : float -> bytes) loads dumps dumps_pretty a o o' i i' t :
  match binput a with Some p => bfile o p | None => Some (bstdin o) end = Some i ->
  match binput a with Some p => bfile o' p | None => Some (bstdin o') end = Some i' ->
  broken i = broken i' -> with_feeds (coming i) t -> with_feeds (coming i') t -> bbudget o (boutput a) = bbudget o' (boutput a) ->
  py_main float_of str_float loads dumps dumps_pretty a o = py_main float_of str_float loads dumps dumps_pretty a o'.
Proof. intros E E' B H H' Q. unfold py_main. rewrite E, E', (translate_is _ _ H), (translate_is _ _ H'), B, Q. reflexivity. Qed.
Lemma feeds_unique l a b : with_feeds l a -> with_feeds l b -> a = b.
Proof. intros H K. rewrite <- (translate_is _ _ H). apply translate_is, K. Qed.
