(** Proofs about [trim]. *)
From Verif Require Import Base Buffer Jiter RJiter RJiterSpec Cli Bench BenchSpec.
From Coq Require Import Lia.

Lemma starts_with_app : forall p l, starts_with p l = true <-> exists r, l = p ++ r.
Proof.
  induction p as [|x p IH]; intros l; cbn [starts_with app]; [split; [eauto|reflexivity]|]. destruct l as [|y l]; [split; [discriminate|intros (r & H); discriminate]|].
  rewrite Bool.andb_true_iff, N.eqb_eq, IH. split; [intros (-> & r & ->); eauto|]. intros (r & H). injection H as -> ->. eauto.
Qed.
Lemma trim_skip chars : forall k l, trim_start chars k l = trim_start chars 0 (skipn k l).
Proof.
  induction k as [|k IH]; intros l; [reflexivity|]. destruct l as [|x l]; [reflexivity|]. cbn [trim_start skipn]. apply IH.
Qed.
Lemma trim_start_is chars : Forall (fun p => p <> []) chars -> forall n l, len l <= n ->
  exists front, l = List.concat front ++ trim_start chars 0 l /\ Forall (fun p => In p chars) front /\ forall p r, In p chars -> trim_start chars 0 l <> p ++ r.
Proof.
  intros HC. induction n as [|n IH]; intros l Hl.
  - destruct l; [|cbn [List.length] in Hl; lia]. exists []. split; [reflexivity|]. split; [constructor|]. intros p r Hp. rewrite Forall_forall in HC. specialize (HC p Hp). cbn. destruct p; [contradiction|discriminate].
  - destruct l as [|x l].
    + exists []. split; [reflexivity|]. split; [constructor|]. intros p r Hp. rewrite Forall_forall in HC. specialize (HC p Hp). cbn. destruct p; [contradiction|discriminate].
    + cbn [trim_start]. destruct (find (fun p => starts_with p (x :: l)) chars) as [p|] eqn:F.
      * apply find_some in F. destruct F as (Hp & F). apply starts_with_app in F. destruct F as (r & F). rewrite trim_skip.
        assert (p <> []) as Hn by (rewrite Forall_forall in HC; apply HC, Hp). destruct p as [|y p]; [contradiction|]. injection F as <- ->. cbn [List.length] in *.
        replace (S (len p) - 1) with (len p) by lia. rewrite skipn_app, skipn_all, Nat.sub_diag. cbn [app skipn]. rewrite app_length in Hl.
        destruct (IH r ltac:(unfold bytes, byte in *; lia)) as (front & A & B & C). exists ((x :: p) :: front). split; [cbn [List.concat app]; rewrite <- app_assoc; f_equal; f_equal; exact A|]. split; [constructor; assumption|exact C].
      * exists []. split; [reflexivity|]. split; [constructor|]. intros p r Hp E. pose proof (find_none _ _ F p Hp) as H. cbn beta in H. rewrite (proj2 (starts_with_app p (x :: l))) in H; [discriminate|eauto].
Qed.
Definition points : list N := [9; 10; 11; 12; 13; 32; 133; 160; 5760; 8192; 8193; 8194; 8195; 8196; 8197; 8198; 8199; 8200; 8201; 8202; 8232; 8233; 8239; 8287; 12288]%N.
Lemma points_are : white_space = map utf8_encode points.
Proof. vm_compute. reflexivity. Qed.
Lemma point_is c : In c points <-> white_space_point c.
Proof. unfold points, white_space_point. cbn [In]. lia. Qed.
Lemma white_is p : white p <-> In p white_space.
Proof.
  rewrite points_are, in_map_iff. split; intros (c & A & B); exists c; [rewrite point_is; auto|]. rewrite point_is in B. auto.
Qed.
Lemma rev_concat (l : list bytes) : rev (List.concat l) = List.concat (rev (map (@rev byte) l)).
Proof. induction l as [|x l IH]; [reflexivity|]. cbn [List.concat map rev]. rewrite rev_app_distr, IH, concat_app. cbn [List.concat]. rewrite app_nil_r. reflexivity. Qed.
Lemma white_full : Forall (fun p => p <> []) white_space /\ Forall (fun p => p <> []) (map (@rev byte) white_space).
Proof. split; vm_compute; repeat constructor; discriminate. Qed.
Lemma trim_is l : trimmed l (trim l).
Proof.
  unfold trimmed, trim. destruct (trim_start_is white_space (proj1 white_full) (len l) l (le_n _)) as (front & A & B & C). set (r := trim_start white_space 0 l) in *.
  destruct (trim_start_is (map (@rev byte) white_space) (proj2 white_full) (len (rev r)) (rev r) (le_n _)) as (back & D & E & F). set (t := trim_start (map (@rev byte) white_space) 0 (rev r)) in *.
  assert (r = rev t ++ List.concat (rev (map (@rev byte) back))) as G.
  { rewrite <- (rev_involutive r), D, rev_app_distr, rev_concat. reflexivity. }
  exists front, (rev (map (@rev byte) back)). split; [rewrite <- G; exact A|]. split; [eapply Forall_impl; [|exact B]; intros p; apply white_is|]. split.
  - apply Forall_rev. apply Forall_map. eapply Forall_impl; [|exact E]. cbn beta. intros p Hp. apply white_is. apply in_map_iff in Hp. destruct Hp as (q & <- & Hq). rewrite rev_involutive. exact Hq.
  - intros p x Hp. apply white_is in Hp. split; intros H.
    + apply (C p (x ++ List.concat (rev (map (@rev byte) back))) Hp). rewrite G, H, <- app_assoc. reflexivity.
    + apply (F (rev p) (rev x)); [apply in_map; exact Hp|]. rewrite <- rev_app_distr, <- H, rev_involutive. reflexivity.
Qed.
