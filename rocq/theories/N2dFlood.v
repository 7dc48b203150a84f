(** * The converter to DynamoDB JSON fills any writer when the input ends inside a literal (C91) *)
From Coq Require Import List NArith Bool Arith Lia String.
Import ListNotations.
From Verif Require Import Base U8Pool Buffer BufferSpec Jiter RJiter RJiterSpec Scan ScanSpec Conv NormalToDdb ConvSpec ConvResults.
Local Open Scope nat_scope.

Definition fed (W : bytes) (k : nat) (e : io_kind) : conv := mkConv (mkWriter W (Some (k, e))) false false None 0 None.
Definition flood_text : bytes := bs "{""BOOL"":true}" ++ [10%N].
Definition after (W : bytes) : bytes := (((W ++ bs "{") ++ bs """BOOL"":true") ++ bs "}") ++ [10%N].
Lemma after_length W : len (after W) = len W + 14.
Proof. unfold after. rewrite !app_length. cbn. lia. Qed.
Lemma flood_step W k e : scan_iter (n2d_callbacks false) (mkOptions [] false) Top (mkS lit_parser (fed W (14 + S k) e) lit_pool) = Done (mkS lit_parser (fed (after W) (S k) e) lit_pool, Continue Top).
Proof. vm_compute. reflexivity. Qed.
Lemma flood_start k e :
  scan_iter (n2d_callbacks false) (mkOptions [] false) Top (mkS (rj_new (mkReader (bs "tru ") []) (repeat 0%N 16)) (fed [] (14 + S k) e) lit_pool) = Done (mkS lit_parser (fed (after []) (S k) e) lit_pool, Continue Top).
Proof. vm_compute. reflexivity. Qed.
Lemma flood_end W e : exists s v, scan_iter (n2d_callbacks false) (mkOptions [] false) Top (mkS lit_parser (fed W 1 e) lit_pool) = Done (s, Return (Err v)) /\ cout (user s) = mkWriter (((W ++ bs "{") ++ []) ++ []) (Some (0, e)).
Proof. eexists _, _. split; vm_compute; reflexivity. Qed.
Lemma flood_loop e m : forall W b fuel, m < fuel ->
  exists s v, scan_loop (n2d_callbacks false) (mkOptions [] false) fuel b Top (mkS lit_parser (fed W (14 * m + 1) e) lit_pool) = Done (s, Err v) /\ len (delivered (cout (user s))) = len W + 14 * m + 1.
Proof.
  induction m as [|m IH]; intros W b [|fuel] Hf; try lia; cbn [scan_loop stop_early]; rewrite Bool.andb_false_r; cbn [andb].
  - destruct (flood_end W e) as (s & v & E & O). change (14 * 0 + 1) with 1. rewrite E. exists s, v. split; [reflexivity|].
    rewrite O. cbn [delivered mkWriter]. rewrite !app_length. cbn. lia.
  - replace (14 * S m + 1) with (14 + S (14 * m)) by lia. rewrite flood_step. replace (S (14 * m)) with (14 * m + 1) by lia.
    destruct (IH (after W) true fuel) as (s & v & E & O); [lia|]. rewrite E. exists s, v. split; [reflexivity|]. rewrite O, after_length. lia.
Qed.
(** A writer that fails only after [15 + 14 * m] bytes gets all of them. *)
Lemma flood_converts e m fuel : S m < fuel ->
  exists w v, convert_normal_to_ddb fuel (mkReader (bs "tru ") []) (mkWriter [] (Some (14 * m + 15, e))) (repeat 0%N 16) (repeat 0%N 200) false false = Done (w, Err v)
    /\ len (delivered w) = 14 * m + 15.
Proof.
  intros Hf. unfold convert_normal_to_ddb, convert. change (pool_new true (repeat 0%N 200) 34) with (Done (Ok lit_new) : outcome (result pool perror)).
  cbn [obind]. unfold scan. cbn [stack].
  assert (exists x, push_assoc lit_new pos_ty [pos_code Top] (bs "#top") = Done (lit_pool, Ok x)) as (x & E) by (eexists; vm_compute; reflexivity).
  rewrite E. cbn [obind parser user]. destruct fuel as [|fuel]; [lia|]. cbn [scan_loop andb].
  unfold conv_new. fold (fed [] (14 * m + 15) e). replace (14 * m + 15) with (14 + S (14 * m)) by lia. rewrite flood_start.
  replace (S (14 * m)) with (14 * m + 1) by lia.
  destruct (flood_loop e m (after []) true fuel) as (s & v & E' & O); [lia|]. rewrite E'. cbn [obind]. eexists _, _. split; [reflexivity|].
  rewrite O, after_length. cbn. lia.
Qed.

(** A reader that fails now and then: each failure inside the literal is passed over, and the literal is written once more. *)
Definition cut_parser (L : list event) : rj := mkRj (mkBuf (bs "tru" ++ repeat 0%N 13) 3 0 0 0 (mkReader (bs "e ") L)) 3 0.
Definition taking (W : bytes) : conv := mkConv (mkWriter W None) false false None 0 None.
Notation patient := (scan_iter (n2d_callbacks false) (mkOptions [] false) Top).
Lemma shaky_start L e : patient (mkS (rj_new (mkReader (bs "true ") (Chunk 2 :: Fail e :: L)) (repeat 0%N 16)) (taking []) lit_pool) = Done (mkS (cut_parser L) (taking (after [])) lit_pool, Continue Top).
Proof. vm_compute. reflexivity. Qed.
Lemma shaky_step W L e : patient (mkS (cut_parser (Fail e :: L)) (taking W) lit_pool) = Done (mkS (cut_parser L) (taking (after W)) lit_pool, Continue Top).
Proof. vm_compute. reflexivity. Qed.
Lemma shaky_end W b fuel : exists s, scan_loop (n2d_callbacks false) (mkOptions [] false) (S (S (S fuel))) b Top (mkS (cut_parser []) (taking W) lit_pool) = Done (s, Ok tt) /\ written (cout (user s)) = after W.
Proof. destruct b; eexists; split; vm_compute; reflexivity. Qed.
Lemma shaky_loop e k : forall W b fuel, k + 3 <= fuel ->
  exists s, scan_loop (n2d_callbacks false) (mkOptions [] false) fuel b Top (mkS (cut_parser (repeat (Fail e) k)) (taking W) lit_pool) = Done (s, Ok tt) /\ len (written (cout (user s))) = len W + 14 * k + 14.
Proof.
  induction k as [|k IH]; intros W b fuel Hf.
  - destruct fuel as [|[|[|fuel]]]; try lia. destruct (shaky_end W b fuel) as (s & E & O). exists s. split; [exact E|]. rewrite O, after_length. lia.
  - destruct fuel as [|fuel]; [lia|]. cbn [scan_loop stop_early repeat]. rewrite Bool.andb_false_r. cbn [andb]. rewrite shaky_step.
    destruct (IH (after W) true fuel) as (s & E & O); [lia|]. exists s. split; [exact E|]. rewrite O, after_length. lia.
Qed.
Lemma shaky_converts e k fuel : k + 4 <= fuel -> exists w,
  convert_normal_to_ddb fuel (mkReader (bs "true ") (Chunk 2 :: repeat (Fail e) (S k))) (mkWriter [] None) (repeat 0%N 16) (repeat 0%N 200) false false = Done (w, Ok tt) /\
  len (written w) = 14 * k + 28.
Proof.
  intros Hf. unfold convert_normal_to_ddb, convert. change (pool_new true (repeat 0%N 200) 34) with (Done (Ok lit_new) : outcome (result pool perror)).
  cbn [obind]. unfold scan. cbn [stack].
  assert (exists x, push_assoc lit_new pos_ty [pos_code Top] (bs "#top") = Done (lit_pool, Ok x)) as (x & E) by (eexists; vm_compute; reflexivity).
  rewrite E. cbn [obind parser user]. destruct fuel as [|fuel]; [lia|]. cbn [scan_loop andb repeat].
  unfold conv_new. fold (taking []). rewrite shaky_start. destruct (shaky_loop e k (after []) true fuel) as (s & E' & O); [lia|]. rewrite E'. cbn [obind]. eexists. split; [reflexivity|].
  rewrite O, after_length. cbn. lia.
Qed.
