(** Items of which all bytes have arrived have been written. *)
From Verif Require Import Base U8Pool Buffer BufferSpec Jiter RJiter RJiterSpec Scan ScanSpec IdSpec DdbSpec Conv DdbToNormal ConvSpec ArrivedSpec.
From Verif Require Import ConvResults ArrivedConv.

Lemma records_arrived m (items : item_stream) d e q w rb xb pretty mode w' v :
  sane m -> may_fail m = false -> start m (rj_new (mkReader d (one_by_one d)) rb) -> documents (layout m) (map item_of items) d ->
  d2n_room xb (map item_of items) -> Forall (fit mode) items -> Forall (fun x => well_formed_item (snd x)) items -> wfail w = None ->
  2 <= List.length rb -> ends_apart d -> runs_below (List.length rb) d ->
  eventually (fun fuel => convert_ddb_to_normal fuel (mkReader d (one_by_one d ++ Fail e :: q)) w rb xb pretty mode) (Done (w', v)) ->
  exists text, spent w text w' /\ documents any_layout (map (fun x => plain_item (snd x)) items) text /\
    (pretty = false -> text = lines (map (fun x => plain_item (snd x)) items)).
Proof.
  intros H1 H2 H3 H4 H5 H6 H7 H8 C D S E.
  destruct (d2n_stream m items (mkReader d (one_by_one d)) w rb xb pretty mode H1 H2 H3 H4 H5 H6 H7 H8) as (text & w2 & Hev & Hs & Hd).
  rewrite (d2n_arrived d e q rb xb w pretty mode w' v w2 (Ok tt) C D S E Hev). exists text. auto.
Qed.
