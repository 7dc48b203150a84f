(** Cases of the benchmark program. *)
From Verif Require Import Base Buffer Jiter RJiter RJiterSpec ScanSpec ValueSpec DdbSpec Cli Bench BenchSpec BenchKit.
From Verif Require Import BenchProofs BenchRun.
From Coq Require Import Lia.

Lemma number_is t : number_text t -> kit_read t = Some t -> readable_number kit_read t.
Proof. intros H E. split; [exact H|eauto]. Qed.
Lemma bench_emptied : exists a l, binput a = boutput a /\ kit_main a (alone (mkInput l None)) = (Some [], Ok tt) /\
  line_by_line (line_output (fun t : bytes => t) kit_read kit_from_str kit_to_string kit_to_string a) l (bs "{""Item"":{}}" ++ [10%N]).
Proof.
  exists (mkBargs ToDdb (Some "x.jsonl"%string) true (Some "x.jsonl"%string) false false), (bs "{}" ++ [10%N]). split; [reflexivity|]. split; [vm_compute; reflexivity|].
  replace (bs "{}" ++ [10%N]) with ((bs "{}" ++ [10%N]) ++ []) by reflexivity. replace (bs "{""Item"":{}}" ++ [10%N]) with ((bs "{""Item"":{}}" ++ [10%N]) ++ []) by reflexivity.
  constructor; [| |constructor].
  - split; [discriminate|]. split; [|left; reflexivity]. cbn. intros [H|[H|[]]]; discriminate.
  - split; [reflexivity|]. right. split; [vm_compute; discriminate|]. eexists _, _. split; [vm_compute; reflexivity|]. split; vm_compute; reflexivity.
Qed.
Ltac lit := apply bland_is, bland_by; reflexivity.
Ltac keys := repeat constructor; cbn; intuition discriminate.
Lemma digits_text t x d : t = x :: d -> (49 <= x <= 57)%N -> Forall digit d -> number_text t.
Proof.
  intros -> H1 H2. exists [], (x :: d), [], []. split; [rewrite !app_nil_r; reflexivity|]. split; [left; reflexivity|]. split; [right; exists x, d; auto|]. split; left; reflexivity.
Qed.
Ltac number := eapply digits_text; [vm_compute; reflexivity|lia|repeat constructor; lia].
Lemma bench_values :
  let ms := [(bs "a", JNumber (bs "12")); (bs "b\n", JArray [JNull; JTrue])] in
  let x := SObject [(bs "a", SNumber (bs "12")); (bs "b" ++ [10%N], SArray [SNull; SBool true])] in
  let ds := [(bs "c", DNS [bs "1"; bs "2"]); (bs "l", DL [DNull; DSS [bs "x"]; DSS [bs "y"]])] in
  let y := SObject [(bs "Item", SObject [(bs "c", SObject [(bs "NS", SArray [SString (bs "1"); SString (bs "2")])]);
    (bs "l", SObject [(bs "L", SArray [SObject [(bs "NULL", SBool true)]; SObject [(bs "SS", SArray [SString (bs "x")])]; SObject [(bs "SS", SArray [SString (bs "y")])]])])])] in
  denotes kit_read (JObject ms) x /\ canonical (fun t : bytes => t) kit_read (JObject ms) /\
  denotes kit_read (item_json true ds) y /\ Forall (fun kd => readable_numbers kit_read (snd kd)) ds.
Proof.
  assert (forall t, kit_read t = Some t -> forall n, kit_read t = Some n -> n = t) as K by (intros t E n E'; congruence).
  cbn zeta. split; [|split; [|split]].
  - cbn [denotes]. split; [keys|]. split; [lit|]. split; [vm_compute; reflexivity|]. split.
    { split; [|vm_compute; reflexivity]. apply jt_char; try discriminate. apply jt_escape; [vm_compute; reflexivity|constructor]. }
    repeat split.
  - cbn [canonical fold_right]. split; [split; [number|apply K; vm_compute; reflexivity]|]. repeat split.
  - cbn [denotes item_json ddb_json map]. repeat split; try lit; try keys.
  - constructor; [|constructor; [|constructor]]; cbn [readable_numbers snd fold_right]; [|repeat split].
    constructor; [|constructor; [|constructor]]; (split; [number|eexists; vm_compute; reflexivity]).
Qed.
Lemma bench_number_text : exists (show_num : bool -> bytes) (read_num : bytes -> option bool) ms x y,
  denotes read_num (JObject ms) x /\ to_dynamodb show_num x false = Ok y /\ ~ denotes read_num (record false (JObject ms)) y.
Proof.
  exists (fun _ => bs "1"), (fun _ => Some true), [(bs "a", JNumber (bs "1.0"))], (SObject [(bs "a", SNumber true)]). eexists. split; [|split; [vm_compute; reflexivity|]].
  - cbn [denotes]. split; [keys|]. split; [lit|]. split; reflexivity.
  - intros H. change (denotes (fun _ => Some true) (JObject [(bs "a", JObject [(bs "N", JString (bs "1.0"))])]) (SObject [(bs "a", SObject [(bs "N", SString (bs "1"))])])) in H.
    cbn [denotes] in H. destruct H as (_ & _ & (_ & _ & H & _) & _). apply bland_only in H; [discriminate|apply bland_by; reflexivity].
Qed.
Lemma bench_cut : exists a l out, binput a = boutput a /\ as_jsonl a = false /\ line_feeds l = 3000 /\ line_feeds out = 2731 /\
  kit_main a (alone (mkInput l None)) = (Some out, Ok tt).
Proof.
  exists (mkBargs ToDdb (Some "x"%string) false (Some "x"%string) false true), (List.concat (repeat (bs "{}" ++ [10%N]) (N.to_nat 3000))). eexists.
  split; [reflexivity|]. split; [reflexivity|]. split; [vm_compute; reflexivity|]. split; [|vm_compute; reflexivity]. vm_compute. reflexivity.
Qed.
