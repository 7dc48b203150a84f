(** Cases of the converter in Python. *)
From Coq Require Import ZArith Lia.
From Verif Require Import Base Buffer Jiter RJiter RJiterSpec ScanSpec ValueSpec DdbSpec Cli Bench BenchSpec BenchKit PyBench PyBenchSpec PyKit.
From Verif Require Import BenchProofs BenchCases PyBenchProofs PyBenchRun PyNumbers.

Definition py_text (t : string) : value (pynum bytes) := SString (bs t).
Definition py_int (z : Z) : value (pynum bytes) := SNumber (PyInt z).
Definition py_float (t : string) : value (pynum bytes) := SNumber (PyFloat (bs t)).
Definition input_named (p : string) (d : direction) : bargs := mkBargs d (Some "in"%string) (String.eqb p "jsonl") (Some "out"%string) false false.
Definition feed : bytes := [10%N].


Lemma py_back_case :
  let x := SObject [(bs "a", py_int (-120)); (bs "Item", SArray [SNull; SBool true; py_text "x"; SObject []; py_float "1.5"])] in
  proper x /\ sound_numbers kit_read (fun t => t) x /\ ~ only_item x /\ exists y, py_to (fun t => t) x false = Ok y /\ py_from kit_read y = Ok x.
Proof.
  cbn zeta. split; [|split; [|split]].
  - cbn. repeat split; repeat constructor; cbn; intuition discriminate.
  - cbn [sound_numbers fold_right py_int py_text py_float]. split; [|split; [|exact I]].
    + unfold small_int, Z.lt. vm_compute. reflexivity.
    + repeat split. unfold fractional. apply Exists_cons_tl, Exists_cons_hd. left. reflexivity.
  - intros (y & H). discriminate.
  - eexists. split; vm_compute; reflexivity.
Qed.
Lemma py_same_case :
  let ms := [(bs "a", JNumber (bs "-12")); (bs "b\n", JArray [JNull; JNumber (bs "0")])] in
  let x := SObject [(bs "a", py_int (-12)); (bs "b" ++ feed, SArray [SNull; py_int 0])] in
  let ds := [(bs "c", DNS [bs "1"; bs "2.5"]); (bs "l", DL [DNull; DSS [bs "x"]])] in
  let y := SObject [(bs "Item", SObject [(bs "c", SObject [(bs "NS", SArray [py_text "1"; py_text "2.5"])]);
    (bs "l", SObject [(bs "L", SArray [SObject [(bs "NULL", SBool true)]; SObject [(bs "SS", SArray [py_text "x"])]])])])] in
  denotes py_kit_read (JObject ms) x /\ whole_numbers (JObject ms) /\
  denotes py_kit_read (item_json true ds) y /\ Forall (fun kd => readable_numbers py_kit_read (snd kd)) ds.
Proof.
  cbn zeta. split; [|split; [|split]].
  - cbn [denotes py_int]. split; [keys|]. split; [lit|]. split; [vm_compute; reflexivity|]. split.
    { split; [|vm_compute; reflexivity]. apply jt_char; try discriminate. apply jt_escape; [vm_compute; reflexivity|constructor]. }
    repeat split.
  - cbn [whole_numbers fold_right]. split; [|split; [split; [exact I|split; [|exact I]]|exact I]].
    + split; [exists (- decimal (bs "12"))%Z; apply (is_negative (bs "12")); right; exists 49%N, (bs "2"); split; [reflexivity|split; [lia|constructor; [unfold digit; cbn; lia|constructor]]]|]. split; [discriminate|]. cbn [bs List.length]. lia.
    + split; [exists (decimal (bs "0"))%Z; apply (is_positive (bs "0")); left; reflexivity|]. split; [discriminate|]. cbn [bs List.length]. lia.
  - cbn [denotes item_json ddb_json map py_text]. repeat split; try lit; try keys.
  - constructor; [|constructor; [|constructor]]; cbn [readable_numbers snd fold_right]; [|repeat split].
    constructor; [|constructor; [|constructor]].
    + split; [number|eexists; vm_compute; reflexivity].
    + split; [|eexists; vm_compute; reflexivity]. exists [], (bs "2"), (bs ".5"), []. split; [reflexivity|]. split; [left; reflexivity|]. split; [right; exists 50%N, []; split; [reflexivity|split; [lia|constructor]]|].
      split; [right; exists (bs "5"); split; [reflexivity|split; [discriminate|constructor; [unfold digit; cbn; lia|constructor]]]|left; reflexivity].
Qed.
Lemma py_minus_zero : forall (float : Type) (float_of : bytes -> option float) (str_float : float -> bytes), exists ms x y,
  ms = [(bs "a", JNumber (bs "-0"))] /\ denotes (py_read float_of) (JObject ms) x /\ py_to str_float x false = Ok y /\ ~ denotes (py_read float_of) (record false (JObject ms)) y.
Proof.
  intros float float_of str_float. eexists _, (SObject [(bs "a", SNumber (PyInt 0))]), _. split; [reflexivity|]. split; [|split; [reflexivity|]].
  - cbn [denotes]. split; [keys|]. split; [lit|]. split; [|exact I]. apply (read_integer float_of (bs "-0") 0); [apply (is_negative (bs "0")); left; reflexivity|]. unfold max_digits. cbn [bs List.length]. lia.
  - intros H. change (denotes (py_read float_of) (JObject [(bs "a", JObject [(bs "N", JString (bs "-0"))])]) (SObject [(bs "a", SObject [(bs "N", SString (bs "0"))])])) in H.
    cbn [denotes] in H. destruct H as (_ & _ & (_ & _ & H & _) & _). apply bland_only in H; [discriminate|apply bland_by; reflexivity].
Qed.
Lemma from_number {float : Type} (float_of : bytes -> option float) t : py_from float_of (SObject [(bs "a", SObject [(bs "N", SString t)])]) =
  match py_read float_of t with Some n => Ok (SObject [(bs "a", SNumber n)]) | None => Err (BadNumber t) end.
Proof.
  change (py_from float_of (SObject [(bs "a", SObject [(bs "N", SString t)])])) with
    (match (match (match py_read float_of t with Some n => Ok (SNumber n) | None => Err (BadNumber t) end) with Err e => Err e | Ok y => Ok [(bs "a", y)] end) with Err e => Err e | Ok out => Ok (SObject out) end).
  destruct (py_read float_of t); reflexivity.
Qed.
Lemma integers_taken : forall (float : Type) (float_of : bytes -> option float) (t : bytes) (z : Z), Forall (fun x => x < 128)%N t ->
  (py_from float_of (SObject [(bs "a", SObject [(bs "N", SString t)])]) = Ok (SObject [(bs "a", SNumber (PyInt z))]) <-> python_integer t z).
Proof.
  intros float float_of t z _. rewrite from_number. rewrite <- (read_int_is float_of t z). destruct (py_read float_of t); split; intros H; try discriminate; [injection H as ->; reflexivity|injection H as ->; reflexivity].
Qed.
Lemma integers_case : python_integer (bs " +1_000_007 ") 1000007 /\ python_integer (bs "-042") (-42).
Proof.
  split.
  - exists (bs " "), (bs "+"), [bs "1"; bs "000"; bs "007"], (bs " "). split; [reflexivity|]. split; [repeat constructor; right; reflexivity|]. split; [repeat constructor; right; reflexivity|]. split; [discriminate|].
    split; [repeat constructor; try discriminate; unfold digit; lia|]. split; [cbn [bs List.concat app List.length]; lia|]. left. split; [right; reflexivity|vm_compute; reflexivity].
  - exists [], (bs "-"), [bs "042"], []. split; [reflexivity|]. split; [constructor|]. split; [constructor|]. split; [discriminate|].
    split; [repeat constructor; try discriminate; unfold digit; lia|]. split; [cbn [bs List.concat app List.length]; lia|]. right. split; [reflexivity|vm_compute; reflexivity].
Qed.
Lemma underscores_taken : forall (float : Type) (float_of : bytes -> option float), exists t z,
  ~ number_text t /\ py_from float_of (SObject [(bs "a", SObject [(bs "N", SString t)])]) = Ok (SObject [(bs "a", SNumber (PyInt z))]).
Proof.
  intros float float_of. exists (bs "1_0"), 10%Z. split.
  - intros H. pose proof (number_bland _ H) as _. destruct H as (s & i & f & e & E & Hs & Hi & Hf & He).
    destruct Hs as [->| ->]; [|discriminate]. cbn [app] in E. destruct Hi as [->|(x & d & -> & Hx & Hd)]; [discriminate|]. cbn [app bs] in E. injection E as <- E.
    destruct d as [|y d]; cbn [app] in E.
    + destruct Hf as [->|(d & -> & _)]; [|discriminate]. cbn [app] in E. destruct He as [->|(m & s & d & -> & Hm & _)]; [discriminate|]. injection E as <- _. vm_compute in Hm. destruct Hm; discriminate.
    + injection E as <- _. inversion Hd as [|? ? Hy _]; subst. unfold digit in Hy. vm_compute in Hy. destruct Hy as (_ & Hy). apply Hy. reflexivity.
  - rewrite from_number. assert (py_read float_of (bs "1_0") = Some (PyInt 10)) as ->; [|reflexivity]. apply read_int_is.
    exists [], [], [bs "1"; bs "0"], []. split; [reflexivity|]. split; [constructor|]. split; [constructor|]. split; [discriminate|].
    split; [repeat constructor; try discriminate; unfold digit; lia|]. split; [cbn [bs List.concat app List.length]; lia|]. left. split; [left; reflexivity|vm_compute; reflexivity].
Qed.
Lemma long_refused : forall (float : Type) (float_of : bytes -> option float), exists t, number_text t /\ len t = N.to_nat 4301 /\
  py_from float_of (SObject [(bs "a", SObject [(bs "N", SString t)])]) = Err (BadNumber t).
Proof.
  intros float float_of. exists (repeat 49%N (N.to_nat 4301)).
  assert (A : forall n, Forall digit (repeat 49%N n)) by (intros n; apply Forall_forall; intros x Hx; apply repeat_spec in Hx; subst; unfold digit; lia).
  split; [|split; [apply repeat_length|]].
  - replace (N.to_nat 4301) with (S (N.to_nat 4300)) by lia. cbn [repeat]. eapply digits_text; [reflexivity|lia|apply A].
  - rewrite from_number. unfold py_read. rewrite digits_no_float by apply A. assert (int_of (repeat 49%N (N.to_nat 4301)) = None) as ->; [|reflexivity]. vm_compute. reflexivity.
Qed.
Lemma shown_same x : same kit_alike x (as_shown x).
Proof.
  induction x as [|b|n|s|l IH|m IH] using value_induction; try reflexivity.
  - cbn [as_shown]. apply same_items. induction IH; cbn [map]; constructor; auto.
  - cbn [as_shown]. apply same_members. induction IH as [|[k x] m Hx _ IHm]; cbn [map]; constructor; [split; [reflexivity|exact Hx]|exact IHm].
Qed.
Lemma shown_parsed t : parsed_alike kit_alike py_kit_read shown_read (py_kit_loads t) (shown_from_str t).
Proof.
  unfold shown_from_str. assert (py_kit_loads t <> Some None) as H by (unfold py_kit_loads; destruct (kit_from_str t); discriminate). destruct (py_kit_loads t) as [[x|]|]; [|contradiction|exact I].
  split; [apply shown_same|]. apply Forall_forall. intros n _. unfold read_alike, shown_read. destruct (py_kit_read n); [reflexivity|exact I].
Qed.
Lemma ordinary_by l : forallb (fun x => negb (N.eqb x 13) && ((x <? 28)%N || (31 <? x)%N)) l = true -> ordinary l.
Proof. intros H. apply Forall_forall. intros x Hx. rewrite forallb_forall in H. specialize (H x Hx). cbn beta in H. lia. Qed.
Lemma same_case :
  let l := bs "{""a"":{""N"":""5""}}" ++ feed ++ bs "{""b"":{""L"":[{""N"":""x""}]}}" ++ feed in
  is_utf8 l /\ ordinary l /\ shown_alike kit_alike py_kit_show (fun t => t) /\
  (forall t, document_of l t -> parsed_alike kit_alike py_kit_read shown_read (py_kit_loads t) (shown_from_str t)) /\
  py_kit_main (input_named "" FromDdb) (alone (mkInput l None)) = (Some (bs "{""a"": 5}" ++ feed), Err (BadNumber (bs "x"))) /\
  shown_main (input_named "" FromDdb) (alone (mkInput l None)) = (Some (bs "{""a"":5}" ++ feed), Err (Said "Invalid number format")).
Proof.
  cbn zeta. split; [reflexivity|]. split; [|split; [intros p r H; exact H|split; [intros t _; apply shown_parsed|split; vm_compute; reflexivity]]].
  apply ordinary_by. vm_compute. reflexivity.
Qed.
Lemma return_case : exists l d, is_utf8 l /\ Forall (fun x => x <> 10)%N l /\
  py_kit_main (input_named "" ToDdb) (alone (mkInput l None)) = (Some d, Ok tt) /\ line_feeds d = 2 /\
  kit_main (input_named "" ToDdb) (alone (mkInput l None)) = (Some [], Err InvalidJson).
Proof.
  exists (bs "{""a"":1}" ++ [13%N] ++ bs "{}"). eexists. split; [reflexivity|]. split; [repeat (constructor; [discriminate|]); constructor|]. split; [vm_compute; reflexivity|]. split; vm_compute; reflexivity.
Qed.
Lemma separator_case : exists l d, is_utf8 l /\ ~ In 13%N l /\
  py_kit_main (input_named "jsonl" ToDdb) (alone (mkInput l None)) = (Some d, Ok tt) /\
  kit_main (input_named "jsonl" ToDdb) (alone (mkInput l None)) = (Some [], Err (InvalidLine 2)).
Proof.
  exists ([28%N] ++ bs "{}"). eexists. split; [reflexivity|]. split; [cbn; intuition discriminate|]. split; vm_compute; reflexivity.
Qed.
