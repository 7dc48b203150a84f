(** Proofs about whole runs of the converter in Python. *)
From Coq Require Import ZArith Lia.
From Verif Require Import Base Buffer Jiter RJiter RJiterSpec ScanSpec ValueSpec DdbSpec ConvSpec Cli CliSpec Bench BenchSpec PyBench PyBenchSpec.
From Verif Require Import RJiterLongProofs BenchProofs BenchRun BenchTrim PyBenchProofs.
Local Opaque default_capacity.

Section Runs.
Context {float R : Type} (float_of : bytes -> option float) (str_float : float -> bytes) (show' : R -> bytes) (read' : bytes -> option R).
Context (alike : pynum float -> R -> Prop) (Hn : shown_alike alike (py_show str_float) show').
Context (loads : bytes -> option (option (value (pynum float)))) (dumps dumps_pretty : value (pynum float) -> bytes).
Context (from_str : bytes -> option (value R)) (to_string to_string_pretty : value R -> bytes).
Notation beside := (beside alike dumps dumps_pretty to_string to_string_pretty).
Notation step_alike := (step_alike alike dumps dumps_pretty to_string to_string_pretty).
Notation line_alike := (line_alike float_of read' alike loads from_str).
Notation py_jsonl := (py_jsonl float_of str_float loads dumps dumps_pretty).
Notation py_json := (py_json float_of str_float loads dumps dumps_pretty).
Notation process_jsonl := (process_jsonl show' read' from_str to_string to_string_pretty).
Notation process_json := (process_json show' read' from_str to_string to_string_pretty).
Notation py_main := (py_main float_of str_float loads dumps dumps_pretty).
Notation bench_main := (bench_main show' read' from_str to_string to_string_pretty).
Definition parsing (t : bytes) : Prop := parsed_alike alike (py_read float_of) read' (loads t) (from_str t).
(** A line that both programs see in the same way. *)
Definition plain_line (p : bytes) : Prop := utf8_invalid 0 p = None /\ strip p = trim p /\ parsing (trim p).
Lemma whole_utf8 a b : whole_lines a -> is_utf8 (a ++ b) -> is_utf8 a /\ is_utf8 b.
Proof. intros [->|(l & ->)] H; [split; [reflexivity|exact H]|]. apply utf8_lines. exact H. Qed.
Lemma ordinary_separators l : ordinary l -> Forall (fun x => ~ separator x) l.
Proof. apply Forall_impl. intros x (_ & H). exact H. Qed.
Lemma ordinary_returns l : ordinary l -> Forall (fun x => x <> 13)%N l.
Proof. apply Forall_impl. intros x (H & _). exact H. Qed.
Lemma plain_pieces l : is_utf8 l -> ordinary l -> (forall t, document_of l t -> parsing t) -> Forall plain_line (pieces l).
Proof.
  intros Hu Ho Hp. apply Forall_forall. intros p Hi. apply In_nth_error in Hi. destruct Hi as (i & Hi). destruct (nth_piece i l p Hi) as (before & rest & E & Hw & _ & Hl).
  split; [|split].
  - rewrite E in Hu. apply (whole_utf8 before) in Hu; [|exact Hw]. destruct Hu as (_ & Hu). destruct Hl as (A & _ & [C| ->]); [|rewrite app_nil_r in Hu; exact Hu].
    apply (whole_utf8 p rest); [|exact Hu]. right. destruct (exists_last A) as (q & x & ->). rewrite last_last in C. subst x. eauto.
  - apply strip_trim. apply ordinary_separators. unfold ordinary in *. rewrite E in Ho. apply Forall_app in Ho. destruct Ho as (_ & Ho). apply Forall_app in Ho. apply Ho.
  - apply Hp. right. exists before, p, rest. split; [exact E|]. split; [exact Hw|]. split; [exact Hl|apply trim_is].
Qed.
Lemma plain_alike p : plain_line p -> line_alike (Ok p) (as_text p).
Proof. intros (U & E & H). unfold as_text. rewrite U. split; [exact E|]. intros _. exact H. Qed.
Lemma lines_alike l b : Forall plain_line (pieces l) -> Forall2 line_alike (py_lines (mkInput l b)) (lines_of (mkInput l b)).
Proof.
  intros H. unfold py_lines, lines_of. cbn [broken coming].
  assert (K : forall ps, Forall plain_line ps -> Forall2 line_alike (map Ok ps) (map as_text ps)).
  { induction 1; cbn [map]; constructor; [apply plain_alike; assumption|assumption]. }
  destruct b as [k|]; [|apply K; exact H]. apply Forall2_app; [apply K|].
  - apply Forall_forall. intros p Hi. apply filter_In in Hi. rewrite Forall_forall in H. apply H, Hi.
  - constructor; [constructor|constructor].
Qed.
Lemma jsonl_alike a line rest b : (trim line <> [] -> strip line = trim line /\ parsing (trim line)) -> (trim line = [] -> strip line = []) -> Forall plain_line (pieces rest) ->
  step_alike a (py_jsonl a line (mkInput rest b)) (process_jsonl a line (mkInput rest b) (mkWriter [] None)).
Proof.
  intros H H0 Hr. unfold PyBench.py_jsonl, Bench.process_jsonl.
  assert (K : step_alike a (match strip line with [] => ([], Ok tt) | t => py_handle float_of str_float loads dumps dumps_pretty a (BadLine 1) t [] end)
     (match trim line with [] => (mkWriter [] None, Ok tt) | t => handle show' read' from_str to_string to_string_pretty a (InvalidLine 1) t (mkWriter [] None) end)).
  { destruct (trim line) as [|x t] eqn:T.
    - rewrite (H0 eq_refl). exists []. split; [reflexivity|]. split; [apply beside_nil|exact I].
    - destruct (H ltac:(discriminate)) as (E & Hp). rewrite E. apply handle_alike'; [exact Hn|constructor|exact Hp|apply beside_nil]. }
  destruct (match strip line with [] => _ | _ => _ end) as [o v], (match trim line with [] => _ | _ => _ end) as [w v'].
  destruct K as (d & Ed & B & C). cbn [fst snd] in *. subst w. destruct v as [u|c], v' as [u'|e]; try contradiction.
  - apply loop_alike'; [exact Hn|apply lines_alike; exact Hr|exact B].
  - exists d. split; [reflexivity|]. split; [exact B|exact C].
Qed.
Lemma json_alike a line rest b : is_utf8 rest -> parsing (line ++ rest) ->
  step_alike a (py_json a line (mkInput rest b)) (process_json a line (mkInput rest b) (mkWriter [] None)).
Proof.
  intros Hu Hp. unfold PyBench.py_json, Bench.process_json, py_readall, read_to_string. cbn [broken coming]. destruct b as [k|].
  - exists []. split; [reflexivity|]. split; [apply beside_nil|constructor].
  - unfold as_text. unfold is_utf8 in Hu. rewrite Hu. apply handle_alike'; [exact Hn|constructor|exact Hp|apply beside_nil].
Qed.
(** What the two programs do with the same input. *)
Definition runs_alike (a : bargs) (r : option bytes * result unit complaint) (r' : option bytes * result unit trouble) : Prop :=
  ends_alike (fun _ _ => True) (snd r) (snd r') /\
  match fst r, fst r' with
  | Some d, Some d' => beside a d d'
  | None, None => True
  | _, _ => False
  end.
Lemma main_alike a o : bsame_file a = false -> (bbudget o (boutput a) = None \/ bbudget o (boutput a) = Some None) ->
  (forall i, match binput a with Some p => bfile o p | None => Some (bstdin o) end = Some i ->
     is_utf8 (coming i) /\ ordinary (coming i) /\ forall t, document_of (coming i) t -> parsing t) ->
  runs_alike a (py_main a o) (bench_main a o).
Proof.
  intros Hs Hb Hi. unfold PyBench.py_main, Bench.bench_main. rewrite Hs.
  destruct (match binput a with Some p => bfile o p | None => Some (bstdin o) end) as [[l b]|] eqn:Ei; [|split; [constructor|exact I]].
  destruct (Hi _ eq_refl) as (Hu & Ho & Hp). cbn [coming broken] in *. rewrite translate_same by (apply ordinary_returns; exact Ho).
  pose proof (plain_pieces l Hu Ho Hp) as Hpl.
  assert (HF : forall jsonl line rest, step_alike a (if jsonl : bool then py_jsonl a line (mkInput rest b) else py_json a line (mkInput rest b))
      (process show' read' from_str to_string to_string_pretty a jsonl line (mkInput rest b) (mkWriter [] None)) ->
    runs_alike a (match bbudget o (boutput a) with None => (None, Err NoOutput) | Some _ => let '(d, v) := if jsonl then py_jsonl a line (mkInput rest b) else py_json a line (mkInput rest b) in (Some d, v) end)
      (match bbudget o (boutput a) with None => (None, Err OutputMissing) | Some room => let '(d, v) := bench_run show' read' from_str to_string to_string_pretty a jsonl line (mkInput rest b) room in (Some d, v) end)).
  { intros jsonl line rest (d' & E & B & C). destruct Hb as [-> | ->]; [split; [constructor|exact I]|].
    destruct (process show' read' from_str to_string to_string_pretty a jsonl line (mkInput rest b) (mkWriter [] None)) as [w v'] eqn:Ep. cbn [fst snd] in *. subst w.
    rewrite (run_open _ _ _ _ _ _ _ _ _ _ _ Ep). destruct (if jsonl then _ else _) as [d v]. cbn [fst snd] in *. split; [exact C|exact B]. }
  unfold py_detect, Bench.detect. destruct (match binput a with Some _ => named_jsonl a | None => false end).
  { apply (HF true). apply jsonl_alike; [intros []; reflexivity|reflexivity|exact Hpl]. }
  unfold py_readline, read_line. cbn [coming broken].
  destruct l as [|x l].
  - cbn [take_line]. change (ended []) with false. cbn iota. destruct b as [k|]; [split; [constructor|exact I]|]. change (as_text []) with (@Ok bytes trouble []). change (strip []) with (@nil byte). change (trim []) with (@nil byte). cbn iota. apply (HF false [] []). apply json_alike; [reflexivity|]. apply Hp. left. reflexivity.
  - destruct (some_line (x :: l) ltac:(discriminate)) as (line & rest & E & H1). rewrite E in *. clear E. destruct (take_one line rest H1) as (Et & Epc). rewrite Et. rewrite Epc in Hpl.
    inversion Hpl as [|? ? (A & B & C) Hr]; subst.
    destruct (if ended line then None else b) as [k|]; [split; [constructor|exact I]|].
    unfold as_text. rewrite A. rewrite B. assert (Hu2 : is_utf8 rest) by (apply (utf8_app (len line) line rest (le_n _)); assumption).
    assert (Hd : parsing (line ++ rest)) by (apply Hp; left; reflexivity).
    destruct (trim line) as [|y t] eqn:T; [apply (HF false); apply json_alike; assumption|].
    pose proof C as C'. unfold parsing, parsed_alike in C'. destruct (loads (y :: t)) as [[v|]|] eqn:L, (from_str (y :: t)) as [v'|] eqn:S; try contradiction.
    + apply (HF true). apply jsonl_alike; [rewrite T; auto|rewrite T; discriminate|exact Hr].
    + apply (HF false). apply json_alike; assumption.
Qed.
End Runs.

(** ** Numbers *)
Lemma digit_is x : digit x <-> is_digit x = true.
Proof. unfold digit, is_digit. rewrite andb_true_iff, !N.leb_le. tauto. Qed.
Lemma int_digits_all : forall l z count fed, Forall digit l -> (l <> [] \/ fed = true) -> count + len l <= max_digits ->
  int_digits l z count fed = Some (fold_left (fun z x => 10 * z + (Z.of_N x - 48))%Z l z).
Proof.
  induction l as [|x l IH]; intros z count fed H Hf Hc; cbn [int_digits fold_left List.length] in *.
  - destruct Hf as [Hf| ->]; [contradiction|]. rewrite (proj2 (Nat.leb_le _ _)) by lia. reflexivity.
  - inversion H; subst. rewrite (proj1 (digit_is x)) by assumption. apply IH; [assumption|right; reflexivity|lia].
Qed.
