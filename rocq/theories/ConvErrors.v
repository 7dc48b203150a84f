(** What is known of parser and converter when a conversion has failed. *)
From Verif Require Import Base U8Pool Buffer Jiter RJiter RJiterSpec Scan Conv NormalToDdb DdbToNormal Cli ErrorSpec Messages MessageSpec MessageProofs.

(** The parsing methods that the scanner and the converters call: those of which only success is followed by another call, and the others. *)
Inductive structural : forall {A}, (rj -> outcome (rj * result A rerror)) -> Prop :=
| s_known_array : structural known_array
| s_array_step : structural array_step
| s_next_object : structural next_object_bytes
| s_next_key : structural next_key_bytes
| s_finish : structural finish.
Inductive simple : forall {A}, (rj -> outcome (rj * result A rerror)) -> Prop :=
| s_peek : simple peek
| s_known_bool p : simple (known_bool p)
| s_known_null : simple known_null
| s_number : simple next_number_bytes.

Section Keep.
Context {B : Type} (cb : callbacks B) (G W : rj -> B -> Prop) (U : B -> Prop).
(** [G] is kept by every call of the parser that the scan makes, and by the handlers unless they fail; then there is still [W]. When the parser fails, there is [U]. *)
Definition answered (x : outcome (rj * B * stream_op)) : Prop :=
  forall r u op, x = Done (r, u, op) -> match op with OpError _ => W r u | _ => G r u end.
Definition ended_well (r : rj) (x : outcome (B * result unit string)) : Prop :=
  forall u v, x = Done (u, v) -> match v with Ok _ => G r u | Err _ => W r u end.
Context (Hsimple : forall A (op : rj -> outcome (rj * result A rerror)) r u r' v, simple op -> G r u -> op r = Done (r', v) -> G r' u).
Context (Hstruct : forall A (op : rj -> outcome (rj * result A rerror)) r u r' v, structural op -> G r u -> op r = Done (r', Ok v) -> G r' u).
Context (HGU : forall r u, G r u -> U u).
Context (Hlong : forall r u w r' w' v, G r u -> write_long_bytes r w = Done (r', w', v) ->
  match v with Ok _ => G r' u | Err _ => W r' u end).
Context (HGW : forall r u, G r u -> W r u).
Context (Hbegin : forall name c r u u' a, G r u -> find_action cb name c u = (u', a) ->
  match a with None => G r u' | Some act => answered (act r u') end).
Context (Hend : forall name c r u u' a, G r u -> find_end_action cb name c u = (u', a) ->
  G r u' /\ match a with None => True | Some act => forall r' u'', G r' u'' -> ended_well r' (act u'') end).

Definition good (s : sstate B) : Prop := G (parser s) (user s).
Definition weak (s : sstate B) (e : scan_error) : Prop := match e with ActionError _ _ | UnhandledPeek _ _ => W (parser s) (user s) | RJiterError _ => U (user s) | _ => good s end.
Definition keeps {X} (x : sres B X) : Prop := forall s v, x = Done (s, v) -> match v with Ok _ => good s | Err e => weak s e end.
Lemma keeps_bind {X Y} (x : sres B X) (f : sstate B -> X -> sres B Y) : keeps x -> (forall s v, good s -> keeps (f s v)) -> keeps (sbind x f).
Proof.
  intros Hx Hf s v E. destruct x as [[s1 [a|e]]| |]; cbn [sbind] in E; try discriminate.
  - apply (Hf s1 a); [apply (Hx s1 (Ok a)); reflexivity|exact E].
  - injection E as <- <-. apply (Hx s1 (Err e)). reflexivity.
Qed.
Lemma keeps_obind {X Y} (x : outcome Y) (f : Y -> sres B X) : (forall y, x = Done y -> keeps (f y)) -> keeps (do y <- x; f y).
Proof. intros Hf s v E. destruct x as [y| |]; cbn [obind] in E; try discriminate. eapply Hf; [reflexivity|exact E]. Qed.
Lemma keeps_end {X} s (v : result X scan_error) : good s -> keeps (Done (s, v)).
Proof. intros H s' v' E. injection E as <- <-. destruct v as [x|e]; [exact H|]. destruct e; cbn [weak]; auto; first [exact (HGU _ _ H)|apply HGW; exact H]. Qed.
Lemma run_begin_keeps name s : good s -> keeps (run_begin cb name s).
Proof.
  intros H. unfold run_begin. apply keeps_obind. intros c _. destruct (find_action cb name c (user s)) as [u a] eqn:E.
  pose proof (Hbegin _ _ _ _ _ _ H E) as Hb. destruct a as [act|]; [|apply keeps_end; exact Hb].
  apply keeps_obind. intros [[r u'] op] E1. specialize (Hb _ _ _ E1). intros s' v E2. injection E2 as <- <-.
  destruct op; exact Hb.
Qed.
Lemma run_end_action_keeps (a : option (end_action B)) s : match a with None => True | Some act => forall r' u'', G r' u'' -> ended_well r' (act u'') end ->
  good s -> keeps (run_end_action a s).
Proof.
  intros Ha H. destruct a as [a|]; [|apply keeps_end; exact H]. cbn [run_end_action]. apply keeps_obind. intros [u v] E1.
  pose proof (Ha _ _ H _ _ E1) as K. intros s' v' E2. injection E2 as <- <-. destruct v as [[]|m]; exact K.
Qed.
Lemma look_up_end_keeps name s s1 a : good s -> look_up_end cb name s = Done (s1, a) ->
  good s1 /\ match a with None => True | Some act => forall r' u'', G r' u'' -> ended_well r' (act u'') end.
Proof.
  intros H. unfold look_up_end. destruct (context_of (stack s)) as [c| |]; try discriminate. cbn [obind].
  destruct (find_end_action cb name c (user s)) as [u b] eqn:E. intros E1. injection E1 as <- <-. exact (Hend _ _ _ _ _ _ H E).
Qed.
Lemma run_end_keeps name s : good s -> keeps (run_end cb name s).
Proof. intros H. unfold run_end. apply keeps_obind. intros [s1 a] E. destruct (look_up_end_keeps _ _ _ _ H E). apply run_end_action_keeps; assumption. Qed.
Lemma top_position_keeps m s : good s -> keeps (top_position m s).
Proof. intros H. unfold top_position. apply keeps_obind. intros [a|] _; [destruct (pos_of a); [|intros ? ? E; discriminate]|]; apply keeps_end; exact H. Qed.
Lemma parse_keeps {X} (op : rj -> outcome (rj * result X rerror)) s : structural op -> good s -> keeps (parse op s).
Proof.
  intros P H. unfold parse. apply keeps_obind. intros [r v] E s' v' E'. injection E' as <- <-. destruct v as [x|e].
  - exact (Hstruct _ _ _ _ _ _ P H E).
  - exact (HGU _ _ H).
Qed.
Ltac object_kept :=
  apply keeps_bind;
  [first [apply keeps_end; assumption
         |apply keeps_obind; intros [s1 a] E1; apply keeps_obind; intros [p o] E2;
          match goal with H : good _ |- _ => destruct (look_up_end_keeps _ _ _ _ H E1) end; apply run_end_action_keeps; assumption]|];
  intros ? [] ?; apply keeps_bind; [apply parse_keeps; [constructor|assumption]|]; intros ? [?|] ?;
  [apply keeps_obind; intros [? [?|er]] _; [apply keeps_bind; [apply run_begin_keeps; assumption|intros; apply keeps_end; assumption]|destruct er; apply keeps_end; assumption]
  |apply keeps_bind; [apply run_end_keeps; assumption|intros ? [] ?; apply top_position_keeps; assumption]].
Lemma handle_object_keeps pos s : good s -> keeps (handle_object cb pos s).
Proof.
  intros H. unfold handle_object. cbv zeta. destruct (pos_eqb pos ObjectBegin); [|object_kept].
  apply keeps_bind; [apply run_begin_keeps; exact H|]. intros s1 [|] H1; [apply top_position_keeps; exact H1|object_kept].
Qed.
Ltac array_kept :=
  apply keeps_bind; [apply parse_keeps; [constructor|assumption]|]; intros ? [?|] ?; [apply keeps_end; assumption|];
  apply keeps_obind; intros [? [?|]] _; [|apply keeps_end; assumption]; apply keeps_bind; [apply run_end_keeps; assumption|]; intros ? [] ?;
  apply keeps_bind; [apply top_position_keeps; assumption|intros; apply keeps_end; assumption].
Lemma handle_array_keeps pos s : good s -> keeps (handle_array cb pos s).
Proof.
  intros H. unfold handle_array. cbv zeta. destruct (pos_eqb pos ArrayBegin); [|array_kept].
  apply keeps_bind; [apply run_begin_keeps; exact H|]. intros s1 [|] H1.
  - apply keeps_bind; [apply top_position_keeps; exact H1|]. intros; apply keeps_end; assumption.
  - apply keeps_obind. intros [p [u|er]] _; [array_kept|apply keeps_end; exact H1].
Qed.
Definition leads (x : sverdict B) : Prop := forall s v, x = Done (s, v) -> match v with Return (Err e) => weak s e | _ => good s end.
Lemma leads_end s v : good s -> leads (Done (s, v)).
Proof. intros H s' v' E. injection E as <- <-. destruct v as [p|[[]|e]]; try exact H. destruct e; cbn [weak]; auto; first [exact (HGU _ _ H)|apply HGW; exact H]. Qed.
Lemma leads_bind {X} (x : sres B X) (f : sstate B -> X -> sverdict B) : keeps x -> (forall s v, good s -> leads (f s v)) -> leads (vbind x f).
Proof.
  intros Hx Hf s v E. destruct x as [[s1 [a|e]]| |]; cbn [vbind] in E; try discriminate.
  - apply (Hf s1 a); [apply (Hx s1 (Ok a)); reflexivity|exact E].
  - injection E as <- <-. apply (Hx s1 (Err e)). reflexivity.
Qed.
Lemma skip_basic_keeps x s s' v : good s -> skip_basic_values x s = Done (s', v) -> match v with Ok _ => good s' | Err _ => W (parser s') (user s') end.
Proof.
  intros H. unfold skip_basic_values. cbv zeta.
  assert (Hp : forall X (op : rj -> outcome (rj * result X rerror)), simple op -> sbind (parse op s) (fun s _ => Done (s, Ok tt)) = Done (s', v) ->
    match v with Ok _ => good s' | Err _ => W (parser s') (user s') end).
  { intros X op P E. unfold parse in E. destruct (op (parser s)) as [[r w]| |] eqn:E1; try discriminate. cbn [obind sbind] in E.
    pose proof (Hsimple _ _ _ _ _ _ P H E1) as K. destruct w; injection E as <- <-; [exact K|apply HGW; exact K]. }
  destruct (N.eqb x QUOTE).
  { intros E. unfold parse in E. destruct (write_long_bytes (parser s) (mkWriter [] None)) as [[[r w] q]| |] eqn:E1; try discriminate. cbn [obind sbind] in E.
    pose proof (Hlong _ _ _ _ _ _ H E1) as K. destruct q; injection E as <- <-; exact K. }
  destruct (N.eqb x PeekNull); [apply Hp; constructor|]. destruct (N.eqb x PeekTrue); [apply Hp; constructor|].
  destruct (N.eqb x PeekFalse); [apply Hp; constructor|].
  destruct (next_number_bytes (parser s)) as [[r w]| |] eqn:E1; try discriminate. cbn [obind]. intros E. injection E as <- <-.
  assert (K : G r (user s)) by (eapply Hsimple; [apply s_number|exact H|exact E1]). destruct w; [exact K|apply HGW; exact K].
Qed.
Lemma scan_value_leads o pos x s : sse_tokens o = [] -> good s -> leads (scan_value cb o pos x s).
Proof.
  intros Ho H. unfold scan_value. cbv zeta. destruct (N.eqb x LBRACK); [apply leads_end; exact H|]. destruct (N.eqb x LBRACE); [apply leads_end; exact H|].
  apply leads_bind; [apply run_begin_keeps; exact H|]. intros s1 [|] H1; [apply leads_end; exact H1|].
  destruct (skip_basic_values x s1) as [[s2 v]| |] eqn:E1; try (intros ? ? E; discriminate E). cbn [obind].
  pose proof (skip_basic_keeps _ _ _ _ H1 E1) as K. destruct v as [[]|e]; [apply leads_end; exact K|].
  rewrite Ho. destruct (_ || _); cbn [skip_tokens obind]; intros s3 v3 E3; injection E3 as <- <-; exact K.
Qed.
Lemma scan_iter_leads o pos s : sse_tokens o = [] -> good s -> leads (scan_iter cb o pos s).
Proof.
  intros Ho H.
  assert (Ho' : leads (vbind (handle_object cb pos s) (fun s p => Done (s, Continue p)))) by (apply leads_bind; [apply handle_object_keeps; exact H|intros; apply leads_end; assumption]).
  assert (Ha : leads (vbind (handle_array cb pos s)
        (fun s r =>
           match r with
           | (Some x, ArrayMiddle) => scan_value cb o ArrayMiddle x s
           | (None, p) => Done (s, Continue p)
           | _ => Done (s, Return (Err (InternalError (current_index (parser s)) "Unexpected position from handle_array")))
           end))).
  { apply leads_bind; [apply handle_array_keeps; exact H|]. intros s1 [[x|] p] H1; [destruct p; try (apply leads_end; exact H1); apply scan_value_leads; assumption|apply leads_end; exact H1]. }
  assert (Hv : leads (do (r, v) <- peek (parser s);
      let s := mkS r (user s) (stack s) in
      match v with
      | Ok x => scan_value cb o pos x s
      | Err e =>
          match err_type e with
          | JsonError EofWhileParsingValue =>
              if pos_eqb pos Top then vbind (parse finish s) (fun s _ => Done (s, Return (Ok tt)))
              else Done (s, Return (Err (UnbalancedJson (current_index r))))
          | _ => Done (s, Return (Err (RJiterError e)))
          end
      end)).
  { destruct (peek (parser s)) as [[r v]| |] eqn:E1; try (intros ? ? E; discriminate E). cbn [obind].
    assert (K : G r (user s)) by (eapply Hsimple; [apply s_peek|exact H|exact E1]).
    destruct v as [x|e]; [apply scan_value_leads; [exact Ho|exact K]|]. cbv zeta.
    destruct (err_type e) as [j|t t'|k|]; try (apply leads_end; exact K). destruct j; try (apply leads_end; exact K).
    destruct (pos_eqb pos Top); [|apply leads_end; exact K]. apply leads_bind; [apply parse_keeps; [constructor|exact K]|intros; apply leads_end; assumption]. }
  destruct pos; assumption.
Qed.
Lemma scan_loop_keeps o fuel : sse_tokens o = [] -> forall p pos s, good s -> keeps (scan_loop cb o fuel p pos s).
Proof.
  intros Ho. induction fuel as [|fuel IH]; intros p pos s H s' v E; [discriminate|]. cbn [scan_loop] in E.
  destruct (p && stop_early o && pos_eqb pos Top); [injection E as <- <-; exact H|].
  pose proof (scan_iter_leads o pos s Ho H) as L. destruct (scan_iter cb o pos s) as [[s1 [q|r]]| |] eqn:E1; try discriminate.
  - eapply IH; [|exact E]. exact (L _ _ eq_refl).
  - injection E as <- <-. specialize (L _ _ eq_refl). destruct r; exact L.
Qed.
Lemma scan_keeps o fuel s : sse_tokens o = [] -> good s -> keeps (scan cb o fuel s).
Proof. intros Ho H. unfold scan. apply keeps_obind. intros [p [u|er]] _; [apply scan_loop_keeps; assumption|apply keeps_end; exact H]. Qed.
End Keep.

(** ** The converters *)
(** Errors of the scan are not stored, and little of the input. *)
Definition short (e : conversion_error) : Prop := match e with CParse _ (Some t) => len t <= 32 | _ => True end.
Definition own (e : option conversion_error) : Prop := match e with Some (CScan _) => False | Some e => plain_context e /\ short e | _ => True end.
Ltac plain := vm_compute; intuition discriminate.
Definition tidy_step {B} (le : B -> option conversion_error) (f : step B) : Prop :=
  forall c c' v, le c = None -> f c = Done (c', v) -> match v with Ok _ => le c' = None | Err _ => own (le c') end.
Lemma tidy_then {B} le (f g : step B) : tidy_step le f -> tidy_step le g -> tidy_step le (f ;; g).
Proof.
  intros Hf Hg c c' v H E. unfold and_then in E. destruct (f c) as [[c1 [[]|m]]| |] eqn:E1; try discriminate; cbn [obind] in E.
  - apply (Hg c1 c' v); [apply (Hf c c1 (Ok tt) H E1)|exact E].
  - injection E as <- <-. exact (Hf c c1 (Err m) H E1).
Qed.
Lemma tidy_skip {B} le : tidy_step le (@skip B). Proof. intros c c' v H E. injection E as <- <-. exact H. Qed.
Lemma tidy_change {B} le (f : B -> B) : (forall c, le (f c) = le c) -> tidy_step le (change_to f).
Proof. intros Hf c c' v H E. injection E as <- <-. rewrite Hf. exact H. Qed.
Lemma tidy_put d m : ~ In 39%N (bs m) -> tidy_step last_error (put d m).
Proof. intros Hm c c' v H E. unfold put in E. destruct (write_all (cout c) d) as [w [u|k]]; injection E as <- <-; [exact H|split; [exact Hm|exact I]]. Qed.
Lemma tidy_newline : tidy_step last_error newline.
Proof. intros c c' v H E. unfold newline in E. destruct (pretty c); [apply (tidy_put _ _) with (2 := H) (3 := E); plain|eapply tidy_skip; eauto]. Qed.
Lemma tidy_comma : tidy_step last_error write_comma.
Proof.
  intros c c' v H E. unfold write_comma in E. destruct (pending c); [|eapply tidy_skip; eauto].
  refine (tidy_then _ _ _ (tidy_put _ _ _) (tidy_then _ _ _ tidy_newline (tidy_change _ _ _)) c c' v H E); [plain|reflexivity].
Qed.
Lemma tidy_indents n : tidy_step last_error (indents n).
Proof. induction n as [|n IH]; cbn [indents]; [apply tidy_skip|apply tidy_then; [apply tidy_put; plain|exact IH]]. Qed.
Lemma tidy_indent : tidy_step last_error indent.
Proof. intros c c' v H E. unfold indent in E. destruct (pretty c); [eapply tidy_indents|eapply tidy_skip]; eauto. Qed.
Lemma tidy_deeper : tidy_step last_error deeper. Proof. apply tidy_change. reflexivity. Qed.
Lemma tidy_shallower : tidy_step last_error shallower.
Proof. intros c c' v H E. unfold shallower in E. destruct (level c); [discriminate|]. injection E as <- <-. exact H. Qed.
Lemma tidy_comma_is b : tidy_step last_error (comma_is b). Proof. apply tidy_change. reflexivity. Qed.
Lemma tidy_level n : tidy_step last_error (change_to (fun c => set_level c n)). Proof. apply tidy_change. reflexivity. Qed.
Ltac tidy_conv := repeat first [apply tidy_then|(apply tidy_put; plain)|apply tidy_newline|apply tidy_comma|apply tidy_indent|apply tidy_deeper|apply tidy_shallower|apply tidy_comma_is|apply tidy_level|apply tidy_skip].

Section Converters.
Context (K Kw : rj -> Prop) (HK : forall r, K r -> Kw r).
Context (Hparse : forall A (op : rj -> outcome (rj * result A rerror)) r r' v, simple op -> K r -> op r = Done (r', v) -> K r').
Context (Hstruct : forall A (op : rj -> outcome (rj * result A rerror)) r r' v, structural op -> K r -> op r = Done (r', Ok v) -> K r').
Context (Hlong : forall r w r' w' v, K r -> write_long_bytes r w = Done (r', w', v) -> match v with Ok _ => K r' | Err _ => Kw r' end).
Section Any.
Context {B : Type} (le : B -> option conversion_error).
Definition GG (r : rj) (u : B) : Prop := K r /\ le u = None.
Definition WW (r : rj) (u : B) : Prop := Kw r /\ own (le u).
Lemma act_of_answers f op r u : tidy_step le f -> (match op with OpError _ => False | _ => True end) -> GG r u -> answered GG WW (act_of f op r u).
Proof.
  intros Hf Hop [Hr Hu] r' u' op' E. unfold act_of in E. destruct (f u) as [[c v]| |] eqn:E1; try discriminate. cbn [obind] in E.
  pose proof (Hf _ _ _ Hu E1) as H. destruct v as [[]|m]; injection E as <- <- <-.
  - destruct op; try contradiction; split; assumption.
  - split; [apply HK; exact Hr|exact H].
Qed.
Lemma end_answers f r u : tidy_step le f -> GG r u -> ended_well GG WW r (f u).
Proof. intros Hf [Hr Hu] u' v E. pose proof (Hf _ _ _ Hu E) as H. destruct v; split; auto. Qed.
Lemma answered_done r u op : match op with OpError _ => WW r u | _ => GG r u end -> answered GG WW (Done (r, u, op)).
Proof. intros H r' u' op' E. injection E as <- <- <-. exact H. Qed.
Lemma answered_obind {Y} (x : outcome Y) f : (forall y, x = Done y -> answered GG WW (f y)) -> answered GG WW (do y <- x; f y).
Proof. intros Hf r u op E. destruct x as [y| |]; cbn [obind] in E; try discriminate. eapply Hf; [reflexivity|exact E]. Qed.
End Any.

(** *** To DynamoDB JSON *)
Notation ok := (answered (GG last_error) (WW last_error)).
Lemma step_first f r c (g : conv -> outcome (rj * conv * stream_op)) : tidy_step last_error f -> GG last_error r c -> (forall c', GG last_error r c' -> ok (g c')) ->
  ok (do (c', v) <- f c; match v with Err m => Done (r, c', OpError m) | Ok _ => g c' end).
Proof.
  intros Hf [Hr Hc] Hg. apply answered_obind. intros [c' v] E. pose proof (Hf _ _ _ Hc E) as H. destruct v as [[]|m].
  - apply Hg. split; assumption.
  - apply answered_done. split; auto.
Qed.
Lemma parse_first {A} (op : rj -> outcome (rj * result A rerror)) r c (g : rj -> A -> outcome (rj * conv * stream_op)) m : simple op -> GG last_error r c ->
  (forall r' x, GG last_error r' c -> ok (g r' x)) ->
  ok (do (r', v) <- op r; match v with Err _ => Done (r', c, OpError m) | Ok x => g r' x end).
Proof.
  intros P [Hr Hc] Hg. apply answered_obind. intros [r' v] E. pose proof (Hparse _ _ _ _ _ P Hr E) as H. destruct v as [x|e].
  - apply Hg. split; assumption.
  - apply answered_done. split; [auto|rewrite Hc; exact I].
Qed.
Lemma close_atom_tidy : tidy_step last_error close_atom. Proof. unfold close_atom. tidy_conv. Qed.
Lemma string_value_ok r c : GG last_error r c -> ok (on_string_value r c).
Proof.
  intros H. unfold on_string_value. apply step_first; [tidy_conv|exact H|]. intros c' [Hr Hc]. apply answered_obind. intros [[r1 w] v] E.
  pose proof (Hlong _ _ _ _ _ Hr E) as K1. cbv zeta. destruct v as [[]|e].
  - apply act_of_answers; [tidy_conv; apply close_atom_tidy|exact I|split; assumption].
  - apply answered_done. split; [exact K1|cbn [set_cout last_error]; rewrite Hc; exact I].
Qed.
Lemma ignored_first {A} (op : rj -> outcome (rj * result A rerror)) r c (g : rj -> outcome (rj * conv * stream_op)) : simple op -> GG last_error r c ->
  (forall r', GG last_error r' c -> ok (g r')) -> ok (do (r', _) <- op r; g r').
Proof. intros P [Hr Hc] Hg. apply answered_obind. intros [r' v] E. apply Hg. split; [exact (Hparse _ _ _ _ _ P Hr E)|exact Hc]. Qed.
Lemma refused_ok r c m : GG last_error r c -> ok (Done (r, c, OpError m)).
Proof. intros [Hr Hc]. apply answered_done. split; [auto|rewrite Hc; exact I]. Qed.
Lemma bool_value_ok r c : GG last_error r c -> ok (on_bool_value r c).
Proof.
  intros H. unfold on_bool_value. apply parse_first; [constructor|exact H|]. intros r1 p H1. apply step_first; [tidy_conv|exact H1|]. intros c1 H2.
  destruct (N.eqb p PeekTrue); [|destruct (N.eqb p PeekFalse)].
  - apply (ignored_first (known_bool p) r1 c1); [constructor|exact H2|]. intros r2 H3. apply act_of_answers; [tidy_conv; apply close_atom_tidy|exact I|exact H3].
  - apply (ignored_first (known_bool p) r1 c1); [constructor|exact H2|]. intros r2 H3. apply act_of_answers; [tidy_conv; apply close_atom_tidy|exact I|exact H3].
  - apply refused_ok. exact H2.
Qed.
Lemma null_value_ok r c : GG last_error r c -> ok (on_null_value r c).
Proof.
  intros H. unfold on_null_value. apply parse_first; [constructor|exact H|]. intros r1 p H1. destruct (N.eqb p PeekNull); [|apply refused_ok; exact H1].
  apply (ignored_first known_null r1 c); [constructor|exact H1|]. intros r2 H2. apply act_of_answers; [tidy_conv; apply close_atom_tidy|exact I|exact H2].
Qed.
Lemma atom_value_ok r c : GG last_error r c -> ok (on_atom_value r c).
Proof.
  intros H. unfold on_atom_value. apply step_first; [tidy_conv|exact H|]. intros c1 H1. apply parse_first; [constructor|exact H1|]. intros r1 p H2.
  destruct (N.eqb p QUOTE); [apply string_value_ok; exact H2|]. destruct (_ || _); [apply bool_value_ok; exact H2|].
  destruct (N.eqb p PeekNull); [apply null_value_ok; exact H2|]. apply parse_first; [constructor|exact H2|]. intros r2 x H3.
  apply act_of_answers; [tidy_conv; apply close_atom_tidy|exact I|exact H3].
Qed.
Lemma root_literal_ok r c : GG last_error r c -> ok (on_root_literal r c).
Proof.
  intros H. unfold on_root_literal. apply step_first; [tidy_conv|exact H|]. intros c1 H1. apply answered_obind. intros [[r2 c2] op] E.
  pose proof (atom_value_ok _ _ H1 _ _ _ E) as H2. intros r3 c3 op3 E3. unfold act_of in E3.
  set (f := put [10%N] "writing final newline" ;; comma_is false) in E3. destruct (f c2) as [[c4 v]| |] eqn:E4; try discriminate. cbn [obind] in E3.
  injection E3 as <- <- <-.
  assert (Hw : own (last_error c4)).
  { assert (Ho : own (last_error c2)) by (destruct op; try apply H2; destruct H2 as [_ ->]; exact I).
    unfold f, and_then, put, comma_is, change_to in E4. destruct (write_all (cout c2) [10%N]) as [w [u|k]]; cbn [obind] in E4; injection E4 as <- _; [exact Ho|cbn [own last_error set_error plain_context short]; split; [plain|exact I]]. }
  assert (Hn : last_error c2 = None -> forall u, v = Ok u -> last_error c4 = None).
  { intros Hc u ->. assert (T : tidy_step last_error f) by (unfold f; tidy_conv). exact (T _ _ _ Hc E4). }
  destruct v as [u|m].
  - destruct op; try (split; [apply H2|]; apply (Hn (proj2 H2) u); reflexivity). split; [apply H2|exact Hw].
  - split; [destruct op; try (apply HK; apply H2); apply H2|exact Hw].
Qed.
Lemma n2d_begin wrapper name x r u u' a : GG last_error r u -> find_action (n2d_callbacks wrapper) name x u = (u', a) ->
  match a with None => GG last_error r u' | Some act => ok (act r u') end.
Proof.
  intros H E. cbn [n2d_callbacks find_action] in E. unfold n2d_find_action in E.
  assert (Hok : forall act, act = on_atom_value \/ act = on_array_begin \/ act = NormalToDdb.on_root_object_begin wrapper \/ act = on_root_literal \/
    act = on_root_array \/ act = on_array_element_atom \/ act = on_array_element_array \/ act = on_array_element_object \/ act = on_nested_object_begin ->
    ok (act r u)).
  { intros act [-> |[-> |[-> |[-> |[-> |[-> |[-> |[-> | ->]]]]]]]].
    - apply atom_value_ok. exact H.
    - apply act_of_answers; [unfold array_begin; tidy_conv|exact I|exact H].
    - unfold NormalToDdb.on_root_object_begin. apply act_of_answers; [destruct wrapper; tidy_conv|exact I|exact H].
    - apply root_literal_ok. exact H.
    - apply act_of_answers; [unfold array_begin; tidy_conv|exact I|exact H].
    - unfold on_array_element_atom. apply step_first; [unfold element_begin; tidy_conv|exact H|]. intros c1 H1. apply atom_value_ok. exact H1.
    - apply act_of_answers; [unfold element_begin, array_begin; tidy_conv|exact I|exact H].
    - apply act_of_answers; [unfold element_begin, nested_object_begin; tidy_conv|exact I|exact H].
    - apply act_of_answers; [unfold nested_object_begin; tidy_conv|exact I|exact H]. }
  destruct (names x) as [|parent path].
  - destruct name; injection E as <- <-; try exact H; apply Hok; tauto.
  - destruct (beq parent (bs "#top")).
    + destruct name; injection E as <- <-; try exact H; apply Hok; tauto.
    + destruct name; injection E as <- <-; try (match goal with |- context [beq parent ?z] => destruct (beq parent z) end; apply Hok; tauto).
      unfold NormalToDdb.on_field_key. cbn [field set_field]. apply act_of_answers; [tidy_conv|exact I|exact H].
Qed.
Lemma n2d_end wrapper name x r u u' a : GG last_error r u -> find_end_action (n2d_callbacks wrapper) name x u = (u', a) ->
  GG last_error r u' /\ match a with None => True | Some act => forall r' u'', GG last_error r' u'' -> ended_well (GG last_error) (WW last_error) r' (act u'') end.
Proof.
  intros H E. cbn [n2d_callbacks find_end_action] in E. unfold n2d_find_end_action in E. injection E as <- <-. split; [exact H|].
  assert (H1 : tidy_step last_error (NormalToDdb.on_root_object_end wrapper)) by (unfold NormalToDdb.on_root_object_end; destruct wrapper; tidy_conv).
  assert (H2 : tidy_step last_error on_nested_object_end) by (unfold on_nested_object_end; tidy_conv).
  assert (H3 : tidy_step last_error on_array_end) by (unfold on_array_end; tidy_conv).
  assert (H4 : tidy_step last_error on_root_array_end) by (unfold on_root_array_end, on_array_end; tidy_conv).
  destruct (names x) as [|parent path]; [exact I|]. match goal with |- context [beq parent ?z] => destruct (beq parent z) end.
  - destruct name; try exact I; intros r' u'' H'; apply end_answers; assumption.
  - destruct name; try exact I; try (intros r' u'' H'; apply end_answers; assumption).
    match goal with |- context [beq parent ?z] => destruct (beq parent z) end; [|exact I]. destruct path as [|g path]; [exact I|].
    match goal with |- context [beq g ?z] => destruct (beq g z) end; [|exact I].
    intros r' u'' H'. apply end_answers; [apply tidy_skip|exact H'].
Qed.

(** *** From DynamoDB JSON *)
Definition le (c : d2n) : option conversion_error := last_error (base c).
Notation fine := (answered (GG le) (WW le)).
Lemma tidy_base f : tidy_step last_error f -> tidy_step le (on_base f).
Proof.
  intros Hf c c' v H E. unfold on_base in E. destruct (f (base c)) as [[b w]| |] eqn:E1; try discriminate. cbn [obind] in E. injection E as <- <-. exact (Hf _ _ _ H E1).
Qed.
Lemma tidy_phase p : tidy_step le (phase_is p). Proof. apply tidy_change. reflexivity. Qed.
Lemma tidy_type t : tidy_step le (type_is t). Proof. apply tidy_change. reflexivity. Qed.
Ltac tidy_d2n := repeat first [apply tidy_then|apply tidy_base|apply tidy_phase|apply tidy_type|(apply tidy_put; plain)|apply tidy_newline|apply tidy_comma|apply tidy_indent|apply tidy_deeper|apply tidy_shallower|apply tidy_comma_is|apply tidy_level|apply tidy_skip].
Lemma told_ok r c e m ctx : ~ In 39%N (bs ctx) -> Kw r -> fine (Done (r, store_rjiter_error c e ctx, OpError m)).
Proof. intros Hm H. apply answered_done. split; [exact H|split; [exact Hm|exact I]]. Qed.
Lemma refuse_ok r c m : GG le r c -> fine (Done (r, c, OpError m)).
Proof. intros [Hr Hc]. apply answered_done. split; [auto|rewrite Hc; exact I]. Qed.
Lemma step_then f r c (g : d2n -> outcome (rj * d2n * stream_op)) : tidy_step le f -> GG le r c -> (forall c', GG le r c' -> fine (g c')) ->
  fine (do (c', v) <- f c; match v with Err m => Done (r, c', OpError m) | Ok _ => g c' end).
Proof.
  intros Hf [Hr Hc] Hg. apply answered_obind. intros [c' v] E. pose proof (Hf _ _ _ Hc E) as H. destruct v as [[]|m].
  - apply Hg. split; assumption.
  - apply answered_done. split; auto.
Qed.
Lemma parse_then {A} (op : rj -> outcome (rj * result A rerror)) r c (g : rj -> A -> outcome (rj * d2n * stream_op)) ctx m : ~ In 39%N (bs ctx) -> simple op -> GG le r c ->
  (forall r' x, GG le r' c -> fine (g r' x)) ->
  fine (do (r', v) <- op r; match v with Err e => Done (r', store_rjiter_error c e ctx, OpError m) | Ok x => g r' x end).
Proof.
  intros Hm P [Hr Hc] Hg. apply answered_obind. intros [r' v] E. pose proof (Hparse _ _ _ _ _ P Hr E) as H. destruct v as [x|e].
  - apply Hg. split; assumption.
  - apply told_ok; auto.
Qed.
Lemma string_ok q pc wc r c : ~ In 39%N (bs pc) -> ~ In 39%N (bs wc) -> GG le r c -> fine (write_string_value q pc wc r c).
Proof.
  intros Hp Hm H. unfold write_string_value. apply parse_then; [exact Hp|constructor|exact H|]. intros r1 p H1. destruct (negb (N.eqb p QUOTE)); [apply refuse_ok; exact H1|].
  apply step_then; [destruct q; tidy_d2n|exact H1|]. intros c1 [Hr Hc]. apply answered_obind. intros [[r2 w] v] E.
  pose proof (Hlong _ _ _ _ _ Hr E) as K1. cbv zeta. destruct v as [[]|e]; [|apply told_ok; [exact Hm|exact K1]].
  apply act_of_answers; [destruct q; tidy_d2n|exact I|split; assumption].
Qed.
Lemma bool_ok val n r c : ~ In 39%N (bs n) -> GG le r c -> fine (handle_bool_based_type val n r c).
Proof.
  intros Hm H. unfold handle_bool_based_type. apply parse_then; [exact Hm|constructor|exact H|]. intros r1 p H1. destruct (val p) as [out|m]; [|apply refuse_ok; exact H1].
  apply step_then; [tidy_d2n|exact H1|]. intros c1 H2. apply (parse_then (known_bool p)); [exact Hm|constructor|exact H2|]. intros r2 x H3.
  apply act_of_answers; [tidy_d2n|exact I|exact H3].
Qed.
Lemma finally_ok f a r c : (forall c, le (f c) = le c) -> fine (a r c) -> fine (finally f a r c).
Proof.
  intros Hf Ha r' c' op E. unfold finally in E. destruct (a r c) as [[[r1 c1] op1]| |] eqn:E1; try discriminate. cbn [obind] in E. injection E as <- <- <-.
  specialize (Ha _ _ _ eq_refl). unfold GG, WW in *. rewrite !Hf. exact Ha.
Qed.
Lemma stored_ok r c ctx t m : ~ In 39%N (bs ctx) -> GG le r c -> fine (Done (r, store_parse_error c ctx t, OpError m)).
Proof. intros Hm [Hr _]. apply answered_done. split; [auto|]. split; [exact Hm|]. destruct t as [t|]; [apply firstn_le_length|exact I]. Qed.
Lemma type_key_ok r c : GG le r c -> fine (on_type_key r c).
Proof.
  intros H. unfold on_type_key. destruct (field (base c)) as [key|]; [|apply refuse_ok; exact H].
  destruct (_ || _); [apply finally_ok; [reflexivity|apply string_ok; [plain|plain|exact H]]|].
  destruct (beq key _); [apply finally_ok; [reflexivity|apply string_ok; [plain|plain|exact H]]|].
  destruct (beq key _); [apply finally_ok; [reflexivity|apply bool_ok; [plain|exact H]]|].
  destruct (beq key _); [apply finally_ok; [reflexivity|apply bool_ok; [plain|exact H]]|].
  destruct (_ || _); [apply act_of_answers; [tidy_d2n|exact I|exact H]|].
  destruct (beq key _); [apply act_of_answers; [tidy_d2n|exact I|exact H]|].
  destruct (beq key _); [apply act_of_answers; [tidy_d2n|exact I|exact H]|].
  destruct (beq key _); [apply act_of_answers; [tidy_d2n|exact I|exact H]|].
  apply stored_ok; [plain|exact H].
Qed.
Lemma field_key_ok r c : GG le r c -> fine (on_field_key r c).
Proof. intros H. unfold on_field_key. destruct (field (base c)); [|apply refuse_ok; exact H]. apply act_of_answers; [tidy_d2n|exact I|exact H]. Qed.
Lemma on_error_ok r c ctx : ~ In 39%N (bs ctx) -> GG le r c -> fine (on_error r (store_parse_error c ctx None)).
Proof. intros Hm [Hr _]. apply answered_done. split; [auto|split; [exact Hm|exact I]]. Qed.
Lemma d2n_begin md name x r u u' a : GG le r u -> find_action (d2n_callbacks md) name x u = (u', a) ->
  match a with None => GG le r u' | Some act => fine (act r u') end.
Proof.
  intros H E. cbn [d2n_callbacks find_action] in E. unfold d2n_find_action in E.
  assert (Hn : forall key, GG le r (set_base u (set_field (base u) key))) by (intros key; exact H).
  destruct name.
  all: try unfold find_action_object in E; try unfold find_action_key in E; try unfold find_action_array in E; try unfold find_action_atom in E.
  all: repeat (match type of E with
    | context [match ?y with _ => _ end] => lazymatch y with context [match _ with _ => _ end] => fail | _ => destruct y end
    | context [if ?y then _ else _] => destruct y
    end).
  all: injection E as <- <-.
  all: try exact H; try (apply on_error_ok; [plain|exact H]); try (apply type_key_ok; apply Hn); try (apply field_key_ok; apply Hn);
    try (apply string_ok; [plain|plain|exact H]).
  all: apply act_of_answers; [tidy_d2n|exact I|exact H].
Qed.
Lemma map_end_tidy : tidy_step le on_map_end. Proof. unfold on_map_end. tidy_d2n. Qed.
Lemma list_end_tidy : tidy_step le on_list_end.
Proof.
  intros c c' v H E. unfold on_list_end in E. destruct (at_phase c); try (injection E as <- <-; rewrite H; exact I).
  assert (T : tidy_step le (on_base (put [RBRACK] "writing L closing bracket" ;; comma_is true) ;; phase_is ExpectingValue ;; type_is None)) by tidy_d2n.
  exact (T _ _ _ H E).
Qed.
Lemma d2n_end md name x r u u' a : GG le r u -> find_end_action (d2n_callbacks md) name x u = (u', a) ->
  GG le r u' /\ match a with None => True | Some act => forall r' u'', GG le r' u'' -> ended_well (GG le) (WW le) r' (act u'') end.
Proof.
  intros H E. cbn [d2n_callbacks find_end_action] in E. unfold d2n_find_end_action in E. injection E as <- E. split; [exact H|].
  assert (Ht : forall act, a = Some act -> tidy_step le act).
  { intros act ->. destruct name.
    all: try unfold find_end_action_key in E; cbv zeta in E.
    all: repeat (match type of E with
      | context [match ?y with _ => _ end] => lazymatch y with context [match _ with _ => _ end] => fail | _ => destruct y end
      | context [if ?y then _ else _] => destruct y
      end).
    all: try discriminate E; injection E as <-.
    all: try apply list_end_tidy; try apply map_end_tidy.
    all: try (unfold on_set_end, on_map_end_in_array, on_type_key_end, on_type_key_end_in_array, on_root_object_end, on_transition_to_type_key_consumed; tidy_d2n; try apply map_end_tidy). }
  destruct a as [act|]; [|exact I]. intros r' u'' H'. apply end_answers; [apply Ht; reflexivity|exact H'].
Qed.

(** *** Results *)
Section Convert.
Context {B : Type} (cb : callbacks B) (bs_ : B -> conv).
Let lb (u : B) := last_error (bs_ u).
Context (Hb : forall name x r u u' a, GG lb r u -> find_action cb name x u = (u', a) ->
  match a with None => GG lb r u' | Some act => answered (GG lb) (WW lb) (act r u') end).
Context (He : forall name x r u u' a, GG lb r u -> find_end_action cb name x u = (u', a) ->
  GG lb r u' /\ match a with None => True | Some act => forall r' u'', GG lb r' u'' -> ended_well (GG lb) (WW lb) r' (act u'') end).
Lemma convert_errors slots fuel rd rb xb u u' e p : K (rj_new rd rb) -> lb u = None ->
  convert cb bs_ slots fuel rd rb xb u = Done (u', Err (e, p)) ->
  (exists m, e = CScan (InternalError 0 m) /\ p = 0) \/
  (exists re, e = CScan (RJiterError re) /\ p = err_index re) \/
  (exists r, Kw r /\ p = current_index r /\
     match e with CScan (RJiterError _) => False | CScan se => error_position_of se r = p /\ (forall k, se <> IOError k) | _ => plain_context e /\ short e end).
Proof.
  intros HN Hu E. unfold convert in E. destruct (pool_new true xb slots) as [[q|er]| |]; try discriminate; cbn [obind] in E.
  2:{ injection E as _ <- <-. left. eauto. }
  destruct (scan cb (mkOptions [] false) fuel (mkS (rj_new rd rb) u q)) as [[s v]| |] eqn:E1; try discriminate. cbn [obind] in E.
  destruct v as [[]|se]; [discriminate|]. injection E as _ Ee Ep.
  pose proof (scan_honest _ _ _ _ _ _ E1) as Hh.
  assert (Hk : weak (GG lb) (WW lb) (fun u => lb u = None) s se).
  { refine (scan_keeps cb (GG lb) (WW lb) (fun u => lb u = None) _ _ _ _ _ Hb He (mkOptions [] false) _ _ eq_refl _ _ _ E1).
    - intros A op r c r' v P [Hr Hc] E2. split; [exact (Hparse _ _ _ _ _ P Hr E2)|exact Hc].
    - intros A op r c r' v P [Hr Hc] E2. split; [exact (Hstruct _ _ _ _ _ P Hr E2)|exact Hc].
    - intros r c [_ Hc]. exact Hc.
    - intros r c w r' w' v [Hr Hc] E2. pose proof (Hlong _ _ _ _ _ Hr E2) as H. destruct v; split; auto. rewrite Hc. exact I.
    - intros r c [Hr Hc]. split; [auto|rewrite Hc; exact I].
    - split; assumption. }
  right. destruct se as [re|x i|i|i m|i l|m i|k]; cbn [weak honest error_position_of] in *; try contradiction.
  - unfold lb in Hk. rewrite Hk in Ee. left. exists re. auto.
  - right. exists (parser s). destruct Hk as [Hk Ho]. split; [exact Hk|]. split; [congruence|]. unfold own in Ho. unfold lb in *.
    destruct (last_error (bs_ (user s))) as [[? ?|? ?|? ?|?]|]; subst e; try contradiction; try exact Ho. split; [exact Ep|intros k; discriminate].
  - right. exists (parser s). destruct Hk as [Hk Ho]. split; [auto|]. split; [congruence|]. unfold lb in *. rewrite Ho in Ee. subst e. split; [exact Ep|intros k; discriminate].
  - right. exists (parser s). destruct Hk as [Hk Ho]. split; [auto|]. split; [congruence|]. unfold lb in *. rewrite Ho in Ee. subst e. split; [exact Ep|intros k; discriminate].
  - right. exists (parser s). destruct Hk as [Hk Ho]. split; [auto|]. split; [congruence|]. unfold lb in *. rewrite Ho in Ee. subst e. split; [exact Ep|intros k; discriminate].
  - right. exists (parser s). destruct Hk as [Hk Ho]. split; [exact Hk|]. split; [congruence|]. unfold own in Ho. unfold lb in *.
    destruct (last_error (bs_ (user s))) as [[? ?|? ?|? ?|?]|]; subst e; try contradiction; try exact Ho. split; [exact Ep|intros k; discriminate].
Qed.
End Convert.
End Converters.

(** *** Both positions of a message *)
Definition any (r : rj) : Prop := True.
Lemma any_parse : forall A (op : rj -> outcome (rj * result A rerror)) r r' v, simple op -> any r -> op r = Done (r', v) -> any r'.
Proof. intros. exact I. Qed.
Lemma any_struct : forall A (op : rj -> outcome (rj * result A rerror)) r r' v, structural op -> any r -> op r = Done (r', Ok v) -> any r'.
Proof. intros. exact I. Qed.
Lemma any_long : forall r w r' w' v, any r -> write_long_bytes r w = Done (r', w', v) -> match v with Ok _ => any r' | Err _ => any r' end.
Proof. intros. destruct v; exact I. Qed.
Definition place (e : conversion_error) (p : nat) : Prop :=
  (exists m, e = CScan (InternalError 0 m) /\ p = 0) \/
  (exists re, e = CScan (RJiterError re) /\ p = err_index re) \/
  (exists r, p = current_index r /\
     match e with CScan (RJiterError _) => False | CScan se => error_position_of se r = p /\ (forall k, se <> IOError k) | _ => plain_context e /\ short e end).
Lemma n2d_place fuel rd w rb xb pretty wrapper w' e p :
  convert_normal_to_ddb fuel rd w rb xb pretty wrapper = Done (w', Err (e, p)) -> place e p.
Proof.
  unfold convert_normal_to_ddb. intros E.
  destruct (convert (n2d_callbacks wrapper) (fun c => c) 34 fuel rd rb xb (conv_new w pretty)) as [[c v]| |] eqn:E1; try discriminate.
  cbn [obind] in E. injection E as _ ->.
  destruct (convert_errors any any (fun r H => H) any_parse any_struct any_long (n2d_callbacks wrapper) (fun c => c)
    (n2d_begin any any (fun r H => H) any_parse any_long wrapper) (n2d_end any any (fun r H => H) wrapper)
    34%N fuel rd rb xb (conv_new w pretty) _ _ _ I eq_refl E1) as [H|[H|(r & _ & H)]]; [left; exact H|right; left; exact H|right; right; exists r; exact H].
Qed.
Lemma d2n_place fuel rd w rb xb pretty md w' e p :
  convert_ddb_to_normal fuel rd w rb xb pretty md = Done (w', Err (e, p)) -> place e p.
Proof.
  unfold convert_ddb_to_normal. intros E.
  destruct (convert (d2n_callbacks md) base 68 fuel rd rb xb (d2n_new w pretty)) as [[c v]| |] eqn:E1; try discriminate.
  cbn [obind] in E. injection E as _ ->.
  destruct (convert_errors any any (fun r H => H) any_parse any_struct any_long (d2n_callbacks md) base
    (d2n_begin any any (fun r H => H) any_parse any_long md) (d2n_end any any (fun r H => H) md)
    68%N fuel rd rb xb (d2n_new w pretty) _ _ _ I eq_refl E1) as [H|[H|(r & _ & H)]]; [left; exact H|right; left; exact H|right; right; exists r; exact H].
Qed.
Lemma place_mentioned v e p : place (CScan e) p -> mentions (conversion_message v (CScan e)) p.
Proof.
  cbn [conversion_message]. intros [(m & E & ->)|[(re & E & ->)|(r & -> & H)]].
  - injection E as ->. apply (scan_mentions v (InternalError 0 m) (rj_new (mkReader [] []) [])). discriminate.
  - injection E as ->. apply (scan_mentions v (RJiterError re) (rj_new (mkReader [] []) [])). discriminate.
  - destruct e; try contradiction; destruct H as [<- Hk]; apply scan_mentions; exact Hk.
Qed.
Lemma conversion_place a fuel rd w w' e p : conversion a fuel rd w = Done (w', Err (e, p)) -> place e p.
Proof. unfold conversion. destruct (to_convert a); [apply d2n_place|apply n2d_place]. Qed.
Lemma main_place a fuel o c e p : main a fuel o = Done (c, Failure e p) -> place e p.
Proof.
  unfold main. destruct (match input_path a with Some q => file o q | None => Some (stdin o) end) as [i|]; [|discriminate].
  destruct (budget o (output_path a)) as [room|]; [|discriminate].
  unfold run. intros E. destruct (conversion a fuel _ _) as [[w' [[]|[e' p']]]| |] eqn:E1; try discriminate.
  cbn [obind] in E. injection E as _ <- <-. exact (conversion_place _ _ _ _ _ _ _ E1).
Qed.
Lemma main_mentioned v a fuel o c e p : main a fuel o = Done (c, Failure (CScan e) p) -> mentions (conversion_message v (CScan e)) p.
Proof. intros E. exact (place_mentioned v e p (main_place _ _ _ _ _ _ E)). Qed.
Lemma place_shown v e p : place e p -> readable v (Failure e p) -> plain_context e /\ shown v e.
Proof.
  intros [(m & -> & _)|[(re & -> & _)|(r & _ & H)]] Hr; [split; exact I|split; exact I|].
  destruct e as [k c|k c|c [t|]|se]; cbn [plain_context shown readable] in *; try (split; [exact (proj1 H)|exact I]); [split; [exact (proj1 H)|exact Hr]|].
  split; [exact I|]. destruct se; try exact I. destruct H as [_ H]. exact (H _ eq_refl).
Qed.
Lemma main_told v (T : telling v) a fuel o c x r a' fuel' o' c' x' r' :
  main a fuel o = Done (c, x) -> main a' fuel' o' = Done (c', x') -> readable v x -> readable v x' ->
  stderr v a x r = stderr v a' x' r' -> x = x'.
Proof.
  intros E E' R R' H. destruct x as [| | |e p], x' as [| | |e' p']; cbn [stderr] in H; try reflexivity; try discriminate H.
  apply main_place in E. apply main_place in E'.
  destruct (place_shown v _ _ E R) as [Pa Sa]. destruct (place_shown v _ _ E' R') as [Pb Sb].
  apply app_inv_head in H. apply front in H as [<- H]; [|intros [_ Hd]; apply Hd; reflexivity..]. apply app_inv_head in H.
  rewrite (conversion_message_inj v T e e' Pa Pb Sa Sb H). reflexivity.
Qed.
Lemma place_short e p : place e p -> short e.
Proof. intros [(m & -> & _)|[(re & -> & _)|(r & _ & H)]]; [exact I|exact I|]. destruct e; try exact I. exact (proj2 H). Qed.
Lemma main_short a fuel o c x t p : main a fuel o = Done (c, Failure (CParse x (Some t)) p) -> len t <= 32.
Proof. intros E. exact (place_short _ _ (main_place _ _ _ _ _ _ E)). Qed.
Lemma n2d_short fuel rd w rb xb pretty wrapper w' x t p :
  convert_normal_to_ddb fuel rd w rb xb pretty wrapper = Done (w', Err (CParse x (Some t), p)) -> len t <= 32.
Proof. intros E. exact (place_short _ _ (n2d_place _ _ _ _ _ _ _ _ _ _ E)). Qed.
Lemma d2n_short fuel rd w rb xb pretty md w' x t p :
  convert_ddb_to_normal fuel rd w rb xb pretty md = Done (w', Err (CParse x (Some t), p)) -> len t <= 32.
Proof. intros E. exact (place_short _ _ (d2n_place _ _ _ _ _ _ _ _ _ _ E)). Qed.
