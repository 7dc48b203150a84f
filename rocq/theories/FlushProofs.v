(** The flag [unbuffered] makes no difference where the writer holds nothing back. *)
From Verif Require Import Base U8Pool Buffer Jiter RJiter RJiterLongProofs Scan ScanSpec ScanParser Conv NormalToDdb DdbToNormal Agree TwinConv FlushConv FlushToDdb FlushFromDdb.

(** ** Steps and handlers that do the same *)
Section Same.
Context {B : Type} (J : B -> Prop).
Definition same_step (f g : step B) : Prop := forall c, J c -> f c = g c /\ match f c with Done (c', _) => J c' | _ => True end.
Definition same_action (f g : action B) : Prop := forall r c, J c -> f r c = g r c /\ match f r c with Done (_, c', _) => J c' | _ => True end.
Lemma sm_then f g f' g' : same_step f f' -> same_step g g' -> same_step (f ;; g) (f' ;; g').
Proof.
  intros F G c H. unfold and_then. destruct (F c H) as (<- & P). destruct (f c) as [[c1 [u|m]]| |]; cbn [obind]; auto.
Qed.
Lemma sm_change h : (forall c, J c -> J (h c)) -> same_step (change_to h) (change_to h).
Proof. intros H c HJ. split; [reflexivity|]. apply H, HJ. Qed.
Lemma sm_skip : same_step skip skip.
Proof. intros c H. split; [reflexivity|exact H]. Qed.
Lemma sm_if (t : B -> bool) f g f' g' : same_step f f' -> same_step g g' -> same_step (fun c => if t c then f c else g c) (fun c => if t c then f' c else g' c).
Proof. intros F G c H. destruct (t c); auto. Qed.
Lemma sa_of f f' op : same_step f f' -> same_action (act_of f op) (act_of f' op).
Proof. intros F r c H. unfold act_of. destruct (F c H) as (<- & P). split; [reflexivity|]. destruct (f c) as [[c1 v]| |]; cbn [obind]; auto. Qed.
Lemma sa_answer h op : (forall c, J c -> J (h c)) -> same_action (fun r c => Done (r, h c, op)) (fun r c => Done (r, h c, op)).
Proof. intros H r c HJ. split; [reflexivity|apply H, HJ]. Qed.
Definition okp (x y : outcome (rj * B * stream_op)) : Prop := x = y /\ match x with Done (_, c', _) => J c' | _ => True end.
Lemma okp_done r c op : J c -> okp (Done (r, c, op)) (Done (r, c, op)).
Proof. intros H. split; [reflexivity|exact H]. Qed.
Lemma okp_step f f' c k k' : same_step f f' -> J c -> (forall c' v, J c' -> okp (k (c', v)) (k' (c', v))) -> okp (obind (f c) k) (obind (f' c) k').
Proof. intros F H K. destruct (F c H) as (<- & P). destruct (f c) as [[c1 v]| |]; cbn [obind]; [apply K, P|split; [reflexivity|exact I]..]. Qed.
Lemma okp_action a a' r c k k' : same_action a a' -> J c -> (forall r' c' v, J c' -> okp (k (r', c', v)) (k' (r', c', v))) -> okp (obind (a r c) k) (obind (a' r c) k').
Proof. intros F H K. destruct (F r c H) as (<- & P). destruct (a r c) as [[[r1 c1] v]| |]; cbn [obind]; [apply K, P|split; [reflexivity|exact I]..]. Qed.
Lemma okp_method {X} (x : outcome X) k k' : (forall v, okp (k v) (k' v)) -> okp (obind x k) (obind x k').
Proof. intros K. destruct x; cbn [obind]; [apply K|split; [reflexivity|exact I]..]. Qed.
End Same.

Lemma write_all_cap w d : wcap (fst (write_all w d)) = wcap w.
Proof. destruct (write_all_cases w d) as (w' & r & p & q & a & -> & _ & _ & H & _). exact H. Qed.
Lemma long_cap r w : match write_long_bytes r w with Done (_, w', _) => wcap w' = wcap w | _ => True end.
Proof.
  pose proof (long_spent j_known_bytes bytes_segment (fuel_for (bf r)) r w) as H. fold (write_long_bytes r w) in H.
  destruct (write_long_bytes r w) as [[[r' w'] v]| |]; auto. destruct H as (p & _ & H & _). exact H.
Qed.

Section Flag.
Context (b : bool).
(** There is nothing to flush. *)
Definition direct (w : writer) : Prop := b = false \/ wcap w = 0.
Lemma direct_flush w : direct w -> (if b then flush w else (w, Ok tt)) = (w, Ok tt).
Proof. intros [->|H]; [reflexivity|]. unfold flush. rewrite H. destruct b; reflexivity. Qed.
Lemma direct_write w d : direct w -> write_through b w d = write_all w d /\ direct (fst (write_all w d)).
Proof.
  intros H. pose proof (write_all_cap w d) as Hc. unfold write_through. destruct (write_all w d) as [w' r]; cbn [fst] in *.
  assert (direct w') by (destruct H as [H|H]; [left; exact H|right; congruence]). split; [|assumption]. destruct r as [[]|k]; [apply direct_flush; assumption|reflexivity].
Qed.

Definition quiet (c : conv) : Prop := direct (cout c).
Notation sstep := (same_step quiet).
Notation saction := (same_action quiet).
Lemma sm_put d x : sstep (fl_put b d x) (put d x).
Proof.
  intros c H. unfold fl_put, put. destruct (direct_write (cout c) d H) as (-> & P). split; [reflexivity|]. destruct (write_all (cout c) d) as [w [u|k]]; exact P.
Qed.
Lemma sm_flush f f' : sstep f f' -> sstep (flush_long b ;; f) f'.
Proof.
  intros F c H. assert (E : flush_long b c = Done (c, Ok tt)).
  { unfold flush_long. pose proof (direct_flush _ H) as E. destruct b; [rewrite E; destruct c; reflexivity|reflexivity]. }
  unfold and_then. rewrite E. apply F, H.
Qed.
Lemma sm_newline : sstep (fl_newline b) newline.
Proof. apply sm_if; [apply sm_put|apply sm_skip]. Qed.
Lemma sm_comma : sstep (fl_write_comma b) write_comma.
Proof. apply sm_if; [|apply sm_skip]. apply sm_then; [apply sm_put|]. apply sm_then; [apply sm_newline|]. apply sm_change. intros c H. exact H. Qed.
Lemma sm_indents n : sstep (fl_indents b n) (indents n).
Proof. induction n as [|n IH]; cbn [fl_indents indents]; [apply sm_skip|apply sm_then; [apply sm_put|exact IH]]. Qed.
Lemma sm_indent : sstep (fl_indent b) indent.
Proof. intros c H. unfold fl_indent, indent. destruct (pretty c); [apply sm_indents, H|apply sm_skip, H]. Qed.
Lemma sm_comma_is x : sstep (comma_is x) (comma_is x).
Proof. apply sm_change. intros c H. exact H. Qed.
Lemma sm_deeper : sstep deeper deeper.
Proof. apply sm_change. intros c H. exact H. Qed.
Lemma sm_shallower : sstep shallower shallower.
Proof. intros c H. split; [reflexivity|]. unfold shallower. destruct (level c); [exact I|exact H]. Qed.
Ltac ss := repeat match goal with
  | |- sstep (flush_long _ ;; _) _ => apply sm_flush
  | |- sstep (_ ;; _) (_ ;; _) => apply sm_then
  | |- sstep (fl_put _ _ _) _ => apply sm_put
  | |- sstep (comma_is _) _ => apply sm_comma_is
  | |- sstep deeper _ => apply sm_deeper
  | |- sstep shallower _ => apply sm_shallower
  | |- sstep (fl_newline _) _ => apply sm_newline
  | |- sstep (fl_write_comma _) _ => apply sm_comma
  | |- sstep (fl_indent _) _ => apply sm_indent
  | |- sstep skip _ => apply sm_skip
  | |- sstep (change_to _) _ => apply sm_change; intros ? ?; assumption
  end.
Lemma okp_long r c k k' : quiet c -> (forall r' w v, direct w -> okp quiet (k (r', w, v)) (k' (r', w, v))) ->
  okp quiet (obind (write_long_bytes r (cout c)) k) (obind (write_long_bytes r (cout c)) k').
Proof.
  intros H K. pose proof (long_cap r (cout c)) as Hc. destruct (write_long_bytes r (cout c)) as [[[r' w'] v]| |]; cbn [obind]; [|split; [reflexivity|exact I]..].
  apply K. destruct H as [H|H]; [left; exact H|right; congruence].
Qed.
Ltac stop := solve [apply okp_done; assumption].

(** ** To DynamoDB *)
Lemma sm_close : sstep (fl_close_atom b) close_atom.
Proof. unfold fl_close_atom, close_atom. ss. Qed.
Lemma sa_string : saction (fl_on_string_value b) on_string_value.
Proof.
  intros r c H. apply okp_step; [ss|exact H|]. clear c H. intros c [u|m] H; [|stop]. apply okp_long; [exact H|]. intros r' w [v|e] Hw; [|apply okp_done; exact Hw].
  refine (sa_of quiet _ _ _ _ r' (set_cout c w) Hw). ss. apply sm_close.
Qed.
Lemma sa_bool : saction (fl_on_bool_value b) on_bool_value.
Proof.
  intros r c H. apply okp_method. clear r. intros [r [p|e]]; [|stop]. apply okp_step; [ss|exact H|]. clear c H. intros c [u|m] H; [|stop].
  destruct (N.eqb p PeekTrue); [|destruct (N.eqb p PeekFalse); [|stop]]; (apply okp_method; intros [r1 v]; refine (sa_of quiet _ _ _ _ r1 c H); ss; apply sm_close).
Qed.
Lemma sa_null : saction (fl_on_null_value b) on_null_value.
Proof.
  intros r c H. apply okp_method. clear r. intros [r [p|e]]; [|stop]. destruct (N.eqb p PeekNull); [|stop]. apply okp_method. intros [r1 v]. refine (sa_of quiet _ _ _ _ r1 c H). ss. apply sm_close.
Qed.
Lemma sa_atom : saction (fl_on_atom_value b) on_atom_value.
Proof.
  intros r c H. apply okp_step; [ss|exact H|]. clear c H. intros c [u|m] H; [|stop]. apply okp_method. clear r. intros [r [p|e]]; [|stop].
  destruct (N.eqb p QUOTE); [apply sa_string, H|]. destruct (_ || _); [apply sa_bool, H|]. destruct (N.eqb p PeekNull); [apply sa_null, H|].
  apply okp_method. intros [r1 [n|e]]; [|stop]. refine (sa_of quiet _ _ _ _ r1 c H). ss. apply sm_close.
Qed.
Lemma sa_root_literal : saction (fl_on_root_literal b) on_root_literal.
Proof.
  intros r c H. apply okp_step; [ss|exact H|]. clear c H. intros c [u|m] H; [|stop]. apply okp_action; [apply sa_atom|exact H|]. intros r1 c1 op H1. refine (sa_of quiet _ _ op _ r1 c1 H1). ss.
Qed.
Lemma sm_array_begin : sstep (fl_array_begin b) array_begin.
Proof. unfold fl_array_begin, array_begin. ss. Qed.
Lemma sm_nested_begin : sstep (fl_nested_object_begin b) nested_object_begin.
Proof. unfold fl_nested_object_begin, nested_object_begin. ss. Qed.
Lemma sm_element : sstep (fl_element_begin b) element_begin.
Proof. unfold fl_element_begin, element_begin. ss. Qed.
Lemma sm_nested_end : sstep (fl_on_nested_object_end b) on_nested_object_end.
Proof. unfold fl_on_nested_object_end, on_nested_object_end. ss. Qed.
Lemma sm_array_end : sstep (fl_on_array_end b) on_array_end.
Proof. unfold fl_on_array_end, on_array_end. ss. Qed.
Lemma sa_field_key : saction (FlushToDdb.fl_on_field_key b) NormalToDdb.on_field_key.
Proof.
  intros r c H. unfold FlushToDdb.fl_on_field_key, NormalToDdb.on_field_key. destruct (field c) as [name|]; [|apply (okp_done quiet), H].
  refine (sa_of quiet _ _ _ _ r c H). ss.
Qed.

Definition pairwise {B X} (J : B -> Prop) (P : X -> X -> Prop) (x y : B * option X) : Prop :=
  fst x = fst y /\ J (fst x) /\ match snd x, snd y with Some f, Some g => P f g | None, None => True | _, _ => False end.
Lemma sf_begin wrapper name x c : quiet c -> pairwise quiet saction (fl_n2d_find_action b wrapper name x c) (n2d_find_action wrapper name x c).
Proof.
  intros H. unfold fl_n2d_find_action, n2d_find_action. destruct (names x) as [|parent path].
  { split; [reflexivity|]. split; [exact H|]. destruct name; try exact I; [apply sa_of, sm_array_begin|apply sa_atom]. }
  destruct (beq parent (bs "#top")).
  { split; [reflexivity|]. split; [exact H|]. destruct name; try exact I; cbn [snd]; [apply sa_of; ss; apply sm_array_begin|apply sa_of; destruct wrapper; ss|apply sa_root_literal]. }
  cbv zeta. destruct name; (split; [reflexivity|]); (split; [exact H|]); cbn [snd].
  - destruct (beq parent (bs "#array")); apply sa_of; [apply sm_then; [apply sm_element|]|]; apply sm_array_begin.
  - destruct (beq parent (bs "#array")); apply sa_of; [apply sm_then; [apply sm_element|]|]; apply sm_nested_begin.
  - destruct (beq parent (bs "#array")); [|apply sa_atom]. intros r c0 H0. apply okp_step; [apply sm_element|exact H0|]. intros c1 [u|m] H1; [apply sa_atom, H1|stop].
  - apply sa_field_key.
Qed.
Lemma sf_end wrapper name x c : quiet c -> pairwise quiet sstep (fl_n2d_find_end_action b wrapper name x c) (n2d_find_end_action wrapper name x c).
Proof.
  intros H. split; [reflexivity|]. split; [exact H|]. cbn [snd fl_n2d_find_end_action n2d_find_end_action]. destruct (names x) as [|parent path]; [exact I|].
  destruct (beq parent (bs "#top")); destruct name; try exact I.
  - apply sm_then; [apply sm_array_end|apply sm_put].
  - unfold FlushToDdb.fl_on_root_object_end, NormalToDdb.on_root_object_end. destruct wrapper; ss.
  - apply sm_array_end.
  - apply sm_nested_end.
  - destruct (beq parent (bs "#array")); [|exact I]. destruct path as [|g ?]; [exact I|]. destruct (beq g (bs "L")); [apply sm_skip|exact I].
Qed.

(** ** From DynamoDB *)
Definition dquiet (c : d2n) : Prop := quiet (base c).
Notation tstep := (same_step dquiet).
Notation taction := (same_action dquiet).
Lemma tm_base f f' : sstep f f' -> tstep (on_base f) (on_base f').
Proof. intros F c H. unfold on_base. destruct (F (base c) H) as (<- & P). split; [reflexivity|]. destruct (f (base c)) as [[c1 v]| |]; cbn [obind]; auto. Qed.
Lemma tm_flush f f' : tstep f f' -> tstep (on_base (flush_long b) ;; f) f'.
Proof.
  intros F c H. assert (E : flush_long b (base c) = Done (base c, Ok tt)).
  { unfold flush_long. pose proof (direct_flush _ H) as E. destruct b; [rewrite E; destruct c as [[] ? ?]; reflexivity|reflexivity]. }
  unfold and_then, on_base. rewrite E. cbn [obind]. destruct c. apply F, H.
Qed.
Ltac ts := repeat match goal with
  | |- tstep (_ ;; _) (_ ;; _) => apply sm_then
  | |- tstep (on_base _) _ => apply tm_base; ss
  | |- tstep (phase_is _) _ => apply sm_change; intros ? ?; assumption
  | |- tstep (type_is _) _ => apply sm_change; intros ? ?; assumption
  end.
Ltac halt := solve [apply okp_done; assumption].
Lemma ta_string q pc wc : taction (fl_write_string_value b q pc wc) (write_string_value q pc wc).
Proof.
  intros r c H. apply okp_method. clear r. intros [r [p|e]]; [|halt]. destruct (negb (N.eqb p QUOTE)); [halt|].
  apply okp_step; [apply tm_base; ss; destruct q; ss|exact H|]. clear c H. intros c [u|m] H; [|halt].
  pose proof (long_cap r (cout (base c))) as Hc. destruct (write_long_bytes r (cout (base c))) as [[[r' w'] v]| |]; cbn [obind]; [|split; [reflexivity|exact I]..]. cbv zeta.
  assert (H' : dquiet (set_base c (set_cout (base c) w'))) by (destruct H as [H|H]; [left; exact H|right; cbn [set_base set_cout base cout]; congruence]).
  destruct v as [v|e]; [|halt]. refine (sa_of dquiet _ _ _ _ r' _ H'). apply tm_flush. apply tm_base. destruct q; ss.
Qed.
Lemma ta_bool validate name : taction (fl_handle_bool_based_type b validate name) (handle_bool_based_type validate name).
Proof.
  intros r c H. apply okp_method. clear r. intros [r [p|e]]; [|halt]. destruct (validate p) as [output|m]; [|halt].
  apply okp_step; [ts|exact H|]. clear c H. intros c [u|m] H; [|halt]. apply okp_method. intros [r1 [v|e]]; [|halt]. refine (sa_of dquiet _ _ _ _ r1 c H). ts.
Qed.
Lemma ta_finally h a a' : (forall c, cout (base (h c)) = cout (base c)) -> taction a a' -> taction (finally h a) (finally h a').
Proof. intros Hh A r c H. apply okp_action; [exact A|exact H|]. intros r1 c1 v H1. apply okp_done. unfold dquiet, quiet. rewrite Hh. exact H1. Qed.
Lemma ta_type_key : taction (fl_on_type_key b) on_type_key.
Proof.
  intros r c H. unfold fl_on_type_key, on_type_key. destruct (field (base c)) as [key|]; [|apply (okp_done dquiet), H].
  repeat match goal with |- context [if ?t then _ else _] => destruct t end; try solve [refine (sa_of dquiet _ _ _ _ r c H); ts].
  - apply ta_finally; [reflexivity|apply ta_string|exact H].
  - apply ta_finally; [reflexivity|apply ta_string|exact H].
  - apply ta_finally; [reflexivity|apply ta_bool|exact H].
  - apply ta_finally; [reflexivity|apply ta_bool|exact H].
  - apply (okp_done dquiet), H.
Qed.
Lemma ta_field_key : taction (FlushFromDdb.fl_on_field_key b) DdbToNormal.on_field_key.
Proof.
  intros r c H. unfold FlushFromDdb.fl_on_field_key, DdbToNormal.on_field_key. destruct (field (base c)) as [name|]; [|apply (okp_done dquiet), H].
  refine (sa_of dquiet _ _ _ _ r c H). ts.
Qed.
Lemma ta_root : taction (FlushFromDdb.fl_on_root_object_begin b) DdbToNormal.on_root_object_begin.
Proof. apply sa_of. ts. Qed.
Lemma ta_error : taction on_error on_error.
Proof. intros r c H. apply (okp_done dquiet), H. Qed.
Ltac found := split; [reflexivity|]; split; [assumption|]; cbn [snd].
Lemma tf_begin mode name x c : dquiet c -> pairwise dquiet taction (fl_d2n_find_action b mode name x c) (d2n_find_action mode name x c).
Proof.
  intros H. unfold fl_d2n_find_action, d2n_find_action. destruct name.
  - unfold find_action_array. destruct (current_type c) as [[]|]; found; try exact I; apply ta_error.
  - unfold fl_find_action_object, find_action_object. destruct (level (base c) =? 0); [found; apply ta_root|].
    destruct (at_phase c); [found; exact I| |found; apply ta_error|].
    + destruct (current_type c) as [[]|]; found; try exact I; apply ta_error.
    + destruct (parent_is _ _); found; try exact I; apply ta_error.
  - unfold fl_find_action_atom, find_action_atom. destruct (at_phase c); try solve [found; apply ta_error]. destruct (parent_is _ _); [|found; apply ta_error].
    destruct (current_type c) as [[]|]; found; try apply ta_error; apply ta_string.
  - unfold fl_find_action_key, find_action_key. destruct (names x) as [|key path]; [found; exact I|]. cbv zeta. destruct (at_phase c).
    + destruct (_ && _); found; [exact I|apply ta_field_key].
    + found. apply ta_type_key.
    + destruct (in_set _); found; [apply ta_type_key|apply ta_error].
    + found. apply ta_field_key.
Qed.
Lemma tm_map_end : tstep (fl_on_map_end b) on_map_end.
Proof. unfold fl_on_map_end, on_map_end. ts. Qed.
Lemma tf_end mode name x c : dquiet c -> pairwise dquiet tstep (fl_d2n_find_end_action b mode name x c) (d2n_find_end_action mode name x c).
Proof.
  intros H. unfold fl_d2n_find_end_action, d2n_find_end_action. found. destruct name.
  - destruct (at_phase c); try exact I.
    + intros c1 H1. unfold fl_on_list_end, on_list_end. destruct (at_phase c1); try solve [split; [reflexivity|exact H1]]. match goal with |- ?f c1 = ?g c1 /\ _ => refine ((_ : tstep f g) c1 H1) end. ts.
    + unfold fl_on_set_end, on_set_end. ts.
  - destruct (ctx_len x =? 1); [|exact I]. unfold FlushFromDdb.fl_on_root_object_end, DdbToNormal.on_root_object_end. ts.
  - exact I.
  - unfold fl_find_end_action_key, find_end_action_key. destruct (names x) as [|key path]; [exact I|]. destruct (at_phase c).
    + cbv zeta. destruct (_ && _ && _); [exact I|]. destruct (parent_is _ _); [|apply tm_map_end]. apply sm_then; [apply tm_map_end|ts].
    + destruct (is_container key); [exact I|]. unfold on_transition_to_type_key_consumed. ts.
    + destruct (parent_is _ _); unfold on_type_key_end_in_array, on_transition_to_type_key_consumed; ts.
    + destruct (parent_is _ _); unfold on_type_key_end_in_array, on_type_key_end; ts.
Qed.
End Flag.

(** ** Runs *)
Section Runs.
Context {B : Type} (J : B -> Prop) (cb cb' : callbacks B).
Context (HB : forall name x c, J c -> pairwise J (same_action J) (find_action cb name x c) (find_action cb' name x c)).
Context (HE : forall name x c, J c -> pairwise J (same_step J) (find_end_action cb name x c) (find_end_action cb' name x c)).
Lemma same_agreeing bound : agreeing bound (fun _ => J) cb cb'.
Proof.
  split.
  - intros _ name x u _ H. destruct (HB name x u H) as (E & P & Q). destruct (find_action cb name x u) as [u1 [f|]], (find_action cb' name x u) as [u2 [g|]]; cbn [fst snd] in *; try contradiction; [|split; assumption].
    split; [exact E|]. intros r. right. apply Q, P.
  - intros _ name x u _ H. destruct (HE name x u H) as (E & P & Q). destruct (find_end_action cb name x u) as [u1 [f|]], (find_end_action cb' name x u) as [u2 [g|]]; cbn [fst snd] in *; try contradiction; [|split; assumption].
    split; [exact E|]. right. apply Q, P.
Qed.
End Runs.
Lemma same_scan {B} (J : B -> Prop) cb cb' o fuel s :
  (forall name x c, J c -> pairwise J (same_action J) (find_action cb name x c) (find_action cb' name x c)) ->
  (forall name x c, J c -> pairwise J (same_step J) (find_end_action cb name x c) (find_end_action cb' name x c)) -> J (user s) ->
  scan cb o fuel s = scan cb' o fuel s.
Proof.
  intros HB HE H.
  assert (HB' : forall name x c, J c -> pairwise J (same_action J) (find_action cb' name x c) (find_action cb name x c)).
  { intros name x c Hc. destruct (HB name x c Hc) as (E & P & Q). split; [symmetry; exact E|]. split; [rewrite <- E; exact P|].
    destruct (snd (find_action cb name x c)) as [f|], (snd (find_action cb' name x c)) as [g|]; try contradiction; [|exact I]. intros r u Hu. destruct (Q r u Hu) as (<- & Y). auto. }
  assert (HE' : forall name x c, J c -> pairwise J (same_step J) (find_end_action cb' name x c) (find_end_action cb name x c)).
  { intros name x c Hc. destruct (HE name x c Hc) as (E & P & Q). split; [symmetry; exact E|]. split; [rewrite <- E; exact P|].
    destruct (find_end_action cb name x c) as [u1 [f|]], (find_end_action cb' name x c) as [u2 [g|]]; cbn [fst snd] in *; try contradiction; [|exact I]. intros u Hu. destruct (Q u Hu) as (<- & Y). auto. }
  pose proof (agree_scan (3 * fuel) (fun _ => J) (fun _ _ _ _ X => X) _ _ (same_agreeing J cb cb' HB HE (3 * fuel)) o fuel 0 s (le_n _) H) as [E1|(E1 & _)]; [|exact E1].
  pose proof (agree_scan (3 * fuel) (fun _ => J) (fun _ _ _ _ X => X) _ _ (same_agreeing J cb' cb HB' HE' (3 * fuel)) o fuel 0 s (le_n _) H) as [E2|(E2 & _)]; congruence.
Qed.
Lemma n2d_flag b fuel rd w rb xb pr wr : b = false \/ wcap w = 0 ->
  fl_convert_normal_to_ddb b fuel rd w rb xb pr wr = convert_normal_to_ddb fuel rd w rb xb pr wr.
Proof.
  intros H. unfold fl_convert_normal_to_ddb, convert_normal_to_ddb, convert. destruct (pool_new true xb 34) as [[p|e]| |]; cbn [obind]; try reflexivity.
  rewrite (same_scan (quiet b) (fl_n2d_callbacks b wr) (n2d_callbacks wr)); [reflexivity| | |exact H]; intros name x c Hc; [apply sf_begin, Hc|apply sf_end, Hc].
Qed.
Lemma d2n_flag b fuel rd w rb xb pr mode : b = false \/ wcap w = 0 ->
  fl_convert_ddb_to_normal b fuel rd w rb xb pr mode = convert_ddb_to_normal fuel rd w rb xb pr mode.
Proof.
  intros H. unfold fl_convert_ddb_to_normal, convert_ddb_to_normal, convert. destruct (pool_new true xb 68) as [[p|e]| |]; cbn [obind]; try reflexivity.
  rewrite (same_scan (dquiet b) (fl_d2n_callbacks b mode) (d2n_callbacks mode)); [reflexivity| | |exact H]; intros name x c Hc; [apply tf_begin, Hc|apply tf_end, Hc].
Qed.
