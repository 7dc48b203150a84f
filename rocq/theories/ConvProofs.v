(** Proofs about what the two converters share. *)
From Verif Require Import Base U8Pool Buffer BufferSpec Jiter RJiter RJiterSpec Scan ScanSpec IdSpec Conv ConvSpec.
From Verif Require Import ScanTokens ScanParser ScanStack ScanProofs ScanTop ScanSse IdProofs Transducer.

Infix ";>" := t_then (at level 61, right associativity).
Lemma then_inv {M} (a b : @tstep M) m text m' : t_then a b m = Some (text, m') ->
  exists p m1 q, a m = Some (p, m1) /\ b m1 = Some (q, m') /\ text = p ++ q.
Proof.
  unfold t_then. destruct (a m) as [[p m1]|]; [|discriminate]. destruct (b m1) as [[q m2]|] eqn:Eb; [|discriminate].
  intros H. injection H as <- <-. eauto 10.
Qed.

(** ** Steps *)
Section Does.
Context {B M : Type} (outw : B -> writer) (mode : B -> M) (good : B -> Prop) (noted : B -> io_kind -> Prop) (E : bool).
Notation wrote := (wrote outw mode good).
Notation torn := (torn outw noted E).
Definition ran (c : B) (text : bytes) (m' : M) (x : outcome (B * result unit string)) : Prop :=
  exists c' res, x = Done (c', res) /\ match res with Ok _ => wrote c text m' c' | Err _ => torn c text c' end.
Definition does (f : step B) (t : tstep) : Prop := forall c, good c -> forall text m', t (mode c) = Some (text, m') -> ran c text m' (f c).
Lemma does_then f g s t : does f s -> does g t -> does (f ;; g) (s ;> t).
Proof.
  intros Hf Hg c Hc text m' Ht. apply then_inv in Ht as (p & m1 & q & H1 & H2 & ->).
  destruct (Hf c Hc _ _ H1) as (c1 & res & Ef & H). unfold ran, and_then. rewrite Ef. cbn [obind]. destruct res as [[]|m].
  - pose proof H as (Hs & Hm & Hc1). rewrite <- Hm in H2. destruct (Hg c1 Hc1 _ _ H2) as (c2 & res & Eg & H3). exists c2, res. split; [exact Eg|].
    destruct res as [[]|m]; [eapply wrote_after; eassumption|eapply torn_after; eassumption].
  - eexists _, _. split; [reflexivity|]. apply torn_more, H.
Qed.
Lemma does_change f t : (forall c text m', good c -> t (mode c) = Some (text, m') -> text = [] /\ outw (f c) = outw c /\ mode (f c) = m' /\ good (f c)) ->
  does (change_to f) t.
Proof.
  intros H c Hc text m' Ht. destruct (H c text m' Hc Ht) as (-> & Ho & Hm & Hg). exists (f c), (Ok tt). split; [reflexivity|].
  unfold Transducer.wrote. rewrite Ho. split; [apply spent_refl|auto].
Qed.

(** ** Handlers *)
Context (G : rj -> Prop).
(** How a handler ends: [op] if all is well, and the parser is then in front of [r]. *)
Definition handled (r : bytes) (op : stream_op) (c : B) (text : bytes) (m' : M) (x : outcome (rj * B * stream_op)) : Prop :=
  exists s' c' o, x = Done (s', c', o) /\
    match o with
    | OpError _ => torn c text c'
    | _ => o = op /\ G s' /\ rest s' = r /\ wrote c text m' c'
    end.
Lemma handled_after r op c p m c1 q m' x : wrote c p m c1 -> handled r op c1 q m' x -> handled r op c (p ++ q) m' x.
Proof.
  intros Hw (s' & c' & o & -> & H). eexists _, _, _. split; [reflexivity|].
  destruct o as [| |msg]; [| |eapply torn_after; [apply Hw|exact H]]; destruct H as (A & C & D & F); (split; [exact A|]; split; [exact C|]; split; [exact D|]);
    eapply wrote_after; eassumption.
Qed.
Lemma handled_torn r op c text m' s c' msg : torn c text c' -> handled r op c text m' (Done (s, c', OpError msg)).
Proof. intros H. eexists _, _, _. split; [reflexivity|exact H]. Qed.
Lemma act_of_handled f t s r op c text m' : does f t -> good c -> t (mode c) = Some (text, m') -> G s -> rest s = r -> (forall msg, op <> OpError msg) ->
  handled r op c text m' (act_of f op s c).
Proof.
  intros Hf Hc Ht HG Hr Hop. destruct (Hf c Hc _ _ Ht) as (c' & res & Ef & H). unfold act_of. rewrite Ef. cbn [obind]. destruct res as [[]|msg].
  - eexists _, _, _. split; [reflexivity|]. destruct op; [auto|auto|]. elim (Hop message eq_refl).
  - apply handled_torn, H.
Qed.
(** A handler that begins with a step. *)
Lemma step_handled f s t q r op c text m' (k : B -> outcome (rj * B * stream_op)) : does f t -> good c -> t_then t q (mode c) = Some (text, m') ->
  (forall c1 y, good c1 -> q (mode c1) = Some (y, m') -> handled r op c1 y m' (k c1)) ->
  handled r op c text m' (do (c1, v) <- f c; match v with Err m => Done (s, c1, OpError m) | Ok _ => k c1 end).
Proof.
  intros Hf Hc Ht Hk. apply then_inv in Ht as (p & m1 & y & H1 & H2 & ->). destruct (Hf c Hc _ _ H1) as (c1 & res & Ef & H). rewrite Ef. cbn [obind].
  destruct res as [[]|msg].
  - pose proof H as (_ & Hm & Hg). rewrite <- Hm in H2. eapply handled_after; [exact H|]. apply Hk; auto.
  - apply handled_torn, torn_more, H.
Qed.
End Does.

(** ** What holds of the handlers in every state *)
Definition safe {B} (f : step B) : Prop := forall c, f c = Panic \/ exists c' v, f c = Done (c', v).
Lemma safe_then {B} (f g : step B) : safe f -> safe g -> safe (f ;; g).
Proof.
  intros Hf Hg c. unfold and_then. destruct (Hf c) as [->|(c' & [[]|m] & ->)]; cbn [obind]; [auto|apply Hg|right; eauto].
Qed.
Lemma safe_change {B} (f : B -> B) : safe (change_to f).
Proof. intros c. right. unfold change_to. eauto. Qed.
Lemma safe_skip {B} : safe (@skip B).
Proof. intros c. right. unfold skip. eauto. Qed.
Lemma safe_put d x : safe (put d x).
Proof. intros c. right. unfold put. destruct (write_all (cout c) d) as [w [[]|k]]; eauto. Qed.
Lemma safe_newline : safe newline.
Proof. intros c. unfold newline. destruct (pretty c); [apply safe_put|apply safe_skip]. Qed.
Lemma safe_comma_is b : safe (comma_is b).
Proof. apply safe_change. Qed.
Lemma safe_comma : safe write_comma.
Proof. intros c. unfold write_comma. destruct (pending c); [|apply safe_skip]. repeat first [apply safe_then|apply safe_put|apply safe_newline|apply safe_comma_is]. Qed.
Lemma safe_indents n : safe (indents n).
Proof. induction n as [|n IH]; [apply safe_skip|]. apply safe_then; [apply safe_put|exact IH]. Qed.
Lemma safe_indent : safe indent.
Proof. intros c. unfold indent. destruct (pretty c); [apply safe_indents|apply safe_skip]. Qed.
Lemma safe_deeper : safe deeper.
Proof. apply safe_change. Qed.
Lemma safe_shallower : safe shallower.
Proof. intros c. unfold shallower. destruct (level c); eauto. Qed.

Section Safely.
Context {B : Type} (G : rj -> Prop).
Definition safely (r : bytes) (op : stream_op) (x : outcome (rj * B * stream_op)) : Prop :=
  x = Panic \/ exists s' c' o, x = Done (s', c', o) /\ match o with OpError _ => True | _ => o = op /\ G s' /\ rest s' = r end.
Lemma safely_error r op s c m : safely r op (Done (s, c, OpError m)).
Proof. right. eexists _, _, _. split; [reflexivity|exact I]. Qed.
Lemma safely_act f op s r c : safe f -> G s -> rest s = r -> safely r op (act_of f op s c).
Proof.
  intros Hf HG Hr. unfold act_of. destruct (Hf c) as [->|(c' & v & ->)]; cbn [obind]; [left; reflexivity|right]. eexists _, _, _. split; [reflexivity|].
  destruct v as [[]|m]; [|exact I]. destruct op; auto.
Qed.
Lemma safely_step f s r op c (k : B -> outcome (rj * B * stream_op)) : safe f -> (forall c1, safely r op (k c1)) ->
  safely r op (do (c1, v) <- f c; match v with Err m => Done (s, c1, OpError m) | Ok _ => k c1 end).
Proof.
  intros Hf Hk. destruct (Hf c) as [->|(c' & [[]|m] & ->)]; cbn [obind]; [left; reflexivity|apply Hk|apply safely_error].
Qed.
End Safely.

(** ** The steps the converters are made of *)
Section Steps.
Context (pr : bool) (noted : conv -> io_kind -> Prop) (E : bool).
Context (HN : forall c k x, last_error c = Some (CIo k x) -> noted c k).
Definition cmode (c : conv) : bool * nat := (pending c, level c).
Definition cgood (c : conv) : Prop := last_error c = None /\ pretty c = pr.
Notation Step := (@tstep (bool * nat)).
Notation does := (does cout cmode cgood noted E).

Definition t_put (d : bytes) : Step := fun m => Some (d, m).
Definition nl : bytes := if pr then [10%N] else [].
Definition t_newline : Step := t_put nl.
Fixpoint pads (n : nat) : bytes := match n with 0 => [] | S n => 32%N :: 32%N :: pads n end.
Definition tab (n : nat) : bytes := if pr then pads n else [].
(** A comma if one is pending; texts separated by commas. *)
Definition lead (p : bool) : bytes := if p then COMMA :: nl else [].
Fixpoint row (p : bool) (l : list bytes) : bytes := match l with [] => [] | x :: l => lead p ++ x ++ row true l end.
Definition t_indent : Step := fun m => Some (tab (snd m), m).
Definition t_comma : Step := fun m => Some (if fst m then COMMA :: nl else [], (false, snd m)).
Definition t_deeper : Step := fun m => Some ([], (fst m, S (snd m))).
Definition t_shallower : Step := fun m => match snd m with 0 => None | S n => Some ([], (fst m, n)) end.
Definition t_comma_is (b : bool) : Step := fun m => Some ([], (b, snd m)).

Lemma does_put d x : does (put d x) (t_put d).
Proof.
  intros c (Hg & Hp) text m' Ht. injection Ht as <- <-. unfold put, ran. destruct (write_all_spent (cout c) d) as (w & res & -> & H). destruct res as [[]|k].
  - eexists _, _. split; [reflexivity|]. split; [exact H|]. split; [reflexivity|]. split; [exact Hg|exact Hp].
  - eexists _, _. split; [reflexivity|]. right. destruct H as (p & q & -> & Hq & Hs & Hk). exists p, q, k. split; [reflexivity|]. split; [exact Hq|]. split; [apply worn_now; assumption|].
    eapply HN. reflexivity.
Qed.
Lemma does_skip : does skip t_none.
Proof. intros c Hg text m' Ht. injection Ht as <- <-. exists c, (Ok tt). split; [reflexivity|]. split; [apply spent_refl|auto]. Qed.
Lemma does_newline : does newline t_newline.
Proof.
  intros c Hg text m' Ht. unfold newline. pose proof (proj2 Hg) as Hp. rewrite Hp. unfold t_newline, nl in Ht. destruct pr.
  - apply (does_put [10%N] "writing newline" c Hg), Ht.
  - apply (does_skip c Hg), Ht.
Qed.
Lemma does_comma_is b : does (comma_is b) (t_comma_is b).
Proof. apply does_change. intros c text m' Hg Ht. injection Ht as <- <-. auto. Qed.
Lemma does_comma : does write_comma t_comma.
Proof.
  intros c Hg text m' Ht. unfold write_comma, t_comma, cmode in *. cbn [fst snd] in Ht. destruct (pending c) eqn:Ep.
  - apply (does_then _ _ _ _ _ _ _ _ _ (does_put [COMMA] "writing comma") (does_then _ _ _ _ _ _ _ _ _ does_newline (does_comma_is false)) c Hg).
    unfold t_then, t_put, t_newline, t_comma_is, t_put. injection Ht as <- <-. rewrite app_nil_r. reflexivity.
  - injection Ht as <- <-. rewrite <- Ep. apply (does_skip c Hg). reflexivity.
Qed.
Lemma does_indents n : does (indents n) (t_put (pads n)).
Proof.
  induction n as [|n IH]; [exact does_skip|]. intros c Hg text m' Ht.
  apply (does_then _ _ _ _ _ _ _ _ _ (does_put [32; 32]%N "writing indentation") IH c Hg). injection Ht as <- <-. reflexivity.
Qed.
Lemma does_indent : does indent t_indent.
Proof.
  intros c Hg text m' Ht. unfold indent. pose proof (proj2 Hg) as Hp. rewrite Hp. unfold t_indent, tab in Ht. destruct pr.
  - apply (does_indents (level c) c Hg), Ht.
  - apply (does_skip c Hg), Ht.
Qed.
Lemma does_deeper : does deeper t_deeper.
Proof. apply does_change. intros c text m' Hg Ht. injection Ht as <- <-. auto. Qed.
Lemma does_shallower : does shallower t_shallower.
Proof.
  intros c Hg text m' Ht. unfold shallower, t_shallower, cmode in *. cbn [fst snd] in Ht. destruct (level c) as [|n]; [discriminate|]. injection Ht as <- <-.
  eexists _, _. split; [reflexivity|]. split; [apply spent_refl|]. split; [reflexivity|exact Hg].
Qed.
Lemma does_level n : does (change_to (fun c => set_level c n)) (fun m => Some ([], (fst m, n))).
Proof. apply does_change. intros c text m' Hg Ht. injection Ht as <- <-. auto. Qed.
End Steps.
Definition filled {A} (p : bool) (l : list A) : bool := match l with [] => p | _ => true end.
Lemma row_join l x : join (x :: l) = x ++ row false true l.
Proof. revert x. induction l as [|y l IH]; intros x; [symmetry; apply app_nil_r|]. change (join (x :: y :: l)) with (x ++ COMMA :: join (y :: l)). rewrite IH. reflexivity. Qed.
Lemma row_join0 l : row false false l = join l.
Proof. destruct l; [reflexivity|]. rewrite row_join. reflexivity. Qed.

(** ** The conversion *)
Section Convert.
Context {B M : Type} (outw : B -> writer) (mode : B -> M) (good : B -> Prop) (noted : B -> io_kind -> Prop).
Context (tb : pseudoname -> list bytes -> json -> M -> option (bytes * M * bool)) (te : pseudoname -> list bytes -> @tstep M).
Context (cb : callbacks B) (base : B -> conv) (slots : N) (m : setting).
Context (HM : sane m) (HR : respects (between m) (layout m) cb (transducer outw mode good noted (may_fail m) tb te)).
Context (Hbase : forall u, good u -> last_error (base u) = None) (Hslots : (slots * 4 + 1 < usize_modulus)%N) (Hs0 : slots <> 0%N).

Lemma room_trace d vs : Forall (has_room d) vs -> snd (trace_values d [bs "#top"] vs) = None.
Proof.
  induction 1 as [|v vs Hv Hvs IH]; [reflexivity|]. pose proof (has_room_trace _ _ Hv) as H.
  unfold trace_values in *. cbn [fold_right]. destruct (trace_value d [bs "#top"] v) as [l o]. cbn in H. subst o. exact IH.
Qed.
Notation pool_dims := (ConvSpec.pool_dims slots).
Lemma convert_run vs rd rb xb u text m' :
  start m (rj_new rd rb) -> documents (layout m) vs (src rd) -> (slots * 4 < N.of_nat (len xb))%N -> 5 <= space_for (pool_dims xb) ->
  good u -> run_items tb te [bs "#top"] vs (mode u) = Some (text, m') ->
  exists u' v, eventually (fun fuel => convert cb base slots fuel rd rb xb u) (Done (u', v)) /\
    match v with
    | Ok _ => wrote outw mode good u text m' u'
    | Err (e, _) => may_fail m = true \/
        (exists a b k, text = a ++ b /\ b <> [] /\ worn (outw u) a (outw u') k /\ noted u' k /\
           ((last_error (base u') = Some e) \/ (last_error (base u') = None /\ exists msg i, e = CScan (ActionError msg i)))) \/
        (~ Forall (has_room (pool_dims xb)) vs /\ (exists a b, text = a ++ b /\ spent (outw u) a (outw u')) /\
          exists e', e = CScan e' /\ ((exists i n, e' = MaxNestingExceeded i n) \/ (exists i msg, e' = InternalError i msg)))
    end.
Proof.
  intros HS HD Hlen H5 Hg Ht. set (d := pool_dims xb).
  assert (exists p, pool_new true xb slots = Done (Ok p)) as (p & Hp).
  { unfold pool_new. destruct (N.eqb_spec slots 0) as [H|_]; [contradiction|]. destruct (Nat.eqb_spec (len xb) 0) as [H|_]; [rewrite H in Hlen; lia|].
    unfold usize_op. destruct (N.ltb_spec (slots * 4) usize_modulus); [|lia]. cbn [obind]. destruct (N.ltb_spec (slots * 4 + 1) usize_modulus); [|lia]. cbn [obind].
    destruct (N.ltb_spec (N.of_nat (len xb)) (slots * 4 + 1)); [lia|]. destruct (N.ltb_spec (N.of_nat (len xb)) (slots * 4)); [lia|]. eauto. }
  assert (HF : fresh d p) by (exists true, xb; split; [exact Hp|]; split; [exact Hslots|reflexivity]).
  assert (Hst : stack_of d p []).
  { apply stack_fresh, HF. }
  destruct (scan_sequence cb (mkOptions [] false) (transducer outw mode good noted (may_fail m) tb te) m d HM HR ltac:(auto) (mkS (rj_new rd rb) u p) [] vs eq_refl HS) as (u' & st & Hw & Hout).
  { exact HD. }
  { exact Hst. }
  cbn [user path_of map] in Hw. unfold walk_top in Hw. cbn [path_of map] in Hw.
  assert (Htop : admit_name d [] (bs "#top") = None).
  { unfold admit_name, d, ConvSpec.pool_dims. cbn [List.length weight map list_sum fold_right slices space_for]. destruct (N.leb_spec slots (N.of_nat 0)); [lia|].
    change (len (bs "#top")) with 4. unfold d, ConvSpec.pool_dims in H5. cbn [space_for] in H5. destruct (Nat.ltb_spec (len xb - N.to_nat (slots * 4)) (0 + 5)); [lia|]. reflexivity. }
  change (path_of []) with (@nil bytes) in Hw. rewrite Htop in Hw.
  assert (HN : forall x, st = Stopped (Denied x) -> ~ Forall (has_room d) vs).
  { intros x -> Hr. apply (proj1 (proj2 (walk_accepted _ d (may_fail m))) _ _ _ _ _ Hw (room_trace _ _ Hr) x eq_refl). }
  apply (proj1 (proj2 (transducer_walk outw mode good noted (may_fail m) tb te d))) in Hw. specialize (Hw Hg _ _ Ht).
  assert (HE : forall s e, eventually (fun fuel => scan cb (mkOptions [] false) fuel (mkS (rj_new rd rb) u p)) (Done (s, Err e)) -> user s = u' ->
    eventually (fun fuel => convert cb base slots fuel rd rb xb u) (Done (u', Err (match last_error (base u') with Some err => err | None => CScan e end, error_position_of e (parser s))))).
  { intros s e (n & Hn) <-. exists n. intros fuel Hf. unfold convert. rewrite Hp. cbn [obind]. rewrite (Hn fuel Hf). reflexivity. }
  destruct st as [|why]; cbn [outcome_is] in Hout.
  - destruct Hout as (s & (n & Hn) & Hu & _). exists u', (Ok tt). split; [|exact Hw].
    exists n. intros fuel Hf. unfold convert. rewrite Hp. cbn [obind]. rewrite (Hn fuel Hf). cbn [obind]. rewrite Hu. reflexivity.
  - destruct why as [msg| |x|]; [|contradiction| |]; destruct Hout as (s & e & Hev & Hu & Hrep); specialize (HE s e Hev Hu);
      eexists _, _; (split; [exact HE|]); cbn [interrupted] in Hw.
    + destruct Hw as [Hw|(a & b & k & Hab & Hb & Hs & Hno)]; [left; exact Hw|right; left]. exists a, b, k. do 4 (split; [assumption|]).
      destruct (last_error (base u')); [left; reflexivity|right]. split; [reflexivity|]. cbn in Hrep. subst e. eauto.
    + right. right. split; [eapply HN; reflexivity|]. destruct Hw as (a & b & Hab & Hs & Hg'). split; [eauto|]. rewrite (Hbase _ Hg'). exists e. split; [reflexivity|].
      destruct x; cbn in Hrep; [left; eauto|destruct Hrep as [(n & ->)|(n & ->)]; eauto].
    + left. exact Hw.
Qed.
End Convert.
