(** A scan that ends with the first value does not wait for what comes behind it. *)
From Verif Require Import Base U8Pool Buffer BufferSpec Jiter RJiter RJiterSpec RJiterProofs Scan ScanSpec IdTransform IdSpec CutSpec ArrivedSpec.
From Verif Require Import ScanStack ScanProofs IdProofs EndResults Arrived ArrivedScan ArrivedConv.

Lemma value_no_ok {B} (cb : callbacks B) o pos x s s' : scan_value cb o pos x s <> Done (s', Return (Ok tt)).
Proof.
  unfold scan_value. cbv zeta. destruct (x =? LBRACK)%N; [discriminate|]. destruct (x =? LBRACE)%N; [discriminate|].
  destruct (run_begin cb PAtom s) as [[t [[]|e]]| |]; cbn [vbind]; try discriminate.
  destruct (skip_basic_values x t) as [[t' [v|e]]| |]; cbn [obind]; try discriminate.
  match goal with |- obind ?x _ <> _ => destruct x as [[t2 []]| |] end; cbn [obind]; discriminate.
Qed.
Lemma iter_ok {B} (cb : callbacks B) o pos s s' : scan_iter cb o pos s = Done (s', Return (Ok tt)) -> pos = Top /\ user s' = user s.
Proof.
  destruct pos; cbn [scan_iter].
  - intros E. split; [reflexivity|]. destruct (peek (parser s)) as [[r [x|e]]| |]; cbn [obind] in E; try discriminate.
    + elim (value_no_ok _ _ _ _ _ _ E).
    + destruct (err_type e) as [[]| | |]; try discriminate. cbn [pos_eqb] in E. unfold parse in E. cbn [parser user stack] in E.
      destruct (finish r) as [[r' [v|e']]| |]; cbn [obind vbind] in E; try discriminate. injection E as <-. reflexivity.
  - destruct (handle_object cb ObjectBegin s) as [[t [v|e]]| |]; cbn [vbind]; discriminate.
  - destruct (handle_object cb ObjectMiddle s) as [[t [v|e]]| |]; cbn [vbind]; discriminate.
  - intros E. destruct (peek (parser s)) as [[r [x|e]]| |]; cbn [obind] in E; try discriminate.
    + elim (value_no_ok _ _ _ _ _ _ E).
    + destruct (err_type e) as [[]| | |]; discriminate.
  - destruct (handle_array cb ArrayBegin s) as [[t [[[x|] []]|e]]| |]; cbn [vbind]; try discriminate. intros E. elim (value_no_ok _ _ _ _ _ _ E).
  - destruct (handle_array cb ArrayMiddle s) as [[t [[[x|] []]|e]]| |]; cbn [vbind]; try discriminate. intros E. elim (value_no_ok _ _ _ _ _ _ E).
Qed.
Section Returns.
Context (e : io_kind) (q : list event) (d : bytes) (c0 : nat) (Hdigit : ends_apart d) (Hshort : runs_below c0 d).
Context {B : Type} (Sm : B -> B -> Prop) (Sm_same : forall u, Sm u u) (cb : callbacks B) (Hcb : apt_callbacks e q d c0 Sm cb).
Lemma returns_loop fuel : forall b pos s1 s2 t1 x1 t2, alike e q d c0 s1 s2 ->
  scan_loop cb (mkOptions [] true) fuel b pos s1 = Done (t1, x1) -> scan_loop cb (mkOptions [] true) fuel b pos s2 = Done (t2, Ok tt) ->
  x1 = Ok tt \/ (b = false /\ user t2 = user s2).
Proof.
  induction fuel as [|fuel IH]; intros b pos s1 s2 t1 x1 t2 H E1 E2; [discriminate|]. cbn [scan_loop] in E1, E2.
  pose proof (vcut_iter e q d c0 Hdigit Hshort Sm Sm_same cb Hcb true pos _ _ H) as G.
  cbn [stop_early] in E1, E2. destruct (b && true && pos_eqb pos Top) eqn:T. { injection E1 as _ <-. left. reflexivity. }
  destruct (scan_iter cb _ pos s1) as [[u1 [p|r]]| |]; cbn [vcut] in G; [| |discriminate E1|discriminate E1].
  - destruct G as (u2 & G2 & Hu). rewrite G2 in E2. destruct (IH _ _ _ _ _ _ _ Hu E1 E2) as [K|[K _]]; [left; exact K|discriminate K].
  - destruct (scan_iter cb _ pos s2) as [[u2 [p2|r2]]| |] eqn:I2; cbn [ends] in G; [| |discriminate E2|discriminate E2].
    + destruct G as [[y G] _]. discriminate G.
    + injection E2 as -> ->. destruct (iter_ok _ _ _ _ _ I2) as [-> U]. destruct b; [discriminate T|]. right. split; [reflexivity|exact U].
Qed.
Lemma returns_scan fuel s1 s2 t1 x1 t2 : alike e q d c0 s1 s2 ->
  scan cb (mkOptions [] true) fuel s1 = Done (t1, x1) -> scan cb (mkOptions [] true) fuel s2 = Done (t2, Ok tt) -> x1 = Ok tt \/ user t2 = user s2.
Proof.
  intros [r1 r2 u p H]. unfold scan. cbn [stack parser user].
  destruct (push_assoc p pos_ty _ _) as [[p' x]| |]; cbn [obind]; [|discriminate|discriminate].
  cbv zeta. destruct x as [x|x]; [|discriminate]. intros E1 E2.
  destruct (returns_loop fuel false Top _ _ _ _ _ (alike_at e q d c0 r1 r2 u p' H) E1 E2) as [K|[_ K]]; [left; exact K|right; exact K].
Qed.
End Returns.
Lemma idt_returns d e q cells w pl r1 w1 p1 v1 r2 w2 p2 : 2 <= List.length cells -> ends_apart d -> runs_below (List.length cells) d ->
  eventually (fun fuel => idtransform fuel (rj_new (mkReader d (one_by_one d ++ Fail e :: q)) cells) w pl) (Done (r1, w1, p1, v1)) ->
  eventually (fun fuel => idtransform fuel (rj_new (mkReader d (one_by_one d)) cells) w pl) (Done (r2, w2, p2, Ok tt)) ->
  v1 = Ok tt \/ w2 = w.
Proof.
  intros C D S H1 H2. destruct (both_fuels _ _ _ _ H1 H2) as (n & E1 & E2). clear H1 H2. unfold idtransform in *.
  pose proof (returns_scan e q d _ D S idt_sm (fun u => eq_refl) idt_callbacks (idt_apt e q d _ D S) n) as G.
  pose proof (fun t1 x1 t2 => G _ _ t1 x1 t2 (alike_at e q d _ _ _ (idt_new w) pl (close_start e q d cells C))) as G'. clear G. rename G' into G.
  destruct (scan idt_callbacks _ n (mkS (rj_new (mkReader d (one_by_one d ++ Fail e :: q)) cells) (idt_new w) pl)) as [[s1 x1]| |]; try discriminate.
  destruct (scan idt_callbacks _ n (mkS (rj_new (mkReader d (one_by_one d)) cells) (idt_new w) pl)) as [[s2 x2]| |]; try discriminate.
  cbn [obind] in E1, E2.
  assert (K : x2 = Ok tt).
  { destruct x2 as [[]|y]; [reflexivity|]. injection E2 as _ _ _ E2. destruct (io_error (user s2)), (rjiter_error (user s2)), (stored_scan_error (user s2)); discriminate E2. }
  subst x2. destruct (G _ _ _ eq_refl eq_refl) as [-> |K].
  - injection E1 as _ _ _ <-. left. reflexivity.
  - injection E2 as _ <- _. right. rewrite K. reflexivity.
Qed.
Lemma idt_returns_scan {B} (Le : B -> B -> Prop) cb d e q cells u pl s1 v1 s2 : adds Le cb ->
  2 <= List.length cells -> ends_apart d -> runs_below (List.length cells) d ->
  eventually (fun fuel => scan cb (mkOptions [] true) fuel (mkS (rj_new (mkReader d (one_by_one d ++ Fail e :: q)) cells) u pl)) (Done (s1, v1)) ->
  eventually (fun fuel => scan cb (mkOptions [] true) fuel (mkS (rj_new (mkReader d (one_by_one d)) cells) u pl)) (Done (s2, Ok tt)) ->
  v1 = Ok tt \/ user s2 = u.
Proof.
  intros A C D S H1 H2. destruct (both_fuels _ _ _ _ H1 H2) as (n & E1 & E2).
  exact (returns_scan e q d _ D S eq (fun u => eq_refl) cb (adds_apt Le cb e q d _ A) n _ _ _ _ _ (alike_at e q d _ _ _ u pl (close_start e q d cells C)) E1 E2).
Qed.
Lemma compact_some P b v l r : value_at P b v l r -> compact v <> [].
Proof.
  intros H. destruct H; cbn [compact]; try discriminate.
  destruct H as (s & i & f & x & -> & _ & Hi & _). destruct s as [|y s]; [|discriminate]. destruct Hi as [-> |(y & z & -> & _)]; discriminate.
Qed.
Lemma document_arrived m dm v d l e q cells w pl :
  sane m -> may_fail m = false -> ordinary v -> has_room dm v -> wfail w = None ->
  start m (rj_new (mkReader d (one_by_one d)) cells) -> document (layout m) v d l -> fresh dm pl ->
  8 <= List.length cells -> ends_apart d -> runs_below (List.length cells) d ->
  exists r' w' p', eventually (fun fuel => idtransform fuel (rj_new (mkReader d (one_by_one d ++ Fail e :: q)) cells) w pl) (Done (r', w', p', Ok tt)) /\
    spent w (compact v) w'.
Proof.
  intros HM HF HO HR HW HS HD Hp C D S.
  destruct (idt_compact m dm v _ w pl l HM HF HO HR HW HS HD Hp) as (r2 & w2 & p2 & E2 & W2 & _).
  destruct (idtransform_ends (2 * len d + 2) (rj_new (mkReader d (one_by_one d ++ Fail e :: q)) cells) w pl dm) as (r1 & w1 & p1 & v1 & E1).
  { unfold valid, wf, rj_new, buffer_new. cbn. lia. }
  { exact C. }
  { apply stack_fresh, Hp. }
  { unfold rest, jview, rj_new, buffer_new. cbn. lia. }
  assert (V1 : eventually (fun fuel => idtransform fuel (rj_new (mkReader d (one_by_one d ++ Fail e :: q)) cells) w pl) (Done (r1, w1, p1, v1))).
  { exists (2 * len d + 2). intros fuel Hf. replace fuel with (2 * len d + 2 + (fuel - (2 * len d + 2))) by lia. apply idt_mono; [exact E1|discriminate]. }
  pose proof (idt_arrived d e q cells w pl _ _ _ _ _ _ _ _ ltac:(lia) D S V1 E2) as ->.
  destruct (idt_returns d e q cells w pl _ _ _ _ _ _ _ ltac:(lia) D S V1 E2) as [-> |K]; [exists r1, w2, p1; split; assumption|].
  subst w2. destruct W2 as (W2 & _). destruct HD as (x & l' & _ & _ & HD). pose proof (compact_some _ _ _ _ _ HD) as N.
  exfalso. rewrite <- (app_nil_r (written w)) in W2 at 1. apply app_inv_head in W2. congruence.
Qed.
