(** Two readers that deliver the same bytes; then the input of one ends and the other reports an error: what idtransform and
    convert_ddb_to_normal have written. *)
From Verif Require Import Base U8Pool Buffer Jiter JiterProofs RJiter RJiterSpec RJiterProofs RJiterOpProofs RJiterIndexProofs Scan ScanSpec IdTransform Conv DdbToNormal
  EndResults CutSpec ArrivedSpec Arrived ArrivedScan.

Section Both.
Context (e : io_kind) (q : list event) (d : bytes) (c0 : nat) (Hdigit : ends_apart d) (Hshort : runs_below c0 d).
Notation close := (close e q d c0).
Notation rcut := (rcut e q d c0).
Lemma arrived_peek r1 r2 : close r1 r2 -> rcut (peek r1) (peek r2).
Proof. exact (arrived_method e q d c0 _ _ _ _ _ r1 r2 m_peek eq_refl). Qed.
Lemma arrived_null r1 r2 : close r1 r2 -> rcut (known_null r1) (known_null r2).
Proof. exact (arrived_method e q d c0 _ _ _ _ _ r1 r2 m_known_null eq_refl). Qed.
Lemma arrived_bool p r1 r2 : close r1 r2 -> rcut (known_bool p r1) (known_bool p r2).
Proof. exact (arrived_method e q d c0 _ _ _ _ _ r1 r2 (m_known_bool p) eq_refl). Qed.

(** ** idtransform *)
Definition idt_sm (a b : idt) : Prop := out a = out b.
Lemma arrived_copy p r1 r2 w : close r1 r2 ->
  match copy_atom p r1 w with
  | Done (t1, w1, v) => (exists t2, copy_atom p r2 w = Done (t2, w1, v) /\ close t1 t2) \/
                        (exists x y t2, v = Err x /\ copy_atom p r2 w = Done (t2, w1, Err y))
  | _ => True
  end.
Proof.
  intros H. unfold copy_atom. cbv zeta.
  assert (L : forall X (op : rj -> outcome (rj * result X rerror)) d,
    rcut (op r1) (op r2) ->
    let x r := (do (r', v) <- op r;
     match v with
     | Ok _ => (match write_all w d with (w', Ok _) => Done (r', w', Ok tt) | (w', Err e) => Done (r', w', Err (IOError e)) end)
     | Err e => Done (r', w, Err (RJiterError e))
     end) in
    match x r1 with
    | Done (t1, w1, v) => (exists t2, x r2 = Done (t2, w1, v) /\ close t1 t2) \/
                          (exists a b t2, v = Err a /\ x r2 = Done (t2, w1, Err b))
    | _ => True
    end).
  { intros X op s F x. unfold x.
    destruct (op r1) as [[t1 [v|v]]| |]; cbn [obind]; [| |exact Logic.I|exact Logic.I]; cbn [Arrived.rcut] in F.
    - destruct F as (t2 & -> & Ht). cbn [obind]. destruct (write_all w s) as [w1 [y|y]]; left; eauto.
    - destruct F as (t2 & y & ->). cbn [obind]. right. eauto 6. }
  destruct (N.eqb p QUOTE).
  { destruct (write_all w [QUOTE]) as [w0 [x|x]] eqn:E0; [|left; eauto].
    pose proof (arrived_long e q d c0 _ _ w0 H) as G.
    destruct (write_long_bytes r1 w0) as [[[t1 w1] [v|v]]| |]; cbn [obind]; [| |exact Logic.I|exact Logic.I]; cbn [wcut] in G.
    - destruct G as (t2 & -> & Ht). cbn [obind]. destruct (write_all w1 [QUOTE]) as [w2 [y|y]]; left; eauto.
    - destruct G as (t2 & y & ->). cbn [obind]. right. eauto 6. }
  destruct (N.eqb p PeekNull); [apply L, arrived_null, H|].
  destruct (N.eqb p PeekTrue); [apply L, arrived_bool, H|].
  destruct (N.eqb p PeekFalse); [apply L, arrived_bool, H|].
  pose proof (arrived_number e q d c0 Hdigit Hshort _ _ H) as G.
  destruct (next_number_bytes r1) as [[t1 [v|v]]| |]; cbn [obind]; [| |exact Logic.I|exact Logic.I]; cbn [Arrived.rcut] in G.
  - destruct G as (t2 & -> & Ht). cbn [obind]. destruct (write_all w v) as [w1 [y|y]]; left; eauto.
  - destruct G as (t2 & y & ->). cbn [obind]. right. eauto 6.
Qed.

Notation iapt := (apt_action e q d c0 idt_sm).
Lemma on_key_apt : iapt on_key.
Proof. intros r1 r2 u H. unfold on_key. destruct (write_seqpos u) as [t [x|m]]; left; eauto. Qed.
Lemma on_struct_apt s : iapt (on_struct s).
Proof. intros r1 r2 u H. unfold on_struct. destruct (write_seqpos u) as [t [x|m]]; [destruct (put_all t _) as [t1 [y|m]]|]; left; eauto. Qed.
Lemma on_atom_apt : iapt on_atom.
Proof.
  intros r1 r2 u H. unfold on_atom.
  destruct (write_seqpos u) as [t [x|m]] eqn:E; [|left; eauto].
  pose proof (arrived_peek _ _ H) as G.
  destruct (peek r1) as [[t1 [y|er]]| |]; cbn [obind]; [| |exact Logic.I|exact Logic.I]; cbn [Arrived.rcut] in G.
  - destruct G as (t2 & -> & Ht). cbn [obind].
    pose proof (arrived_copy y _ _ (out t) Ht) as F.
    destruct (copy_atom y t1 (out t)) as [[[u1 w] v]| |]; cbn [obind]; [|exact Logic.I|exact Logic.I].
    destruct F as [(u2 & -> & Hu)|(a & b & u2 & -> & ->)]; cbn [obind].
    + destruct v; left; eauto.
    + right. do 4 eexists. split; [reflexivity|]. split; [reflexivity|].
      destruct a as [a| | | | | |]; try destruct (err_type a); destruct b as [b| | | | | |]; try destruct (err_type b); reflexivity.
  - destruct G as (t2 & y & ->). cbn [obind]. right. do 4 eexists. split; [reflexivity|]. split; [reflexivity|].
    destruct (err_type er); destruct (err_type y); reflexivity.
Qed.
Lemma idt_apt : apt_callbacks e q d c0 idt_sm idt_callbacks.
Proof.
  intros n c u u' a. cbn [find_action idt_callbacks]. unfold idt_find_action. cbv zeta. destruct n; intros H.
  - injection H as <- <-. apply on_struct_apt.
  - injection H as <- <-. apply on_struct_apt.
  - injection H as <- <-. apply on_atom_apt.
  - destruct (names c) as [|key l]; [discriminate|].
    destruct (_ && _); [|discriminate]. injection H as <- <-. apply on_key_apt.
Qed.

(** ** convert_ddb_to_normal *)
Definition d2n_sm (a b : d2n) : Prop := cout (DdbToNormal.base a) = cout (DdbToNormal.base b).
Notation dapt := (apt_action e q d c0 d2n_sm).
Lemma act_apt f op : dapt (act_of f op).
Proof. intros r1 r2 u H. unfold act_of. destruct (f u) as [[c v]| |]; cbn [obind]; [left; eauto|exact Logic.I|exact Logic.I]. Qed.
Lemma finally_apt f a : (forall c, DdbToNormal.base (f c) = DdbToNormal.base c) -> dapt a -> dapt (finally f a).
Proof.
  intros F A r1 r2 u H. specialize (A r1 r2 u H). unfold finally.
  destruct (a r1 u) as [[[t1 c] op]| |]; cbn [obind] in *; auto.
  destruct A as [(t2 & -> & Ht)|(m1 & m2 & t2 & u2 & -> & -> & S)]; cbn [obind]; [left; eauto|]. right.
  do 4 eexists. split; [reflexivity|]. split; [reflexivity|]. unfold d2n_sm in *. rewrite !F. exact S.
Qed.
Lemma string_apt b m1 m2 : dapt (write_string_value b m1 m2).
Proof.
  intros r1 r2 c H. unfold write_string_value.
  pose proof (arrived_peek _ _ H) as G.
  destruct (peek r1) as [[t1 [p|er]]| |]; cbn [obind]; [| |exact Logic.I|exact Logic.I]; cbn [Arrived.rcut] in G.
  - destruct G as (t2 & -> & Ht). cbn [obind]. destruct (negb _); [left; eauto|].
    match goal with |- context [on_base ?f c] => destruct (on_base f c) as [[c1 v]| |] end; cbn [obind]; [|exact Logic.I|exact Logic.I].
    destruct v as [x|m]; [|left; eauto].
    pose proof (arrived_long e q d c0 _ _ (cout (DdbToNormal.base c1)) Ht) as F.
    destruct (write_long_bytes t1 _) as [[[u1 w] [v|v]]| |]; cbn [obind]; [| |exact Logic.I|exact Logic.I]; cbn [wcut] in F; cbv zeta.
    + destruct F as (u2 & -> & Hu). cbn [obind]. apply act_apt. exact Hu.
    + destruct F as (u2 & y & ->). cbn [obind]. right. do 4 eexists. split; [reflexivity|]. split; [reflexivity|]. reflexivity.
  - destruct G as (t2 & y & ->). cbn [obind]. right. do 4 eexists. split; [reflexivity|]. split; [reflexivity|]. reflexivity.
Qed.
Lemma bool_apt f m : dapt (handle_bool_based_type f m).
Proof.
  intros r1 r2 c H. unfold handle_bool_based_type.
  pose proof (arrived_peek _ _ H) as G.
  destruct (peek r1) as [[t1 [p|er]]| |]; cbn [obind]; [| |exact Logic.I|exact Logic.I]; cbn [Arrived.rcut] in G.
  - destruct G as (t2 & -> & Ht). cbn [obind]. destruct (f p) as [output|x]; [|left; eauto].
    destruct (on_base write_comma c) as [[c1 [x|x]]| |]; cbn [obind]; [| |exact Logic.I|exact Logic.I]; [|left; eauto].
    pose proof (arrived_bool p _ _ Ht) as F.
    destruct (known_bool p t1) as [[u1 [v|v]]| |]; cbn [obind]; [| |exact Logic.I|exact Logic.I]; cbn [Arrived.rcut] in F.
    + destruct F as (u2 & -> & Hu). cbn [obind]. apply act_apt. exact Hu.
    + destruct F as (u2 & y & ->). cbn [obind]. right. do 4 eexists. split; [reflexivity|]. split; [reflexivity|]. reflexivity.
  - destruct G as (t2 & y & ->). cbn [obind]. right. do 4 eexists. split; [reflexivity|]. split; [reflexivity|]. reflexivity.
Qed.
Lemma const_apt f op : dapt (fun r c => Done (r, f c, op)).
Proof. intros r1 r2 c H. left. eauto. Qed.
(** A handler that behaves like an apt one in each state. *)
Lemma apt_cases (a : action d2n) : (forall c, exists b, dapt b /\ forall r, a r c = b r c) -> dapt a.
Proof. intros F r1 r2 u H. destruct (F u) as (b & G & E). rewrite !E. apply G. exact H. Qed.
Lemma field_key_apt : dapt on_field_key.
Proof.
  apply apt_cases. intros c. unfold on_field_key. destruct (field (DdbToNormal.base c)) as [name|].
  - eexists. split; [|intros r; reflexivity]. apply act_apt.
  - exists (fun r c => Done (r, c, OpError "Internal error: current_field not set (impossible)")). split; [|intros r; reflexivity].
    apply (const_apt (fun c => c)).
Qed.
Lemma type_key_apt : dapt on_type_key.
Proof.
  apply apt_cases. intros c. unfold on_type_key. destruct (field (DdbToNormal.base c)) as [key|];
    [|exists (fun r c => Done (r, c, OpError "current_field should be set for type key")); split; [|intros r; reflexivity]; apply (const_apt (fun c => c))].
  destruct (_ || _); [eexists; split; [|intros r; reflexivity]; apply finally_apt; [reflexivity|apply string_apt]|].
  destruct (beq _ _); [eexists; split; [|intros r; reflexivity]; apply finally_apt; [reflexivity|apply string_apt]|].
  destruct (beq _ _); [eexists; split; [|intros r; reflexivity]; apply finally_apt; [reflexivity|apply bool_apt]|].
  destruct (beq _ _); [eexists; split; [|intros r; reflexivity]; apply finally_apt; [reflexivity|apply bool_apt]|].
  destruct (_ || _); [eexists; split; [|intros r; reflexivity]; apply act_apt|].
  destruct (beq _ _); [eexists; split; [|intros r; reflexivity]; apply act_apt|].
  destruct (beq _ _); [eexists; split; [|intros r; reflexivity]; apply act_apt|].
  destruct (beq _ _); [eexists; split; [|intros r; reflexivity]; apply act_apt|].
  exists (fun r c => Done (r, store_parse_error c "Invalid DynamoDB JSON format: unknown type descriptor" (Some key), OpError "Unknown type descriptor")).
  split; [|intros r; reflexivity]. apply (const_apt (fun c => store_parse_error c _ (Some key))).
Qed.
Lemma on_error_apt : dapt DdbToNormal.on_error. Proof. apply (const_apt (fun c => c)). Qed.
Lemma d2n_apt mode : apt_callbacks e q d c0 d2n_sm (d2n_callbacks mode).
Proof.
  intros n c u u' a. cbn [find_action d2n_callbacks]. unfold d2n_find_action.
  assert (K : forall x y : d2n * option (action d2n), x = y -> match snd x with Some a => dapt a | None => True end -> match snd y with Some a => dapt a | None => True end) by (intros x y ->; auto).
  intros H. apply (K _ _ H). clear K H.
  destruct n; [unfold find_action_array|unfold find_action_object|unfold find_action_atom|unfold find_action_key]; cbv zeta.
  - destruct (current_type u) as [[]|]; cbn [snd]; first [exact Logic.I|apply on_error_apt|apply act_apt|idtac].
  - destruct (level _ =? 0); [apply act_apt|].
    destruct (at_phase u); [| |apply on_error_apt|]; first [exact Logic.I|idtac].
    + destruct (current_type u) as [[]|]; cbn [snd]; first [exact Logic.I|apply on_error_apt].
    + destruct (parent_is _ _); cbn [snd]; first [exact Logic.I|apply on_error_apt].
  - destruct (at_phase u); try apply on_error_apt.
    destruct (parent_is _ _); [|apply on_error_apt].
    destruct (current_type u) as [[]|]; cbn [snd]; first [apply on_error_apt|apply string_apt].
  - destruct (names c) as [|key l]; [exact Logic.I|].
    destruct (at_phase u).
    + destruct (_ && _); cbn [snd]; first [exact Logic.I|apply field_key_apt].
    + apply type_key_apt.
    + destruct (in_set _); cbn [snd]; [apply type_key_apt|apply on_error_apt].
    + apply field_key_apt.
Qed.
End Both.

(** ** The calls *)
Lemma chunks_one d : Forall chunk (one_by_one d).
Proof. unfold one_by_one. induction (List.length d) as [|n IH]; constructor; [exact Logic.I|exact IH]. Qed.
Lemma close_start e q d cells : 2 <= List.length cells ->
  close e q d (List.length cells) (rj_new (mkReader d (one_by_one d ++ Fail e :: q)) cells) (rj_new (mkReader d (one_by_one d)) cells).
Proof.
  intros C. split.
  - unfold rj_new, buffer_new. constructor. apply (near_at e q 0 (mkBuf cells 0 0 0 0 (mkReader d [])) _ (chunks_one d)). cbn [src rd].
    unfold one_by_one. rewrite repeat_length. lia.
  - split; [apply valid_new|]. split; [exact C|]. split; [reflexivity|]. rewrite new_rest. exists 0. reflexivity.
Qed.
Lemma both_fuels {X} (F G : nat -> X) x y : eventually F x -> eventually G y -> exists n, F n = x /\ G n = y.
Proof. intros [a A] [b C]. exists (a + b). split; [apply A|apply C]; lia. Qed.

Lemma idt_arrived d e q cells w pl r1 w1 p1 v1 r2 w2 p2 v2 : 2 <= List.length cells -> ends_apart d -> runs_below (List.length cells) d ->
  eventually (fun fuel => idtransform fuel (rj_new (mkReader d (one_by_one d ++ Fail e :: q)) cells) w pl) (Done (r1, w1, p1, v1)) ->
  eventually (fun fuel => idtransform fuel (rj_new (mkReader d (one_by_one d)) cells) w pl) (Done (r2, w2, p2, v2)) ->
  w1 = w2.
Proof.
  intros C D S H1 H2. destruct (both_fuels _ _ _ _ H1 H2) as (n & E1 & E2). clear H1 H2. unfold idtransform in *.
  pose proof (arrived_scan e q d _ D S idt_sm (fun u => eq_refl) idt_callbacks (idt_apt e q d _ D S) true n _ _
    (alike_at e q d _ _ _ (idt_new w) pl (close_start e q d cells C))) as G.
  destruct (scan idt_callbacks _ n (mkS (rj_new (mkReader d (one_by_one d ++ Fail e :: q)) cells) (idt_new w) pl)) as [[s1 x1]| |]; try discriminate.
  destruct (scan idt_callbacks _ n (mkS (rj_new (mkReader d (one_by_one d)) cells) (idt_new w) pl)) as [[s2 x2]| |]; try discriminate.
  cbn [obind] in E1, E2. cbn [same_end] in G. injection E1 as _ <- _ _. injection E2 as _ <- _ _. exact G.
Qed.
Lemma d2n_arrived d e q rb xb w pretty mode w1 v1 w2 v2 : 2 <= List.length rb -> ends_apart d -> runs_below (List.length rb) d ->
  eventually (fun fuel => convert_ddb_to_normal fuel (mkReader d (one_by_one d ++ Fail e :: q)) w rb xb pretty mode) (Done (w1, v1)) ->
  eventually (fun fuel => convert_ddb_to_normal fuel (mkReader d (one_by_one d)) w rb xb pretty mode) (Done (w2, v2)) ->
  w1 = w2.
Proof.
  intros C D S H1 H2. destruct (both_fuels _ _ _ _ H1 H2) as (n & E1 & E2). clear H1 H2. unfold convert_ddb_to_normal, convert in *.
  destruct (pool_new true xb 68) as [[pl|x]| |]; cbn [obind] in *; try discriminate.
  2:{ injection E1 as <- _. injection E2 as <- _. reflexivity. }
  pose proof (arrived_scan e q d _ D S d2n_sm (fun u => eq_refl) (d2n_callbacks mode) (d2n_apt e q d _ mode) false n _ _
    (alike_at e q d _ _ _ (d2n_new w pretty) pl (close_start e q d rb C))) as G.
  destruct (scan (d2n_callbacks mode) _ n (mkS (rj_new (mkReader d (one_by_one d ++ Fail e :: q)) rb) (d2n_new w pretty) pl)) as [[s1 x1]| |]; try discriminate.
  destruct (scan (d2n_callbacks mode) _ n (mkS (rj_new (mkReader d (one_by_one d)) rb) (d2n_new w pretty) pl)) as [[s2 x2]| |]; try discriminate.
  cbn [obind] in E1, E2. cbn [same_end] in G. injection E1 as <- _. injection E2 as <- _. exact G.
Qed.
Lemma adds_apt {B} (Le : B -> B -> Prop) cb e q d c : adds Le cb -> apt_callbacks e q d c eq cb.
Proof.
  intros [F _] n x u u' a E. destruct (F _ _ _ _ _ E) as [_ [K|(f & K & _)]]; [congruence|]. injection K as ->.
  intros r1 r2 v H. destruct (f v) as [[v' op]| |]; cbn [obind]; [left; eauto|exact Logic.I|exact Logic.I].
Qed.
Lemma scan_arrived {B} (Le : B -> B -> Prop) cb stop d e q cells u pl s1 v1 s2 v2 : adds Le cb ->
  2 <= List.length cells -> ends_apart d -> runs_below (List.length cells) d ->
  eventually (fun fuel => scan cb (mkOptions [] stop) fuel (mkS (rj_new (mkReader d (one_by_one d ++ Fail e :: q)) cells) u pl)) (Done (s1, v1)) ->
  eventually (fun fuel => scan cb (mkOptions [] stop) fuel (mkS (rj_new (mkReader d (one_by_one d)) cells) u pl)) (Done (s2, v2)) ->
  user s1 = user s2.
Proof.
  intros A C D S H1 H2. destruct (both_fuels _ _ _ _ H1 H2) as (n & E1 & E2). clear H1 H2.
  pose proof (arrived_scan e q d _ D S eq (fun u => eq_refl) cb (adds_apt Le cb e q d _ A) stop n _ _
    (alike_at e q d _ _ _ u pl (close_start e q d cells C))) as G.
  rewrite E1, E2 in G. exact G.
Qed.

(** ** Deciding the conditions *)
Fixpoint max_run (d : bytes) : nat := match d with [] => 0 | _ :: l => Nat.max (run_length in_number d) (max_run l) end.
Lemma runs_eq c d : max_run d < c -> runs_below c d.
Proof.
  intros H a n b -> F. apply (Nat.le_lt_trans _ (max_run (a ++ n ++ b))); [clear H|exact H].
  induction a as [|x a IH]; cbn [app max_run]; [|lia].
  assert (G : List.length n <= run_length in_number (n ++ b)).
  { clear - F. induction F as [|x n Hx F IH]; cbn [app run_length List.length]; [lia|]. rewrite Hx. lia. }
  destruct (n ++ b) as [|y l] eqn:E; [cbn in *; lia|]. cbn [max_run]. lia.
Qed.
Lemma apart_eq d : match rev d with x :: _ => is_digit x | [] => false end = false -> ends_apart d.
Proof.
  intros H a x -> [A B]. rewrite rev_unit in H. unfold is_digit in H. apply N.leb_le in A, B. rewrite A, B in H. discriminate.
Qed.
