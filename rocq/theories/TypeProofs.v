(** Proofs about errors that tell the type of a value. *)
From Verif Require Import Base Buffer BufferSpec Jiter JiterValue RJiter RJiterSpec Scan ScanSpec ValueSpec SoundSpec TypeSpec.
From Verif Require Import BufferProofs JiterProofs JiterValueProofs RJiterProofs RJiterOpProofs RJiterInvProofs ScanTokens SoundParser.

(** On every beginning of [S] with at most [M] bytes behind it, the parser fails without moving: it asks for more, or the error is settled. *)
Definition settles {A} (f : jop A) (S : bytes) (M K : nat) (Q : error_type -> Prop) : Prop :=
  forall p q, S = p ++ q -> len q <= M -> exists e o, f p = (Err (e, o), 0) /\ (if can_retry e then len p < K else Q e /\ o = 0).
Lemma closed_source M : closed (fun b => len (src (rd b)) <= M).
Proof.
  split.
  { intros b t f H. unfold shift_buffer. destruct (if t <? _ then _ else _) as [l c]. destruct ((t <? f) && (t <? n_bytes b)); exact H. }
  intros b H. unfold read_more. destruct (reader_read (rd b) _) as [[d|e] r] eqn:E; cbn [fst];
    destruct (reader_src _ _ _ _ E) as (k & E' & _); cbn [rd]; rewrite E', skipn_length; lia.
Qed.
Lemma retry_settles {A} (f : jop A) eager S M K Q fuel : forall s,
  settles f S M K Q -> len (src (rd (bf s))) <= M -> K <= rcap s -> K <= len S -> wf (bf s) -> jlen s = n_bytes (bf s) -> jidx s = 0 -> stream (bf s) = S ->
  len (src (rd (bf s))) < fuel -> refused s S Q (retry_loop fuel f eager s).
Proof.
  induction fuel as [|fuel IH]; intros s Hf HM Hc HK W HL HI HS Hfu; [lia|].
  assert (V : valid s) by (unfold valid; repeat split; auto; lia).
  assert (Hsp : rest s = S) by (unfold rest; rewrite HI; exact HS).
  cbn [retry_loop]. unfold jcall. pose proof Hsp as Hsp'. rewrite (jview_split s V) in Hsp'. pose proof (jview_length s V) as Hlen.
  destruct (Hf (jview s) (src (rd (bf s)))) as (e & o & E & P); [auto|exact HM|]. rewrite E. cbn [fst].
  destruct (can_retry e) eqn:Er.
  - cbn [bf].
    destruct (read_more (bf s)) as [b r] eqn:Em. destruct (read_more_spec _ _ _ W Em) as (C3 & N3 & Q3 & P3).
    assert (St : stream b = S) by (rewrite (cut_nil_stream _ _ _ C3); exact HS).
    destruct r as [[|k]|x].
    + exfalso. destruct P3 as (A1 & A2 & A3). rewrite HI in Hlen. destruct (A3 eq_refl) as [A4|A4]; [unfold rcap in Hc; lia|].
      rewrite A4, app_nil_r in Hsp'. rewrite Hsp' in P. lia.
    + destruct P3 as (A1 & A2 & _).
      destruct (IH (create_new_jiter (with_bf (mkRj (bf s) (jlen s) (jidx s + 0)) b))) as (s' & er & E' & P'); auto.
      { cbn. lia. } { unfold rcap in *. cbn. rewrite (cut_cap _ _ _ _ C3). exact Hc. } { eapply cut_wf; eauto. } { cbn. lia. }
      exists s', er. split; [exact E'|]. unfold rcap, total, rquiet in *. cbn [create_new_jiter with_bf bf] in P'.
      rewrite (cut_cap _ _ _ _ C3), St, N3 in P'. rewrite HS.
      destruct P' as [(P1 & P2)|P']; [left|right; intuition].
      split; [exact P1|]. destruct (quiet (bf s)); [rewrite Q3 in P2 by reflexivity; discriminate|reflexivity].
    + eexists _, _. split; [reflexivity|]. left. destruct P3 as ((kd & ->) & _ & _ & _ & P3). split; [reflexivity|exact P3].
  - destruct P as (HQ & ->). eexists _, _. split; [reflexivity|]. right. cbn [from_jiter_error fst snd err_type err_index].
    rewrite Nat.add_0_r. replace (mkRj (bf s) (jlen s) (jidx s)) with s by (destruct s; reflexivity).
    split; [exact HQ|]. split; [|split; [exact V|split; [exact Hsp|auto]]].
    unfold current_index, total. rewrite HI, HS. lia.
Qed.
Lemma loop_settles {A} (f : jop A) token eager s w x l M K Q :
  valid s -> 2 <= rcap s -> rest s = w ++ x :: l -> blanks w -> is_ascii_whitespace x = false -> token <> Some x ->
  (forall p q, rest s = p ++ q -> exists e a, f p = (Err e, a)) -> settles f (x :: l) M K Q -> len (src (rd (bf s))) <= M -> K <= rcap s -> K <= S (len l) ->
  refused s (x :: l) Q (loop_until_success f token eager s).
Proof.
  intros V Hc HR Hw Hx Ht H1 Hf HM HK HK'. pose proof V as (W & HL & HI). unfold loop_until_success, jcall.
  destruct (f (jview s)) as [r0 a0] eqn:Ef.
  assert (Hr0 : exists ty o, r0 = Err (ty, o)).
  { destruct (H1 (jview s) (src (rd (bf s)))) as (e & a & E); [apply jview_split; exact V|]. rewrite E in Ef. destruct e as [ty o]. injection Ef as <- _. eauto. }
  destruct Hr0 as (ty & o & ->). set (s1 := mkRj (bf s) (jlen s) (jidx s + a0)).
  assert (Hstrip : strip token (rest s) = x :: l).
  { rewrite HR. assert (E : skip_aw (w ++ x :: l) = x :: l).
    { clear - Hw Hx. unfold skip_aw. induction Hw as [|y w Hy Hw IH]; cbn [app run_length].
      - rewrite Hx. reflexivity.
      - assert (Ey : is_ascii_whitespace y = true) by (destruct Hy as [[->|[->|[->| ->]]]| ->]; reflexivity). rewrite Ey. cbn [skipn]. exact IH. }
    unfold strip. destruct token as [t|]; rewrite E; [|reflexivity]. destruct (N.eqb_spec x t) as [->|]; [congruence|reflexivity]. }
  destruct (feeding_spec s1 (jidx s) token W HI Hc) as (s2 & r2 & E2 & P2). rewrite E2.
  destruct r2 as [[]|e]; [|exists s2, e; split; [reflexivity|]; left; split; [apply P2|apply P2]].
  destruct P2 as (W2 & C2 & Q2 & T2 & S2 & P2). change (stream (bf s1)) with (stream (bf s)) in *.
  fold (rest s) in S2. rewrite Hstrip in S2.
  assert (Hj : jlen s2 = n_bytes (bf s2) /\ jidx s2 = 0).
  { destruct P2 as [P2|(P1 & P2 & P3 & -> & ->)]; [exact P2|]. cbn [s1 jlen jidx bf] in *.
    assert (Hw0 : rest s = x :: l) by (unfold rest; rewrite P1; cbn [skipn]; congruence).
    destruct (Hf (jview s) (src (rd (bf s)))) as (e & o' & E & _); [rewrite <- Hw0; apply jview_split; exact V|exact HM|].
    rewrite E in Ef. injection Ef as _ _ <-. lia. }
  destruct Hj as [Hjl Hji].
  pose proof (closed_feeding _ (closed_source M) _ _ _ _ _ E2 HM) as HM2. cbn beta in HM2.
  destruct (retry_settles f eager (x :: l) M K Q (fuel_for (bf s2)) s2) as (s' & e & E & P); auto.
  { rewrite C2. exact HK. } 
  exists s', e. split; [exact E|]. change (rcap s1) with (rcap s) in *. change (total s1) with (total s) in *. change (rquiet s1) with (rquiet s) in *.
  rewrite C2, T2 in P. destruct P as [(P1 & P3)|P]; [left|right].
  - split; [exact P1|]. destruct (rquiet s); [rewrite Q2 in P3 by reflexivity; discriminate|reflexivity].
  - destruct P as (P0 & P1 & P3 & P4 & P5 & P6 & P7). repeat split; auto; apply P3.
Qed.

(** What the methods have in common: they skip white space, and look at the first byte. *)
Definition looks {A} (f : jop A) (g : byte -> jop A) : Prop := forall l, f l =
  jat (run_length json_ws l) (fun m => match m with [] => jfail EofWhileParsingValue | y :: _ => g y m end) l.
Inductive asking {A} (t : json_type) (op : rj -> outcome (rj * result A rerror)) : Prop :=
| mkAsking (f : jop A) (g : byte -> jop A) (token : option byte) (eager : bool) :
  op = loop_until_success f token eager -> looks f g -> (forall x, token = Some x -> heads x t) ->
  (forall l, exists e, g 12%N (12%N :: l) = (Err e, 0)) ->
  (forall (x : byte) t' (l : bytes), heads x t' -> t' <> t -> g x (x :: l) = (Err (WrongType t t', 0), 0)) ->
  (forall (x : byte) (l : bytes), no_head x -> x <> 73%N -> x <> 78%N -> g x (x :: l) = (Err (JsonError ExpectedSomeValue, 0), 0)) ->
  (forall (x : byte) (l : bytes), ~ numeric_type t -> (x = 45%N \/ digit x) -> g x (x :: l) = (wrong_type t x (x :: l), 0)) -> asking t op.
Lemma looks_next {A} t (ok : byte -> bool) (f : byte -> jop A) :
  looks (next_as t ok f) (fun x l => if ok x then f x l else (wrong_type t x l, 0)).
Proof. intros l. reflexivity. Qed.
Lemma looks_then {A} (g : byte -> jop A) : looks (jthen j_peek g) g.
Proof.
  intros l. unfold jthen, j_peek, after_ws, jat at 1 3. destruct (skipn (run_length json_ws l) l) as [|y m] eqn:E; cbn; [reflexivity|].
  rewrite Nat.add_0_r. unfold jat. rewrite E. reflexivity.
Qed.
Lemma wrong_head {A} t x t' l : heads x t' -> @wrong_type A t x l = Err (WrongType t t', 0).
Proof. intros []; reflexivity. Qed.
Lemma no_head_not x : no_head x -> N.eqb x QUOTE = false /\ N.eqb x 110 = false /\ N.eqb x 116 = false /\ N.eqb x 102 = false /\ N.eqb x LBRACK = false /\
  N.eqb x LBRACE = false /\ N.eqb x 45 = false /\ is_digit x = false.
Proof.
  intros (H1 & H2 & H3).
  assert (K : forall y t, heads y t -> N.eqb x y = false) by (intros y t Hy; apply N.eqb_neq; intros ->; exact (H1 t Hy)).
  repeat split; try (eapply K; constructor).
  - apply N.eqb_neq. exact H2.
  - unfold is_digit. unfold digit in H3. destruct (N.leb_spec 48 x), (N.leb_spec x 57); cbn; try reflexivity. exfalso. lia.
Qed.
Lemma wrong_none {A} t x l : no_head x -> x <> 73%N -> x <> 78%N -> @wrong_type A t x l = Err (JsonError ExpectedSomeValue, 0).
Proof.
  intros H Hi Hn. destruct (no_head_not x H) as (E1 & E2 & E3 & E4 & E5 & E6 & E7 & E8). apply N.eqb_neq in Hi, Hn.
  unfold wrong_type, is_num. rewrite E1, E2, E3, E4, E5, E6, E7, E8, Hi, Hn. reflexivity.
Qed.
Lemma ask_next {A} t (ok : byte -> bool) (f : byte -> jop A) token eager op :
  op = loop_until_success (next_as t ok f) token eager -> (forall x, token = Some x -> heads x t) ->
  (forall x, ok x = true -> heads x t \/ (numeric_type t /\ is_num x = true)) -> asking t op.
Proof.
  intros E Ht Hok. apply (mkAsking t op _ _ token eager E (looks_next t ok f) Ht); clear E Ht.
  - intros l. destruct (ok 12%N) eqn:E; [|eexists; reflexivity]. apply Hok in E as [E|(_ & E)]; [inversion E|discriminate].
  - intros x t' l Hx Hne. destruct (ok x) eqn:E; [|rewrite (wrong_head t x t' _ Hx); reflexivity].
    apply Hok in E as [E|(_ & E)]; [inversion Hx; subst; inversion E; subst; contradiction|]. inversion Hx; subst; discriminate.
  - intros x l Hx Hi Hn. destruct (ok x) eqn:E; [|rewrite (wrong_none t x _ Hx Hi Hn); reflexivity].
    apply Hok in E as [E|(_ & E)]; [destruct Hx as (Hx & _); destruct (Hx _ E)|]. destruct (no_head_not x Hx) as (_ & _ & _ & _ & _ & _ & E7 & E8).
    unfold is_num in E. apply N.eqb_neq in Hi, Hn. rewrite E7, E8, Hi, Hn in E. discriminate.
  - intros x l Hnt Hx. destruct (ok x) eqn:E; [|reflexivity]. apply Hok in E as [E|(E & _)]; [|contradiction].
    exfalso. destruct Hx as [->|Hx]; [inversion E|]. inversion E; subst; unfold digit in Hx; lia.
Qed.
Lemma not_number_head x : (exists t, heads x t) \/ no_head x \/ x = 12%N -> x <> 73%N -> x <> 78%N ->
  is_num x = false /\ N.eqb x 45 = false /\ N.eqb x 78 = false /\ N.eqb x 73 = false /\ N.eqb x 48 = false /\ is_digit x = false.
Proof.
  intros H Hi Hn. apply N.eqb_neq in Hi, Hn.
  assert (E : N.eqb x 45 = false /\ is_digit x = false).
  { destruct H as [(t & [])|[H| ->]]; [split; reflexivity..| |split; reflexivity]. destruct (no_head_not x H) as (_ & _ & _ & _ & _ & _ & E7 & E8). auto. }
  destruct E as (E7 & E8). assert (E9 : N.eqb x 48 = false) by (destruct (N.eqb_spec x 48) as [->|]; [discriminate|reflexivity]).
  unfold is_num. rewrite E7, E8, Hi, Hn. auto 10.
Qed.
Lemma ask_num {A} t (decode : byte -> jop A) op : numeric_type t ->
  op = loop_until_success (jthen j_peek (known_num t decode)) None true ->
  (forall x l, (exists t, heads x t) \/ no_head x \/ x = 12%N -> x <> 73%N -> x <> 78%N -> exists e, decode x (x :: l) = (Err e, 0)) -> asking t op.
Proof.
  intros Ht E Hd.
  assert (K : forall x l, (exists t, heads x t) \/ no_head x \/ x = 12%N -> x <> 73%N -> x <> 78%N -> known_num t decode x (x :: l) = (wrong_type t x (x :: l), 0)).
  { intros x l Hx Hi Hn. unfold known_num. destruct (Hd x l Hx Hi Hn) as (e & ->). destruct (not_number_head x Hx Hi Hn) as (-> & _). reflexivity. }
  assert (N1 : forall x t', heads x t' -> x <> 73%N /\ x <> 78%N) by (intros x t' []; split; discriminate).
  apply (mkAsking t op _ _ None true E (looks_then _)); [discriminate|..].
  - intros l. rewrite K by (auto; discriminate). eexists. reflexivity.
  - intros x t' l Hx Hne. rewrite K by (eauto; apply (N1 _ _ Hx)). rewrite (wrong_head t x t' _ Hx). reflexivity.
  - intros x l Hx Hi Hn. rewrite K by auto. rewrite (wrong_none t x _ Hx Hi Hn). reflexivity.
  - contradiction.
Qed.
Lemma decode_int_not x l : (exists t, heads x t) \/ no_head x \/ x = 12%N -> x <> 73%N -> x <> 78%N -> exists e, int_parse x (x :: l) = Err e.
Proof.
  intros H Hi Hn. destruct (not_number_head x H Hi Hn) as (E1 & E2 & E3 & E4 & E5 & E6).
  unfold int_parse. rewrite E2, E3. cbn [skipn]. unfold int_unsigned. rewrite ?E4, ?E5, ?E6. eexists. reflexivity.
Qed.
Lemma decode_range_not x l : (exists t, heads x t) \/ no_head x \/ x = 12%N -> x <> 73%N -> x <> 78%N -> exists e, range_as x (x :: l) = Err e.
Proof.
  intros H Hi Hn. destruct (not_number_head x H Hi Hn) as (E1 & E2 & E3 & E4 & E5 & E6).
  unfold range_as. rewrite E2, E3, E4. unfold num_unsigned. rewrite E5, E6. eexists. reflexivity.
Qed.
Lemma asks_asking {A} t (op : rj -> outcome (rj * result A rerror)) : asks t op -> asking t op.
Proof.
  intros [].
  1-7: eapply ask_next; [reflexivity|intros x Hx; first [discriminate | injection Hx as <-; constructor]|].
  - intros x H. apply N.eqb_eq in H as <-. left. constructor.
  - intros x H. apply Bool.orb_true_iff in H as [H|H]; apply N.eqb_eq in H as ->; left; constructor.
  - intros x H. apply N.eqb_eq in H as <-. left. constructor.
  - intros x H. apply N.eqb_eq in H as <-. left. constructor.
  - intros x H. apply N.eqb_eq in H as <-. left. constructor.
  - intros x H. apply N.eqb_eq in H as <-. left. constructor.
  - intros x H. apply N.eqb_eq in H as <-. left. constructor.
  - eapply ask_num; [left; reflexivity|reflexivity|]. intros x l H Hi Hn. unfold decode_int. destruct (decode_int_not x l H Hi Hn) as ([e o] & ->). eexists. reflexivity.
  - eapply ask_num; [right; reflexivity|reflexivity|]. intros x l H Hi Hn. unfold decode_float. destruct (decode_range_not x l H Hi Hn) as ([e o] & ->). eexists. reflexivity.
  - eapply ask_num; [left; reflexivity|reflexivity|]. intros x l H Hi Hn. unfold decode_any. destruct (decode_int_not x l H Hi Hn) as ([e o] & ->). eexists. reflexivity.
  - eapply ask_next; [reflexivity|intros x Hx; discriminate|]. intros x H. right. split; [right; reflexivity|exact H].
Qed.

(** The first call fails if the byte behind the white space does not begin what it asks for. *)
Lemma looks_fail {A} (f : jop A) g w S : looks f g -> blanks w -> (forall l, exists e, g 12%N (12%N :: l) = (Err e, 0)) ->
  (forall y p q, S = (y :: p) ++ q -> is_ascii_whitespace y = false /\ exists e, g y (y :: p) = (Err e, 0)) ->
  forall p q, w ++ S = p ++ q -> exists e a, f p = (Err e, a).
Proof.
  intros Hl Hw H12 HS p q E. rewrite Hl. unfold jat. set (m := skipn (run_length json_ws p) p).
  assert (Hm : m = [] \/ (exists l, m = 12%N :: l) \/ exists y m' q', m = y :: m' /\ S = (y :: m') ++ q').
  { unfold m. clear m. revert p q E. induction Hw as [|z w Hz Hw IH]; intros p q E.
    - cbn [app] in E. destruct p as [|y p]; [left; reflexivity|]. destruct (HS y p q E) as (Hy & _). cbn [run_length].
      assert (Ej : json_ws y = false).
      { clear - Hy. unfold json_ws, is_ascii_whitespace in *. repeat (apply Bool.orb_false_iff in Hy as [Hy ?]). 
        repeat match goal with H : N.eqb _ _ = false |- _ => rewrite H; clear H end. reflexivity. }
      rewrite Ej. cbn [skipn]. right. right. eauto.
    - destruct p as [|y p]; [left; reflexivity|]. cbn [app] in E. injection E as <- E. cbn [run_length].
      destruct Hz as [Hz| ->]; [|right; left; eexists; reflexivity].
      assert (Ej : json_ws z = true) by (destruct Hz as [->|[->|[->| ->]]]; reflexivity). rewrite Ej. cbn [skipn]. eapply IH; eauto. }
  destruct Hm as [->|[(l & ->)|(y & m' & q' & -> & Eq)]].
  - eexists _, _. reflexivity.
  - destruct (H12 l) as ([e o] & ->). eexists _, _. reflexivity.
  - destruct (HS y m' q' Eq) as (_ & [e o] & ->). eexists _, _. reflexivity.
Qed.
Lemma looks_head {A} (f : jop A) g x l : looks f g -> is_ascii_whitespace x = false -> json_ws x = false -> f (x :: l) = g x (x :: l).
Proof.
  intros H Hx Hj. rewrite H. cbn [run_length]. rewrite Hj. unfold jat. cbn [skipn Nat.add]. destruct (g x (x :: l)) as [[v|[e o]] a]; reflexivity.
Qed.

Lemma blank_head x : ~ blank x -> is_ascii_whitespace x = false /\ json_ws x = false.
Proof.
  intros H. assert (K : forall y, blank y -> N.eqb x y = false) by (intros y Hy; apply N.eqb_neq; intros ->; exact (H Hy)).
  unfold is_ascii_whitespace, json_ws. unfold blank, space in K. rewrite !K by tauto. split; reflexivity.
Qed.
Lemma head_refused {A} t (op : rj -> outcome (rj * result A rerror)) f g token eager s w x l ty :
  op = loop_until_success f token eager -> looks f g -> (forall x, token = Some x -> heads x t) ->
  (forall l, exists e, g 12%N (12%N :: l) = (Err e, 0)) ->
  valid s -> 2 <= rcap s -> rest s = w ++ x :: l -> blanks w -> ~ blank x -> ~ heads x t ->
  (forall m, g x (x :: m) = (Err (ty, 0), 0)) -> can_retry ty = false -> refused s (x :: l) (eq ty) (op s).
Proof.
  intros -> Hl Ht H12 V Hc HR Hw Hx Hxt Hg Hty. destruct (blank_head x Hx) as (Ea & Ej).
  apply (loop_settles f token eager s w x l (len (src (rd (bf s)))) 1 (eq ty)); auto; try lia.
  - rewrite HR. apply (looks_fail f g); auto. intros y p q E. injection E as <- _. split; [exact Ea|]. rewrite Hg. eauto.
  - intros p q E _. destruct p as [|y p].
    + exists (JsonError EofWhileParsingValue), 0. rewrite Hl. split; [reflexivity|]. cbn. lia.
    + cbn [app] in E. injection E as <- _. exists ty, 0. rewrite (looks_head f g x p Hl Ea Ej), Hg, Hty. auto.
Qed.
Lemma other_type {A} t (op : rj -> outcome (rj * result A rerror)) s w x l t' : asks t op ->
  valid s -> 2 <= rcap s -> rest s = w ++ x :: l -> blanks w -> heads x t' -> t' <> t ->
  refused s (x :: l) (eq (WrongType t t')) (op s).
Proof.
  intros Ha V Hc HR Hw Hx Hne. destruct (asks_asking t op Ha) as [f g token eager E Hl Ht H12 Ho _ _].
  apply (head_refused t op f g token eager s w x l _ E Hl Ht H12 V Hc HR Hw); auto.
  - intros B. inversion Hx; subst; destruct B as [[B|[B|[B|B]]]|B]; discriminate B.
  - intros H. apply Hne. inversion Hx; subst; inversion H; reflexivity.
Qed.
Lemma no_value {A} t (op : rj -> outcome (rj * result A rerror)) s w x l : asks t op ->
  valid s -> 2 <= rcap s -> rest s = w ++ x :: l -> blanks w -> ~ blank x -> no_head x -> x <> 73%N -> x <> 78%N ->
  refused s (x :: l) (eq (JsonError ExpectedSomeValue)) (op s).
Proof.
  intros Ha V Hc HR Hw Hb Hx Hi Hn. destruct (asks_asking t op Ha) as [f g token eager E Hl Ht H12 _ Hno _].
  apply (head_refused t op f g token eager s w x l _ E Hl Ht H12 V Hc HR Hw); auto. apply Hx.
Qed.

(** Numbers: whether one is fractional is known when all of it has been seen. *)
Lemma float_text l : is_float_text l = true <-> fractional l.
Proof.
  unfold is_float_text, fractional. rewrite existsb_exists, Exists_exists. unfold is_exp. split.
  - intros (x & Hx & H). exists x. split; [exact Hx|]. rewrite !Bool.orb_true_iff, !N.eqb_eq in H. tauto.
  - intros (x & Hx & H). exists x. split; [exact Hx|]. rewrite !Bool.orb_true_iff, !N.eqb_eq. tauto.
Qed.
Lemma number_head n : number_text n -> exists x m, n = x :: m /\ (x = 45%N \/ digit x).
Proof.
  intros (s & i & fr & ex & -> & Hs & Hi & _). destruct Hs as [->| ->]; [|do 2 eexists; split; [reflexivity|auto]].
  destruct Hi as [->|(x & d & -> & Hx & _)]; do 2 eexists; (split; [reflexivity|]); right; unfold digit; lia.
Qed.
Lemma wrong_number {A} t x l : (x = 45%N \/ digit x) -> @wrong_type A t x l =
  match num_range l with
  | Ok n => Err (WrongType t (if is_float_text (firstn n l) then TFloat else TInt), 0)
  | Err (e, o) => Err (JsonError e, o)
  end.
Proof.
  intros H. assert (E : is_num x = true /\ forall y, heads y TString \/ heads y TNull \/ heads y TBool \/ heads y TArray \/ heads y TObject -> N.eqb x y = false).
  { split.
    - unfold is_num, is_digit. destruct H as [->|H]; [reflexivity|]. unfold digit in H. destruct (N.leb_spec 48 x), (N.leb_spec x 57); try lia; reflexivity.
    - intros y Hy. apply N.eqb_neq. intros ->. unfold digit in H. destruct Hy as [Hy|[Hy|[Hy|[Hy|Hy]]]]; inversion Hy; subst; lia. }
  destruct E as (E1 & E2). unfold wrong_type. rewrite E1. rewrite !E2; [reflexivity|..]; auto 10 using heads.
Qed.

Lemma fractional_app a b : fractional a -> fractional (a ++ b).
Proof. intros H. apply Exists_app. left. exact H. Qed.
(** The beginnings of a number. *)
Lemma number_beginning n r p q : number_text n -> delimited r -> n ++ r = p ++ q ->
  (exists o, num_range p = Err (EofWhileParsingValue, o) /\ len p < len n) \/
  (exists k, num_range p = Ok k /\ (fractional (firstn k p) -> fractional n) /\ ((q = [] \/ len q < len r) -> firstn k p = n)).
Proof.
  intros Hn Hr E. pose proof (number_range n r Hn Hr) as Er. rewrite E in Er.
  assert (Hfull : len n <= len p -> num_range p = Ok (len n) -> firstn (len n) p = n).
  { intros Hle _. assert (H : firstn (len n) (p ++ q) = n) by (rewrite <- E, firstn_app, Nat.sub_diag, firstn_O, app_nil_r, firstn_all; reflexivity).
    rewrite firstn_app_le in H by exact Hle. exact H. }
  destruct (range_stable p q) as [(o & Ep)|[Ep|Ep]].
  - left. exists o. split; [exact Ep|]. destruct (Nat.lt_ge_cases (len p) (len n)) as [|Hge]; [assumption|].
    exfalso. assert (Hp : p = n ++ skipn (len n) p).
    { rewrite <- (firstn_skipn (len n) p) at 1. f_equal. assert (H : firstn (len n) (p ++ q) = n) by (rewrite <- E, firstn_app, Nat.sub_diag, firstn_O, app_nil_r, firstn_all; reflexivity).
      rewrite firstn_app_le in H by exact Hge. exact H. }
    assert (Hd : delimited (skipn (len n) p)).
    { rewrite Hp, <- app_assoc in E. apply app_inv_head in E. destruct (skipn (len n) p) as [|y d] eqn:Ey; [exact I|]. rewrite E in Hr. exact Hr. }
    rewrite Hp, (number_range n _ Hn Hd) in Ep. discriminate.
  - right. exists (len p). split; [exact Ep|]. rewrite firstn_all.
    assert (Hlen : len n + len r = len p + len q) by (pose proof (f_equal (@List.length byte) E) as H; rewrite !app_length in H; exact H).
    pose proof (range_inv p (len p) Ep) as Hpn. rewrite firstn_all in Hpn.
    assert (Hle : len p <= len n).
    { destruct (Nat.le_gt_cases (len p) (len n)) as [|Hgt]; [assumption|]. exfalso.
      assert (Hp : p = n ++ skipn (len n) p).
      { rewrite <- (firstn_skipn (len n) p) at 1. f_equal. assert (H : firstn (len n) (p ++ q) = n) by (rewrite <- E, firstn_app, Nat.sub_diag, firstn_O, app_nil_r, firstn_all; reflexivity).
        rewrite firstn_app_le in H by lia. exact H. }
      assert (Hd : delimited (skipn (len n) p)).
      { rewrite Hp, <- app_assoc in E. apply app_inv_head in E. destruct (skipn (len n) p) as [|y d] eqn:Ey; [exact I|]. rewrite E in Hr. exact Hr. }
      rewrite Hp, (number_range n _ Hn Hd) in Ep. rewrite app_length in Ep. injection Ep as Ep. rewrite skipn_length in Ep. lia. }
    assert (Hpre : n = p ++ skipn (len p) n).
    { rewrite <- (firstn_skipn (len p) n) at 1. f_equal. assert (H : firstn (len p) (n ++ r) = p) by (rewrite E, firstn_app, Nat.sub_diag, firstn_O, app_nil_r, firstn_all; reflexivity).
      rewrite firstn_app_le in H by exact Hle. exact H. }
    split; [intros H; rewrite Hpre; apply fractional_app; exact H|].
    intros [->|Hq]; [|lia]. cbn [List.length] in Hlen. assert (len p = len n) by lia. rewrite Hpre. replace (len p) with (len n) by lia. rewrite skipn_all, app_nil_r. reflexivity.
  - right. rewrite Er in Ep. symmetry in Ep. exists (len n). split; [exact Ep|]. pose proof (range_bounded _ _ Ep) as Hle.
    rewrite (Hfull Hle Ep). auto.
Qed.
Lemma number_found {A} t (op : rj -> outcome (rj * result A rerror)) s w n r : asks t op -> ~ numeric_type t ->
  valid s -> 2 <= rcap s -> rest s = w ++ n ++ r -> blanks w -> number_text n -> delimited r -> len n <= rcap s ->
  refused s (n ++ r) (fun e => e = WrongType t TInt \/ (e = WrongType t TFloat /\ fractional n)) (op s) /\
  (len w + len n < len (jview s) \/ len (jview s) = len (rest s) ->
   refused s (n ++ r) (fun e => e = WrongType t TFloat /\ fractional n \/ e = WrongType t TInt /\ ~ fractional n) (op s)).
Proof.
  intros Ha Hnt V Hc HR Hw Hn Hr Hfit. destruct (asks_asking t op Ha) as [f g token eager E Hl Ht H12 _ _ Hnum].
  destruct (number_head n Hn) as (x & m & En & Hx).
  assert (Hb : ~ blank x) by (intros B; destruct Hx as [->|Hx]; [|unfold digit in Hx]; destruct B as [[B|[B|[B|B]]]|B]; try discriminate B; subst; lia).
  destruct (blank_head x Hb) as (Ea & Ej).
  assert (Htok : token <> Some x).
  { intros H. apply Ht in H. destruct Hx as [->|Hx]; [inversion H|]. unfold digit in Hx. inversion H; subst; lia. }
  assert (Hrest : n ++ r = x :: m ++ r) by (rewrite En; reflexivity).
  assert (Hfirst : forall p q, rest s = p ++ q -> exists e a, f p = (Err e, a)).
  { rewrite HR, Hrest. apply (looks_fail f g); auto. intros y p q Eq. cbn [app] in Eq. injection Eq as <- _. split; [exact Ea|].
    rewrite Hnum by assumption. destruct (@wrong_type_err A t x (x :: p)) as (e & ->). eauto. }
  assert (Hcase : forall p q, n ++ r = p ++ q -> p <> [] ->
    (exists o, f p = (Err (JsonError EofWhileParsingValue, o), 0) /\ len p < len n) \/
    (exists k, f p = (Err (WrongType t (if is_float_text (firstn k p) then TFloat else TInt), 0), 0) /\
       (fractional (firstn k p) -> fractional n) /\ ((q = [] \/ len q < len r) -> firstn k p = n))).
  { intros p q Eq Hp. destruct p as [|y p]; [contradiction|]. assert (Ey : x = y) by (rewrite Hrest in Eq; cbn [app] in Eq; congruence). subst y.
    rewrite (looks_head f g x p Hl Ea Ej), Hnum, wrong_number by assumption.
    destruct (number_beginning n r _ _ Hn Hr Eq) as [(o & -> & H)|(k & -> & H1 & H2)]; [left; eauto|right; exists k; auto]. }
  assert (Hlen : len (src (rd (bf s))) + len (jview s) = len (rest s)).
  { rewrite (jview_split s V), app_length. lia. }
  assert (Hnil : exists e o, f [] = (Err (e, o), 0) /\ can_retry e = true) by (exists (JsonError EofWhileParsingValue), 0; rewrite Hl; split; reflexivity).
  assert (Hpos : 1 <= len n) by (rewrite En; cbn; lia).
  rewrite E, Hrest in *. split.
  - eapply (loop_settles f token eager s w x (m ++ r) (len (src (rd (bf s)))) (len n)); auto; [|rewrite app_length; rewrite En; cbn [List.length]; lia].
    intros p q Eq _. destruct p as [|y p].
    + destruct Hnil as (e & o & E0 & E1). exists e, o. rewrite E1. auto.
    + destruct (Hcase (y :: p) q Eq) as [(o & E0 & H)|(k & E0 & H1 & _)]; [discriminate|..].
      * eexists _, _. split; [exact E0|exact H].
      * eexists _, _. split; [exact E0|]. cbn [can_retry]. split; [|reflexivity]. destruct (is_float_text (firstn k (y :: p))) eqn:Ef; [right|left; reflexivity].
        split; [reflexivity|]. apply H1, float_text, Ef.
  - intros Hseen. rewrite HR, !app_length in Hlen, Hseen. cbn [List.length] in Hlen, Hseen. rewrite app_length in Hlen, Hseen. 
    assert (Hnm : len n = S (len m)) by (rewrite En; reflexivity).
    eapply (loop_settles f token eager s w x (m ++ r) (len r - 1) (len n)); auto; try lia; [|rewrite app_length; lia].
    intros p q Eq Hq. destruct p as [|y p].
    + destruct Hnil as (e & o & E0 & E1). exists e, o. rewrite E1. auto.
    + destruct (Hcase (y :: p) q Eq) as [(o & E0 & H)|(k & E0 & H1 & H2)]; [discriminate|..].
      * eexists _, _. split; [exact E0|exact H].
      * eexists _, _. split; [exact E0|]. cbn [can_retry]. split; [|reflexivity].
        assert (Hk : firstn k (y :: p) = n) by (apply H2; destruct q; [auto|right; cbn [List.length] in *; lia]). rewrite Hk.
        destruct (is_float_text n) eqn:Ef; [left|right]; (split; [reflexivity|]); rewrite <- float_text; congruence.
Qed.

(** Nothing but white space. *)
Lemma blanks_skip w : blanks w -> skip_aw w = [].
Proof.
  unfold skip_aw. induction 1 as [|y w Hy Hw IH]; [reflexivity|]. cbn [run_length].
  assert (Ey : is_ascii_whitespace y = true) by (destruct Hy as [[->|[->|[->| ->]]]| ->]; reflexivity). rewrite Ey. cbn [skipn]. exact IH.
Qed.
Lemma nothing_left {A} t (op : rj -> outcome (rj * result A rerror)) s : asks t op ->
  valid s -> 2 <= rcap s -> blanks (rest s) -> refused s [] (eq (JsonError EofWhileParsingValue)) (op s).
Proof.
  intros Ha V Hc Hw. destruct (asks_asking t op Ha) as [f g token eager -> Hl _ H12 _ _ _].
  pose proof V as (W & HL & HI). unfold loop_until_success, jcall. destruct (f (jview s)) as [r0 a0] eqn:Ef.
  assert (Hr0 : exists ty o, r0 = Err (ty, o)).
  { destruct (looks_fail f g (rest s) [] Hl Hw H12) with (p := jview s) (q := src (rd (bf s))) as (e & a & E); [|rewrite app_nil_r; apply jview_split; exact V|].
    - intros y p q E. discriminate.
    - rewrite E in Ef. destruct e as [ty o]. injection Ef as <- _. eauto. }
  destruct Hr0 as (ty & o & ->). set (s1 := mkRj (bf s) (jlen s) (jidx s + a0)).
  assert (Hstrip : strip token (rest s) = []) by (unfold strip; rewrite (blanks_skip _ Hw); destruct token; reflexivity).
  destruct (feeding_spec s1 (jidx s) token W HI Hc) as (s2 & r2 & E2 & P2). rewrite E2.
  destruct r2 as [[]|e]; [|exists s2, e; split; [reflexivity|]; left; split; [apply P2|apply P2]].
  destruct P2 as (W2 & C2 & Q2 & T2 & S2 & P2). change (stream (bf s1)) with (stream (bf s)) in *.
  fold (rest s) in S2. rewrite Hstrip in S2. pose proof (stream_length (bf s2) W2) as Hlen. rewrite S2 in Hlen. cbn [List.length] in Hlen.
  assert (Hj : jlen s2 = n_bytes (bf s2) /\ jidx s2 = 0).
  { destruct P2 as [P2|(P1 & P2 & P3 & -> & ->)]; [exact P2|]. cbn [s1 jlen jidx bf] in *. rewrite P3 in Hlen.
    assert (Hv : jview s = []) by (apply length_zero_iff_nil; rewrite (jview_length s V); lia).
    rewrite Hv, Hl in Ef. cbn in Ef. injection Ef as _ _ <-. lia. }
  destruct Hj as [Hjl Hji]. unfold fuel_for. cbn [retry_loop]. unfold jcall.
  assert (V2 : valid s2) by (unfold valid; repeat split; auto; lia).
  assert (Hv : jview s2 = []) by (apply length_zero_iff_nil; rewrite (jview_length s2 V2); lia).
  assert (E0 : f [] = (Err (JsonError EofWhileParsingValue, 0), 0)) by (rewrite Hl; reflexivity).
  rewrite Hv, E0. cbn [fst can_retry bf].
  destruct (read_more (bf s2)) as [b r] eqn:Em. destruct (read_more_spec _ _ _ W2 Em) as (C3 & N3 & Q3 & P3).
  change (rquiet s1) with (rquiet s) in *. change (rcap s1) with (rcap s) in *. change (total s1) with (total s) in *.
  destruct r as [[|k]|x].
  - eexists _, _. split; [reflexivity|]. right. destruct P3 as (A1 & A2 & _). pose proof (cut_nil_stream _ _ _ C3) as St. rewrite S2 in St.
    assert (V3 : wf b /\ jlen s2 = n_bytes b /\ 0 <= n_bytes b) by (split; [eapply cut_wf; eauto|lia]).
    split; [reflexivity|]. cbn [from_jiter_error fst snd err_index with_bf bf jidx current_index].
    unfold total, current_index, rest, rcap, rquiet in *. cbn [with_bf bf jidx jlen]. rewrite St, N3, Hji, S2 in *. cbn [List.length skipn Nat.add] in *.
    split; [lia|]. split; [exact V3|].
    split; [reflexivity|]. split; [rewrite (cut_cap _ _ _ _ C3); exact C2|]. split; [lia|]. auto.
  - exfalso. lia.
  - eexists _, _. split; [reflexivity|]. left. destruct P3 as ((kd & ->) & _ & _ & _ & P3). split; [reflexivity|].
    destruct (rquiet s); [|reflexivity]. unfold rquiet in Q2. rewrite Q2 in P3 by reflexivity. discriminate.
Qed.
