(** Proofs about the numbers and whole values of the plain parser: more input does not change an answer that does not
    depend on the end. *)
From Coq Require Import ZArith.
From Verif Require Import Base Buffer BufferProofs Jiter JiterProofs JiterValue.

(** ** Sequences of operations *)
Definition ext {A} (f : jop A) (l m : bytes) : Prop :=
  eof_result (f l) \/ touches (f l) l \/ f (l ++ m) = f l.
Definition endless {A} (f : jop A) : Prop := eof_result (f []) \/ touches (f []) [].

Lemma stable_ext {A} (f : jop A) l m : stable true f -> ext f l m.
Proof. intros H. destruct (H l m) as [?|[[_ ?]|?]]; unfold ext; auto. Qed.
Lemma firm_ext {A} (f : jop A) l m : stable false f -> ext f l m.
Proof. intros H. destruct (H l m) as [?|[[? _]|?]]; unfold ext; auto. discriminate. Qed.
Lemma firm_ok {A} (f : jop A) l m v a : stable false f -> f l = (Ok v, a) -> f (l ++ m) = f l.
Proof. intros H E. destruct (H l m) as [(e & o & b & X & _)|[[? _]|?]]; [congruence|discriminate|assumption]. Qed.
Lemma ret_ext {A} (v : A) l m : ext (jret v) l m.
Proof. right. right. reflexivity. Qed.
Lemma ret_endless {A} (v : A) : endless (jret v).
Proof. right. exists v. reflexivity. Qed.

Lemma jthen_eof {A B} (f : jop A) (g : A -> jop B) l : eof_result (f l) -> eof_result (jthen f g l).
Proof. intros (e & o & a & E & H). exists e, o, a. unfold jthen. rewrite E. auto. Qed.
Lemma jthen_ok {A B} (f : jop A) (g : A -> jop B) l v n :
  jthen f g l = (Ok v, n) <-> exists x a b, f l = (Ok x, a) /\ g x (skipn a l) = (Ok v, b) /\ n = a + b.
Proof.
  unfold jthen. split.
  - destruct (f l) as [[x|e] a]; [|discriminate]. intros H. apply jat_ok in H as (b & H & ->). eauto 6.
  - intros (x & a & b & E & H & ->). rewrite E. apply jat_ok_intro. exact H.
Qed.
Lemma jthen_err {A B} (f : jop A) (g : A -> jop B) l e n :
  jthen f g l = (Err e, n) ->
  f l = (Err e, n) \/ exists x a e' b, f l = (Ok x, a) /\ g x (skipn a l) = (Err e', b) /\ fst e = fst e' /\ snd e = a + snd e' /\ n = a + b.
Proof.
  unfold jthen. destruct (f l) as [[x|e'] a]; [|intros [= -> ->]; left; reflexivity]. unfold jat.
  destruct (g x (skipn a l)) as [[v|[t o]] b] eqn:E; [discriminate|]. intros [= <- <-]. right. exists x, a, (t, o), b. auto.
Qed.

Lemma jthen_ext {A B} (f : jop A) (g : A -> jop B) l m :
  ext f l m -> (forall v a, f l = (Ok v, a) -> a <= len l) ->
  (forall v a, f l = (Ok v, a) -> ext (g v) (skipn a l) m) ->
  (forall v, f l = (Ok v, len l) -> f (l ++ m) = f l \/ endless (g v)) ->
  ext (jthen f g) l m.
Proof.
  intros Hf Hb Hg He.
  assert (Heq : f (l ++ m) = f l -> ext (jthen f g) l m).
  { intros Hfe. destruct (f l) as [[v|e] a] eqn:E.
    - specialize (Hb v a eq_refl). specialize (Hg v a eq_refl). unfold ext, jthen. rewrite Hfe, E. destruct Hg as [H|[H|H]].
      + left. apply jat_eof. exact H.
      + right. left. apply jat_touches; [exact Hb|exact H].
      + right. right. unfold jat. rewrite skipn_app_le by exact Hb. rewrite H. reflexivity.
    - right. right. unfold jthen. rewrite Hfe, E. reflexivity. }
  destruct Hf as [H|[(v & E)|H]]; [left; apply jthen_eof; exact H| |apply Heq; exact H].
  destruct (He v E) as [H|[H|H]]; [apply Heq; exact H| |].
  - left. unfold jthen. rewrite E. apply jat_eof. rewrite skipn_all. exact H.
  - right. left. unfold jthen. rewrite E. apply jat_touches; [lia|]. rewrite skipn_all. exact H.
Qed.
Lemma jthen_endless {A B} (f : jop A) (g : A -> jop B) : endless f -> (forall v, endless (g v)) -> endless (jthen f g).
Proof.
  intros [H|(v & E)] Hg; [left; apply jthen_eof; exact H|]. destruct (Hg v) as [H|H].
  - left. unfold jthen. rewrite E. apply jat_eof. exact H.
  - right. unfold jthen. rewrite E. apply jat_touches; [cbn; lia|exact H].
Qed.

(** Looking at the next byte first. *)
Lemma look_eq {A} (g : byte -> jop A) l :
  jthen j_peek g l = after_ws (fun l => match l with [] => jfail EofWhileParsingValue | x :: _ => g x l end) l.
Proof.
  unfold jthen, j_peek, after_ws. set (n := run_length json_ws l). unfold jat at 1 3.
  destruct (skipn n l) as [|x k] eqn:E; [reflexivity|]. cbn [jok]. rewrite Nat.add_0_r. unfold jat. rewrite E. reflexivity.
Qed.
Lemma ws_head l x k : skipn (run_length json_ws l) l = x :: k -> json_ws x = false.
Proof.
  induction l as [|y l IH]; cbn [run_length]; [discriminate|]. destruct (json_ws y) eqn:E; [exact IH|]. cbn [skipn]. intros [= -> _]. exact E.
Qed.
Lemma peek_lands l q a : j_peek l = (Ok q, a) -> exists k, skipn a l = q :: k /\ json_ws q = false.
Proof.
  unfold j_peek, after_ws. intros H. apply jat_ok in H as (b & H & ->).
  destruct (skipn (run_length json_ws l) l) as [|x k] eqn:E; [discriminate|]. injection H as <- <-.
  rewrite Nat.add_0_r. exists k. split; [exact E|exact (ws_head _ _ _ E)].
Qed.

(** Facts about functions that look at the byte they are given. *)
Definition hext {A} (g : byte -> jop A) : Prop := forall x l m, ext (g x) (x :: l) m.
Definition hweak {A} (g : byte -> jop A) : Prop := forall x l m, ext (g x) (x :: l) m \/
  (exists e a, g x (x :: l) = (Err e, a)) /\ (exists e a, g x (x :: l ++ m) = (Err e, a)).
Definition hbounded {A} (g : byte -> jop A) : Prop := forall x l v a, g x (x :: l) = (Ok v, a) -> a <= S (len l).
Definition hlocal {A} (g : byte -> jop A) : Prop := forall x l m v a,
  g x (x :: l ++ m) = (Ok v, a) -> a < S (len l) -> g x (x :: l) = (Ok v, a).

Lemma look_weak {A} (g : byte -> jop A) : hweak g -> weakly_stable true (jthen j_peek g).
Proof.
  intros Hg l m. rewrite !look_eq. unfold after_ws.
  pose proof (run_length_le json_ws l) as Hle.
  destruct (Nat.eq_dec (run_length json_ws l) (len l)) as [E|E].
  - left. apply jat_eof. rewrite E, skipn_all. apply eof_fail. reflexivity.
  - rewrite run_length_app_lt by (unfold bytes, byte in *; lia). set (n := run_length json_ws l) in *.
    unfold jat. rewrite skipn_app_le by exact Hle. destruct (skipn n l) as [|x k] eqn:Ek.
    { apply (f_equal (@List.length byte)) in Ek. rewrite skipn_length in Ek. cbn in Ek. lia. }
    assert (Hlen : len l = n + S (len k)).
    { apply (f_equal (@List.length byte)) in Ek. rewrite skipn_length in Ek. cbn in Ek. lia. }
    cbn [app]. destruct (Hg x k m) as [[(e & o & a & H & He)|[(v & H)|H]]|((e1 & a1 & H1) & e2 & a2 & H2)].
    + left. rewrite H. do 3 eexists. split; [reflexivity|exact He].
    + right. left. split; [reflexivity|]. rewrite H. exists v. rewrite Hlen. reflexivity.
    + right. right. left. cbn [app] in H. rewrite H. reflexivity.
    + right. right. right. rewrite H1, H2. destruct e1, e2. split; do 2 eexists; reflexivity.
Qed.
Lemma look_stable {A} (g : byte -> jop A) : hext g -> stable true (jthen j_peek g).
Proof.
  intros Hg l m. rewrite !look_eq. unfold after_ws.
  pose proof (run_length_le json_ws l) as Hle.
  destruct (Nat.eq_dec (run_length json_ws l) (len l)) as [E|E].
  - left. apply jat_eof. rewrite E, skipn_all. apply eof_fail. reflexivity.
  - rewrite run_length_app_lt by (unfold bytes, byte in *; lia). set (n := run_length json_ws l) in *.
    unfold jat. rewrite skipn_app_le by exact Hle. destruct (skipn n l) as [|x k] eqn:Ek.
    { apply (f_equal (@List.length byte)) in Ek. rewrite skipn_length in Ek. cbn in Ek. lia. }
    assert (Hlen : len l = n + S (len k)).
    { apply (f_equal (@List.length byte)) in Ek. rewrite skipn_length in Ek. cbn in Ek. lia. }
    cbn [app]. destruct (Hg x k m) as [(e & o & a & H & He)|[(v & H)|H]].
    + left. rewrite H. do 3 eexists. split; [reflexivity|exact He].
    + right. left. split; [reflexivity|]. rewrite H. exists v. rewrite Hlen. reflexivity.
    + right. right. cbn [app] in H. rewrite H. reflexivity.
Qed.
Lemma hext_weak {A} (g : byte -> jop A) : hext g -> hweak g.
Proof. intros H x l m. left. apply H. Qed.
Lemma look_bounded {A} (g : byte -> jop A) : hbounded g -> bounded (jthen j_peek g).
Proof.
  intros Hg l v a H. rewrite look_eq in H. apply after_ws_bounded in H; [exact H|].
  intros [|x k] v' a' H'; [discriminate|]. eapply Hg; eauto.
Qed.
Lemma look_local {A} (g : byte -> jop A) : hlocal g -> local (jthen j_peek g).
Proof.
  intros Hg l m v a H Ha. rewrite look_eq in *. revert H Ha. apply after_ws_local.
  clear - Hg. intros [|x k] m v a H Ha; [cbn in Ha; lia|]. cbn [app] in H. eapply Hg; eauto.
Qed.
Lemma look_empty {A} (g : byte -> jop A) : jthen j_peek g [] = jfail EofWhileParsingValue.
Proof. reflexivity. Qed.

(** ** Numbers *)
Lemma range_same x l : range_as x (x :: l) = num_range (x :: l).
Proof.
  unfold range_as, num_range, is_inf_nan. cbn [skipn].
  destruct (N.eqb x 45); [reflexivity|]. destruct (N.eqb x 78); [rewrite orb_true_r; reflexivity|]. rewrite orb_false_r. reflexivity.
Qed.

Definition istable (f : bytes -> result (bool * nat) (json_error * nat)) : Prop := forall l m,
  (exists o, f l = Err (EofWhileParsingValue, o)) \/ f l = Ok (true, len l) \/ f (l ++ m) = f l.
Lemma int_end_stable l m : digits l <= len l -> int_end l (digits l) = Ok (true, len l) \/ int_end (l ++ m) (digits (l ++ m)) = int_end l (digits l).
Proof.
  intros Hle. destruct (Nat.eq_dec (digits l) (len l)) as [E|E].
  - left. unfold int_end. rewrite E, skipn_all. reflexivity.
  - right. rewrite digits_app by lia. unfold int_end. rewrite skipn_app_le by exact Hle.
    destruct (skipn (digits l) l) as [|y k] eqn:Ek; [|reflexivity].
    apply (f_equal (@List.length byte)) in Ek. rewrite skipn_length in Ek. cbn in Ek. lia.
Qed.
Lemma int_unsigned_stable : istable int_unsigned.
Proof.
  intros [|x l] m; [left; eexists; reflexivity|]. cbn [app int_unsigned]. destruct (N.eqb x 48).
  - right. destruct l as [|y l]; [left; reflexivity|]. right. cbn [app]. destruct (is_digit y); reflexivity.
  - destruct (is_digit x) eqn:Ex; [|right; right; reflexivity]. right.
    destruct (int_end_stable (x :: l) m) as [H|H]; [apply run_length_le|left; exact H|right; exact H].
Qed.
Lemma int_parse_stable x l m :
  (exists o, int_parse x (x :: l) = Err (EofWhileParsingValue, o)) \/ int_parse x (x :: l) = Ok (true, S (len l)) \/
  int_parse x (x :: l ++ m) = int_parse x (x :: l).
Proof.
  unfold int_parse. cbn [skipn]. destruct (N.eqb x 45).
  - destruct (int_unsigned_stable l m) as [(o & H)|[H|H]]; rewrite H; eauto.
  - destruct (N.eqb x 78); [auto|]. apply (int_unsigned_stable (x :: l) m).
Qed.
Lemma int_unsigned_bounded l b n : int_unsigned l = Ok (b, n) -> n <= len l.
Proof.
  destruct l as [|x l]; cbn [int_unsigned]; [discriminate|]. destruct (N.eqb x 48).
  - destruct l as [|y l]; [intros [= _ <-]; cbn; lia|]. destruct (is_digit y); [discriminate|]. intros [= _ <-]. cbn. lia.
  - destruct (is_digit x); [intros [= _ <-]; apply run_length_le|]. destruct (N.eqb x 73); [|discriminate]. intros [= _ <-]. lia.
Qed.
Lemma int_parse_bounded x l b n : int_parse x (x :: l) = Ok (b, n) -> n <= S (len l).
Proof.
  unfold int_parse. cbn [skipn]. destruct (N.eqb x 45).
  - destruct (int_unsigned l) as [[b' n']|[e o]] eqn:E; [|discriminate]. intros [= _ <-]. apply int_unsigned_bounded in E. lia.
  - destruct (N.eqb x 78); [intros [= _ <-]; lia|]. intros H. apply int_unsigned_bounded in H. exact H.
Qed.
Lemma int_end_local l m n : n < len l -> int_end (l ++ m) n = int_end l n.
Proof.
  intros H. unfold int_end. rewrite skipn_app_le by lia. destruct (skipn n l) as [|y k] eqn:E; [|reflexivity].
  apply (f_equal (@List.length byte)) in E. rewrite skipn_length in E. cbn in E. lia.
Qed.
Lemma int_unsigned_local l m b n : int_unsigned (l ++ m) = Ok (b, n) -> n < len l -> int_unsigned l = Ok (b, n).
Proof.
  destruct l as [|x l]; [cbn; lia|]. cbn [app int_unsigned]. destruct (N.eqb x 48).
  - destruct l as [|y l].
    + cbn [app List.length]. destruct m as [|y m]; [auto|]. destruct (is_digit y); [discriminate|]. intros [= _ <-]. lia.
    + cbn [app]. destruct (is_digit y); [discriminate|]. auto.
  - destruct (is_digit x) eqn:Ex; [|destruct (N.eqb x 73); auto]. intros H Hn.
    assert (Hd : digits (x :: l ++ m) = n) by (injection H as _ <-; reflexivity). rewrite Hd in H.
    assert (Hd' : digits (x :: l) = n).
    { rewrite <- Hd. change (x :: l ++ m) with ((x :: l) ++ m) in *. unfold digits in *. apply run_length_app_inv. unfold bytes, byte in *. lia. }
    rewrite Hd'. change (x :: l ++ m) with ((x :: l) ++ m) in H. rewrite int_end_local in H by exact Hn. exact H.
Qed.
Lemma int_parse_local x l m b n : int_parse x (x :: l ++ m) = Ok (b, n) -> n < S (len l) -> int_parse x (x :: l) = Ok (b, n).
Proof.
  unfold int_parse. cbn [skipn]. destruct (N.eqb x 45).
  - destruct (int_unsigned (l ++ m)) as [[b' n']|[e o]] eqn:E; [|discriminate]. intros [= <- <-] Hn.
    rewrite (int_unsigned_local _ _ _ _ E) by lia. reflexivity.
  - destruct (N.eqb x 78); [auto|]. intros H Hn. change (x :: l ++ m) with ((x :: l) ++ m) in H. eapply int_unsigned_local; eauto.
Qed.
Lemma int_unsigned_one l n : int_unsigned l = Ok (true, n) -> 1 <= n.
Proof.
  destruct l as [|x l]; cbn [int_unsigned]; [discriminate|]. destruct (N.eqb x 48).
  - destruct l as [|y l]; [intros [= <-]; lia|]. destruct (is_digit y); [discriminate|]. intros [= _ <-]. lia.
  - destruct (is_digit x) eqn:Ex.
    + unfold int_end. intros [= _ <-]. unfold digits. cbn [run_length]. rewrite Ex. lia.
    + destruct (N.eqb x 73); discriminate.
Qed.
Lemma int_parse_one p l n : int_parse p l = Ok (true, n) -> 1 <= n.
Proof.
  unfold int_parse. destruct (N.eqb p 45).
  - destruct (int_unsigned (skipn 1 l)) as [[b' n']|[e o]]; [|discriminate]. intros [= _ <-]. lia.
  - destruct (N.eqb p 78); [discriminate|]. apply int_unsigned_one.
Qed.
Lemma unsigned_one l n : num_unsigned l = Ok n -> 1 <= n.
Proof.
  unfold num_unsigned. destruct l as [|x l]; [discriminate|]. destruct (N.eqb x 48).
  - destruct l as [|y l]; [intros [= <-]; lia|]. destruct (is_digit y); [discriminate|]. intros H. apply add_off_ok in H as (j & _ & ->). lia.
  - destruct (is_digit x) eqn:Ex; [|discriminate].
    intros H. apply add_off_ok in H as (j & _ & ->). unfold digits. cbn [run_length]. rewrite Ex. lia.
Qed.
Lemma range_as_one p l n : range_as p l = Ok n -> 1 <= n.
Proof.
  unfold range_as. destruct (N.eqb p 45).
  - intros H. apply add_off_ok in H as (j & _ & ->). lia.
  - destruct (N.eqb p 78); [discriminate|]. destruct l as [|x l]; [discriminate|]. destruct (N.eqb x 73); [discriminate|]. apply unsigned_one.
Qed.

Lemma eof_num {A} o : eof_result (@num_fail A EofWhileParsingValue o).
Proof. exists (JsonError EofWhileParsingValue), o, 0. split; reflexivity. Qed.
Lemma decode_int_ext : hext decode_int.
Proof.
  intros x l m. unfold ext, decode_int. cbn [app skipn]. destruct (int_parse_stable x l m) as [(o & H)|[H|H]].
  - left. rewrite H. apply eof_num.
  - right. left. rewrite H. eexists. reflexivity.
  - right. right. rewrite H. destruct (int_parse x (x :: l)) as [[[] n]|[e o]] eqn:E; try reflexivity.
    apply int_parse_bounded in E. change (x :: l ++ m) with ((x :: l) ++ m). rewrite firstn_app_le by (cbn; lia). reflexivity.
Qed.
Lemma decode_int_bounded : hbounded decode_int.
Proof.
  intros x l v a. unfold decode_int. destruct (int_parse x (x :: l)) as [[[] n]|[e o]] eqn:E; try discriminate.
  intros [= _ <-]. eapply int_parse_bounded; eauto.
Qed.
Lemma decode_int_local : hlocal decode_int.
Proof.
  intros x l m v a. unfold decode_int. cbn [skipn]. destruct (int_parse x (x :: l ++ m)) as [[[] n]|[e o]] eqn:E; try discriminate.
  intros [= <- <-] Hn. rewrite (int_parse_local _ _ _ _ _ E) by exact Hn.
  change (x :: l ++ m) with ((x :: l) ++ m). rewrite firstn_app_le by (cbn; lia). reflexivity.
Qed.
Lemma decode_float_ext : hext decode_float.
Proof.
  intros x l m. unfold ext, decode_float. cbn [app]. rewrite !range_same. destruct (range_stable (x :: l) m) as [(o & H)|[H|H]].
  - left. rewrite H. apply eof_num.
  - right. left. rewrite H. eexists. reflexivity.
  - right. right. cbn [app] in H. rewrite H. destruct (num_range (x :: l)) as [n|[e o]] eqn:E; [|reflexivity].
    apply range_bounded in E. change (x :: l ++ m) with ((x :: l) ++ m). rewrite firstn_app_le by exact E. reflexivity.
Qed.
Lemma decode_float_bounded : hbounded decode_float.
Proof.
  intros x l v a. unfold decode_float. rewrite range_same. destruct (num_range (x :: l)) as [n|[e o]] eqn:E; [|discriminate].
  intros [= _ <-]. apply range_bounded in E. exact E.
Qed.
Lemma decode_float_local : hlocal decode_float.
Proof.
  intros x l m v a. unfold decode_float. rewrite !range_same. change (x :: l ++ m) with ((x :: l) ++ m).
  destruct (num_range ((x :: l) ++ m)) as [n|[e o]] eqn:E; [|discriminate].
  intros [= <- <-] Hn. rewrite (range_local _ _ _ E) by exact Hn. change (x :: l ++ m) with ((x :: l) ++ m). rewrite firstn_app_le by (cbn; lia). reflexivity.
Qed.
(** Where the integer part ends in a float, the float goes on. *)
Lemma int_end_float l n : int_end l n = Ok (false, n) -> forall k, num_tail (skipn n l) = Ok k -> 1 <= k.
Proof.
  unfold int_end. intros [= H] k. destruct (skipn n l) as [|y r]; [discriminate|]. cbn [num_tail].
  destruct (N.eqb y 46).
  - intros E. apply add_off_ok in E as (j & _ & ->). lia.
  - destruct (is_exp y); [|discriminate]. intros E. apply add_off_ok in E as (j & _ & ->). lia.
Qed.
Lemma float_longer_unsigned l k n : int_unsigned l = Ok (false, k) -> num_unsigned l = Ok n -> k < n.
Proof.
  destruct l as [|x l]; cbn [int_unsigned num_unsigned]; [discriminate|]. destruct (N.eqb x 48).
  - destruct l as [|y l]; [discriminate|]. destruct (is_digit y); [discriminate|]. intros H1 H2.
    assert (k = 1) by (injection H1 as _ <-; reflexivity). subst k.
    apply add_off_ok in H2 as (j & H2 & ->). pose proof (int_end_float (x :: y :: l) 1 H1 j H2). lia.
  - destruct (is_digit x).
    + intros H1 H2. assert (k = digits (x :: l)) by (injection H1 as _ <-; reflexivity). subst k.
      apply add_off_ok in H2 as (j & H2 & ->). pose proof (int_end_float (x :: l) _ H1 j H2). lia.
    + discriminate.
Qed.
Lemma float_longer x l k n : int_parse x (x :: l) = Ok (false, k) -> num_range (x :: l) = Ok n -> k < n.
Proof.
  unfold int_parse, num_range, is_inf_nan. cbn [skipn]. destruct (N.eqb x 45).
  - destruct (int_unsigned l) as [[b j]|[e o]] eqn:E; [|discriminate]. intros [= -> <-] H.
    apply add_off_ok in H as (i & H & ->). pose proof (float_longer_unsigned l j i E H). lia.
  - destruct (N.eqb x 78); [rewrite orb_true_r; discriminate|]. destruct (N.eqb x 73); [discriminate|]. apply float_longer_unsigned.
Qed.
Lemma decode_any_ext : hext decode_any.
Proof.
  intros x l m. unfold ext, decode_any. cbn [app skipn]. destruct (int_parse_stable x l m) as [(o & H)|[H|H]].
  - left. rewrite H. apply eof_num.
  - right. left. rewrite H. eexists. reflexivity.
  - rewrite H. destruct (int_parse x (x :: l)) as [[[] n]|[e o]] eqn:E.
    + right. right. apply int_parse_bounded in E. change (x :: l ++ m) with ((x :: l) ++ m). rewrite firstn_app_le by (cbn; lia). reflexivity.
    + rewrite !range_same. destruct (range_stable (x :: l) m) as [(o & H')|[H'|H']].
      * left. rewrite H'. apply eof_num.
      * right. left. rewrite H'. eexists. reflexivity.
      * right. right. cbn [app] in H'. rewrite H'. destruct (num_range (x :: l)) as [k|[e o]] eqn:E'; [|reflexivity].
        apply range_bounded in E'. change (x :: l ++ m) with ((x :: l) ++ m). rewrite firstn_app_le by exact E'. reflexivity.
    + right. right. reflexivity.
Qed.
Lemma decode_any_bounded : hbounded decode_any.
Proof.
  intros x l v a. unfold decode_any. destruct (int_parse x (x :: l)) as [[[] n]|[e o]] eqn:E; [| |discriminate].
  - intros [= _ <-]. eapply int_parse_bounded; eauto.
  - rewrite range_same. destruct (num_range (x :: l)) as [k|[e o]] eqn:E'; [|discriminate].
    intros [= _ <-]. apply range_bounded in E'. exact E'.
Qed.
Lemma decode_any_local : hlocal decode_any.
Proof.
  intros x l m v a. unfold decode_any. cbn [skipn]. destruct (int_parse x (x :: l ++ m)) as [[[] n]|[e o]] eqn:E; [| |discriminate].
  - intros [= <- <-] Hn. rewrite (int_parse_local _ _ _ _ _ E) by exact Hn.
    change (x :: l ++ m) with ((x :: l) ++ m). rewrite firstn_app_le by (cbn; lia). reflexivity.
  - rewrite !range_same. change (x :: l ++ m) with ((x :: l) ++ m) in *.
    destruct (num_range ((x :: l) ++ m)) as [k|[e o]] eqn:E'; [|discriminate].
    intros [= <- <-] Hn. rewrite (int_parse_local _ _ _ _ _ E).
    + rewrite (range_local _ _ _ E') by exact Hn. change (x :: l ++ m) with ((x :: l) ++ m). rewrite firstn_app_le by (cbn; lia). reflexivity.
    + pose proof (float_longer x (l ++ m) n k E E'). lia.
Qed.

(** A byte that begins no number. *)
Lemma int_parse_not x l : is_num x = false -> exists e o, int_parse x (x :: l) = Err (e, o).
Proof.
  unfold is_num. intros H. apply orb_false_iff in H as [H H4]. apply orb_false_iff in H as [H H3]. apply orb_false_iff in H as [H1 H2].
  unfold int_parse. rewrite H2, H4. cbn [skipn int_unsigned]. rewrite H1, H3.
  destruct (N.eqb_spec x 48) as [->|_]; [discriminate H1|]. eauto.
Qed.
Lemma range_not x l : is_num x = false -> exists e o, num_range (x :: l) = Err (e, o).
Proof.
  unfold is_num. intros H. apply orb_false_iff in H as [H H4]. apply orb_false_iff in H as [H H3]. apply orb_false_iff in H as [H1 H2].
  unfold num_range, is_inf_nan. rewrite H2, H3, H4. cbn [orb num_unsigned]. rewrite H1.
  destruct (N.eqb_spec x 48) as [->|_]; [discriminate H1|]. eauto.
Qed.
Definition choosy {A} (g : byte -> jop A) : Prop := forall x l, is_num x = false -> exists e a, g x (x :: l) = (Err e, a).
Lemma decode_int_choosy : choosy decode_int.
Proof. intros x l H. destruct (int_parse_not x l H) as (e & o & E). unfold decode_int, num_fail. rewrite E. eauto. Qed.
Lemma decode_float_choosy : choosy decode_float.
Proof. intros x l H. destruct (range_not x l H) as (e & o & E). unfold decode_float, num_fail. rewrite range_same, E. eauto. Qed.
Lemma decode_any_choosy : choosy decode_any.
Proof. intros x l H. destruct (int_parse_not x l H) as (e & o & E). unfold decode_any, num_fail. rewrite E. eauto. Qed.

Lemma known_num_same {A} t (g : byte -> jop A) x l : is_num x = true -> known_num t g x l = g x l.
Proof. intros H. unfold known_num. rewrite H. destruct (g x l) as [[v|e] a]; reflexivity. Qed.
Lemma known_num_weak {A} t (g : byte -> jop A) : hext g -> choosy g -> hweak (known_num t g).
Proof.
  intros Hg Hc x l m. destruct (is_num x) eqn:Ex.
  - left. unfold ext. rewrite !known_num_same by exact Ex. apply Hg.
  - right. unfold known_num. rewrite Ex. destruct (Hc x l Ex) as (e & a & ->), (Hc x (l ++ m) Ex) as (e' & a' & ->).
    destruct (@wrong_type_err A t x (x :: l)) as [w ->], (@wrong_type_err A t x (x :: l ++ m)) as [w' ->]. split; do 2 eexists; reflexivity.
Qed.
Lemma known_num_ok {A} t (g : byte -> jop A) x l v a : known_num t g x l = (Ok v, a) -> g x l = (Ok v, a).
Proof.
  unfold known_num. destruct (g x l) as [[v'|e] a']; [auto|]. destruct (is_num x); [discriminate|].
  destruct (@wrong_type_err A t x l) as [w ->]. discriminate.
Qed.
Lemma known_num_bounded {A} t (g : byte -> jop A) : hbounded g -> hbounded (known_num t g).
Proof. intros Hg x l v a H. apply known_num_ok in H. eapply Hg; eauto. Qed.
Lemma known_num_local {A} t (g : byte -> jop A) : hlocal g -> hlocal (known_num t g).
Proof.
  intros Hg x l m v a H Ha. apply known_num_ok in H. unfold known_num. rewrite (Hg _ _ _ _ _ H Ha). reflexivity.
Qed.

(** ** Values *)
Definition moving {A} (f : jop A) : Prop := forall l v a, f l = (Ok v, a) -> 1 <= a.
Lemma jat_moving {A} (f : jop A) n : 1 <= n -> moving (jat n f).
Proof. intros Hn l v a H. apply jat_ok in H as (b & _ & ->). lia. Qed.
Lemma after_ws_moving {A} (f : jop A) : moving f -> moving (after_ws f).
Proof. intros Hf l v a H. apply jat_ok in H as (b & H & ->). apply Hf in H. lia. Qed.
Lemma jthen_moving {A B} (f : jop A) (g : A -> jop B) : moving f -> moving (jthen f g).
Proof. intros Hf l v a H. apply jthen_ok in H as (x & b & c & H & _ & ->). apply Hf in H. lia. Qed.
Lemma array_step_moving : moving j_array_step.
Proof.
  apply after_ws_moving. intros [|x l] v a; [discriminate|]. destruct (N.eqb x COMMA).
  - apply (jat_moving array_peek 1 (le_n _)).
  - destruct (N.eqb x RBRACK); [|discriminate]. intros [= _ <-]. lia.
Qed.
Lemma next_key_moving D : moving (j_next_key D).
Proof.
  apply after_ws_moving. intros [|x l] v a; [discriminate|]. destruct (N.eqb x COMMA).
  - apply (jat_moving _ 1 (le_n _)).
  - destruct (N.eqb x RBRACE); [|discriminate]. intros [= _ <-]. lia.
Qed.
Lemma ident_moving {A} w (v : A) : moving (j_ident w v).
Proof. intros l x a. unfold j_ident. destruct (ident_rest w (skipn 1 l) 1) as [[e o]|]; [discriminate|]. intros [= _ <-]. lia. Qed.
Lemma known_bytes_moving : moving j_known_bytes.
Proof. intros l v a. unfold j_known_bytes. destruct (scan_string 0 (skipn 1 l)) as [[n d]|[e o]]; [|discriminate]. intros [= _ <-]. lia. Qed.
Lemma known_str_moving : moving j_known_str.
Proof.
  intros l v a. unfold j_known_str. destruct (scan_string 0 (skipn 1 l)) as [[n d]|[e o]]; [|discriminate].
  destruct (utf8_invalid 0 d); [discriminate|]. intros [= _ <-]. lia.
Qed.

Lemma jthen_bounded {A B} (f : jop A) (g : A -> jop B) l v n : (forall x a, f l = (Ok x, a) -> a <= len l) ->
  (forall x a, f l = (Ok x, a) -> forall v b, g x (skipn a l) = (Ok v, b) -> b <= len (skipn a l)) ->
  jthen f g l = (Ok v, n) -> n <= len l.
Proof.
  intros Hf Hg H. apply jthen_ok in H as (x & a & b & H1 & H2 & ->). pose proof (Hf _ _ H1). pose proof (Hg _ _ H1 _ _ H2) as H3.
  rewrite skipn_length in H3. unfold bytes, byte in *. lia.
Qed.
Lemma jthen_local {A B} (f : jop A) (g : A -> jop B) l m v n :
  (forall x a, f (l ++ m) = (Ok x, a) -> a < len l -> f l = (Ok x, a)) ->
  (forall x a b, f (l ++ m) = (Ok x, a) -> a < len l -> g x (skipn a l ++ m) = (Ok v, b) -> b < len (skipn a l) ->
     g x (skipn a l) = (Ok v, b)) ->
  jthen f g (l ++ m) = (Ok v, n) -> n < len l -> jthen f g l = (Ok v, n).
Proof.
  intros Hf Hg H Hn. apply jthen_ok in H as (x & a & b & H1 & H2 & ->). apply jthen_ok. exists x, a, b.
  assert (Ha : a < len l) by lia. split; [apply Hf; auto|]. rewrite skipn_app_le in H2 by lia.
  split; [|reflexivity]. apply (Hg x a b H1 Ha H2). rewrite skipn_length. unfold bytes, byte in *. lia.
Qed.
Lemma ret_bounded {A} (x : A) l v b : jret x l = (Ok v, b) -> b <= len l.
Proof. intros [= _ <-]. lia. Qed.
Lemma ret_local {A} (x : A) : local (jret x).
Proof. intros l m v a H _. exact H. Qed.

(** Where an operation that names the next byte has stopped. *)
Lemma array_lands f l q a : (f = j_known_array \/ f = j_array_step) -> f l = (Ok (Some q), a) -> exists k, skipn a l = q :: k /\ json_ws q = false.
Proof.
  intros [->| ->].
  - unfold j_known_array, after_ws. intros H. apply jat_ok in H as (b & H & ->). apply jat_ok in H as (c & H & ->).
    destruct (skipn (run_length json_ws (skipn 1 l)) (skipn 1 l)) as [|x k] eqn:E; [discriminate|].
    destruct (N.eqb x RBRACK); [discriminate|]. injection H as <- <-. exists k. split; [|exact (ws_head _ _ _ E)]. rewrite Nat.add_0_r, <- E. rewrite skipn_skipn. f_equal; lia.
  - unfold j_array_step, after_ws. intros H. apply jat_ok in H as (b & H & ->). set (n := run_length json_ws l) in *.
    destruct (skipn n l) as [|x k] eqn:E; [discriminate|]. destruct (N.eqb x COMMA).
    + apply jat_ok in H as (c & H & ->). unfold array_peek, after_ws in H. apply jat_ok in H as (d & H & ->). cbn [skipn] in H.
      destruct (skipn (run_length json_ws k) k) as [|y r] eqn:E'; [discriminate|]. destruct (N.eqb y RBRACK); [discriminate|].
      injection H as <- <-. exists r. split; [|exact (ws_head _ _ _ E')]. replace (n + (1 + (run_length json_ws (skipn 1 (x :: k)) + 0))) with (n + (1 + run_length json_ws k)) by (cbn [skipn]; lia).
      rewrite <- skipn_skipn, E. cbn [Nat.add skipn]. exact E'.
    + destruct (N.eqb x RBRACK); discriminate.
Qed.

Section Take.
Context (D : jop bytes) (num : byte -> jop jvalue).
Context (Ds : stable false D) (Db : bounded D) (Dl : local D) (Dm : moving D).
Context (Ns : hext num) (Nb : hbounded num) (Nl : hlocal num) (Nm : forall p, moving (num p)).
Local Notation take_begin := (take_begin D num).
Local Notation take_step := (take_step D).
Local Notation take_loop := (take_loop D num).

Lemma begin_moving p : moving (take_begin p).
Proof.
  unfold JiterValue.take_begin. repeat match goal with |- context [if ?b then _ else _] => destruct b end; apply jthen_moving;
    try apply ident_moving; try apply Dm; try apply Nm; apply (jat_moving _ 1 (le_n _)).
Qed.
Lemma begin_bounded p l v a : take_begin p (p :: l) = (Ok v, a) -> a <= S (len l).
Proof.
  unfold JiterValue.take_begin. intros H. change (S (len l)) with (len (p :: l)).
  repeat match type of H with context [if ?b then _ else _] => destruct b end; (eapply jthen_bounded; [| |exact H]); try (intros x a' _; apply ret_bounded).
  - intros x a'. apply ident_bounded. discriminate.
  - intros x a'. apply ident_bounded. discriminate.
  - intros x a'. apply ident_bounded. discriminate.
  - apply Db.
  - apply known_array_bounded.
  - intros [q|] a' _; apply ret_bounded.
  - apply known_object_bounded, Db.
  - intros [k|] a' _ v' b; [|apply ret_bounded]. intros H'. eapply jthen_bounded; [| |exact H']; [apply peek_bounded|]. intros x a'' _. apply ret_bounded.
  - intros x a'. apply Nb.
Qed.
Lemma begin_lands p l f q a : take_begin p l = (Ok (inr (f, q)), a) -> exists k, skipn a l = q :: k /\ json_ws q = false.
Proof.
  unfold JiterValue.take_begin. intros H.
  repeat match type of H with context [if ?b then _ else _] => destruct b end; apply jthen_ok in H as (x & b & c & H1 & H2 & ->); try discriminate H2.
  - destruct x as [q'|]; [|discriminate]. injection H2 as <- <- <-. rewrite Nat.add_0_r. exact (array_lands _ _ _ _ (or_introl eq_refl) H1).
  - destruct x as [k|]; [|discriminate]. apply jthen_ok in H2 as (q' & c1 & c2 & H2 & H3 & ->). injection H3 as <- <- <-.
    apply peek_lands in H2 as (r & H2 & Hq). exists r. split; [|exact Hq]. rewrite skipn_skipn in H2. rewrite <- H2. f_equal; lia.
Qed.
Lemma begin_ext p l m : ext (take_begin p) (p :: l) m.
Proof.
  unfold JiterValue.take_begin.
  repeat match goal with |- context [if ?b then _ else _] => destruct b end; apply jthen_ext; try (intros; apply ret_ext);
    try (apply firm_ext, ident_stable; discriminate); try (intros x a; apply ident_bounded; discriminate);
    try (intros x E; left; eapply firm_ok; [apply ident_stable; discriminate|exact E]).
  - apply firm_ext, Ds.
  - apply Db.
  - intros v E. left. eapply firm_ok; [apply Ds|exact E].
  - apply firm_ext, known_array_stable.
  - apply known_array_bounded.
  - intros [q|] a _; apply ret_ext.
  - intros v E. left. eapply firm_ok; [apply known_array_stable|exact E].
  - apply firm_ext, known_object_stable; assumption.
  - apply known_object_bounded, Db.
  - intros [k|] a _; [|apply ret_ext]. apply jthen_ext; try (intros; apply ret_ext).
    + apply firm_ext, peek_stable.
    + apply peek_bounded.
    + intros v E. left. eapply firm_ok; [apply peek_stable|exact E].
  - intros v E. left. eapply firm_ok; [apply known_object_stable; assumption|exact E].
  - apply Ns.
  - apply Nb.
  - intros v E. right. apply ret_endless.
Qed.
Lemma begin_local p l m v a : take_begin p (p :: l ++ m) = (Ok v, a) -> a < S (len l) -> take_begin p (p :: l) = (Ok v, a).
Proof.
  unfold JiterValue.take_begin. change (p :: l ++ m) with ((p :: l) ++ m). change (S (len l)) with (len (p :: l)).
  repeat match goal with |- context [if ?b then _ else _] => destruct b end; apply jthen_local; try (intros x b c _ _; apply ret_local);
    try (intros x b; apply ident_local).
  - intros x b. apply Dl.
  - intros x b. apply known_array_local.
  - intros [q|] b c _ _; apply ret_local.
  - intros x b. apply known_object_local, Dl.
  - intros [k|] b c _ _; [|apply ret_local]. apply jthen_local; [intros x d; apply peek_local|]. intros x d e _ _. apply ret_local.
  - intros x b. apply Nl.
Qed.

Lemma step_bounded stack : forall v, bounded (take_step v stack).
Proof.
  induction stack as [|[l'|m' k] stack IH]; intros v l x a H; cbn [JiterValue.take_step] in H.
  - eapply ret_bounded; eauto.
  - eapply jthen_bounded; [| |exact H]; [apply array_step_bounded|]. intros [q|] b _ y c; [apply ret_bounded|apply IH].
  - eapply jthen_bounded; [| |exact H]; [apply next_key_bounded, Db|]. intros [q|] b _ y c; [|apply IH].
    intros H'. eapply jthen_bounded; [| |exact H']; [apply peek_bounded|]. intros z d _. apply ret_bounded.
Qed.
Lemma step_lands stack : forall v l q st a, take_step v stack l = (Ok (inr (q, st)), a) -> exists k, skipn a l = q :: k /\ json_ws q = false.
Proof.
  induction stack as [|[l'|m' k] stack IH]; intros v l q st a H; cbn [JiterValue.take_step] in H; [discriminate| |];
    apply jthen_ok in H as (x & b & c & H1 & H2 & ->); (destruct x as [y|]; [|apply IH in H2 as (r & H2 & Hq); exists r; split; [|exact Hq]; rewrite skipn_skipn in H2; rewrite <- H2; f_equal; lia]).
  - injection H2 as <- _ <-. rewrite Nat.add_0_r. exact (array_lands _ _ _ _ (or_intror eq_refl) H1).
  - apply jthen_ok in H2 as (q' & c1 & c2 & H2 & H3 & ->). injection H3 as <- _ <-.
    apply peek_lands in H2 as (r & H2 & Hq). exists r. split; [|exact Hq]. rewrite skipn_skipn in H2. rewrite <- H2. f_equal; lia.
Qed.
Lemma step_ext stack : forall v l m, ext (take_step v stack) l m.
Proof.
  induction stack as [|[l'|m' k] stack IH]; intros v l m; cbn [JiterValue.take_step]; [apply ret_ext| |]; apply jthen_ext.
  - apply firm_ext, array_step_stable.
  - apply array_step_bounded.
  - intros [q|] a _; [apply ret_ext|apply IH].
  - intros x E. left. eapply firm_ok; [apply array_step_stable|exact E].
  - apply firm_ext, next_key_stable; assumption.
  - apply next_key_bounded, Db.
  - intros [q|] a _; [|apply IH]. apply jthen_ext; try (intros; apply ret_ext).
    + apply firm_ext, peek_stable.
    + apply peek_bounded.
    + intros x E. left. eapply firm_ok; [apply peek_stable|exact E].
  - intros x E. left. eapply firm_ok; [apply next_key_stable; assumption|exact E].
Qed.
Lemma step_endless stack v : endless (take_step v stack).
Proof.
  destruct stack as [|[l'|m' k] stack]; cbn [JiterValue.take_step]; [apply ret_endless| |]; left; apply jthen_eof; apply eof_fail; reflexivity.
Qed.
Lemma step_local stack : forall v, local (take_step v stack).
Proof.
  induction stack as [|[l'|m' k] stack IH]; intros v l m x a; cbn [JiterValue.take_step]; [apply ret_local| |]; apply jthen_local.
  - intros y b. apply array_step_local.
  - intros [q|] b c _ _; [apply ret_local|apply IH].
  - intros y b. apply next_key_local, Dl.
  - intros [q|] b c _ _; [|apply IH]. apply jthen_local; [intros z d; apply peek_local|]. intros z d e _ _. apply ret_local.
Qed.

(** The rounds. *)
Lemma loop_bounded fuel : forall p stack l v a, take_loop fuel p stack (p :: l) = (Ok v, a) -> a <= S (len l).
Proof.
  induction fuel as [|fuel IH]; intros p stack l v a; cbn [JiterValue.take_loop]; [discriminate|]. intros H.
  change (S (len l)) with (len (p :: l)). eapply jthen_bounded; [| |exact H]; [intros x b Hb; exact (begin_bounded _ _ _ _ Hb)|].
  intros [x|[f q]] b Hb y c.
  - intros H'. eapply jthen_bounded; [| |exact H']; [apply step_bounded|]. intros [z|[q st]] d Hd w e; [apply ret_bounded|].
    apply step_lands in Hd as (k & -> & _). apply IH.
  - destruct (recursion_limit <=? List.length stack); [discriminate|]. apply begin_lands in Hb as (k & -> & _). apply IH.
Qed.
Lemma loop_ext fuel : forall p stack l m, ext (take_loop fuel p stack) (p :: l) m.
Proof.
  induction fuel as [|fuel IH]; intros p stack l m; cbn [JiterValue.take_loop]; [right; right; reflexivity|]. apply jthen_ext.
  - apply begin_ext.
  - apply begin_bounded.
  - intros [x|[f q]] a E.
    + apply jthen_ext; [apply step_ext|apply step_bounded| |].
      * intros [y|[q st]] b Eb; [apply ret_ext|]. apply step_lands in Eb as (k & -> & _). apply IH.
      * intros [y|[q st]] Eb; [right; apply ret_endless|]. apply step_lands in Eb as (k & Ek & _). rewrite skipn_all in Ek. discriminate.
    + destruct (recursion_limit <=? List.length stack); [right; right; reflexivity|]. apply begin_lands in E as (k & -> & _). apply IH.
  - intros [x|[f q]] E; [|apply begin_lands in E as (k & Ek & _); rewrite skipn_all in Ek; discriminate].
    right. destruct (step_endless stack x) as [H|(y & H)].
    + left. apply jthen_eof. exact H.
    + destruct y as [y|[q st]]; [|apply step_lands in H as (k & Ek & _); discriminate]. right. exists y. cbn [List.length] in H |- *.
      apply jthen_ok. exists (inl y), 0, 0. auto.
Qed.

(** Enough fuel is enough. *)
Lemma jat_eq {A} (f g : jop A) n l : f (skipn n l) = g (skipn n l) -> jat n f l = jat n g l.
Proof. unfold jat. intros ->. reflexivity. Qed.
Lemma shorter (l : bytes) a q k : skipn a l = q :: k -> len (skipn a l) + a = len l.
Proof. intros E. pose proof (skipn_length a l) as H. rewrite E in *. cbn [List.length] in *. unfold bytes, byte in *. lia. Qed.
Lemma loop_fuel fuel : forall fuel' p stack l, len l < fuel -> len l < fuel' -> take_loop fuel p stack l = take_loop fuel' p stack l.
Proof.
  induction fuel as [|fuel IH]; intros [|fuel'] p stack l H1 H2; try lia. cbn [JiterValue.take_loop]. unfold jthen at 1 3.
  destruct (take_begin p l) as [[x|e] a] eqn:E; [|reflexivity]. pose proof (begin_moving _ _ _ _ E) as Ha. apply jat_eq.
  destruct x as [x|[f q]].
  - unfold jthen. destruct (take_step x stack (skipn a l)) as [[[y|[q st]]|e] b] eqn:Eb; try reflexivity. apply jat_eq.
    apply step_lands in Eb as (k & Ek & _). pose proof (shorter _ _ _ _ Ek) as H. pose proof (skipn_length a l) as H'.
    assert (1 <= len (skipn b (skipn a l))) by (rewrite Ek; cbn [List.length]; lia). apply IH; unfold bytes, byte in *; lia.
  - destruct (recursion_limit <=? List.length stack); [reflexivity|]. apply begin_lands in E as (k & Ek & _). pose proof (shorter _ _ _ _ Ek) as H.
    apply IH; lia.
Qed.
Lemma loop_local fuel : forall p stack l m v a, take_loop fuel p stack (p :: l ++ m) = (Ok v, a) -> a < S (len l) -> take_loop fuel p stack (p :: l) = (Ok v, a).
Proof.
  induction fuel as [|fuel IH]; intros p stack l m v a; cbn [JiterValue.take_loop]; [discriminate|].
  change (p :: l ++ m) with ((p :: l) ++ m). change (S (len l)) with (len (p :: l)). apply jthen_local.
  - intros x b. apply begin_local.
  - intros [x|[f q]] b c Hb Hlt.
    + apply jthen_local; [intros y d; apply step_local|]. intros [y|[q st]] d e Hd Hd'; [apply ret_local|].
      apply step_lands in Hd as (k & Hd & _). rewrite skipn_app_le in Hd by lia.
      destruct (skipn d (skipn b (p :: l))) as [|q' k'] eqn:E; [exfalso|].
      { apply (f_equal (@List.length byte)) in E. rewrite skipn_length in E. unfold bytes, byte in *. cbn [List.length] in *. lia. }
      injection Hd as <- _. apply IH.
    + destruct (recursion_limit <=? List.length stack); [discriminate|].
      apply begin_lands in Hb as (k & Hb & _). rewrite skipn_app_le in Hb by lia.
      destruct (skipn b (p :: l)) as [|q' k'] eqn:E; [exfalso|].
      { apply (f_equal (@List.length byte)) in E. rewrite skipn_length in E. unfold bytes, byte in *. cbn [List.length] in *. lia. }
      injection Hb as <- _. apply IH.
Qed.

Lemma take_fuel fuel p l : len l < fuel -> take D num p l = take_loop fuel p [] l.
Proof. intros H. unfold take. apply loop_fuel; lia. Qed.
Lemma take_ext : hext (take D num).
Proof.
  intros p l m. unfold ext. rewrite (take_fuel (S (len ((p :: l) ++ m))) p (p :: l)) by (rewrite app_length; lia).
  apply (loop_ext (S (len ((p :: l) ++ m)))).
Qed.
Lemma take_bounded : hbounded (take D num).
Proof. intros p l v a. apply loop_bounded. Qed.
Lemma take_local : hlocal (take D num).
Proof.
  intros p l m v a. rewrite (take_fuel (S (len (p :: l ++ m))) p (p :: l)) by (cbn [List.length]; rewrite app_length; lia).
  apply loop_local.
Qed.
Lemma take_moving p : moving (take D num p).
Proof. intros l v a. unfold take. cbn [JiterValue.take_loop]. intros H. eapply jthen_moving; [|exact H]. apply begin_moving. Qed.

(** A value that touches the end does not depend on what follows, unless it is a number. *)
Lemma jthen_firm {A B} (f : jop A) (g : A -> jop B) l m v n : jthen f g l = (Ok v, n) -> bounded f ->
  (forall x a, f l = (Ok x, a) -> f (l ++ m) = (Ok x, a)) ->
  (forall x a b, f l = (Ok x, a) -> g x (skipn a l) = (Ok v, b) -> g x (skipn a l ++ m) = (Ok v, b)) ->
  jthen f g (l ++ m) = (Ok v, n).
Proof.
  intros H Hb Hf Hg. apply jthen_ok in H as (x & a & b & H1 & H2 & ->). apply jthen_ok. exists x, a, b.
  split; [apply Hf; exact H1|]. split; [|reflexivity]. rewrite skipn_app_le by (eapply Hb; eauto). eapply Hg; eauto.
Qed.
Lemma firm {A} (f : jop A) l m v a : stable false f -> f l = (Ok v, a) -> f (l ++ m) = (Ok v, a).
Proof. intros Hs E. rewrite <- E. eapply firm_ok; eauto. Qed.
Lemma step_firm stack : forall v l m x a, take_step v stack l = (Ok x, a) -> take_step v stack (l ++ m) = (Ok x, a).
Proof.
  induction stack as [|[l'|m' k] stack IH]; intros v l m x a; cbn [JiterValue.take_step]; [auto| |]; intros H; (eapply jthen_firm; [exact H|..]).
  - apply array_step_bounded.
  - intros y b. apply firm, array_step_stable.
  - intros [q|] b c _; [auto|apply IH].
  - apply next_key_bounded, Db.
  - intros y b. apply firm, next_key_stable; assumption.
  - intros [q|] b c _; [|apply IH]. intros H'. eapply jthen_firm; [exact H'|apply peek_bounded| |auto].
    intros y d. apply firm, peek_stable.
Qed.
Definition plain_begin (p : byte) : bool :=
  (N.eqb p 116 || N.eqb p 102 || N.eqb p 110 || N.eqb p QUOTE || N.eqb p LBRACK || N.eqb p LBRACE)%bool.
Lemma begin_number p : plain_begin p = false -> take_begin p = jthen (num p) (fun v => jret (inl v)).
Proof.
  unfold plain_begin. rewrite !orb_false_iff. intros (((((H1 & H2) & H3) & H4) & H5) & H6).
  unfold JiterValue.take_begin. rewrite H1, H2, H3, H4, H5, H6. reflexivity.
Qed.
Lemma begin_firm p l m x a : plain_begin p = true -> take_begin p l = (Ok x, a) -> take_begin p (l ++ m) = (Ok x, a).
Proof.
  unfold plain_begin, JiterValue.take_begin. intros Hp.
  destruct (N.eqb p 116); [|destruct (N.eqb p 102); [|destruct (N.eqb p 110); [|destruct (N.eqb p QUOTE); [|destruct (N.eqb p LBRACK); [|destruct (N.eqb p LBRACE); [|discriminate]]]]]];
    intros H; (eapply jthen_firm; [exact H|..]); try (apply ident_bounded; discriminate); try (intros y b; apply firm, ident_stable; discriminate); auto.
  - intros y b. apply firm, Ds.
  - apply known_array_bounded.
  - intros y b. apply firm, known_array_stable.
  - intros [q|] b c _; auto.
  - apply known_object_bounded, Db.
  - intros y b. apply firm, known_object_stable; assumption.
  - intros [q|] b c _; [|auto]. intros H'. eapply jthen_firm; [exact H'|apply peek_bounded| |auto]. intros y d. apply firm, peek_stable.
Qed.
Lemma step_one v f stack l x a : take_step v (f :: stack) l = (Ok x, a) -> 1 <= a.
Proof.
  destruct f; cbn [JiterValue.take_step]; intros H; (eapply jthen_moving; [|exact H]); [apply array_step_moving|apply next_key_moving].
Qed.
Lemma step_nonempty stack : forall v l q a, take_step v stack l = (Ok (inr (q, [])), a) -> False.
Proof.
  induction stack as [|[l1|m1 k1] stack IH]; intros v l q a H; cbn [JiterValue.take_step] in H; [discriminate| |];
    apply jthen_ok in H as ([z|] & d1 & d2 & H1 & H2 & ->); try (eapply IH; eauto; fail).
  - discriminate.
  - apply jthen_ok in H2 as (z' & d3 & d4 & H2 & H3 & ->). discriminate.
Qed.
Lemma loop_firm fuel : forall p stack l m v a, take_loop fuel p stack (p :: l) = (Ok v, a) ->
  take_loop fuel p stack (p :: l ++ m) = (Ok v, a) \/ stack = [] /\ num p (p :: l) = (Ok v, a).
Proof.
  induction fuel as [|fuel IH]; intros p stack l m v a; cbn [JiterValue.take_loop]; [discriminate|]. intros H.
  apply jthen_ok in H as (x & b & c & H1 & H2 & ->).
  assert (Hb : b <= len (p :: l)) by (eapply begin_bounded; eauto).
  assert (Hx : take_begin p (p :: l ++ m) = (Ok x, b) \/ stack = [] /\ c = 0 /\ num p (p :: l) = (Ok v, b)).
  { destruct (plain_begin p) eqn:Ep; [left; exact (begin_firm _ (p :: l) _ _ _ Ep H1)|].
    rewrite begin_number in H1 |- * by exact Ep. apply jthen_ok in H1 as (y & b' & b0 & H1 & E & ->). injection E as <- <-. rewrite Nat.add_0_r in *.
    destruct stack as [|f stack].
    - right. cbn [JiterValue.take_step] in H2. unfold jthen, jret, jat, jok in H2. injection H2 as <- <-. auto.
    - left. apply jthen_ok. exists y, b', 0. split; [|auto].
      apply jthen_ok in H2 as (z & d & e & H2 & H3 & ->). pose proof (step_one _ _ _ _ _ _ H2) as Hd. pose proof (step_bounded _ _ _ _ _ H2) as Hd'.
      rewrite skipn_length in Hd'. destruct (Ns p l m) as [(e1 & o1 & a1 & E1 & _)|[(v1 & E1)|E1]]; [congruence| |].
      + rewrite H1 in E1. injection E1 as _ E1. unfold bytes, byte in *. cbn [List.length] in *. lia.
      + cbn [app] in E1. congruence. }
  destruct Hx as [Hx|(-> & -> & Hx)]; [|right; rewrite Nat.add_0_r; auto].
  assert (Hc : match x with
    | inl v0 => jthen (take_step v0 stack) (fun y => match y with inl v' => jret v' | inr (q, stack') => take_loop fuel q stack' end)
    | inr (f, q) => if recursion_limit <=? List.length stack then fun _ => jfail RecursionLimitExceeded else take_loop fuel q (f :: stack)
    end (skipn b (p :: l) ++ m) = (Ok v, c) \/ stack = [] /\ num p (p :: l) = (Ok v, b + c)).
  { destruct x as [x|[f q]].
    - apply jthen_ok in H2 as (y & d & e & H2 & H3 & ->). pose proof (step_firm _ _ _ m _ _ H2) as H4.
      assert (Hd : d <= len (skipn b (p :: l))) by (eapply step_bounded; eauto).
      destruct y as [y|[q st]].
      + left. apply jthen_ok. exists (inl y), d, e. auto.
      + destruct (step_lands _ _ _ _ _ _ H2) as (k & Ek & _). left. apply jthen_ok. exists (inr (q, st)), d, e. split; [exact H4|]. split; [|reflexivity].
        rewrite skipn_app_le by exact Hd. rewrite Ek in *. cbn [app]. destruct (IH q st k m v e H3) as [?|[-> Hn]]; [assumption|].
        destruct (step_nonempty _ _ _ _ _ H2).
    - left. destruct (begin_lands _ _ _ _ _ H1) as (k & Ek & _). rewrite Ek in *. destruct (recursion_limit <=? List.length stack); [discriminate|].
      destruct (IH q (f :: stack) k m v c H2) as [?|[E _]]; [assumption|discriminate]. }
  destruct Hc as [Hc|Hc]; [left|right; exact Hc]. apply jthen_ok. exists x, b, c. split; [exact Hx|]. split; [|reflexivity].
  change (p :: l ++ m) with ((p :: l) ++ m). rewrite skipn_app_le by exact Hb. exact Hc.
Qed.
Lemma take_firm p l m v a : take D num p (p :: l) = (Ok v, a) -> take D num p (p :: l ++ m) = (Ok v, a) \/ num p (p :: l) = (Ok v, a).
Proof.
  rewrite (take_fuel (S (len (p :: l ++ m))) p (p :: l)) by (cbn [List.length]; rewrite app_length; lia). intros H.
  apply (loop_firm _ _ _ _ m) in H as [H|[_ H]]; [left; exact H|right; exact H].
Qed.

(** Where the parser stops for want of input: at the end, or in front of a token that is not complete. *)
Context (Di : inert D) (Ni : forall p, inert (num p)).
Definition hungry (l : bytes) : Prop := l = [] \/ exists p k, l = p :: k /\ json_ws p = false /\ eof_result (take_begin p l).
Definition stops {A} (f : jop A) (l : bytes) : Prop := forall e o a, f l = (Err (e, o), a) -> eof_kind e = true -> hungry (skipn a l).

Lemma jthen_stops {A B} (f : jop A) (g : A -> jop B) l : stops f l -> (forall x a, f l = (Ok x, a) -> stops (g x) (skipn a l)) -> stops (jthen f g) l.
Proof.
  intros Hf Hg e o a H He. apply jthen_err in H as [H|(x & b & (e' & o') & c & H1 & H2 & E1 & E2 & ->)]; [eapply Hf; eauto|].
  cbn [fst snd] in *. subst e. rewrite <- skipn_skipn. eapply Hg; eauto.
Qed.
Lemma jat_stops {A} n (f : jop A) l : stops f (skipn n l) -> stops (jat n f) l.
Proof.
  intros Hf e o a. unfold jat. destruct (f (skipn n l)) as [[v|[e' o']] b] eqn:E; [discriminate|]. intros [= <- <- <-] He.
  rewrite <- skipn_skipn. eapply Hf; eauto.
Qed.
Lemma ret_stops {A} (x : A) l : stops (jret x) l.
Proof. intros e o a [=]. Qed.
Lemma ws_stops {A} (f : jop A) l : (forall l, (forall p k, l = p :: k -> json_ws p = false) -> stops f l) -> stops (after_ws f) l.
Proof.
  intros Hf. apply jat_stops, Hf. intros p k E. exact (ws_head _ _ _ E).
Qed.
Lemma end_stops {A} (f : jop A) : stops f [].
Proof. intros e o a _ _. left. apply skipn_nil. Qed.
Lemma key_stops k : stops (object_key D) (QUOTE :: k).
Proof.
  intros e o a. unfold object_key. destruct (D (QUOTE :: k)) as [[d|[e' o']] b] eqn:E.
  - intros H He. unfold jat, after_ws in H. apply (jat_stops b (after_ws (fun l => match l with [] => jfail EofWhileParsingObject
      | x :: _ => if N.eqb x COLON then jok (Some d) 1 else jfail ExpectedColon end)) (QUOTE :: k)) in H; [exact (H He)|].
    apply ws_stops. intros [|x l] _; [apply end_stops|]. intros e1 o1 a1. destruct (N.eqb x COLON); [discriminate|]. intros [= <- _ _]. discriminate.
  - intros [= <- <- <-] He. right. exists QUOTE, k. split; [reflexivity|]. split; [reflexivity|].
    change (take_begin QUOTE) with (jthen D (fun d => jret (inl (VStr d)) : jop (jvalue + frame * byte))). apply jthen_eof. exists e', o', b. auto.
Qed.
Lemma array_step_stops l : stops j_array_step l.
Proof.
  apply ws_stops. clear l. intros [|x l] _; [apply end_stops|]. intros e o a. destruct (N.eqb x COMMA).
  - apply (jat_stops 1 array_peek). apply ws_stops. intros [|y k] _; [apply end_stops|]. intros e1 o1 a1.
    destruct (N.eqb y RBRACK); [|discriminate]. intros [= <- _ _]. discriminate.
  - destruct (N.eqb x RBRACK); [discriminate|]. intros [= <- _ _]. discriminate.
Qed.
Lemma known_array_stops l : stops j_known_array l.
Proof.
  apply jat_stops, ws_stops. clear l. intros [|x l] _; [apply end_stops|]. intros e o a. destruct (N.eqb x RBRACK); discriminate.
Qed.
Lemma quoted_stops l e1 e2 : eof_kind (JsonError e2) = false -> stops (fun l => match l with
  | [] => jfail e1 | x :: _ => if N.eqb x QUOTE then object_key D l else if N.eqb x RBRACE then jfail e2 else jfail KeyMustBeAString end) l.
Proof.
  intros He2. destruct l as [|x l]; [apply end_stops|]. intros e o a. cbv beta iota.
  destruct (N.eqb_spec x QUOTE) as [->|_]; [exact (key_stops l e o a)|]. destruct (N.eqb x RBRACE); intros [= <- _ _] He; [congruence|discriminate].
Qed.
Lemma known_object_stops l : stops (j_known_object D) l.
Proof.
  apply jat_stops, ws_stops. clear l. intros [|x l] _; [apply end_stops|]. intros e o a. destruct (N.eqb_spec x QUOTE) as [->|_]; [apply key_stops|].
  destruct (N.eqb x RBRACE); [discriminate|]. intros [= <- _ _]. discriminate.
Qed.
Lemma next_key_stops l : stops (j_next_key D) l.
Proof.
  apply ws_stops. clear l. intros [|x l] _; [apply end_stops|]. intros e o a. destruct (N.eqb x COMMA).
  - refine (jat_stops 1 _ (x :: l) _ e o a). apply ws_stops. intros k _. apply quoted_stops. reflexivity.
  - destruct (N.eqb x RBRACE); [discriminate|]. intros [= <- _ _]. discriminate.
Qed.
Lemma peek_stops l : stops j_peek l.
Proof. apply ws_stops. clear l. intros [|x l] _; [apply end_stops|]. intros e o a. discriminate. Qed.

Lemma inert_stops {A} (f : jop A) (g : A -> jop (jvalue + frame * byte)) p l : json_ws p = false -> inert f ->
  take_begin p = jthen f g -> (forall x a, f (p :: l) = (Ok x, a) -> stops (g x) (skipn a (p :: l))) -> stops (take_begin p) (p :: l).
Proof.
  intros Hp Hi E Hg. intros e o a H He. rewrite E in H. apply jthen_err in H as [H|(x & b & (e' & o') & c & H1 & H2 & E1 & E2 & ->)].
  - pose proof (Hi _ _ _ H) as ->. right. exists p, l. split; [reflexivity|]. split; [exact Hp|]. rewrite E. apply jthen_eof. exists e, o, 0. auto.
  - cbn [fst snd] in *. subst e. rewrite <- skipn_skipn. eapply Hg; eauto.
Qed.
Lemma begin_stops p l : json_ws p = false -> stops (take_begin p) (p :: l).
Proof.
  intros Hp. destruct (plain_begin p) eqn:Ep.
  2:{ eapply inert_stops; [exact Hp|apply Ni|apply begin_number; exact Ep|]. intros; apply ret_stops. }
  unfold plain_begin in Ep.
  destruct (N.eqb_spec p 116) as [->|_]; [eapply inert_stops; [reflexivity| |reflexivity|intros; apply ret_stops]; apply ident_inert|].
  destruct (N.eqb_spec p 102) as [->|_]; [eapply inert_stops; [reflexivity| |reflexivity|intros; apply ret_stops]; apply ident_inert|].
  destruct (N.eqb_spec p 110) as [->|_]; [eapply inert_stops; [reflexivity| |reflexivity|intros; apply ret_stops]; apply ident_inert|].
  destruct (N.eqb_spec p QUOTE) as [->|_]; [eapply inert_stops; [reflexivity| |reflexivity|intros; apply ret_stops]; apply Di|].
  destruct (N.eqb_spec p LBRACK) as [->|_].
  { refine (jthen_stops j_known_array _ _ _ _); [apply known_array_stops|]. intros [q|] a _; apply ret_stops. }
  destruct (N.eqb_spec p LBRACE) as [->|_]; [|discriminate].
  refine (jthen_stops (j_known_object D) _ _ _ _); [apply known_object_stops|]. intros [q|] a _; [|apply ret_stops].
  apply jthen_stops; [apply peek_stops|]. intros; apply ret_stops.
Qed.
Lemma step_stops stack : forall v l, stops (take_step v stack) l.
Proof.
  induction stack as [|[l'|m' k] stack IH]; intros v l; cbn [JiterValue.take_step]; [apply ret_stops| |].
  - apply jthen_stops; [apply array_step_stops|]. intros [q|] a _; [apply ret_stops|apply IH].
  - apply jthen_stops; [apply next_key_stops|]. intros [q|] a _; [|apply IH]. apply jthen_stops; [apply peek_stops|]. intros; apply ret_stops.
Qed.
Lemma loop_stops fuel : forall p stack l, json_ws p = false -> stops (take_loop fuel p stack) (p :: l).
Proof.
  induction fuel as [|fuel IH]; intros p stack l Hp; cbn [JiterValue.take_loop]; [intros e o a [= <- _ _]; discriminate|].
  apply jthen_stops; [apply begin_stops; exact Hp|]. intros [x|[f q]] a Ha.
  - apply jthen_stops; [apply step_stops|]. intros [y|[q st]] b Hb; [apply ret_stops|].
    destruct (step_lands _ _ _ _ _ _ Hb) as (k & Ek & Hq). rewrite Ek. apply IH. exact Hq.
  - destruct (recursion_limit <=? List.length stack); [intros e o b [= <- _ _]; discriminate|].
    destruct (begin_lands _ _ _ _ _ Ha) as (k & Ek & Hq). rewrite Ek. apply IH. exact Hq.
Qed.
Lemma take_stops p l : json_ws p = false -> stops (take D num p) (p :: l).
Proof. intros Hp. apply loop_stops. exact Hp. Qed.
Lemma hungry_take l : hungry l -> eof_result (jthen j_peek (take D num) l).
Proof.
  rewrite look_eq. intros [->|(p & k & -> & Hp & H)]; [apply eof_fail; reflexivity|].
  unfold after_ws. cbn [run_length]. rewrite Hp. apply jat_eof. cbn [skipn]. unfold take. cbn [JiterValue.take_loop]. apply jthen_eof. exact H.
Qed.
End Take.

(** ** The numbers in values *)
Lemma decode_any_one p : moving (decode_any p).
Proof.
  intros l v a. unfold decode_any. destruct (int_parse p l) as [[[] n]|[e o]] eqn:E; [| |discriminate].
  - intros [= _ <-]. eapply int_parse_one; eauto.
  - destruct (range_as p l) as [k|[e o]] eqn:E'; [|discriminate]. intros [= _ <-]. eapply range_as_one; eauto.
Qed.
Lemma decode_int_one p : moving (decode_int p).
Proof.
  intros l v a. unfold decode_int. destruct (int_parse p l) as [[[] n]|[e o]] eqn:E; try discriminate.
  intros [= _ <-]. eapply int_parse_one; eauto.
Qed.
Lemma decode_float_one p : moving (decode_float p).
Proof.
  intros l v a. unfold decode_float. destruct (range_as p l) as [k|[e o]] eqn:E'; [|discriminate]. intros [= _ <-]. eapply range_as_one; eauto.
Qed.
Lemma decode_int_inert p : inert (decode_int p).
Proof. intros l e a. unfold decode_int, num_fail. destruct (int_parse p l) as [[[] n]|[e' o]]; [discriminate| |]; intros [= _ <-]; reflexivity. Qed.
Lemma decode_float_inert p : inert (decode_float p).
Proof. intros l e a. unfold decode_float, num_fail. destruct (range_as p l) as [k|[e' o]]; [discriminate|]; intros [= _ <-]; reflexivity. Qed.
Lemma decode_any_inert p : inert (decode_any p).
Proof.
  intros l e a. unfold decode_any, num_fail. destruct (int_parse p l) as [[[] n]|[e' o]]; [discriminate| |].
  - destruct (range_as p l) as [k|[e' o]]; [discriminate|]. intros [= _ <-]. reflexivity.
  - intros [= _ <-]. reflexivity.
Qed.
Lemma known_num_inert {A} t (g : byte -> jop A) p : inert (g p) -> inert (known_num t g p).
Proof.
  intros Hi l e a. unfold known_num. destruct (g p l) as [[v|e'] b] eqn:E; [discriminate|]. apply Hi in E as ->.
  destruct (is_num p); intros [= _ <-]; reflexivity.
Qed.

Definition any_value (x : number_any) : jvalue := match x with AnyInt z => VInt z | AnyFloat t => VFloat t end.
Lemma value_number_ok p l v a : value_number p l = (Ok v, a) -> exists x, decode_any p l = (Ok x, a) /\ v = any_value x.
Proof.
  unfold value_number. destruct (decode_any p l) as [[[z|t]|e] b].
  - intros [= <- <-]. exists (AnyInt z). auto.
  - intros [= <- <-]. exists (AnyFloat t). auto.
  - destruct (is_num p); discriminate.
Qed.
Lemma value_number_intro p l x a : decode_any p l = (Ok x, a) -> value_number p l = (Ok (any_value x), a).
Proof. intros E. unfold value_number. rewrite E. destruct x; reflexivity. Qed.
Lemma value_number_ext : hext value_number.
Proof.
  intros x l m. destruct (is_num x) eqn:Ex.
  - destruct (decode_any_ext x l m) as [(e & o & a & E & H)|[(v & E)|E]].
    + left. exists e, o, a. unfold value_number. rewrite E, Ex. auto.
    + right. left. exists (any_value v). apply value_number_intro. exact E.
    + right. right. unfold value_number. rewrite E, Ex. reflexivity.
  - right. right. unfold value_number. cbn [app]. rewrite Ex. destruct (decode_any_choosy x l Ex) as (e & a & ->), (decode_any_choosy x (l ++ m) Ex) as (e' & a' & ->). reflexivity.
Qed.
Lemma value_number_bounded : hbounded value_number.
Proof. intros x l v a H. apply value_number_ok in H as (y & H & _). eapply decode_any_bounded; eauto. Qed.
Lemma value_number_local : hlocal value_number.
Proof.
  intros x l m v a H Ha. apply value_number_ok in H as (y & H & ->). apply value_number_intro. eapply decode_any_local; eauto.
Qed.
Lemma value_number_moving p : moving (value_number p).
Proof. intros l v a H. apply value_number_ok in H as (y & H & _). eapply decode_any_one; eauto. Qed.
Lemma value_number_inert p : inert (value_number p).
Proof.
  intros l e a. unfold value_number. destruct (decode_any p l) as [[[z|t]|e'] b] eqn:E; try discriminate. apply decode_any_inert in E as ->.
  destruct (is_num p); intros [= _ <-]; reflexivity.
Qed.

Lemma skip_number_ok p l v a : skip_number p l = (Ok v, a) -> range_as p l = Ok a.
Proof.
  unfold skip_number. destruct (range_as p l) as [n|[e o]]; [intros [= _ <-]; reflexivity|]. destruct (is_num p); discriminate.
Qed.
Lemma skip_number_ext : hext skip_number.
Proof.
  intros x l m. unfold ext, skip_number. cbn [app]. rewrite !range_same. destruct (is_num x) eqn:Ex.
  - destruct (range_stable (x :: l) m) as [(o & H)|[H|H]].
    + left. rewrite H. apply eof_num.
    + right. left. rewrite H. eexists. reflexivity.
    + right. right. cbn [app] in H. rewrite H. reflexivity.
  - right. right. destruct (range_not x l Ex) as (e & o & ->), (range_not x (l ++ m) Ex) as (e' & o' & ->). reflexivity.
Qed.
Lemma skip_number_bounded : hbounded skip_number.
Proof. intros x l v a H. apply skip_number_ok in H. rewrite range_same in H. apply range_bounded in H. exact H. Qed.
Lemma skip_number_local : hlocal skip_number.
Proof.
  intros x l m v a H Ha. pose proof H as H'. apply skip_number_ok in H'. rewrite range_same in H'.
  unfold skip_number in *. rewrite range_same in *. rewrite H' in H. change (x :: l ++ m) with ((x :: l) ++ m) in H'. rewrite (range_local _ _ _ H' Ha). exact H.
Qed.
Lemma skip_number_moving p : moving (skip_number p).
Proof. intros l v a H. apply skip_number_ok in H. eapply range_as_one; eauto. Qed.
Lemma skip_number_inert p : inert (skip_number p).
Proof. intros l e a. unfold skip_number, num_fail. destruct (range_as p l) as [n|[e' o]]; [discriminate|]. destruct (is_num p); intros [= _ <-]; reflexivity. Qed.

(** An integer is the text of a number that does not go on. *)
Lemma int_end_true l n : int_end l n = Ok (true, n) -> num_tail (skipn n l) = Ok 0.
Proof.
  unfold int_end. intros [= H]. destruct (skipn n l) as [|y r]; [reflexivity|]. cbn [num_tail]. apply negb_true_iff in H.
  apply orb_false_iff in H as [-> ->]. reflexivity.
Qed.
Lemma int_unsigned_range l n : int_unsigned l = Ok (true, n) -> num_unsigned l = Ok n.
Proof.
  destruct l as [|x l]; cbn [int_unsigned num_unsigned]; [discriminate|]. destruct (N.eqb x 48).
  - destruct l as [|y l]; [intros [= <-]; reflexivity|]. destruct (is_digit y); [discriminate|]. intros H.
    assert (n = 1) by (injection H as _ <-; reflexivity). subst n. rewrite (int_end_true _ _ H : num_tail (y :: l) = Ok 0). reflexivity.
  - destruct (is_digit x); [|destruct (N.eqb x 73); discriminate]. intros H.
    assert (n = digits (x :: l)) by (injection H as _ <-; reflexivity). subst n. rewrite (int_end_true _ _ H). cbn [add_off]. rewrite Nat.add_0_r. reflexivity.
Qed.
Lemma int_range x l n : int_parse x (x :: l) = Ok (true, n) -> num_range (x :: l) = Ok n.
Proof.
  unfold int_parse, num_range, is_inf_nan. cbn [skipn]. destruct (N.eqb x 45).
  - destruct (int_unsigned l) as [[b j]|[e o]] eqn:E; [|discriminate]. intros [= -> <-]. rewrite (int_unsigned_range _ _ E). reflexivity.
  - destruct (N.eqb x 78); [discriminate|]. intros H. destruct (N.eqb_spec x 73) as [->|_]; [discriminate H|]. apply int_unsigned_range. exact H.
Qed.
(** How far a number goes. *)
Definition ranged {A} (g : byte -> jop A) : Prop := forall x l v n, g x (x :: l) = (Ok v, n) -> num_range (x :: l) = Ok n.
Lemma decode_int_ranged : ranged decode_int.
Proof.
  intros x l v n. unfold decode_int. destruct (int_parse x (x :: l)) as [[[] k]|[e o]] eqn:E; try discriminate. intros [= _ <-]. apply int_range. exact E.
Qed.
Lemma decode_float_ranged : ranged decode_float.
Proof.
  intros x l v n. unfold decode_float. rewrite range_same. destruct (num_range (x :: l)) as [k|[e o]]; [|discriminate]. intros [= _ <-]. reflexivity.
Qed.
Lemma decode_any_ranged : ranged decode_any.
Proof.
  intros x l v n. unfold decode_any. destruct (int_parse x (x :: l)) as [[[] k]|[e o]] eqn:E; [| |discriminate].
  - intros [= _ <-]. apply int_range. exact E.
  - rewrite range_same. destruct (num_range (x :: l)) as [j|[e o]]; [|discriminate]. intros [= _ <-]. reflexivity.
Qed.
Lemma known_num_ranged {A} t (g : byte -> jop A) : ranged g -> ranged (known_num t g).
Proof. intros Hg x l v n H. apply known_num_ok in H. eapply Hg; eauto. Qed.
Lemma value_number_ranged : ranged value_number.
Proof. intros x l v n H. apply value_number_ok in H as (y & H & _). eapply decode_any_ranged; eauto. Qed.
Lemma skip_number_ranged : ranged skip_number.
Proof. intros x l v n H. apply skip_number_ok in H. rewrite range_same in H. exact H. Qed.

(** ** The methods *)
Lemma next_int_weak : weakly_stable true j_next_int.
Proof. apply look_weak, known_num_weak; [apply decode_int_ext|apply decode_int_choosy]. Qed.
Lemma next_float_weak : weakly_stable true j_next_float.
Proof. apply look_weak, known_num_weak; [apply decode_float_ext|apply decode_float_choosy]. Qed.
Lemma next_any_weak : weakly_stable true j_next_number.
Proof. apply look_weak, known_num_weak; [apply decode_any_ext|apply decode_any_choosy]. Qed.
Lemma next_int_bounded : bounded j_next_int.
Proof. apply look_bounded, known_num_bounded, decode_int_bounded. Qed.
Lemma next_float_bounded : bounded j_next_float.
Proof. apply look_bounded, known_num_bounded, decode_float_bounded. Qed.
Lemma next_any_bounded : bounded j_next_number.
Proof. apply look_bounded, known_num_bounded, decode_any_bounded. Qed.
Lemma next_int_local : local j_next_int.
Proof. apply look_local, known_num_local, decode_int_local. Qed.
Lemma next_float_local : local j_next_float.
Proof. apply look_local, known_num_local, decode_float_local. Qed.
Lemma next_any_local : local j_next_number.
Proof. apply look_local, known_num_local, decode_any_local. Qed.

Lemma known_value_ext : hext j_known_value.
Proof. apply take_ext; auto using known_str_stable, known_str_bounded, known_str_moving, value_number_ext, value_number_bounded, value_number_moving. Qed.
Lemma next_value_weak : weakly_stable true j_next_value.
Proof. apply look_weak, hext_weak, known_value_ext. Qed.
Lemma next_value_bounded : bounded j_next_value.
Proof. apply look_bounded. apply take_bounded; auto using known_str_bounded, value_number_bounded, value_number_moving. Qed.
Lemma next_value_local : local j_next_value.
Proof. apply look_local. apply take_local; auto using known_str_local, known_str_moving, value_number_local, value_number_moving. Qed.

(** [known_skip] drops what it finds. *)
Definition forget {A} (x : jres A * nat) : jres unit * nat := match x with (Ok _, a) => (Ok tt, a) | (Err e, a) => (Err e, a) end.
Lemma known_skip_forget p l : j_known_skip p l = forget (take j_known_bytes skip_number p l).
Proof.
  unfold j_known_skip, jthen. destruct (take j_known_bytes skip_number p l) as [[v|e] a]; [|reflexivity].
  unfold jat, jret, jok. cbn [forget]. rewrite Nat.add_0_r. reflexivity.
Qed.
Lemma forget_ok {A} (x : jres A * nat) v a : forget x = (Ok v, a) <-> exists w, x = (Ok w, a).
Proof.
  destruct x as [[w|e] b]; cbn [forget]; split.
  - intros [= _ <-]. eauto.
  - intros (w' & [= <- <-]). destruct v. reflexivity.
  - discriminate.
  - intros (w' & [=]).
Qed.
Lemma forget_err {A} (x : jres A * nat) e a : forget x = (Err e, a) <-> x = (Err e, a).
Proof. destruct x as [[w|e'] b]; cbn [forget]; split; intros H; try discriminate; injection H as -> ->; reflexivity. Qed.
Lemma known_skip_ext : hext j_known_skip.
Proof.
  intros p l m. unfold ext. rewrite !known_skip_forget.
  destruct (take_ext j_known_bytes skip_number known_bytes_stable known_bytes_bounded known_bytes_moving skip_number_ext skip_number_bounded skip_number_moving p l m)
    as [(e & o & a & E & H)|[(v & E)|E]].
  - left. exists e, o, a. rewrite E. auto.
  - right. left. exists tt. rewrite E. reflexivity.
  - right. right. rewrite E. reflexivity.
Qed.
Lemma known_skip_bounded : hbounded j_known_skip.
Proof.
  intros p l v a. rewrite known_skip_forget, forget_ok. intros (w & H).
  eapply (take_bounded j_known_bytes skip_number known_bytes_bounded skip_number_bounded skip_number_moving); eauto.
Qed.
Lemma known_skip_local : hlocal j_known_skip.
Proof.
  intros p l m v a. rewrite !known_skip_forget, !forget_ok. intros (w & H) Ha. exists w.
  eapply (take_local j_known_bytes skip_number known_bytes_local known_bytes_moving skip_number_local skip_number_moving); eauto.
Qed.
Lemma next_skip_weak : weakly_stable true j_next_skip.
Proof. apply look_weak, hext_weak, known_skip_ext. Qed.
Lemma next_skip_bounded : bounded j_next_skip.
Proof. apply look_bounded, known_skip_bounded. Qed.
Lemma next_skip_local : local j_next_skip.
Proof. apply look_local, known_skip_local. Qed.
Lemma next_skip_forget l : j_next_skip l = forget (jthen j_peek (take j_known_bytes skip_number) l).
Proof.
  unfold j_next_skip, jthen. destruct (j_peek l) as [[p|e] a]; [|reflexivity]. unfold jat. rewrite known_skip_forget.
  destruct (take j_known_bytes skip_number p (skipn a l)) as [[v|[e o]] b]; reflexivity.
Qed.

(** A value behind which the input ends is the same whatever follows, or it is a number. *)
Definition definite {A} (f : jop A) : Prop := forall l v n, f l = (Ok v, n) -> run_length json_ws l = 0 ->
  (forall m, f (l ++ m) = (Ok v, n)) \/ num_range l = Ok n.
Lemma look_head {A} (g : byte -> jop A) l : run_length json_ws l = 0 ->
  jthen j_peek g l = match l with [] => jfail EofWhileParsingValue | x :: _ => g x l end.
Proof.
  intros H. rewrite look_eq. unfold after_ws. rewrite H. unfold jat. cbn [skipn].
  destruct l as [|x k]; [reflexivity|]. destruct (g x (x :: k)) as [[v|[e o]] b]; reflexivity.
Qed.
Lemma look_definite {A} (g : byte -> jop A) : (forall p l v n, g p (p :: l) = (Ok v, n) -> (forall m, g p (p :: l ++ m) = (Ok v, n)) \/ num_range (p :: l) = Ok n) ->
  definite (jthen j_peek g).
Proof.
  intros Hg l v n H H0. rewrite look_head in H by exact H0. destruct l as [|p l]; [discriminate|].
  destruct (Hg _ _ _ _ H) as [H1|H1]; [left|right; exact H1]. intros m.
  rewrite look_head; [apply H1|]. cbn [app run_length] in *. destruct (json_ws p); [discriminate|reflexivity].
Qed.
Lemma ranged_definite {A} (g : byte -> jop A) : ranged g -> definite (jthen j_peek g).
Proof. intros Hg. apply look_definite. intros p l v n H. right. eapply Hg; eauto. Qed.
Lemma take_definite D num : stable false D -> bounded D -> moving D -> hext num -> hbounded num -> (forall p, moving (num p)) -> ranged num ->
  forall p l v n, take D num p (p :: l) = (Ok v, n) -> (forall m, take D num p (p :: l ++ m) = (Ok v, n)) \/ num_range (p :: l) = Ok n.
Proof.
  intros Ds Db Dm Ns Nb Nm Nr p l v n H. destruct (num_range (p :: l)) as [k|[e o]] eqn:E.
  - destruct (Nat.eq_dec k n) as [->|Hk]; [right; reflexivity|]. left. intros m.
    destruct (take_firm D num Ds Db Dm Ns Nb Nm p l m v n H) as [?|H1]; [assumption|]. apply Nr in H1. congruence.
  - left. intros m. destruct (take_firm D num Ds Db Dm Ns Nb Nm p l m v n H) as [?|H1]; [assumption|]. apply Nr in H1. congruence.
Qed.
Lemma next_value_definite : definite j_next_value.
Proof.
  apply look_definite. apply take_definite; auto using known_str_stable, known_str_bounded, known_str_moving, value_number_ext, value_number_bounded, value_number_moving, value_number_ranged.
Qed.
Lemma next_skip_definite : definite j_next_skip.
Proof.
  apply look_definite. intros p l v n. rewrite known_skip_forget, forget_ok. intros (w & H).
  destruct (take_definite _ _ known_bytes_stable known_bytes_bounded known_bytes_moving skip_number_ext skip_number_bounded skip_number_moving skip_number_ranged p l w n H) as [H1|H1]; [|auto].
  left. intros m. rewrite known_skip_forget, forget_ok. eauto.
Qed.
Lemma next_int_definite : definite j_next_int.
Proof. apply ranged_definite, known_num_ranged, decode_int_ranged. Qed.
Lemma next_float_definite : definite j_next_float.
Proof. apply ranged_definite, known_num_ranged, decode_float_ranged. Qed.
Lemma next_any_definite : definite j_next_number.
Proof. apply ranged_definite, known_num_ranged, decode_any_ranged. Qed.

(** A value cut short: going on from where the parser stopped fails for want of input again. *)
Lemma next_value_again l e o a : run_length json_ws l = 0 -> j_next_value l = (Err (e, o), a) -> eof_kind e = true -> eof_result (j_next_value (skipn a l)).
Proof.
  intros H0 H He. apply hungry_take. unfold j_next_value in H. rewrite look_head in H by exact H0. destruct l as [|p l]; [left; apply skipn_nil|].
  eapply take_stops; [| | | |exact H|exact He]; [apply value_number_moving|apply known_str_inert|apply value_number_inert|].
  cbn [run_length] in H0. destruct (json_ws p); [discriminate|reflexivity].
Qed.
Lemma next_skip_again l e o a : run_length json_ws l = 0 -> j_next_skip l = (Err (e, o), a) -> eof_kind e = true -> eof_result (j_next_skip (skipn a l)).
Proof.
  intros H0 H He.
  assert (H1 : eof_result (jthen j_peek (take j_known_bytes skip_number) (skipn a l))).
  { apply hungry_take. rewrite next_skip_forget, look_head in H by exact H0. destruct l as [|p l]; [left; apply skipn_nil|].
    apply (proj1 (forget_err _ _ _)) in H. eapply take_stops; [| | | |exact H|exact He]; [apply skip_number_moving|apply known_bytes_inert|apply skip_number_inert|].
    cbn [run_length] in H0. destruct (json_ws p); [discriminate|reflexivity]. }
  destruct H1 as (e1 & o1 & a1 & E1 & He1). exists e1, o1, a1. rewrite next_skip_forget, E1. auto.
Qed.
