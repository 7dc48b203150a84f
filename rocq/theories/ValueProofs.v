(** Whole values: the plain parser reads exactly the texts of ValueSpec.v. *)
From Coq Require Import ZArith.
From Verif Require Import Base Buffer BufferSpec BufferProofs Jiter JiterValue JiterProofs JiterValueProofs RJiter RJiterSpec.
From Verif Require Import RJiterProofs RJiterOpProofs RJiterLongProofs RJiterInvProofs Scan ScanSpec ScanTokens ScanProofs SoundSpec SoundParser ValueSpec.

(** ** Numbers *)
Lemma digits_value_decimal l : forall z, fold_left (fun z x => 10 * z + (Z.of_N x - 48))%Z l z = (z * 10 ^ Z.of_nat (len l) + decimal l)%Z.
Proof.
  induction l as [|x l IH]; intros z.
  - cbn. lia.
  - cbn [fold_left decimal]. rewrite IH. cbn [List.length]. rewrite Nat2Z.inj_succ, Z.pow_succ_r by lia. lia.
Qed.
Lemma digits_value_is l : digits_value l = decimal l.
Proof. unfold digits_value. rewrite digits_value_decimal. lia. Qed.

Lemma integer_head i : integer i -> exists x q, i = x :: q /\ digit x /\ (x = 48%N -> q = []) /\ Forall digit i.
Proof.
  intros [->|(x & d & -> & Hx & Hd)].
  - exists 48%N, []. repeat split; try constructor; unfold digit; try lia. constructor.
  - exists x, d. assert (digit x) by (unfold digit; lia). repeat split; auto; lia.
Qed.
Lemma int_value_is t z : integer_is t z -> int_value t = z.
Proof.
  intros [i Hi|i Hi].
  - destruct (integer_head i Hi) as (x & q & -> & Hx & _). unfold int_value. destruct (N.eqb_spec x 45) as [->|]; [unfold digit in Hx; lia|].
    apply digits_value_is.
  - unfold int_value. change (N.eqb 45 45) with true. cbv iota. rewrite digits_value_is. reflexivity.
Qed.
Definition floats (r : bytes) : bool := match r with y :: _ => (N.eqb y 46 || is_exp y)%bool | [] => false end.
Lemma int_end_eq l n : int_end l n = Ok (negb (floats (skipn n l)), n).
Proof. unfold int_end, floats. destruct (skipn n l); reflexivity. Qed.
Lemma int_unsigned_text i r : integer i -> no_digit r -> int_unsigned (i ++ r) = Ok (negb (floats r), len i).
Proof.
  intros [->|(x & d & -> & Hx & Hd)] Hr.
  - cbn [app int_unsigned N.eqb Pos.eqb]. destruct r as [|y r]; [reflexivity|]. cbn in Hr. rewrite Hr, int_end_eq. reflexivity.
  - assert (Hdx : digit x) by (unfold digit; lia). pose proof Hdx as Hx'. apply digit_is in Hx'. cbn [app]. unfold int_unsigned.
    destruct (N.eqb_spec x 48) as [->|_]; [lia|]. rewrite Hx'. change (x :: d ++ r) with ((x :: d) ++ r).
    rewrite digits_app_all by auto. rewrite int_end_eq, skipn_app_all. reflexivity.
Qed.
Lemma int_parse_text p t z r : integer_is t z -> no_digit r -> (exists q, t = p :: q) -> int_parse p (t ++ r) = Ok (negb (floats r), len t).
Proof.
  intros Ht Hr (q & Eq). unfold int_parse. destruct Ht as [i Hi|i Hi].
  - destruct (integer_head i Hi) as (x & q' & -> & Hx & _). injection Eq as <- <-.
    unfold digit in Hx. destruct (N.eqb_spec x 45) as [->|]; [lia|]. destruct (N.eqb_spec x 78) as [->|]; [lia|].
    change (x :: skipn 1 ((x :: q') ++ r)) with ((x :: q') ++ r). apply int_unsigned_text; auto.
  - injection Eq as <- <-. change (N.eqb 45 45) with true. cbv iota. cbn [app skipn]. rewrite int_unsigned_text by auto. reflexivity.
Qed.
Lemma delimited_floats r : delimited r -> floats r = false.
Proof.
  destruct r as [|y r]; [reflexivity|]. cbn. intros H. apply number_char_no in H as (_ & _ & _ & H0 & H1 & H2). unfold is_exp.
  destruct (N.eqb_spec y 46); [contradiction|]. destruct (N.eqb_spec y 101); [contradiction|]. destruct (N.eqb_spec y 69); [contradiction|]. reflexivity.
Qed.
Lemma fractional_app a b : fractional (a ++ b) <-> fractional a \/ fractional b.
Proof. apply Exists_app. Qed.
Lemma digits_not_fractional d : Forall digit d -> ~ fractional d.
Proof.
  intros Hd H. apply Exists_exists in H as (x & Hx & H). rewrite Forall_forall in Hd. apply Hd in Hx. unfold digit in Hx. lia.
Qed.
Lemma integer_not_fractional i : integer i -> ~ fractional i.
Proof. intros Hi. destruct (integer_head i Hi) as (x & q & _ & _ & _ & Hd). apply digits_not_fractional, Hd. Qed.
Lemma integer_is_text t z : integer_is t z -> number_text t /\ ~ fractional t.
Proof.
  intros [i Hi|i Hi].
  - split; [exists [], i, [], []; rewrite !app_nil_r; repeat split; auto; left; reflexivity|apply integer_not_fractional, Hi].
  - split; [exists [45%N], i, [], []; rewrite !app_nil_r; repeat split; auto; [right; reflexivity|left; reflexivity|left; reflexivity]|].
    intros H. inversion H as [x l H0 |x l H0]; subst; [lia|]. exact (integer_not_fractional i Hi H0).
Qed.
Lemma number_is_text t x : number_is t x -> number_text t.
Proof. intros [t0 z H|t0 H _]; [apply (integer_is_text _ _ H)|exact H]. Qed.
(** A number is its sign and integer part, and the rest. *)
Lemma number_split t : number_text t -> exists a b z, t = a ++ b /\ integer_is a z /\
  (b = [] /\ ~ fractional t \/ floats b = true /\ fractional t) /\ (forall r, delimited r -> no_digit (b ++ r)).
Proof.
  intros (s & i & f & e & -> & Hs & Hi & Hf & He). exists (s ++ i), (f ++ e).
  exists (match s with [] => decimal i | _ => - decimal i end)%Z. split; [rewrite !app_assoc; reflexivity|]. split.
  { destruct Hs as [->| ->]; cbn [app]; constructor; exact Hi. }
  split.
  - destruct f as [|y f].
    + destruct e as [|y e].
      * left. split; [reflexivity|]. rewrite !app_nil_r. destruct Hs as [->| ->]; [exact (integer_not_fractional i Hi)|].
        exact (proj2 (integer_is_text (45%N :: i) _ (is_negative i Hi))).
      * right. destruct He as [?|(m & s' & d & E & Hm & _)]; [discriminate|]. injection E as -> _. cbn [app floats].
        split; [destruct Hm as [->| ->]; reflexivity|]. rewrite !fractional_app. right. right. left. tauto.
    + right. destruct Hf as [?|(d & E & _)]; [discriminate|]. injection E as -> _. cbn [app floats]. split; [reflexivity|].
      rewrite !fractional_app. right. right. left. tauto.
  - intros r Hr. rewrite <- app_assoc. apply tail_no_digit; auto.
Qed.
Lemma int_parse_number p t r : number_text t -> delimited r -> (exists q, t = p :: q) ->
  exists a b z, t = a ++ b /\ integer_is a z /\
    (b = [] /\ ~ fractional t /\ int_parse p (t ++ r) = Ok (true, len t) \/
     fractional t /\ int_parse p (t ++ r) = Ok (false, len a)).
Proof.
  intros Ht Hr (q & Eq). destruct (number_split t Ht) as (a & b & z & E & Ha & Hb & Hn). exists a, b, z. split; [exact E|]. split; [exact Ha|].
  assert (Hp : exists q, a = p :: q).
  { destruct Ha as [i Hi|i Hi]; [destruct (integer_head i Hi) as (x & q' & -> & _)|]; rewrite Eq in E; injection E as -> _; eauto. }
  pose proof (int_parse_text p a z (b ++ r) Ha (Hn r Hr) Hp) as H. rewrite app_assoc, <- E in H.
  destruct Hb as [(-> & Hb)|(Hb & Hf)].
  - left. split; [reflexivity|]. split; [exact Hb|]. rewrite H. cbn [app]. rewrite (delimited_floats r Hr). rewrite E, app_nil_r. reflexivity.
  - right. split; [exact Hf|]. rewrite H. f_equal. f_equal. destruct b as [|y b]; [discriminate|]. cbn [app floats] in *. rewrite Hb. reflexivity.
Qed.
Lemma range_text p t r : number_text t -> delimited r -> (exists q, t = p :: q) -> range_as p (t ++ r) = Ok (len t).
Proof. intros Ht Hr (q & ->). cbn [app]. rewrite range_same. apply (number_range (p :: q) r); auto. Qed.
Lemma firstn_head p q (r : bytes) : firstn (len (p :: q)) (p :: skipn 1 ((p :: q) ++ r)) = p :: q.
Proof. change (p :: skipn 1 ((p :: q) ++ r)) with ((p :: q) ++ r). apply firstn_app_all. Qed.

Lemma decode_any_text p t r x : number_is t x -> delimited r -> (exists q, t = p :: q) ->
  exists y, decode_any p (t ++ r) = (Ok y, len t) /\ any_value y = x.
Proof.
  intros Hx Hr Hq. pose proof (number_is_text t x Hx) as Ht.
  destruct (int_parse_number p t r Ht Hr Hq) as (a & b & z & E & Ha & [(-> & Hf & Hp)|(Hf & Hp)]); unfold decode_any; rewrite Hp.
  - rewrite app_nil_r in E. subst a. destruct Hq as (q & Eq). subst t. rewrite firstn_head. eexists. split; [reflexivity|].
    rewrite (int_value_is _ _ Ha). destruct Hx as [t z' Hz|t Hz Hz']; [|contradiction]. cbn [any_value]. f_equal.
    rewrite <- (int_value_is _ _ Hz), <- (int_value_is _ _ Ha). reflexivity.
  - rewrite (range_text p t r Ht Hr Hq), firstn_app_all. eexists. split; [reflexivity|].
    destruct Hx as [t z' Hz|t Hz Hz']; [|reflexivity]. elim (proj2 (integer_is_text _ _ Hz) Hf).
Qed.
Lemma decode_int_text p t r z : integer_is t z -> delimited r -> (exists q, t = p :: q) -> decode_int p (t ++ r) = (Ok z, len t).
Proof.
  intros Hz Hr Hq. destruct (decode_any_text p t r (VInt z) (is_int t z Hz) Hr Hq) as (y & E & Ey). unfold decode_any in E. unfold decode_int.
  destruct (int_parse p (t ++ r)) as [[[] n]|[e o]]; [| |discriminate].
  - injection E as <- ->. unfold any_value in Ey. injection Ey as <-. reflexivity.
  - destruct (range_as p (t ++ r)) as [k|[e o]]; [|discriminate]. injection E as <- _. discriminate.
Qed.
Lemma decode_float_text p t r : number_text t -> delimited r -> (exists q, t = p :: q) -> decode_float p (t ++ r) = (Ok t, len t).
Proof. intros Ht Hr Hq. unfold decode_float. rewrite (range_text p t r Ht Hr Hq), firstn_app_all. reflexivity. Qed.

(** The other direction. *)
Lemma int_end_inv l n b k : int_end l n = Ok (b, k) -> k = n /\ b = negb (floats (skipn n l)).
Proof. rewrite int_end_eq. intros H. injection H as <- <-. auto. Qed.
Lemma int_unsigned_inv l b n : int_unsigned l = Ok (b, n) -> 
  (b = true \/ floats (skipn n l) = true \/ n = 0) /\ (b = true -> integer (firstn n l)).
Proof.
  unfold int_unsigned. destruct l as [|x l]; [discriminate|]. destruct (N.eqb_spec x 48) as [->|Hx].
  - destruct l as [|y l]; [intros H; injection H as <- <-; split; [auto|left; reflexivity]|]. destruct (is_digit y); [discriminate|]. intros H.
    apply int_end_inv in H as (-> & ->). cbn [skipn firstn]. destruct (floats (y :: l)); cbn [negb]; split; auto; [discriminate|left; reflexivity].
  - destruct (is_digit x) eqn:Ed.
    + intros H. apply int_end_inv in H as (-> & ->). destruct (floats _); cbn [negb]; split; auto; [discriminate|]. intros _. right.
      unfold digits. cbn [run_length]. rewrite Ed. cbn [firstn]. exists x, (firstn (digits l) l). split; [reflexivity|].
      split; [apply digit_is in Ed; unfold digit in Ed; lia|apply digits_forall].
    + destruct (N.eqb x 73); [|discriminate]. intros H. injection H as <- <-. split; [auto|discriminate].
Qed.
Lemma int_parse_inv p l b n : int_parse p (p :: l) = Ok (b, n) ->
  (b = true -> exists z, integer_is (firstn n (p :: l)) z) /\ (b = false -> floats (skipn n (p :: l)) = true \/ forall k, range_as p (p :: l) <> Ok k).
Proof.
  unfold int_parse, range_as. destruct (N.eqb_spec p 45) as [->|Hp].
  - cbn [skipn]. destruct (int_unsigned l) as [[b' n']|[e o]] eqn:E; [|discriminate]. intros H. injection H as <- <-.
    destruct (int_unsigned_inv _ _ _ E) as (H1 & H2). split.
    + intros Hb. cbn [firstn]. eexists. apply is_negative, H2, Hb.
    + intros ->. cbn [skipn]. destruct H1 as [H1|[H1| ->]]; [discriminate|auto|]. destruct l as [|x l]; [discriminate|].
      right. intros k Hk. apply add_off_ok in Hk as (j & Hk & _). pose proof (float_longer_unsigned _ _ _ E Hk) as _.
      unfold int_unsigned in E. unfold num_unsigned in Hk. destruct (N.eqb x 48); [destruct l as [|y l]; [discriminate|];destruct (is_digit y); [discriminate|]; rewrite int_end_eq in E; discriminate|].
      destruct (is_digit x) eqn:Ed; [rewrite int_end_eq in E; unfold digits in E; cbn [run_length] in E; rewrite Ed in E; discriminate|].
      discriminate.
  - destruct (N.eqb_spec p 78) as [->|Hn]; [intros H; injection H as <- <-; split; [discriminate|]; intros _; right; discriminate|].
    intros E. change (p :: skipn 1 (p :: l)) with (p :: l) in E. destruct (int_unsigned_inv _ _ _ E) as (H1 & H2). split.
    + intros Hb. eexists. apply is_positive, H2, Hb.
    + intros ->. destruct H1 as [H1|[H1| ->]]; [discriminate|auto|].
      right. intros k Hk. destruct (N.eqb p 73) eqn:E73; [discriminate|].
      unfold int_unsigned in E. unfold num_unsigned in Hk. destruct (N.eqb p 48); [destruct l as [|y l]; [discriminate|];destruct (is_digit y); [discriminate|]; rewrite int_end_eq in E; discriminate|].
      destruct (is_digit p) eqn:Ed; [rewrite int_end_eq in E; unfold digits in E; cbn [run_length] in E; rewrite Ed in E; discriminate|].
      discriminate.
Qed.
Lemma floats_fractional l k n : floats (skipn k l) = true -> k < n -> fractional (firstn n l).
Proof.
  intros H Hk. rewrite <- (firstn_skipn k l), firstn_app. apply fractional_app. right. rewrite firstn_length.
  destruct (skipn k l) as [|y m]; [discriminate|]. destruct (n - Nat.min k (List.length l)) as [|j] eqn:Ej; [lia|]. cbn [firstn]. left.
  unfold floats, is_exp in H. destruct (N.eqb_spec y 46); [auto|]. destruct (N.eqb_spec y 101); [auto|]. destruct (N.eqb_spec y 69); [auto|]. discriminate.
Qed.
Lemma decode_any_inv p l x n : decode_any p (p :: l) = (Ok x, n) -> number_is (firstn n (p :: l)) (any_value x).
Proof.
  intros H. pose proof (decode_any_ranged _ _ _ _ H) as Hr. unfold decode_any in H. destruct (int_parse p (p :: l)) as [[[] k]|[e o]] eqn:E; [| |discriminate].
  - injection H as <- <-. destruct (proj1 (int_parse_inv _ _ _ _ E) eq_refl) as (z & Hz). cbn [any_value].
    change (firstn k (p :: skipn 1 (p :: l))) with (firstn k (p :: l)). rewrite (int_value_is _ _ Hz). apply is_int, Hz.
  - destruct (range_as p (p :: l)) as [k'|[e o]] eqn:Er; [|discriminate]. injection H as <- <-. cbn [any_value].
    apply is_float; [apply range_inv, Hr|]. destruct (proj2 (int_parse_inv _ _ _ _ E) eq_refl) as [Hf|Hf]; [|elim (Hf k' Er)].
    eapply floats_fractional; [exact Hf|]. eapply float_longer; eauto.
Qed.
Lemma decode_int_inv p l z n : decode_int p (p :: l) = (Ok z, n) -> integer_is (firstn n (p :: l)) z.
Proof.
  unfold decode_int. destruct (int_parse p (p :: l)) as [[[] k]|[e o]] eqn:E; try discriminate. intros H. injection H as <- <-.
  destruct (proj1 (int_parse_inv _ _ _ _ E) eq_refl) as (z & Hz). change (firstn k (p :: skipn 1 (p :: l))) with (firstn k (p :: l)).
  rewrite (int_value_is _ _ Hz). exact Hz.
Qed.
Lemma decode_float_inv p l t n : decode_float p (p :: l) = (Ok t, n) -> t = firstn n (p :: l) /\ number_text t.
Proof.
  intros H. pose proof (decode_float_ranged _ _ _ _ H) as Hr. unfold decode_float in H. destruct (range_as p (p :: l)) as [k|[e o]]; [|discriminate].
  injection H as <- <-. split; [reflexivity|apply range_inv, Hr].
Qed.

(** ** Strings *)
Definition decodes (D : jop bytes) (str : bytes -> bytes -> Prop) : Prop :=
  forall l d n, D l = (Ok d, n) <-> exists t, j_known_bytes l = (Ok t, n) /\ str t d.
Lemma known_str_decodes : decodes j_known_str string_is.
Proof.
  intros l d n. unfold j_known_str, j_known_bytes, string_is. destruct (scan_string 0 (skipn 1 l)) as [[k d']|[e o]] eqn:Es.
  2:{ split; [discriminate|]. intros (t & H & _). discriminate. }
  destruct (scan_text_inv (len (skipn 1 l)) (skipn 1 l) k d' (le_n _) Es) as (Ht & _).
  split.
  - destruct (utf8_invalid 0 d') eqn:Eu; [discriminate|]. intros H. injection H as <- <-. eexists. split; [reflexivity|]. auto.
  - intros (t & H & Hd & Hu). injection H as <- <-. pose proof (json_text_fun _ _ _ _ _ Hd Ht) as ->. unfold is_utf8 in Hu. rewrite Hu. reflexivity.
Qed.
Lemma known_bytes_decodes : decodes j_known_bytes (fun t d => t = d).
Proof. intros l d n. split; [eauto|]. intros (t & H & ->). exact H. Qed.

(** [f] answers as [g], up to the value. *)
Definition mapped {A B} (R : A -> B -> Prop) (f : jop B) (g : jop A) : Prop :=
  forall l v n, f l = (Ok v, n) <-> exists v', g l = (Ok v', n) /\ R v' v.
Lemma jat_ok {A} (f : jop A) k l v n : jat k f l = (Ok v, n) <-> exists a, f (skipn k l) = (Ok v, a) /\ n = k + a.
Proof.
  unfold jat. destruct (f (skipn k l)) as [[x|[e o]] a].
  - split; [intros H; injection H as <- <-; eauto|]. intros (b & H & ->). injection H as -> ->. reflexivity.
  - split; [discriminate|]. intros (b & H & _). discriminate.
Qed.
Lemma jat_mapped {A B} (R : A -> B -> Prop) f g k : mapped R f g -> mapped R (jat k f) (jat k g).
Proof.
  intros H l v n. rewrite jat_ok. split.
  - intros (a & E & ->). apply H in E as (v' & E & HR). exists v'. split; [|exact HR]. apply jat_ok. eauto.
  - intros (v' & E & HR). apply jat_ok in E as (a & E & ->). exists a. split; [|reflexivity]. apply H. eauto.
Qed.
Lemma after_ws_mapped {A B} (R : A -> B -> Prop) f g : mapped R f g -> mapped R (after_ws f) (after_ws g).
Proof. intros H l v n. unfold after_ws. apply jat_mapped, H. Qed.

(** ** Values *)
Lemma grammar_shorter :
  (forall b v l r, value_at any_layout b v l r -> len r < len l) /\
  (forall vs l r, items_at any_layout vs l r -> len r < len l) /\
  (forall ms l r, members_at any_layout ms l r -> len r < len l).
Proof.
  apply (grammar_ind any_layout (fun _ _ l r => len r < len l) (fun _ l r => len r < len l) (fun _ l r => len r < len l)); intros; 
    repeat (rewrite ?app_length; cbn [List.length bs] in *); unfold bytes, byte in *; try lia.
  all: try (cbn; lia).
  destruct (number_head t) as (x & q & -> & _); [assumption|]. cbn [List.length]. lia.
Qed.
Section Take.
Context (D : jop bytes) (str : bytes -> bytes -> Prop) (num : byte -> jop jvalue) (nm : bytes -> jvalue -> Prop).
Context (HD : decodes D str).
Context (HN : forall p t r x, nm t x -> delimited r -> (exists q, t = p :: q) -> num p (t ++ r) = (Ok x, len t)).
Context (HN' : forall p l x n, num p (p :: l) = (Ok x, n) -> number_text (firstn n (p :: l)) /\ nm (firstn n (p :: l)) x /\ n <= S (len l)).

(** Parsers with keys: as with [j_known_bytes], the key decoded. *)
Definition opt_str (o o' : option bytes) : Prop :=
  match o, o' with None, None => True | Some t, Some d => str t d | _, _ => False end.
Ltac both_fail := split; [discriminate|]; let H := fresh in intros (? & H & _); discriminate.
Lemma none_D n0 (v : option bytes) n : (@jok (option bytes) None n0) = (Ok v, n) <-> exists v', (@jok (option bytes) None n0) = (Ok v', n) /\ opt_str v' v.
Proof.
  split.
  - intros H. injection H as <- <-. exists None. split; [reflexivity|exact I].
  - intros (v' & H & Hs). injection H as <- <-. destruct v; [contradiction|reflexivity].
Qed.
Lemma object_key_D : mapped opt_str (object_key D) (object_key j_known_bytes).
Proof.
  intros l o n. unfold object_key. split.
  - destruct (D l) as [[d|e] a] eqn:E; [|discriminate]. apply HD in E as (t & E & Hs). rewrite E. intros H. apply jat_ok in H as (b & H & ->).
    unfold after_ws in H. apply jat_ok in H as (c & H & ->).
    destruct (skipn (run_length json_ws (skipn a l)) (skipn a l)) as [|x m] eqn:Em; [discriminate|].
    destruct (N.eqb x COLON) eqn:Ex; [|discriminate]. injection H as <- <-. exists (Some t). split; [|exact Hs].
    apply jat_ok. eexists. split; [|reflexivity]. unfold after_ws. apply jat_ok. rewrite Em, Ex. eexists. split; reflexivity.
  - intros (o' & H & Hs). destruct (j_known_bytes l) as [[t|e] a] eqn:E; [|discriminate]. apply jat_ok in H as (b & H & ->).
    unfold after_ws in H. apply jat_ok in H as (c & H & ->).
    destruct (skipn (run_length json_ws (skipn a l)) (skipn a l)) as [|x m] eqn:Em; [discriminate|].
    destruct (N.eqb x COLON) eqn:Ex; [|discriminate]. injection H as <- <-. destruct o as [d|]; [|contradiction]. cbn in Hs.
    rewrite (proj2 (HD l d a)) by eauto.
    apply jat_ok. eexists. split; [|reflexivity]. unfold after_ws. apply jat_ok. rewrite Em, Ex. eexists. split; reflexivity.
Qed.
Lemma known_object_D : mapped opt_str (j_known_object D) (j_known_object j_known_bytes).
Proof.
  apply jat_mapped, after_ws_mapped. intros l v n. destruct l as [|x l]; [both_fail|].
  destruct (N.eqb x QUOTE); [apply object_key_D|]. destruct (N.eqb x RBRACE); [apply none_D|both_fail].
Qed.
Lemma next_key_D : mapped opt_str (j_next_key D) (j_next_key j_known_bytes).
Proof.
  apply after_ws_mapped. intros l v n. destruct l as [|x l]; [both_fail|].
  destruct (N.eqb x COMMA).
  - apply jat_mapped, after_ws_mapped. clear - HD. intros l v n. destruct l as [|x l]; [both_fail|].
    destruct (N.eqb x QUOTE); [apply object_key_D|]. destruct (N.eqb x RBRACE); both_fail.
  - destruct (N.eqb x RBRACE); [apply none_D|both_fail].
Qed.

(** *** One round at a time *)
Context (Dm : moving D) (Nm : forall p, moving (num p)).
Definition go (p : byte) (stack : list frame) : jop jvalue := fun l => take_loop D num (S (len l)) p stack l.
Definition after_step (y : jvalue + byte * list frame) : jop jvalue :=
  match y with inl v => jret v | inr (q, stack) => go q stack end.
Definition after (v : jvalue) (stack : list frame) : jop jvalue := jthen (take_step D v stack) after_step.
Definition too_deep : jop jvalue := fun _ => jfail RecursionLimitExceeded.
Definition after_begin (stack : list frame) (x : jvalue + frame * byte) : jop jvalue :=
  match x with
  | inl v => after v stack
  | inr (f, q) => if recursion_limit <=? List.length stack then too_deep else go q (f :: stack)
  end.
Lemma jthen_cong {A B} (f : jop A) (g g' : A -> jop B) l : (forall x a, f l = (Ok x, a) -> g x (skipn a l) = g' x (skipn a l)) ->
  jthen f g l = jthen f g' l.
Proof. intros H. unfold jthen. destruct (f l) as [[x|e] a]; [|reflexivity]. apply jat_eq, H. reflexivity. Qed.
Lemma jat_jat {A} a b (f : jop A) l : jat a (jat b f) l = jat (a + b) f l.
Proof.
  unfold jat. rewrite skipn_skipn. destruct (f (skipn (a + b) l)) as [[v|[e o]] c]; rewrite ?Nat.add_assoc; reflexivity.
Qed.
Lemma jthen_assoc {A B C} (f : jop A) (g : A -> jop B) (h : B -> jop C) l : jthen (jthen f g) h l = jthen f (fun x => jthen (g x) h) l.
Proof.
  unfold jthen. destruct (f l) as [[x|e] a]; [|reflexivity]. unfold jat at 1 3. destruct (g x (skipn a l)) as [[y|[e o]] b]; [|reflexivity].
  rewrite <- jat_jat. reflexivity.
Qed.
Lemma jthen_ret {A B} (x : A) (g : A -> jop B) l : jthen (jret x) g l = g x l.
Proof. unfold jthen, jret, jok. apply jat_0. Qed.
Lemma go_eq p stack l : go p stack l = jthen (take_begin D num p) (after_begin stack) l.
Proof.
  unfold go. cbn [take_loop]. apply jthen_cong. intros x a E. pose proof (begin_moving D num Dm Nm p _ _ _ E) as Ha. destruct x as [v|[f q]].
  - cbn [after_begin]. unfold after. apply jthen_cong. intros [y|[q st]] b Eb; [reflexivity|]. cbn [after_step]. unfold go.
    pose proof (step_lands D num Nm _ _ _ _ _ _ Eb) as (k & Ek & _). pose proof (shorter num Nm _ _ _ _ Ek) as H1.
    assert (len (skipn a l) <= len l - a) by (rewrite skipn_length; unfold bytes, byte in *; lia). assert (0 < len (skipn b (skipn a l))) by (rewrite Ek; cbn; lia).
    apply loop_fuel; auto; unfold bytes, byte in *; lia.
  - cbn [after_begin]. destruct (recursion_limit <=? List.length stack); [reflexivity|]. unfold go.
    pose proof (begin_lands D num Nm _ _ _ _ _ E) as (k & Ek & _). pose proof (shorter num Nm _ _ _ _ Ek) as H1.
    assert (0 < len (skipn a l)) by (rewrite Ek; cbn; lia).
    apply loop_fuel; auto; unfold bytes, byte in *; lia.
Qed.
Lemma after_array v acc stack l : after v (FArray acc :: stack) l = jthen j_array_step (fun o =>
  match o with None => after (VArray (acc ++ [v])) stack | Some q => go q (FArray (acc ++ [v]) :: stack) end) l.
Proof.
  unfold after at 1. cbn [take_step]. rewrite jthen_assoc. apply jthen_cong. intros [q|] a _; [rewrite jthen_ret; reflexivity|reflexivity].
Qed.
Lemma after_object v m k stack l : after v (FObject m k :: stack) l = jthen (j_next_key D) (fun o =>
  match o with
  | None => after (VObject (m ++ [(k, v)])) stack
  | Some k' => jthen j_peek (fun q => go q (FObject (m ++ [(k, v)]) k' :: stack))
  end) l.
Proof.
  unfold after at 1. cbn [take_step]. rewrite jthen_assoc. apply jthen_cong. intros [k'|] a _; [|reflexivity].
  rewrite jthen_assoc. apply jthen_cong. intros q b _. rewrite jthen_ret. reflexivity.
Qed.

(** *** Completeness *)
(** [g] at [l] goes on as [f] at [r]. *)
Definition runs {A} (g : jop A) (l : bytes) (f : jop A) (r : bytes) : Prop := exists n, r = skipn n l /\ g l = jat n f l.
Lemma runs_refl {A} (g g' : jop A) l : g l = g' l -> runs g l g' l.
Proof. intros H. exists 0. split; [reflexivity|]. rewrite jat_0. exact H. Qed.
Lemma runs_trans {A} (g f h : jop A) l r q : runs g l f r -> runs f r h q -> runs g l h q.
Proof.
  intros (n & -> & E) (m & -> & E'). exists (n + m). split; [apply skipn_skipn|]. rewrite E, <- jat_jat. apply jat_eq. exact E'.
Qed.
Lemma runs_eq {A} (g g' f : jop A) l r : g l = g' l -> runs g' l f r -> runs g l f r.
Proof. intros H. apply runs_trans, runs_refl, H. Qed.
Lemma runs_then {A B} (f : jop A) (g : A -> jop B) l x r : parsed f l x r -> runs (jthen f g) l (g x) r.
Proof. intros (a & E & ->). exists a. split; [reflexivity|]. unfold jthen. rewrite E. reflexivity. Qed.
Lemma runs_on {A B} (f : jop A) (g : A -> jop B) h l x r : parsed f l x r -> g x = h -> runs (jthen f g) l h r.
Proof. intros H <-. apply runs_then, H. Qed.
Lemma runs_begin p stack l x r : parsed (take_begin D num p) l x r -> runs (go p stack) l (after_begin stack x) r.
Proof. intros H. eapply runs_eq; [apply go_eq|]. apply runs_then, H. Qed.
Lemma parsed_then {A B} (f : jop A) (g : A -> jop B) l x m y r : parsed f l x m -> parsed (g x) m y r -> parsed (jthen f g) l y r.
Proof.
  intros (a & E & ->) (b & E' & ->). exists (a + b). split; [|apply skipn_skipn]. apply jthen_ok. exists x, a, b. auto.
Qed.
Lemma parsed_ret {A} (x : A) l : parsed (jret x) l x l.
Proof. exists 0. split; reflexivity. Qed.
Lemma runs_parsed {A} (g f : jop A) l r x m : runs g l f r -> parsed f r x m -> parsed g l x m.
Proof.
  intros (n & -> & E) (b & E' & ->). exists (n + b). split; [|apply skipn_skipn]. rewrite E. apply jat_ok. eauto.
Qed.
Lemma parsed_mapped {A B} (R : A -> B -> Prop) f g l v v' r : mapped R f g -> parsed g l v' r -> R v' v -> parsed f l v r.
Proof. intros H (a & E & ->) HR. exists a. split; [|reflexivity]. apply H. eauto. Qed.

Notation means := (means str nm).
Definition cap (v : json) (stack : list frame) : Prop := depth v + List.length stack <= recursion_limit.
Definition caps (vs : list json) (stack : list frame) : Prop := Forall (fun v => cap v stack) vs.
Lemma cap_array v vs stack f : cap (JArray (v :: vs)) stack -> caps (v :: vs) (f :: stack) /\ List.length stack < recursion_limit.
Proof.
  unfold caps, cap. cbn [depth List.length]. intros H. split; [|lia]. apply Forall_forall. intros x Hx.
  assert (depth x <= list_max (map depth (v :: vs))); [|lia].
  pose proof (proj1 (list_max_le (map depth (v :: vs)) _) (le_n _)) as HF. rewrite Forall_forall in HF. apply HF, in_map, Hx.
Qed.
Definition mcaps (ms : list (bytes * json)) (stack : list frame) : Prop := Forall (fun kv => cap (snd kv) stack) ms.
Lemma cap_object kv ms stack f : cap (JObject (kv :: ms)) stack -> mcaps (kv :: ms) (f :: stack) /\ List.length stack < recursion_limit.
Proof.
  unfold mcaps, cap. cbn [depth List.length]. intros H. split; [|lia]. apply Forall_forall. intros x Hx.
  assert (depth (snd x) <= list_max (map (fun kv => depth (snd kv)) (kv :: ms))); [|lia].
  pose proof (proj1 (list_max_le (map (fun kv => depth (snd kv)) (kv :: ms)) _) (le_n _)) as HF. rewrite Forall_forall in HF.
  apply HF. apply (in_map (fun kv => depth (snd kv))), Hx.
Qed.
Definition value_runs (b : bool) (v : json) (l r : bytes) : Prop := forall p m x stack,
  l = p :: m -> means v x -> cap v stack -> runs (go p stack) l (after x stack) r.
Definition items_run (vs : list json) (l r : bytes) : Prop := forall x acc xs stack,
  means_all str nm vs xs -> caps vs (FArray [] :: stack) -> runs (after x (FArray acc :: stack)) l (after (VArray (acc ++ x :: xs)) stack) r.
Definition members_run (ms : list (bytes * json)) (l r : bytes) : Prop := forall x k acc ys stack,
  means_members str nm ms ys -> mcaps ms (FArray [] :: stack) ->
  runs (after x (FObject acc k :: stack)) l (after (VObject (acc ++ (k, x) :: ys)) stack) r.

Lemma not_plain x : x = 45%N \/ digit x -> plain_begin x = false.
Proof.
  intros H. unfold plain_begin. unfold digit, QUOTE, LBRACK, LBRACE in *.
  repeat match goal with |- context [N.eqb x ?k] => destruct (N.eqb_spec x k); [lia|] end. reflexivity.
Qed.
Lemma number_begin p t r x : number_text t -> (exists q, t = p :: q) -> nm t x -> delimited r -> parsed (take_begin D num p) (t ++ r) (inl x) r.
Proof.
  intros Ht Hq Hx Hr. destruct (number_head t Ht) as (p' & q' & E & Hp). destruct Hq as (q & Eq). assert (p' = p) as -> by congruence.
  rewrite begin_number by (auto using not_plain). eapply parsed_then; [|apply parsed_ret].
  exists (len t). split; [apply HN; eauto|]. symmetry. apply skipn_app_all.
Qed.
Lemma known_D t d r : string_text t -> str t d -> parsed D (QUOTE :: t ++ QUOTE :: r) d r.
Proof. intros Ht Hs. apply (parsed_mapped (fun t d => str t d) D j_known_bytes _ d t); auto. apply at_known_bytes, Ht. Qed.
Lemma open_object w k d w1 l : spaces w -> string_text k -> spaces w1 -> str k d ->
  parsed (j_known_object D) (LBRACE :: w ++ QUOTE :: k ++ QUOTE :: w1 ++ COLON :: l) (Some d) l.
Proof.
  intros Hw Hk Hw1 Hd. apply (parsed_mapped opt_str _ _ _ _ (Some k) _ known_object_D); [|exact Hd].
  pose proof (at_object_open w k w1 l Hw Hk Hw1) as H. unfold j_next_object, next_as in H. apply parsed_after_ws in H.
  rewrite skip_jw_head in H by reflexivity. exact H.
Qed.
Lemma open_empty w l : spaces w -> parsed (j_known_object D) (LBRACE :: w ++ RBRACE :: l) None l.
Proof.
  intros Hw. apply (parsed_mapped opt_str _ _ _ _ None _ known_object_D); [|exact I].
  pose proof (at_object_open_end w l Hw) as H. unfold j_next_object, next_as in H. apply parsed_after_ws in H.
  rewrite skip_jw_head in H by reflexivity. exact H.
Qed.
Lemma limit_ok {A} stack (a b : A) : List.length (A := frame) stack < recursion_limit -> (if recursion_limit <=? List.length stack then a else b) = b.
Proof. intros H. apply Nat.leb_gt in H. rewrite H. reflexivity. Qed.

Lemma complete :
  (forall b v l r, value_at any_layout b v l r -> value_runs b v l r) /\
  (forall vs l r, items_at any_layout vs l r -> items_run vs l r) /\
  (forall ms l r, members_at any_layout ms l r -> members_run ms l r).
Proof.
  apply (grammar_ind any_layout value_runs items_run members_run).
  - intros b r p m x stack El Hm _. inversion Hm; subst. injection El as <- _.
    apply (runs_begin 110%N stack (bs "null" ++ r) (inl VNull) r).
    apply (parsed_then j_known_null (fun _ => jret (inl VNull)) _ tt r); [apply at_known_null|apply parsed_ret].
  - intros b r p m x stack El Hm _. inversion Hm; subst. injection El as <- _.
    apply (runs_begin 116%N stack (bs "true" ++ r) (inl (VBool true)) r).
    apply (parsed_then j_true (fun b => jret (inl (VBool b))) _ true r); [apply at_known_true|apply parsed_ret].
  - intros b r p m x stack El Hm _. inversion Hm; subst. injection El as <- _.
    apply (runs_begin 102%N stack (bs "false" ++ r) (inl (VBool false)) r).
    apply (parsed_then j_false (fun b => jret (inl (VBool b))) _ false r); [apply at_known_false|apply parsed_ret].
  - intros b t r Ht Hr _ p m x stack El Hm _. inversion Hm; subst.
    apply (runs_begin p stack (t ++ r) (inl x) r). apply number_begin; auto.
    destruct (number_head t Ht) as (y & q & -> & _). injection El as -> _. eauto.
  - intros b t r Ht _ p m x stack El Hm _. inversion Hm as [| | | | t' d Hs | |]; subst. injection El as <- _.
    apply (runs_begin QUOTE stack _ (inl (VStr d)) r).
    apply (parsed_then D (fun d => jret (inl (VStr d))) _ d r); [apply known_D; auto|apply parsed_ret].
  - intros b w r Hw p m x stack El Hm _. inversion Hm as [| | | | | l' xs Ha|]; subst. inversion Ha; subst. injection El as <- _.
    apply (runs_begin LBRACK stack _ (inl (VArray [])) r).
    eapply (parsed_then j_known_array _ _ None r); [apply at_known_array_end; auto|apply parsed_ret].
  - intros b w v vs l l1 r Hw Hv IHv _ IHi p m x stack El Hm Hc. inversion Hm as [| | | | | l' xs Ha|]; subst.
    inversion Ha as [|v' l' x xs' Hx Hxs]; subst. injection El as <- _.
    destruct (cap_array v vs stack (FArray []) Hc) as (Hcs & Hlt).
    destruct (value_head _ _ _ _ _ Hv) as (q & k & El & Hq & Hq' & _).
    apply runs_trans with (go q (FArray [] :: stack)) l.
    + eapply runs_trans; [apply (runs_begin LBRACK stack _ (inr (FArray [], q)) l)|].
      * rewrite El. eapply (parsed_then j_known_array _ _ (Some q)); [apply at_known_array; auto|apply parsed_ret].
      * apply runs_refl. cbn [after_begin]. rewrite limit_ok by exact Hlt. reflexivity.
    + eapply runs_trans; [apply (IHv q k x (FArray [] :: stack)); auto; apply Forall_inv in Hcs; exact Hcs|].
      apply (IHi x [] xs' stack); auto. apply Forall_inv_tail in Hcs. exact Hcs.
  - intros b w r Hw _ p m x stack El Hm _. inversion Hm as [| | | | | |l' xs Ha]; subst. inversion Ha; subst. injection El as <- _.
    apply (runs_begin LBRACE stack _ (inl (VObject [])) r).
    eapply (parsed_then (j_known_object D) _ _ None r); [apply open_empty; auto|apply parsed_ret].
  - intros b w k w1 w2 v ms l l1 r Hw Hk Hw1 _ Hw2 _ Hv IHv _ IHm p m x stack El Hm Hc. inversion Hm as [| | | | | |m' ys Ha]; subst.
    inversion Ha as [|k' d v' x ms' ys' Hd Hx Hys]; subst. injection El as <- _.
    destruct (cap_object (k, v) ms stack (FArray []) Hc) as (Hcs & Hlt).
    destruct (value_head _ _ _ _ _ Hv) as (q & j & El & Hq & Hq' & _).
    apply runs_trans with (go q (FObject [] d :: stack)) l.
    + eapply runs_trans; [apply (runs_begin LBRACE stack _ (inr (FObject [] d, q)) l)|].
      * eapply (parsed_then (j_known_object D) _ _ (Some d)); [apply open_object; auto|].
        rewrite El. eapply parsed_then; [apply at_peek; auto|apply parsed_ret].
      * apply runs_refl. cbn [after_begin]. rewrite limit_ok by exact Hlt. reflexivity.
    + eapply runs_trans; [apply (IHv q j x (FObject [] d :: stack)); auto; apply Forall_inv in Hcs; exact Hcs|].
      apply (IHm x d [] ys' stack); auto. apply Forall_inv_tail in Hcs. exact Hcs.
  - intros w r Hw x acc xs stack Hm _. inversion Hm; subst. eapply runs_eq; [apply after_array|].
    eapply runs_on; [apply at_array_step_end, Hw|reflexivity].
  - intros w w2 v vs l l1 r Hw Hw2 Hv IHv _ IHi x acc xs stack Hm Hc. inversion Hm as [|v' l' y xs' Hy Hys]; subst.
    destruct (value_head _ _ _ _ _ Hv) as (q & k & El & Hq & Hq' & _).
    eapply runs_eq; [apply after_array|]. apply runs_trans with (go q (FArray (acc ++ [x]) :: stack)) l.
    + rewrite El. eapply runs_on; [apply at_array_step; auto|reflexivity].
    + eapply runs_trans; [apply (IHv q k y (FArray (acc ++ [x]) :: stack)); auto; apply Forall_inv in Hc; exact Hc|].
      replace (acc ++ x :: y :: xs') with ((acc ++ [x]) ++ y :: xs') by (rewrite <- app_assoc; reflexivity).
      apply IHi; auto. apply Forall_inv_tail in Hc. exact Hc.
  - intros w r Hw x k acc ys stack Hm _. inversion Hm; subst. eapply runs_eq; [apply after_object|].
    eapply runs_on; [apply (parsed_mapped opt_str _ _ _ None None _ next_key_D); [apply at_next_key_end, Hw|exact I]|reflexivity].
  - intros w w0 k w1 w2 v ms l l1 r Hw Hw0 Hk Hw1 _ Hw2 Hv IHv _ IHm x k0 acc ys stack Hm Hc.
    inversion Hm as [|k' d v' y ms' ys' Hd Hy Hys]; subst.
    destruct (value_head _ _ _ _ _ Hv) as (q & j & El & Hq & Hq' & _).
    eapply runs_eq; [apply after_object|]. eapply runs_trans; [apply (runs_then (j_next_key D) _ _ (Some d))|].
    { apply (parsed_mapped opt_str _ _ _ _ (Some k) _ next_key_D); [apply at_next_key; auto|exact Hd]. }
    cbv beta iota. apply runs_trans with (go q (FObject (acc ++ [(k0, x)]) d :: stack)) l.
    + rewrite El. eapply runs_on; [apply at_peek; auto|reflexivity].
    + eapply runs_trans; [apply (IHv q j y (FObject (acc ++ [(k0, x)]) d :: stack)); auto; apply Forall_inv in Hc; exact Hc|].
      replace (acc ++ (k0, x) :: (d, y) :: ys') with ((acc ++ [(k0, x)]) ++ (d, y) :: ys') by (rewrite <- app_assoc; reflexivity).
      apply IHm; auto. apply Forall_inv_tail in Hc. exact Hc.
Qed.

(** *** The recursion limit *)
Definition limited {A} (g : jop A) (l : bytes) : Prop := exists o a, g l = (Err (JsonError RecursionLimitExceeded, o), a).
Lemma runs_limited {A} (g f : jop A) l r : runs g l f r -> limited f r -> limited g l.
Proof. intros (n & -> & E) (o & a & E'). unfold limited. rewrite E. unfold jat. rewrite E'. eauto. Qed.
Lemma cap_dec v stack : cap v stack \/ ~ cap v stack.
Proof. unfold cap. destruct (Nat.le_gt_cases (depth v + List.length stack) recursion_limit); [left|right]; lia. Qed.
Lemma uncap_array v vs stack f : List.length stack < recursion_limit -> caps (v :: vs) (f :: stack) -> cap (JArray (v :: vs)) stack.
Proof.
  unfold caps, cap. intros Hl H. cbn [depth]. cut (list_max (map depth (v :: vs)) <= recursion_limit - List.length (f :: stack)).
  { cbn [List.length]. lia. }
  apply list_max_le, Forall_map. eapply Forall_impl; [|exact H]. cbv beta. intros a. lia.
Qed.
Lemma uncap_object kv ms stack f : List.length stack < recursion_limit -> mcaps (kv :: ms) (f :: stack) -> cap (JObject (kv :: ms)) stack.
Proof.
  unfold mcaps, cap. intros Hl H. cbn [depth]. cut (list_max (map (fun kv => depth (snd kv)) (kv :: ms)) <= recursion_limit - List.length (f :: stack)).
  { cbn [List.length]. lia. }
  apply list_max_le, Forall_map. eapply Forall_impl; [|exact H]. cbv beta. intros a. lia.
Qed.
Lemma limit_hit {A} stack (a b : A) : ~ List.length (A := frame) stack < recursion_limit -> (if recursion_limit <=? List.length stack then a else b) = a.
Proof. intros H. assert (H' : recursion_limit <= List.length stack) by lia. apply Nat.leb_le in H'. rewrite H'. reflexivity. Qed.
Definition value_deep (b : bool) (v : json) (l r : bytes) : Prop := forall p m x stack,
  l = p :: m -> means v x -> List.length stack <= recursion_limit -> ~ cap v stack -> limited (go p stack) l.
Definition items_deep (vs : list json) (l r : bytes) : Prop := forall x acc xs stack,
  means_all str nm vs xs -> List.length stack < recursion_limit -> ~ caps vs (FArray [] :: stack) -> limited (after x (FArray acc :: stack)) l.
Definition members_deep (ms : list (bytes * json)) (l r : bytes) : Prop := forall x k acc ys stack,
  means_members str nm ms ys -> List.length stack < recursion_limit -> ~ mcaps ms (FArray [] :: stack) -> limited (after x (FObject acc k :: stack)) l.
Lemma too_deep_limited l : limited too_deep l.
Proof. eexists _, _. reflexivity. Qed.
Lemma deep :
  (forall b v l r, value_at any_layout b v l r -> value_deep b v l r) /\
  (forall vs l r, items_at any_layout vs l r -> items_deep vs l r) /\
  (forall ms l r, members_at any_layout ms l r -> members_deep ms l r).
Proof.
  destruct complete as (HCv & _ & _).
  apply (grammar_ind any_layout value_deep items_deep members_deep);
    try (intros; intros p m x stack El Hm Hl Hc; unfold cap in Hc; cbn [depth] in Hc; lia).
  - intros b w v vs l l1 r Hw Hv IHv _ IHi p m x stack El Hm Hl Hc. inversion Hm as [| | | | | l' xs Ha|]; subst.
    inversion Ha as [|v' l' x xs' Hx Hxs]; subst. injection El as <- _.
    destruct (value_head _ _ _ _ _ Hv) as (q & k & El & Hq & Hq' & _).
    eapply runs_limited; [apply (runs_begin LBRACK stack _ (inr (FArray [], q)) l)|].
    { rewrite El. eapply (parsed_then j_known_array _ _ (Some q)); [apply at_known_array; auto|apply parsed_ret]. }
    cbn [after_begin]. destruct (Nat.le_gt_cases recursion_limit (List.length stack)) as [Hlt|Hlt].
    { rewrite limit_hit by lia. apply too_deep_limited. }
    rewrite limit_ok by exact Hlt. destruct (cap_dec v (FArray [] :: stack)) as [Hcv|Hcv].
    + eapply runs_limited; [apply (HCv _ _ _ _ Hv q k x (FArray [] :: stack)); auto|].
      apply (IHi x [] xs' stack); auto. intros H. apply Hc. apply (uncap_array v vs stack (FArray [])); auto. constructor; auto.
    + apply (IHv q k x (FArray [] :: stack)); auto.
  - intros b w k w1 w2 v ms l l1 r Hw Hk Hw1 _ Hw2 _ Hv IHv _ IHm p m x stack El Hm Hl Hc. inversion Hm as [| | | | | |m' ys Ha]; subst.
    inversion Ha as [|k' d v' x ms' ys' Hd Hx Hys]; subst. injection El as <- _.
    destruct (value_head _ _ _ _ _ Hv) as (q & j & El & Hq & Hq' & _).
    eapply runs_limited; [apply (runs_begin LBRACE stack _ (inr (FObject [] d, q)) l)|].
    { eapply (parsed_then (j_known_object D) _ _ (Some d)); [apply open_object; auto|].
      rewrite El. eapply parsed_then; [apply at_peek; auto|apply parsed_ret]. }
    cbn [after_begin]. destruct (Nat.le_gt_cases recursion_limit (List.length stack)) as [Hlt|Hlt].
    { rewrite limit_hit by lia. apply too_deep_limited. }
    rewrite limit_ok by exact Hlt. destruct (cap_dec v (FObject [] d :: stack)) as [Hcv|Hcv].
    + eapply runs_limited; [apply (HCv _ _ _ _ Hv q j x (FObject [] d :: stack)); auto|].
      apply (IHm x d [] ys' stack); auto. intros H. apply Hc. apply (uncap_object (k, v) ms stack (FArray [])); auto. constructor; auto.
    + apply (IHv q j x (FObject [] d :: stack)); auto.
  - intros w r Hw x acc xs stack _ _ Hc. elim Hc. constructor.
  - intros w w2 v vs l l1 r Hw Hw2 Hv IHv _ IHi x acc xs stack Hm Hl Hc. inversion Hm as [|v' l' y xs' Hy Hys]; subst.
    destruct (value_head _ _ _ _ _ Hv) as (q & k & El & Hq & Hq' & _).
    apply runs_limited with (go q (FArray (acc ++ [x]) :: stack)) l.
    { eapply runs_eq; [apply after_array|]. rewrite El. eapply runs_on; [apply at_array_step; auto|reflexivity]. }
    destruct (cap_dec v (FArray (acc ++ [x]) :: stack)) as [Hcv|Hcv].
    + eapply runs_limited; [apply (HCv _ _ _ _ Hv q k y (FArray (acc ++ [x]) :: stack)); auto|].
      apply (IHi y (acc ++ [x]) xs' stack); auto. intros H. apply Hc. constructor; auto.
    + apply (IHv q k y (FArray (acc ++ [x]) :: stack)); auto.
  - intros w r Hw x k acc ys stack _ _ Hc. elim Hc. constructor.
  - intros w w0 k w1 w2 v ms l l1 r Hw Hw0 Hk Hw1 _ Hw2 Hv IHv _ IHm x k0 acc ys stack Hm Hl Hc.
    inversion Hm as [|k' d v' y ms' ys' Hd Hy Hys]; subst.
    destruct (value_head _ _ _ _ _ Hv) as (q & j & El & Hq & Hq' & _).
    apply runs_limited with (go q (FObject (acc ++ [(k0, x)]) d :: stack)) l.
    { eapply runs_eq; [apply after_object|]. eapply runs_trans; [apply (runs_then (j_next_key D) _ _ (Some d))|].
      { apply (parsed_mapped opt_str _ _ _ _ (Some k) _ next_key_D); [apply at_next_key; auto|exact Hd]. }
      cbv beta iota. rewrite El. eapply runs_on; [apply at_peek; auto|reflexivity]. }
    destruct (cap_dec v (FObject (acc ++ [(k0, x)]) d :: stack)) as [Hcv|Hcv].
    + eapply runs_limited; [apply (HCv _ _ _ _ Hv q j y (FObject (acc ++ [(k0, x)]) d :: stack)); auto|].
      apply (IHm y d (acc ++ [(k0, x)]) ys' stack); auto. intros H. apply Hc. constructor; auto.
    + apply (IHv q j y (FObject (acc ++ [(k0, x)]) d :: stack)); auto.
Qed.

(** *** Soundness *)
Lemma then_parsed {A B} (f : jop A) (g : A -> jop B) l y r : parsed (jthen f g) l y r -> exists x m, parsed f l x m /\ parsed (g x) m y r.
Proof.
  intros (n & E & ->). apply jthen_ok in E as (x & a & b & E & E' & ->). exists x, (skipn a l). split; [exists a; auto|]. exists b. split; [exact E'|].
  rewrite skipn_skipn. reflexivity.
Qed.
Lemma parsed_ext {A} (f g : jop A) l v r : f l = g l -> parsed f l v r -> parsed g l v r.
Proof. intros E (a & H & ->). exists a. rewrite <- E. auto. Qed.
Lemma ret_parsed {A} (x y : A) l r : parsed (jret x) l y r -> y = x /\ r = l.
Proof. intros (a & E & ->). injection E as <- <-. auto. Qed.
Lemma mapped_parsed {A B} (R : A -> B -> Prop) f g l v r : mapped R f g -> parsed f l v r -> exists v', parsed g l v' r /\ R v' v.
Proof. intros H (a & E & ->). apply H in E as (v' & E & HR). exists v'. split; [exists a; auto|exact HR]. Qed.

Definition text (v : json) (l r : bytes) : Prop :=
  (forall b, value_at any_layout b v l r) \/ exists t, v = JNumber t /\ number_text t /\ l = t ++ r.
Lemma text_shorter v l r : text v l r -> len r < len l.
Proof.
  intros [H|(t & _ & Ht & ->)]; [eapply (proj1 grammar_shorter); apply (H true)|]. destruct (number_head t Ht) as (x & q & -> & _).
  rewrite app_length. cbn [List.length]. unfold bytes, byte in *. lia.
Qed.
Lemma delimited_spaces w x l : spaces w -> number_char x = false -> delimited (w ++ x :: l).
Proof.
  intros Hw Hx. destruct w as [|y w]; [exact Hx|]. apply Forall_inv in Hw. destruct Hw as [->|[->|[->| ->]]]; reflexivity.
Qed.
Lemma text_delimited v l r : text v l r -> delimited r -> forall b, value_at any_layout b v l r.
Proof. intros [H|(t & -> & Ht & ->)] Hr b; [apply H|]. apply ScanSpec.at_number; auto. exact I. Qed.

Lemma brace_object l o r : parsed (j_known_object j_known_bytes) (LBRACE :: l) o r -> exists w, spaces w /\
  match o with
  | None => l = w ++ RBRACE :: r
  | Some k => exists w1, l = w ++ QUOTE :: k ++ QUOTE :: w1 ++ COLON :: r /\ string_text k /\ spaces w1
  end.
Proof.
  intros H. assert (H' : parsed (j_next_object j_known_bytes) (LBRACE :: l) o r).
  { unfold j_next_object, next_as. apply parsed_after_ws. rewrite skip_jw_head by reflexivity. exact H. }
  apply parsed_next_object in H' as (w0 & w & Hw0 & Hw & H'). exists w. split; [exact Hw|].
  assert (N : forall l2, LBRACE :: l = w0 ++ LBRACE :: l2 -> l = l2).
  { intros l2. destruct w0 as [|y w0]; [intros X; injection X as ->; reflexivity|]. intros X. injection X as <- _. apply Forall_inv in Hw0.
    destruct Hw0 as [X|[X|[X|X]]]; discriminate. }
  destruct o as [k|]; [|apply N, H']. destruct H' as (w1 & H' & ?). exists w1. split; [apply N, H'|assumption].
Qed.
Lemma ident_text {A} w (v0 v : A) p m r : w <> [] -> parsed (j_ident w v0) (p :: m) v r -> m = w ++ r /\ v = v0.
Proof.
  intros Hw H. pose proof (parsed_ident w v0 v _ _ Hw H) as (y & E). injection E as _ ->. split; [reflexivity|].
  destruct H as (a & H & _). unfold j_ident in H. destruct (ident_rest w _ _) as [[e o]|]; [discriminate|]. injection H as <- _. reflexivity.
Qed.
Lemma begin_inv p m x r stack : json_ws p = false -> List.length stack <= recursion_limit -> parsed (take_begin D num p) (p :: m) x r ->
  match x with
  | inl x' => exists v, text v (p :: m) r /\ means v x' /\ cap v stack
  | inr (FArray acc, q) => acc = [] /\ p = LBRACK /\ json_ws q = false /\ exists w k, m = w ++ r /\ spaces w /\ r = q :: k
  | inr (FObject acc d, q) => acc = [] /\ p = LBRACE /\ json_ws q = false /\
      exists w kt w1 w2 k, m = w ++ QUOTE :: kt ++ QUOTE :: w1 ++ COLON :: w2 ++ r /\ spaces w /\ string_text kt /\ str kt d /\ spaces w1 /\ spaces w2 /\ r = q :: k
  end.
Proof.
  intros Hp Hl H. unfold take_begin in H.
  assert (Z : forall v, depth v = 0 -> cap v stack) by (intros v Hv; unfold cap; lia).
  destruct (N.eqb_spec p 116) as [->|_].
  { apply then_parsed in H as (b & k & H & H'). apply ret_parsed in H' as (-> & ->). apply ident_text in H as (-> & ->); [|discriminate].
    exists JTrue. split; [left; intros b; apply (at_true any_layout b k)|]. split; [constructor|apply Z; reflexivity]. }
  destruct (N.eqb_spec p 102) as [->|_].
  { apply then_parsed in H as (b & k & H & H'). apply ret_parsed in H' as (-> & ->). apply ident_text in H as (-> & ->); [|discriminate].
    exists JFalse. split; [left; intros b; apply (at_false any_layout b k)|]. split; [constructor|apply Z; reflexivity]. }
  destruct (N.eqb_spec p 110) as [->|_].
  { apply then_parsed in H as (b & k & H & H'). apply ret_parsed in H' as (-> & ->). apply ident_text in H as (-> & _); [|discriminate].
    exists JNull. split; [left; intros b'; apply (at_null any_layout b' k)|]. split; [constructor|apply Z; reflexivity]. }
  destruct (N.eqb_spec p QUOTE) as [->|_].
  { apply then_parsed in H as (d & k & H & H'). apply ret_parsed in H' as (-> & ->).
    apply (mapped_parsed (fun t d => str t d) D j_known_bytes) in H as (t & H & Hs); [|exact HD].
    apply parsed_known_bytes in H as (y & E & Ht). injection E as _ ->. exists (JString t). split; [left; intros b; apply at_string; auto; exact I|].
    split; [constructor; exact Hs|apply Z; reflexivity]. }
  destruct (N.eqb_spec p LBRACK) as [->|_].
  { apply then_parsed in H as (o & k & H & H'). pose proof H as Hq. apply parsed_known_array in H as (y & w & Hw & H). destruct o as [q|]; apply ret_parsed in H' as (-> & ->).
    - destruct H as (k' & E & ->). injection E as _ ->. split; [reflexivity|]. split; [reflexivity|]. split.
      + destruct Hq as (a & Ea & Er). pose proof (array_lands _ _ _ _ (or_introl eq_refl) Ea) as (z & Ez & Hz). exact Hz.
      + exists w, k'. auto.
    - injection H as _ ->. exists (JArray []). split; [left; intros b; apply at_array_empty; exact Hw|]. split; [constructor; constructor|apply Z; reflexivity]. }
  destruct (N.eqb_spec p LBRACE) as [->|_].
  { apply then_parsed in H as (o & k & H & H'). apply (mapped_parsed _ _ _ _ _ _ known_object_D) in H as (o' & H & Ho).
    apply brace_object in H as (w & Hw & H). destruct o as [d|]; destruct o' as [kt|]; try contradiction; cbn [opt_str] in Ho.
    - destruct H as (w1 & -> & Hk & Hw1). apply then_parsed in H' as (q & k2 & H2 & H'). apply ret_parsed in H' as (-> & ->).
      apply parsed_peek in H2 as (w2 & k' & -> & -> & Hw2 & Hq). split; [reflexivity|]. split; [reflexivity|]. split; [exact Hq|].
      exists w, kt, w1, w2, k'. repeat split; auto.
    - apply ret_parsed in H' as (-> & ->). subst m. exists (JObject []). split; [left; intros b; apply at_object_empty; [exact Hw|exact I]|].
      split; [constructor; constructor|apply Z; reflexivity]. }
  apply then_parsed in H as (x' & k & (a & H & ->) & H'). apply ret_parsed in H' as (-> & ->). apply HN' in H as (H1 & H2 & H3).
  exists (JNumber (firstn a (p :: m))). split; [right; eexists; split; [reflexivity|]; split; [exact H1|symmetry; apply firstn_skipn]|].
  split; [constructor; exact H2|apply Z; reflexivity].
Qed.

Definition sound_value (l : bytes) : Prop := forall p m stack y z, l = p :: m -> json_ws p = false -> List.length stack <= recursion_limit ->
  parsed (go p stack) l y z -> exists v x r, text v l r /\ means v x /\ cap v stack /\ parsed (after x stack) r y z.
Definition sound_items (l : bytes) : Prop := forall x acc stack y z, List.length stack < recursion_limit ->
  parsed (after x (FArray acc :: stack)) l y z ->
  exists vs xs r, items_at any_layout vs l r /\ means_all str nm vs xs /\ caps vs (FArray [] :: stack) /\
    parsed (after (VArray (acc ++ x :: xs)) stack) r y z.
Definition sound_members (l : bytes) : Prop := forall x k acc stack y z, List.length stack < recursion_limit ->
  parsed (after x (FObject acc k :: stack)) l y z ->
  exists ms ys r, members_at any_layout ms l r /\ means_members str nm ms ys /\ mcaps ms (FArray [] :: stack) /\
    parsed (after (VObject (acc ++ (k, x) :: ys)) stack) r y z.
Lemma array_peek_ws l q r : parsed j_array_step l (Some q) r -> exists w2 k w, spaces w2 /\ spaces w /\ l = w ++ COMMA :: w2 ++ q :: k /\ r = q :: k /\ json_ws q = false.
Proof.
  intros H. pose proof H as (a & Ea & Er). apply array_lands in Ea as (k & Ek & Hq); [|right; reflexivity].
  apply parsed_array_step in H as (w & Hw & w2 & k' & Hw2 & E1 & E2). exists w2, k', w. repeat split; auto.
Qed.
Lemma sound n : forall l, len l <= n -> sound_value l /\ sound_items l /\ sound_members l.
Proof.
  induction n as [|n IH]; intros l Hn.
  { destruct l as [|c l]; [|cbn in Hn; lia]. split; [intros p m stack y z E; discriminate|]. split.
    - intros x acc stack y z _ H. apply (parsed_ext _ _ _ _ _ (after_array _ _ _ _)), then_parsed in H as (o & k & (a & H & _) & _). discriminate.
    - intros x kk acc stack y z _ H. apply (parsed_ext _ _ _ _ _ (after_object _ _ _ _ _)), then_parsed in H as (o & k & H & _).
      apply (mapped_parsed _ _ _ _ _ _ next_key_D) in H as (o' & (a & H & _) & _). discriminate. }
  (* an element, then the rest of the array *)
  assert (HI : forall p m x0 acc stack y z, len (p :: m) <= n -> json_ws p = false -> List.length stack < recursion_limit ->
    parsed (go p (FArray acc :: stack)) (p :: m) y z ->
    exists v x vs xs l1 r, value_at any_layout true v (p :: m) l1 /\ means v x /\ items_at any_layout vs l1 r /\ means_all str nm vs xs /\
      caps (v :: vs) (x0 :: stack) /\ parsed (after (VArray (acc ++ x :: xs)) stack) r y z).
  { intros p m x0 acc stack y z Hlen Hp Hlt H. destruct (IH _ Hlen) as (IHv & _ & _).
    destruct (IHv p m (FArray acc :: stack) y z eq_refl Hp ltac:(cbn [List.length]; lia) H) as (v & x & l1 & Ht & Hm & Hc & H').
    pose proof (text_shorter _ _ _ Ht) as Hs. destruct (IH l1 ltac:(lia)) as (_ & IHi & _).
    destruct (IHi x acc stack y z Hlt H') as (vs & xs & r & Hi & Hms & Hcs & Hr).
    assert (Hd : delimited l1) by (inversion Hi; subst; apply delimited_spaces; auto).
    exists v, x, vs, xs, l1, r. split; [apply text_delimited; auto|]. repeat split; auto. constructor; auto. }
  assert (HM : forall p m x0 d acc stack y z, len (p :: m) <= n -> json_ws p = false -> List.length stack < recursion_limit ->
    parsed (go p (FObject acc d :: stack)) (p :: m) y z ->
    exists v x ms ys l1 r, value_at any_layout false v (p :: m) l1 /\ means v x /\ members_at any_layout ms l1 r /\ means_members str nm ms ys /\
      cap v (x0 :: stack) /\ mcaps ms (x0 :: stack) /\ parsed (after (VObject (acc ++ (d, x) :: ys)) stack) r y z).
  { intros p m x0 d acc stack y z Hlen Hp Hlt H. destruct (IH _ Hlen) as (IHv & _ & _).
    destruct (IHv p m (FObject acc d :: stack) y z eq_refl Hp ltac:(cbn [List.length]; lia) H) as (v & x & l1 & Ht & Hm & Hc & H').
    pose proof (text_shorter _ _ _ Ht) as Hs. destruct (IH l1 ltac:(lia)) as (_ & _ & IHm).
    destruct (IHm x d acc stack y z Hlt H') as (ms & ys & r & Hi & Hms & Hcs & Hr).
    assert (Hd : delimited l1) by (inversion Hi; subst; apply delimited_spaces; auto).
    exists v, x, ms, ys, l1, r. split; [apply text_delimited; auto|]. repeat split; auto. }
  split; [|split].
  - intros p m stack y z -> Hp Hl H. apply (parsed_ext _ _ _ _ _ (go_eq _ _ _)), then_parsed in H as (x & r & H & H').
    apply (begin_inv p m x r stack Hp Hl) in H. destruct x as [x|[[acc|acc d] q]]; cbn [after_begin] in H'.
    + destruct H as (v & Ht & Hm & Hc). exists v, x, r. auto.
    + destruct H as (-> & -> & Hq & w & k & -> & Hw & ->).
      destruct (Nat.leb_spec recursion_limit (List.length stack)) as [Hlt|Hlt]; [destruct H' as (a & H' & _); discriminate|].
      cbn [List.length] in Hn. rewrite app_length in Hn. destruct (HI q k (FArray []) [] stack y z) as (v & x & vs & xs & l1 & r & Hv & Hm & Hi & Hms & Hcs & Hr); auto.
      { unfold bytes, byte in *. lia. }
      exists (JArray (v :: vs)), (VArray (x :: xs)), r. split; [left; intros b; apply (at_array any_layout b w v vs _ l1); auto|].
      split; [constructor; constructor; auto|]. split; [apply (uncap_array v vs stack (FArray [])); auto|exact Hr].
    + destruct H as (-> & -> & Hq & w & kt & w1 & w2 & k & -> & Hw & Hk & Hd & Hw1 & Hw2 & ->).
      destruct (Nat.leb_spec recursion_limit (List.length stack)) as [Hlt|Hlt]; [destruct H' as (a & H' & _); discriminate|].
      destruct (HM q k (FArray []) d [] stack y z) as (v & x & ms & ys & l1 & r & Hv & Hm & Hi & Hms & Hcv & Hcs & Hr); auto.
      { cbn [List.length] in Hn. repeat (rewrite app_length in Hn; cbn [List.length] in Hn). cbn [List.length]. unfold bytes, byte in *. lia. }
      exists (JObject ((kt, v) :: ms)), (VObject ((d, x) :: ys)), r.
      split; [left; intros b; apply (at_object any_layout b w kt w1 w2 v ms _ l1); auto; exact I|].
      split; [constructor; constructor; auto|]. split; [apply (uncap_object (kt, v) ms stack (FArray [])); auto; constructor; auto|exact Hr].
  - intros x acc stack y z Hlt H. apply (parsed_ext _ _ _ _ _ (after_array _ _ _ _)), then_parsed in H as (o & k & H & H'). destruct o as [q|].
    + apply array_peek_ws in H as (w2 & k' & w & Hw2 & Hw & -> & -> & Hq).
      destruct (HI q k' (FArray []) (acc ++ [x]) stack y z) as (v & x' & vs & xs & l1 & r & Hv & Hm & Hi & Hms & Hcs & Hr); auto.
      { repeat (rewrite app_length in Hn; cbn [List.length] in Hn). cbn [List.length]. unfold bytes, byte in *. lia. }
      exists (v :: vs), (x' :: xs), r. split; [apply (items_more any_layout w w2 v vs _ l1); auto|].
      split; [constructor; auto|]. split; [exact Hcs|]. rewrite <- app_assoc in Hr. exact Hr.
    + apply parsed_array_step in H as (w & Hw & ->). exists [], [], k. split; [constructor; exact Hw|]. split; [constructor|].
      split; [constructor|exact H'].
  - intros x kk acc stack y z Hlt H. apply (parsed_ext _ _ _ _ _ (after_object _ _ _ _ _)), then_parsed in H as (o & k & H & H').
    apply (mapped_parsed _ _ _ _ _ _ next_key_D) in H as (o' & H & Ho). apply parsed_next_key in H as (w & Hw & H).
    destruct o as [d|]; destruct o' as [kt|]; try contradiction; cbn [opt_str] in Ho.
    + destruct H as (w0 & w1 & -> & Hw0 & Hk & Hw1). apply then_parsed in H' as (q & k2 & H2 & H').
      apply parsed_peek in H2 as (w2 & k' & -> & -> & Hw2 & Hq).
      destruct (HM q k' (FArray []) d (acc ++ [(kk, x)]) stack y z) as (v & x' & ms & ys & l1 & r & Hv & Hm & Hi & Hms & Hcv & Hcs & Hr); auto.
      { repeat (rewrite app_length in Hn; cbn [List.length] in Hn). cbn [List.length]. unfold bytes, byte in *. lia. }
      exists ((kt, v) :: ms), ((d, x') :: ys), r. split; [apply (members_more any_layout w w0 kt w1 w2 v ms _ l1); auto; exact I|].
      split; [constructor; auto|]. split; [constructor; auto|]. rewrite <- app_assoc in Hr. exact Hr.
    + subst l. exists [], [], k. split; [constructor; exact Hw|]. split; [constructor|]. split; [constructor|exact H'].
Qed.
End Take.

(** ** The text of a value stands for itself, whatever follows *)
Lemma head_delimited t r r' : t <> [] -> delimited (t ++ r) -> delimited (t ++ r').
Proof. destruct t; [contradiction|]. auto. Qed.
Definition frames (l r : bytes) (at_ : bytes -> bytes -> Prop) : Prop :=
  exists t, l = t ++ r /\ forall r', (delimited r -> delimited r') -> at_ (t ++ r') r'.
Lemma frames_app l r at_ : len r < len l -> frames l r at_ -> exists t, t <> [] /\ l = t ++ r /\ forall r', (delimited r -> delimited r') -> at_ (t ++ r') r'.
Proof. intros H (t & -> & Ht). exists t. split; [intros ->; cbn in H; lia|auto]. Qed.
Lemma grammar_frames :
  (forall b v l r, value_at any_layout b v l r -> frames l r (value_at any_layout b v)) /\
  (forall vs l r, items_at any_layout vs l r -> frames l r (items_at any_layout vs)) /\
  (forall ms l r, members_at any_layout ms l r -> frames l r (members_at any_layout ms)).
Proof.
  destruct grammar_shorter as (Sv & Si & Sm).
  apply (grammar_ind any_layout (fun b v l r => frames l r (value_at any_layout b v)) (fun vs l r => frames l r (items_at any_layout vs))
    (fun ms l r => frames l r (members_at any_layout ms))).
  - intros b r. exists (bs "null"). split; [reflexivity|]. intros r' _. constructor.
  - intros b r. exists (bs "true"). split; [reflexivity|]. intros r' _. constructor.
  - intros b r. exists (bs "false"). split; [reflexivity|]. intros r' _. constructor.
  - intros b t r Ht Hr _. exists t. split; [reflexivity|]. intros r' H. constructor; auto. exact I.
  - intros b t r Ht _. exists (QUOTE :: t ++ [QUOTE]). split; [cbn [app]; rewrite <- app_assoc; reflexivity|]. intros r' _.
    cbn [app]. rewrite <- app_assoc. constructor; auto. exact I.
  - intros b w r Hw. exists (LBRACK :: w ++ [RBRACK]). split; [cbn [app]; rewrite <- app_assoc; reflexivity|]. intros r' _.
    cbn [app]. rewrite <- app_assoc. constructor; auto.
  - intros b w v vs l l1 r Hw _ (t1 & -> & H1) Hi IHi. apply (frames_app _ _ _ (Si _ _ _ Hi)) in IHi as (t2 & Hn & -> & H2).
    exists (LBRACK :: w ++ t1 ++ t2). split; [cbn [app]; rewrite <- !app_assoc; reflexivity|]. intros r' Hr.
    cbn [app]. rewrite <- !app_assoc. apply (at_array any_layout b w v vs _ (t2 ++ r')); auto. apply H1. apply head_delimited, Hn.
  - intros b w r Hw _. exists (LBRACE :: w ++ [RBRACE]). split; [cbn [app]; rewrite <- app_assoc; reflexivity|]. intros r' _.
    cbn [app]. rewrite <- app_assoc. constructor; auto. exact I.
  - intros b w k w1 w2 v ms l l1 r Hw Hk Hw1 _ Hw2 _ _ (t1 & -> & H1) Hi IHi. apply (frames_app _ _ _ (Sm _ _ _ Hi)) in IHi as (t2 & Hn & -> & H2).
    exists (LBRACE :: w ++ QUOTE :: k ++ QUOTE :: w1 ++ COLON :: w2 ++ t1 ++ t2).
    split; [repeat (rewrite <- ?app_assoc; cbn [app]); reflexivity|]. intros r' Hr.
    repeat (rewrite <- ?app_assoc; cbn [app]). apply (at_object any_layout b w k w1 w2 v ms _ (t2 ++ r')); auto; try exact I. apply H1. apply head_delimited, Hn.
  - intros w r Hw. exists (w ++ [RBRACK]). split; [rewrite <- app_assoc; reflexivity|]. intros r' _. rewrite <- app_assoc. constructor; auto.
  - intros w w2 v vs l l1 r Hw Hw2 _ (t1 & -> & H1) Hi IHi. apply (frames_app _ _ _ (Si _ _ _ Hi)) in IHi as (t2 & Hn & -> & H2).
    exists (w ++ COMMA :: w2 ++ t1 ++ t2). split; [repeat (rewrite <- ?app_assoc; cbn [app]); reflexivity|]. intros r' Hr.
    repeat (rewrite <- ?app_assoc; cbn [app]). apply (items_more any_layout w w2 v vs _ (t2 ++ r')); auto. apply H1. apply head_delimited, Hn.
  - intros w r Hw. exists (w ++ [RBRACE]). split; [rewrite <- app_assoc; reflexivity|]. intros r' _. rewrite <- app_assoc. constructor; auto.
  - intros w w0 k w1 w2 v ms l l1 r Hw Hw0 Hk Hw1 _ Hw2 _ (t1 & -> & H1) Hi IHi. apply (frames_app _ _ _ (Sm _ _ _ Hi)) in IHi as (t2 & Hn & -> & H2).
    exists (w ++ COMMA :: w0 ++ QUOTE :: k ++ QUOTE :: w1 ++ COLON :: w2 ++ t1 ++ t2).
    split; [repeat (rewrite <- ?app_assoc; cbn [app]); reflexivity|]. intros r' Hr.
    repeat (rewrite <- ?app_assoc; cbn [app]). apply (members_more any_layout w w0 k w1 w2 v ms _ (t2 ++ r')); auto; try exact I. apply H1. apply head_delimited, Hn.
Qed.
Lemma text_alone v l r : text v l r -> exists t, l = t ++ r /\ value_at any_layout false v t [].
Proof.
  intros [H|(t & -> & Ht & ->)].
  - destruct (proj1 grammar_frames _ _ _ _ (H false)) as (t & -> & Ht). exists t. split; [reflexivity|]. specialize (Ht [] (fun _ => I)). rewrite app_nil_r in Ht. exact Ht.
  - exists t. split; [reflexivity|]. pose proof (ScanSpec.at_number any_layout false t [] Ht I I) as H. rewrite app_nil_r in H. exact H.
Qed.

(** ** [take_value] and [take_value_skip] *)
Definition skipped : json -> jvalue -> Prop := means (fun t d => t = d) (fun t x => number_text t /\ x = VNull).
Lemma value_number_text p t r x : number_is t x -> delimited r -> (exists q, t = p :: q) -> value_number p (t ++ r) = (Ok x, len t).
Proof. intros Hx Hr Hq. destruct (decode_any_text p t r x Hx Hr Hq) as (y & E & <-). apply value_number_intro, E. Qed.
Lemma value_number_inv p l x n : value_number p (p :: l) = (Ok x, n) ->
  number_text (firstn n (p :: l)) /\ number_is (firstn n (p :: l)) x /\ n <= S (len l).
Proof.
  intros H. pose proof (value_number_bounded _ _ _ _ H) as Hb. apply value_number_ok in H as (y & H & ->). apply decode_any_inv in H.
  split; [eapply number_is_text; exact H|auto].
Qed.
Lemma skip_number_text p t r x : number_text t /\ x = VNull -> delimited r -> (exists q, t = p :: q) -> skip_number p (t ++ r) = (Ok x, len t).
Proof. intros (Ht & ->) Hr Hq. unfold skip_number. rewrite (range_text p t r Ht Hr Hq). reflexivity. Qed.
Lemma skip_number_inv p l x n : skip_number p (p :: l) = (Ok x, n) ->
  number_text (firstn n (p :: l)) /\ (number_text (firstn n (p :: l)) /\ x = VNull) /\ n <= S (len l).
Proof.
  intros H. pose proof (skip_number_bounded _ _ _ _ H) as Hb. pose proof (skip_number_ranged _ _ _ _ H) as Hr. apply range_inv in Hr.
  unfold skip_number in H. destruct (range_as p (p :: l)) as [k|[e o]]; [injection H as <- <-; auto|]. destruct (is_num p); discriminate.
Qed.
Lemma take_go D num p l : take D num p l = go D num p [] l. Proof. reflexivity. Qed.
Lemma after_end D num x l : after D num x [] l = jret x l.
Proof. unfold after. cbn [take_step]. rewrite jthen_ret. reflexivity. Qed.
Lemma value_complete p m v x l r : l = p :: m -> value_at any_layout false v l r -> value_of v x -> depth v <= 200 -> parsed (j_known_value p) l x r.
Proof.
  intros El Hv Hx Hd.
  assert (H : runs (go j_known_str value_number p []) l (after j_known_str value_number x []) r).
  { apply (proj1 (complete j_known_str string_is value_number number_is known_str_decodes value_number_text value_number_inv known_str_moving value_number_moving)
      false v l r Hv p m x [] El Hx). unfold cap. cbn [List.length]. change recursion_limit with 200. lia. }
  eapply runs_parsed; [exact H|]. eapply parsed_ext; [symmetry; apply after_end|apply parsed_ret].
Qed.
Lemma value_sound p m l x r : l = p :: m -> json_ws p = false -> parsed (j_known_value p) l x r ->
  exists v, text v l r /\ value_of v x /\ depth v <= 200.
Proof.
  intros El Hp H.
  destruct (sound j_known_str string_is value_number number_is known_str_decodes value_number_text value_number_inv known_str_moving value_number_moving
    (len l) l (le_n _)) as (Hs & _ & _).
  destruct (Hs p m [] x r El Hp (Nat.le_0_l _) H) as (v & y & k & Ht & Hm & Hc & H').
  apply (parsed_ext _ _ _ _ _ (after_end _ _ _ _)), ret_parsed in H' as (-> & ->). exists v. split; [exact Ht|]. split; [exact Hm|].
  unfold cap in Hc. cbn [List.length] in Hc. change recursion_limit with 200 in Hc. lia.
Qed.
Lemma value_limit p m v x l r : l = p :: m -> value_at any_layout false v l r -> value_of v x -> 200 < depth v -> limited (j_known_value p) l.
Proof.
  intros El Hv Hx Hd.
  apply (proj1 (deep j_known_str string_is value_number number_is known_str_decodes value_number_text value_number_inv known_str_moving value_number_moving)
      false v l r Hv p m x [] El Hx (Nat.le_0_l _)). unfold cap. cbn [List.length]. change recursion_limit with 200. lia.
Qed.
Lemma skipped_any :
  (forall b v l r, value_at any_layout b v l r -> exists x, skipped v x) /\
  (forall vs l r, items_at any_layout vs l r -> exists xs, means_all (fun t d => t = d) (fun t x => number_text t /\ x = VNull) vs xs) /\
  (forall ms l r, members_at any_layout ms l r -> exists ys, means_members (fun t d => t = d) (fun t x => number_text t /\ x = VNull) ms ys).
Proof.
  apply (grammar_ind any_layout (fun _ v _ _ => exists x, skipped v x)
    (fun vs _ _ => exists xs, means_all (fun t d => t = d) (fun t x => number_text t /\ x = VNull) vs xs)
    (fun ms _ _ => exists ys, means_members (fun t d => t = d) (fun t x => number_text t /\ x = VNull) ms ys)); intros;
    repeat match goal with H : exists x, _ |- _ => destruct H end; eexists; econstructor; eauto; try constructor; eauto.
Qed.
Lemma skip_complete p m v l r : l = p :: m -> value_at any_layout false v l r -> depth v <= 200 -> parsed (j_known_skip p) l tt r.
Proof.
  intros El Hv Hd. destruct (proj1 skipped_any _ _ _ _ Hv) as (x & Hx).
  assert (H : runs (go j_known_bytes skip_number p []) l (after j_known_bytes skip_number x []) r).
  { apply (proj1 (complete j_known_bytes (fun t d => t = d) skip_number (fun t x => number_text t /\ x = VNull) known_bytes_decodes skip_number_text skip_number_inv known_bytes_moving skip_number_moving)
      false v l r Hv p m x [] El Hx). unfold cap. cbn [List.length]. change recursion_limit with 200. lia. }
  apply (parsed_then _ _ l x r); [|apply parsed_ret]. eapply runs_parsed; [exact H|]. eapply parsed_ext; [symmetry; apply after_end|apply parsed_ret].
Qed.
Lemma skip_sound p m l r : l = p :: m -> json_ws p = false -> parsed (j_known_skip p) l tt r ->
  exists v, text v l r /\ depth v <= 200.
Proof.
  intros El Hp H. apply then_parsed in H as (x & r' & H & H'). apply ret_parsed in H' as (_ & ->).
  destruct (sound j_known_bytes (fun t d => t = d) skip_number (fun t x => number_text t /\ x = VNull) known_bytes_decodes skip_number_text skip_number_inv known_bytes_moving skip_number_moving
    (len l) l (le_n _)) as (Hs & _ & _).
  destruct (Hs p m [] x r' El Hp (Nat.le_0_l _) H) as (v & y & k & Ht & Hm & Hc & H').
  apply (parsed_ext _ _ _ _ _ (after_end _ _ _ _)), ret_parsed in H' as (-> & ->). exists v. split; [exact Ht|].
  unfold cap in Hc. cbn [List.length] in Hc. change recursion_limit with 200 in Hc. lia.
Qed.
Lemma limited_then {A B} (f : jop A) (g : A -> jop B) l : limited f l -> limited (jthen f g) l.
Proof. intros (o & a & E). unfold limited, jthen. rewrite E. eauto. Qed.
Lemma skip_limit p m v l r : l = p :: m -> value_at any_layout false v l r -> 200 < depth v -> limited (j_known_skip p) l.
Proof.
  intros El Hv Hd. destruct (proj1 skipped_any _ _ _ _ Hv) as (x & Hx). apply limited_then.
  apply (proj1 (deep j_known_bytes (fun t d => t = d) skip_number (fun t x => number_text t /\ x = VNull) known_bytes_decodes skip_number_text skip_number_inv known_bytes_moving skip_number_moving)
      false v l r Hv p m x [] El Hx (Nat.le_0_l _)). unfold cap. cbn [List.length]. change recursion_limit with 200. lia.
Qed.

(** *** With the white space in front *)
Lemma next_parsed {A} (g : byte -> jop A) w p m v r : spaces w -> solid p -> parsed (g p) (p :: m) v r -> parsed (jthen j_peek g) (w ++ p :: m) v r.
Proof. intros Hw Hp H. eapply parsed_then; [apply at_peek; auto|exact H]. Qed.
Lemma parsed_next {A} (g : byte -> jop A) l v r : parsed (jthen j_peek g) l v r ->
  exists w p m, l = w ++ p :: m /\ spaces w /\ json_ws p = false /\ parsed (g p) (p :: m) v r.
Proof. intros H. apply then_parsed in H as (p & k & H & H'). apply parsed_peek in H as (w & m & -> & -> & Hw & Hp). exists w, p, m. auto. Qed.
Lemma next_limited {A} (g : byte -> jop A) w p m : spaces w -> solid p -> limited (g p) (p :: m) -> limited (jthen j_peek g) (w ++ p :: m).
Proof.
  intros Hw Hp (o & a & E). destruct (at_peek w p m Hw Hp) as (b & Eb & Hb). unfold limited, jthen. rewrite Eb. unfold jat. rewrite <- Hb, E. eauto.
Qed.
Lemma document_head v l r : document any_layout v l r -> exists w p m, l = w ++ p :: m /\ spaces w /\ solid p /\ value_at any_layout false v (p :: m) r.
Proof.
  intros (w & l' & -> & Hw & Hv). destruct (value_head _ _ _ _ _ Hv) as (p & m & -> & Hp & _). exists w, p, m. auto.
Qed.
Lemma next_value_complete v x l r : document any_layout v l r -> value_of v x -> depth v <= 200 -> parsed j_next_value l x r.
Proof. intros Hd Hx Hc. apply document_head in Hd as (w & p & m & -> & Hw & Hp & Hv). apply next_parsed; auto. eapply value_complete; eauto. Qed.
Lemma next_skip_complete v l r : document any_layout v l r -> depth v <= 200 -> parsed j_next_skip l tt r.
Proof. intros Hd Hc. apply document_head in Hd as (w & p & m & -> & Hw & Hp & Hv). apply next_parsed; auto. eapply skip_complete; eauto. Qed.
Lemma next_value_limit v x l r : document any_layout v l r -> value_of v x -> 200 < depth v -> limited j_next_value l.
Proof. intros Hd Hx Hc. apply document_head in Hd as (w & p & m & -> & Hw & Hp & Hv). apply next_limited; auto. eapply value_limit; eauto. Qed.
Lemma next_skip_limit v l r : document any_layout v l r -> 200 < depth v -> limited j_next_skip l.
Proof. intros Hd Hc. apply document_head in Hd as (w & p & m & -> & Hw & Hp & Hv). apply next_limited; auto. eapply skip_limit; eauto. Qed.
Lemma next_value_sound l x r : parsed j_next_value l x r -> exists v, text_of v l r /\ value_of v x /\ depth v <= 200.
Proof.
  intros H. apply parsed_next in H as (w & p & m & -> & Hw & Hp & H). apply (value_sound p m _ _ _ eq_refl Hp) in H as (v & Ht & Hx & Hd).
  exists v. split; [|auto]. apply text_alone in Ht as (t & -> & Ht). exists w, t. auto.
Qed.
Lemma next_skip_sound l x r : parsed j_next_skip l x r -> exists v, text_of v l r /\ depth v <= 200.
Proof.
  intros H. destruct x. apply parsed_next in H as (w & p & m & -> & Hw & Hp & H). apply (skip_sound p m _ _ eq_refl Hp) in H as (v & Ht & Hd).
  exists v. split; [|auto]. apply text_alone in Ht as (t & -> & Ht). exists w, t. auto.
Qed.

(** ** The streaming methods *)
Definition no_condition (_ : buffer) : Prop := True.
Lemma no_condition_closed : closed no_condition. Proof. split; intros; exact I. Qed.
Lemma read_states s : valid s -> states (rcap s) no_condition s. Proof. intros V. repeat split; auto; apply V. Qed.
Lemma strip_none l : exists w, blanks w /\ l = w ++ strip None l.
Proof. destruct (strip_split None l) as (w & Hw & _ & [E|(t & w2 & l2 & E & _)]); [eauto|discriminate]. Qed.

(** What is read, if a successful run of the plain parser reads [P v], the text in front of the rest. *)
Lemma text_read {A} k (f : jop A) op s s' x (P : bytes -> A -> Prop) :
  method k false None f op -> (k = Number \/ (k = Whole /\ 0 < jidx s)) -> valid s -> 2 <= rcap s ->
  (forall l y r, parsed f l y r -> exists w t, l = w ++ t ++ r /\ spaces w /\ P t y) -> op s = Done (s', Ok x) ->
  exists u w t, rest s = u ++ w ++ t ++ rest s' /\ blanks u /\ spaces w /\ P t x.
Proof.
  intros M Hk V Hc HP E.
  destruct (op_read (rcap s) no_condition k false None f op s s' x no_condition_closed Hc M (read_states s V) E) as (_ & _ & H).
  destruct (strip_none (rest s)) as (u & Hu & Eu).
  destruct H as [H|[H|[(He & Hf & Hr)|(Hk1 & (H0 & _))]]].
  - destruct (HP _ _ _ H) as (w & t & E1 & Hw & Ht). exists [], w, t. repeat split; auto. constructor.
  - destruct (HP _ _ _ H) as (w & t & E1 & Hw & Ht). exists u, w, t. rewrite <- E1. auto.
  - set (S := strip None (rest s)) in *. assert (Hp : parsed f (firstn (rcap s) S) x (skipn (rcap s) (firstn (rcap s) S))) by (exists (rcap s); auto).
    destruct (HP _ _ _ Hp) as (w & t & E1 & Hw & Ht). rewrite skipn_firstn_comm, Nat.sub_diag in E1. cbn [firstn] in E1. rewrite app_nil_r in E1.
    exists u, w, t. split; [|auto]. rewrite Hr, (app_assoc w), <- E1, firstn_skipn. exact Eu.
  - destruct Hk as [->|(-> & Hk)]; [|lia]. destruct Hk1 as [Hk1|Hk1]; discriminate.
Qed.
Lemma value_read op s s' x : value_method op -> valid s -> 2 <= rcap s -> 0 < jidx s -> op s = Done (s', Ok x) ->
  exists u v, blanks u /\ value_of v x /\ depth v <= 200 /\ exists l, rest s = u ++ l /\ text_of v l (rest s').
Proof.
  intros Ho V Hc Hi E. assert (M : method Whole false None j_next_value op) by (destruct Ho; constructor).
  destruct (text_read Whole j_next_value op s s' x (fun t y => exists v, value_at any_layout false v t [] /\ value_of v y /\ depth v <= 200)
    M (or_intror (conj eq_refl Hi)) V Hc) as (u & w & t & Er & Hu & Hw & v & Ht & Hx & Hd); [|exact E|].
  - intros l y r H. apply next_value_sound in H as (v & (w & t & El & Hw & Ht) & Hx & Hd). exists w, t. split; [exact El|]. split; [exact Hw|]. exists v. auto.
  - exists u, v. repeat (split; [assumption|]). exists (w ++ t ++ rest s'). split; [exact Er|]. exists w, t. auto.
Qed.
Lemma skip_read s s' : valid s -> 2 <= rcap s -> 0 < jidx s -> next_skip s = Done (s', Ok tt) ->
  exists u v, blanks u /\ depth v <= 200 /\ exists l, rest s = u ++ l /\ text_of v l (rest s').
Proof.
  intros V Hc Hi E.
  destruct (text_read Whole j_next_skip next_skip s s' tt (fun t _ => exists v, value_at any_layout false v t [] /\ depth v <= 200)
    m_next_skip (or_intror (conj eq_refl Hi)) V Hc) as (u & w & t & Er & Hu & Hw & v & Ht & Hd); [|exact E|].
  - intros l y r H. apply next_skip_sound in H as (v & (w & t & El & Hw & Ht) & Hd). exists w, t. split; [exact El|]. split; [exact Hw|]. exists v. auto.
  - exists u, v. repeat (split; [assumption|]). exists (w ++ t ++ rest s'). split; [exact Er|]. exists w, t. auto.
Qed.
Lemma whole_complete {A} (f : jop A) op s w l v x r : method Whole false None f op -> valid s -> 2 <= rcap s -> rquiet s = true ->
  rest s = w ++ l -> spaces w -> value_at any_layout false v l r -> parsed f (rest s) x r -> len l < rcap s + len r ->
  0 < jidx s \/ r <> [] \/ n_bytes (bf s) = 0 ->
  exists s', op s = Done (s', Ok x) /\ valid s' /\ rest s' = r /\ total s' = total s /\ rcap s' = rcap s /\ rquiet s' = true.
Proof.
  intros M V Hc Hq Er Hw Hv Hp Hfit Hk. destruct (value_head _ _ _ _ _ Hv) as (p & m & -> & Hs & _).
  apply (op_complete Whole false None f op s x r M V Hc Hq); auto.
  - intros H. discriminate.
  - rewrite Er. apply nff_none; auto.
  - rewrite Er. cbn [strip]. rewrite aw_spaces by assumption. exact Hfit.
Qed.
Lemma value_streamed op s w l v x r : value_method op -> valid s -> 2 <= rcap s -> rquiet s = true ->
  rest s = w ++ l -> spaces w -> value_at any_layout false v l r -> value_of v x -> depth v <= 200 -> len l < rcap s + len r ->
  0 < jidx s \/ r <> [] \/ n_bytes (bf s) = 0 ->
  exists s', op s = Done (s', Ok x) /\ valid s' /\ rest s' = r /\ total s' = total s /\ rcap s' = rcap s /\ rquiet s' = true.
Proof.
  intros Ho V Hc Hq Er Hw Hv Hx Hd Hfit Hk. assert (M : method Whole false None j_next_value op) by (destruct Ho; constructor).
  eapply whole_complete; eauto. apply (next_value_complete v); auto. exists w, l. auto.
Qed.
Lemma skip_streamed s w l v r : valid s -> 2 <= rcap s -> rquiet s = true ->
  rest s = w ++ l -> spaces w -> value_at any_layout false v l r -> depth v <= 200 -> len l < rcap s + len r ->
  0 < jidx s \/ r <> [] \/ n_bytes (bf s) = 0 ->
  exists s', next_skip s = Done (s', Ok tt) /\ valid s' /\ rest s' = r /\ total s' = total s /\ rcap s' = rcap s /\ rquiet s' = true.
Proof.
  intros V Hc Hq Er Hw Hv Hd Hfit Hk. eapply (whole_complete j_next_skip); eauto; [constructor|]. apply (next_skip_complete v); auto. exists w, l. auto.
Qed.

(** *** Too deep *)
Lemma limited_unparsed {A} (f : jop A) l x r : limited f l -> parsed f l x r -> False.
Proof. intros (o & a & E) (b & E' & _). congruence. Qed.
Lemma whole_limited {A} (f : jop A) op s w p m : method Whole false None f op -> stable true f -> valid s -> 2 <= rcap s -> 0 < jidx s ->
  rest s = w ++ p :: m -> spaces w -> solid p -> (forall w, spaces w -> limited f (w ++ p :: m)) -> len (p :: m) <= rcap s ->
  exists s' e, op s = Done (s', Err e) /\ (err_type e = JsonError RecursionLimitExceeded \/ (is_io e = true /\ rquiet s = false)).
Proof.
  intros M Hst V Hc Hi Er Hw Hs Hl Hfit.
  apply method_facts in M as [-> Hwk Hb He _ _ _].
  destruct (loop_spec f None true s Hwk Hb He V Hc) as (s' & res & E & P). cbn [eager_of]. rewrite E.
  assert (Hstrip : strip None (rest s) = p :: m) by (rewrite Er; cbn [strip]; rewrite aw_spaces by assumption; reflexivity).
  unfold op_post in P. rewrite Hstrip in P. destruct res as [x|e].
  - exfalso. destruct P as (_ & _ & _ & _ & [P|[P|[(_ & Hlt & _)|(H0 & _)]]]); try lia.
    + rewrite Er in P. eapply limited_unparsed; [apply Hl, Hw|exact P].
    + eapply limited_unparsed; [apply (Hl [])|exact P]. constructor.
  - exists s', e. split; [reflexivity|]. destruct P as [P|[(er & a & E1 & P)|[(Hlt & _)|(H0 & _)]]]; [right; exact P| |unfold bytes, byte in *; lia|lia].
    left. rewrite (P Hst). destruct (Hl [] spaces_nil) as (o & b & E2). cbn [app] in E2. rewrite E2 in E1. injection E1 as <- _. reflexivity.
Qed.
Lemma value_too_deep op s w l v x r : value_method op -> valid s -> 2 <= rcap s -> 0 < jidx s ->
  rest s = w ++ l -> spaces w -> value_at any_layout false v l r -> value_of v x -> 200 < depth v -> len l <= rcap s ->
  exists s' e, op s = Done (s', Err e) /\ (err_type e = JsonError RecursionLimitExceeded \/ (is_io e = true /\ rquiet s = false)).
Proof.
  intros Ho V Hc Hi Er Hw Hv Hx Hd Hfit. assert (M : method Whole false None j_next_value op) by (destruct Ho; constructor).
  destruct (value_head _ _ _ _ _ Hv) as (p & m & -> & Hs & _).
  apply (whole_limited j_next_value op s w p m M); auto.
  - apply look_stable, known_value_ext.
  - intros w' Hw'. apply (next_value_limit v x _ r); auto. exists w', (p :: m). auto.
Qed.
Lemma skip_too_deep s w l v r : valid s -> 2 <= rcap s -> 0 < jidx s ->
  rest s = w ++ l -> spaces w -> value_at any_layout false v l r -> 200 < depth v -> len l <= rcap s ->
  exists s' e, next_skip s = Done (s', Err e) /\ (err_type e = JsonError RecursionLimitExceeded \/ (is_io e = true /\ rquiet s = false)).
Proof.
  intros V Hc Hi Er Hw Hv Hd Hfit.
  destruct (value_head _ _ _ _ _ Hv) as (p & m & -> & Hs & _).
  apply (whole_limited j_next_skip next_skip s w p m); auto; [constructor| |].
  - apply look_stable, known_skip_ext.
  - intros w' Hw'. apply (next_skip_limit v _ r); auto. exists w', (p :: m). auto.
Qed.
(** Whatever the buffer: never a value. *)
Lemma deep_head v l r : value_at any_layout false v l r -> 200 < depth v -> exists m, l = LBRACK :: m \/ l = LBRACE :: m.
Proof. intros Hv Hd. destruct Hv; cbn [depth] in Hd; try (exfalso; lia); eauto. Qed.
Lemma whole_never {A} (f : jop A) op s w p m : method Whole false None f op -> valid s -> 2 <= rcap s -> 0 < jidx s ->
  rest s = w ++ p :: m -> spaces w -> solid p -> number_char p = false -> (forall w, spaces w -> limited f (w ++ p :: m)) ->
  exists s' e, op s = Done (s', Err e).
Proof.
  intros M V Hc Hi Er Hw Hs Hn Hl.
  destruct (op_sound Whole false None f op s M V Hc) as (s' & res & E & P); auto.
  - intros H. discriminate.
  - rewrite Er. apply nff_none; auto.
  - cbn [number_fits]. rewrite Er, jw_spaces by assumption. cbn [run_length]. rewrite Hn. lia.
  - destruct res as [x|e]; [|eauto]. exfalso. destruct P as (P & _). rewrite Er in P. eapply limited_unparsed; [apply Hl, Hw|exact P].
Qed.
Lemma value_never op s w l v x r : value_method op -> valid s -> 2 <= rcap s -> 0 < jidx s ->
  rest s = w ++ l -> spaces w -> value_at any_layout false v l r -> value_of v x -> 200 < depth v ->
  exists s' e, op s = Done (s', Err e).
Proof.
  intros Ho V Hc Hi Er Hw Hv Hx Hd. assert (M : method Whole false None j_next_value op) by (destruct Ho; constructor).
  destruct (deep_head _ _ _ Hv Hd) as (m & [-> | ->]);
    (eapply (whole_never j_next_value op s w _ m M); eauto; [reflexivity|]; intros w' Hw'; apply (next_value_limit v x _ r); auto; eexists w', _; eauto).
Qed.
Lemma skip_never s w l v r : valid s -> 2 <= rcap s -> 0 < jidx s ->
  rest s = w ++ l -> spaces w -> value_at any_layout false v l r -> 200 < depth v ->
  exists s' e, next_skip s = Done (s', Err e).
Proof.
  intros V Hc Hi Er Hw Hv Hd.
  destruct (deep_head _ _ _ Hv Hd) as (m & [-> | ->]);
    (eapply (whole_never j_next_skip next_skip s w _ m m_next_skip); eauto; [reflexivity|]; intros w' Hw'; apply (next_skip_limit v _ r); auto; eexists w', _; eauto).
Qed.

(** *** Numbers *)
Definition reads_numbers {A} (nmeans : bytes -> A -> Prop) (f : jop A) : Prop :=
  (forall t x, nmeans t x -> number_text t) /\
  (forall l x r, parsed f l x r -> exists w t, l = w ++ t ++ r /\ spaces w /\ nmeans t x) /\
  (forall w t x r, spaces w -> nmeans t x -> delimited r -> parsed f (w ++ t ++ r) x r).
Lemma known_num_reads {A} ty (d : byte -> jop A) (nmeans : bytes -> A -> Prop) : (forall t x, nmeans t x -> number_text t) ->
  (forall p l x n, d p (p :: l) = (Ok x, n) -> nmeans (firstn n (p :: l)) x) ->
  (forall p t r x, nmeans t x -> delimited r -> (exists q, t = p :: q) -> d p (t ++ r) = (Ok x, len t)) ->
  reads_numbers nmeans (jthen j_peek (known_num ty d)).
Proof.
  intros Ht Hs Hc. split; [exact Ht|]. split.
  - intros l x r H. apply parsed_next in H as (w & p & m & -> & Hw & Hp & (a & E & ->)). apply known_num_ok in E. apply Hs in E.
    exists w, (firstn a (p :: m)). rewrite firstn_skipn. auto.
  - intros w t x r Hw Hx Hr. destruct (number_head t (Ht _ _ Hx)) as (p & q & -> & Hp). destruct (number_solid p Hp) as (Hps & Hpn).
    apply (next_parsed _ w p (q ++ r)); auto. exists (len (p :: q)). rewrite known_num_same by exact Hpn. split; [apply (Hc p (p :: q)); eauto|].
    change (p :: q ++ r) with ((p :: q) ++ r). rewrite skipn_app, skipn_all, Nat.sub_diag. reflexivity.
Qed.
Lemma method_reads {A} (nmeans : bytes -> A -> Prop) op : number_method nmeans op -> exists f, method Number false None f op /\ reads_numbers nmeans f.
Proof.
  intros [].
  - exists j_next_int. split; [constructor|]. apply known_num_reads.
    + intros t x H. eapply integer_is_text; exact H.
    + apply decode_int_inv.
    + intros. apply decode_int_text; auto.
  - exists j_next_float. split; [constructor|]. apply known_num_reads.
    + intros t x (H & _). exact H.
    + intros p l x n H. apply decode_float_inv in H as (-> & H). split; auto.
    + intros p t r x (Ht & ->) Hr Hq. apply decode_float_text; auto.
  - exists j_next_number. split; [constructor|]. apply known_num_reads.
    + intros t [z|u] H; [eapply integer_is_text; exact H|apply H].
    + intros p l x n H. apply decode_any_inv in H. destruct x; inversion H; subst; cbn [any_is]; auto. split; [split|]; auto.
    + intros p t r x Hx Hr Hq. destruct (decode_any_text p t r (any_value x)) as (y & E & Ey); auto.
      * destruct x; cbn [any_is any_value] in *; [constructor; exact Hx|]. destruct Hx as ((H1 & ->) & H2). constructor; auto.
      * rewrite E. destruct x, y; inversion Ey; reflexivity.
  - exists j_next_number_bytes. split; [constructor|]. split; [intros t x (H & _); exact H|]. split.
    + intros l x r H. apply parsed_number in H as (w & -> & Hw & Ht). exists w, x. repeat split; auto.
    + intros w t x r Hw (Ht & ->) Hr. pose proof (ScanTokens.at_number t r Ht Hr) as H. destruct (number_head t Ht) as (p & q & -> & Hp).
      destruct (number_solid p Hp) as (Hps & _). unfold j_next_number_bytes, next_as in *. apply parsed_after_ws in H. apply parsed_after_ws.
      cbn [app] in *. rewrite jw_spaces by assumption. rewrite skip_jw_head in H by (apply solid_json; exact Hps). exact H.
Qed.
Lemma number_streamed {A} (nmeans : bytes -> A -> Prop) op s w t x r : number_method nmeans op -> valid s -> 2 <= rcap s -> rquiet s = true ->
  rest s = w ++ t ++ r -> spaces w -> nmeans t x -> delimited r -> len t < rcap s -> 0 < jidx s \/ r <> [] \/ n_bytes (bf s) = 0 ->
  exists s', op s = Done (s', Ok x) /\ valid s' /\ rest s' = r /\ total s' = total s /\ rcap s' = rcap s /\ rquiet s' = true.
Proof.
  intros Ho V Hc Hq Er Hw Hx Hr Hfit Hk. apply method_reads in Ho as (f & M & Ht & _ & Hp). specialize (Hp w t x r Hw Hx Hr).
  apply Ht in Hx. destruct (number_head t Hx) as (p & q & -> & Hpn). destruct (number_solid p Hpn) as (Hps & _). cbn [app] in *.
  apply (op_complete Number false None f op s x r M V Hc Hq); auto.
  - intros H. discriminate.
  - rewrite Er. apply nff_none; auto.
  - rewrite Er. exact Hp.
  - rewrite Er. cbn [strip]. rewrite aw_spaces by assumption. cbn [List.length] in *. rewrite app_length. unfold bytes, byte in *. lia.
Qed.
Lemma number_read {A} (nmeans : bytes -> A -> Prop) op s s' x : number_method nmeans op -> valid s -> 2 <= rcap s -> op s = Done (s', Ok x) ->
  exists u t, rest s = u ++ t ++ rest s' /\ blanks u /\ nmeans t x.
Proof.
  intros Ho V Hc E. apply method_reads in Ho as (f & M & _ & Hs & _).
  destruct (text_read Number f op s s' x nmeans M (or_introl eq_refl) V Hc Hs E) as (u & w & t & Er & Hu & Hw & Ht).
  exists (u ++ w), t. rewrite <- app_assoc. split; [exact Er|]. split; [|exact Ht]. apply blanks_app; [exact Hu|apply spaces_blanks, Hw].
Qed.
(** A number with a fraction or an exponent is not an integer. *)
Lemma decode_int_float p t r : number_text t -> fractional t -> delimited r -> (exists q, t = p :: q) -> exists o a, decode_int p (t ++ r) = (Err (JsonError FloatExpectingInt, o), a).
Proof.
  intros Ht Hf Hr Hq. destruct (int_parse_number p t r Ht Hr Hq) as (a & b & z & _ & _ & [(_ & H & _)|(_ & E)]); [contradiction|].
  unfold decode_int. rewrite E. unfold num_fail. eauto.
Qed.
Lemma delimited_run t r : delimited r -> run_length number_char (t ++ r) <= len t.
Proof.
  intros Hr. induction t as [|x t IH]; cbn [app run_length List.length].
  - destruct r as [|y r]; cbn [run_length]; [lia|]. cbn in Hr. rewrite Hr. lia.
  - destruct (number_char x); lia.
Qed.
Lemma int_refused s w t r : valid s -> 2 <= rcap s -> rest s = w ++ t ++ r -> spaces w -> number_text t -> fractional t -> delimited r -> len t < rcap s ->
  exists s' e, next_int s = Done (s', Err e).
Proof.
  intros V Hc Er Hw Ht Hf Hr Hfit. destruct (number_head t Ht) as (p & q & -> & Hpn). destruct (number_solid p Hpn) as (Hps & Hpi).
  destruct (decode_int_float p (p :: q) r Ht Hf Hr ltac:(eauto)) as (o & a & E).
  destruct (op_sound Number false None j_next_int next_int s m_next_int V Hc) as (s' & res & E' & P); auto.
  - intros H. discriminate.
  - rewrite Er. apply nff_none; auto.
  - exact I.
  - cbn [number_fits]. rewrite Er. cbn [app]. rewrite jw_spaces by assumption. pose proof (delimited_run (p :: q) r Hr) as H. cbn [app] in H. unfold bytes, byte in *. lia.
  - destruct res as [z|e]; [exfalso|eauto]. destruct P as ((b & P & _) & _). rewrite Er in P. cbn [app] in *.
    destruct (at_peek w p (q ++ r) Hw Hps) as (k & Ek & Hk). unfold j_next_int, jthen in P. rewrite Ek in P. unfold jat in P. rewrite <- Hk in P.
    unfold j_known_int in P. rewrite known_num_same, E in P by exact Hpi. discriminate.
Qed.

(** *** The methods for a known first byte *)
Lemma skip_spaces_solid b x m : firstn (n_bytes b) (buf b) = x :: m -> is_ascii_whitespace x = false -> skip_spaces b 0 = Done (b, Ok tt).
Proof.
  intros E Hx. unfold skip_spaces, skip_fuel. cbn [skip_spaces_loop]. unfold collect_while, fuel_for. cbn [collect_while_loop skipn].
  rewrite E. cbn [run_length]. rewrite Hx. destruct (n_bytes b) eqn:En; [discriminate|]. reflexivity.
Qed.
Definition sees (p : byte) (b : buffer) : Prop := exists m, firstn (n_bytes b) (buf b) = p :: m.
Lemma sees_stream p b : wf b -> sees p b <-> 0 < n_bytes b /\ exists m, stream b = p :: m.
Proof.
  intros W. unfold sees. rewrite <- stream_firstn by exact W. split.
  - intros (m & E). destruct (n_bytes b); [discriminate|]. split; [lia|]. destruct (stream b); [discriminate|]. injection E as -> _. eauto.
  - intros (Hn & m & ->). destruct (n_bytes b); [lia|]. cbn [firstn]. eauto.
Qed.
Lemma retry_same {A} (f g : jop A) p eager fuel : (forall l, f (p :: l) = g (p :: l)) -> forall s, wf (bf s) -> jlen s = n_bytes (bf s) -> jidx s = 0 -> sees p (bf s) ->
  retry_loop fuel f eager s = retry_loop fuel g eager s.
Proof.
  intros H. induction fuel as [|fuel IH]; intros s W HL HI (m & Hs); [reflexivity|]. cbn [retry_loop]. unfold jcall.
  assert (Ev : jview s = p :: m) by (unfold jview; rewrite HL, HI; exact Hs). rewrite Ev, H. destruct (g (p :: m)) as [r a].
  assert (Hm : forall k b, read_more (bf s) = (b, Ok (S k)) -> retry_loop fuel f eager (create_new_jiter (with_bf (mkRj (bf s) (jlen s) (jidx s + a)) b)) =
    retry_loop fuel g eager (create_new_jiter (with_bf (mkRj (bf s) (jlen s) (jidx s + a)) b))).
  { intros k b Er. destruct (read_more_spec _ _ _ W Er) as (C2 & _ & _ & Hn & _). assert (W2 : wf b) by (eapply cut_wf; eauto).
    apply IH; try reflexivity; [exact W2|]. cbn [create_new_jiter with_bf bf]. apply sees_stream; [exact W2|].
    destruct (proj1 (sees_stream p (bf s) W) (ex_intro _ m Hs)) as (Hp & q & E). split; [lia|]. exists q. rewrite (cut_nil_stream _ _ _ C2). exact E. }
  cbn [bf]. destruct r as [v|[e o]].
  - destruct (really_ok eager _); [reflexivity|]. destruct (read_more (bf s)) as [b [[|k]|er]] eqn:Er; try reflexivity. eapply Hm; reflexivity.
  - destruct (can_retry _); [|reflexivity]. destruct (read_more (bf s)) as [b [[|k]|er]] eqn:Er; try reflexivity. eapply Hm; reflexivity.
Qed.
Lemma loop_same {A} (f g : jop A) p m eager s : (forall l, f (p :: l) = g (p :: l)) -> valid s -> 0 < jidx s -> jview s = p :: m -> is_ascii_whitespace p = false ->
  loop_until_success f None eager s = loop_until_success g None eager s.
Proof.
  intros H V Hi Ev Hp. unfold loop_until_success, jcall. rewrite Ev, H. destruct (g (p :: m)) as [r a].
  assert (Hagain : match skip_spaces_feeding (mkRj (bf s) (jlen s) (jidx s + a)) (jidx s) None with
    | Done (s2, Ok tt) => retry_loop (fuel_for (bf s2)) f eager s2 | Done (s2, Err e) => Done (s2, Err e) | Panic => Panic | Diverge => Diverge end =
    match skip_spaces_feeding (mkRj (bf s) (jlen s) (jidx s + a)) (jidx s) None with
    | Done (s2, Ok tt) => retry_loop (fuel_for (bf s2)) g eager s2 | Done (s2, Err e) => Done (s2, Err e) | Panic => Panic | Diverge => Diverge end).
  { unfold skip_spaces_feeding. cbn [bf]. rewrite (proj2 (Nat.ltb_lt 0 (jidx s)) Hi). pose proof V as (W & HL & HI).
    destruct (shift_front (bf s) (jidx s) W HI) as (C & N & L & R & E). assert (W1 : wf (shift_buffer (bf s) 0 (jidx s))) by (eapply cut_wf; eauto).
    pose proof (jview_length s V) as Hlv. rewrite Ev in Hlv. cbn [List.length] in Hlv.
    assert (Hsee : sees p (shift_buffer (bf s) 0 (jidx s))).
    { apply sees_stream; [exact W1|]. split; [lia|]. pose proof (jview_split s V) as Hsp. rewrite Ev in Hsp. unfold rest in Hsp. rewrite E, Hsp. cbn [app]. eauto. }
    pose proof Hsee as (q & Hq). rewrite (skip_spaces_solid _ p q Hq Hp).
    assert (Hch : is_changed (bf s) (shift_buffer (bf s) 0 (jidx s)) = true).
    { destruct (is_changed _ _) eqn:Ec; [reflexivity|]. apply is_changed_false in Ec as (_ & Ec). lia. }
    rewrite Hch. apply (retry_same f g p); auto. }
  destruct r as [v|[e o]]; [destruct (really_ok eager _); [reflexivity|]|]; exact Hagain.
Qed.
Lemma look_head {A} (g : byte -> jop A) p l : json_ws p = false -> jthen j_peek g (p :: l) = g p (p :: l).
Proof. intros Hp. unfold jthen, j_peek, after_ws. cbn [run_length]. rewrite Hp. rewrite jat_0. cbn [jok]. rewrite jat_0. reflexivity. Qed.
Lemma known_is_next {A} (known : byte -> rj -> outcome (rj * result A rerror)) next p m s : known_method known next ->
  valid s -> 0 < jidx s -> jview s = p :: m -> is_ascii_whitespace p = false -> known p s = next s.
Proof.
  intros Ho V Hi Ev Hp. pose proof (solid_json p Hp) as Hj.
  destruct Ho; unfold known_int, known_float, known_number, known_skip, known_value, known_value_owned, next_int, next_float, next_number, next_skip, next_value, next_value_owned;
    (eapply loop_same; eauto; intros l; symmetry; apply look_head; exact Hj).
Qed.

(** ** For the examples: arrays in arrays *)
Fixpoint nest (n : nat) : json := match n with 0 => JNumber (bs "1") | S n' => JArray [nest n'] end.
Fixpoint nest_value (n : nat) : jvalue := match n with 0 => VInt 1 | S n' => VArray [nest_value n'] end.
Fixpoint nested (n : nat) (r : bytes) : bytes := match n with 0 => bs "1" ++ r | S n' => LBRACK :: nested n' (RBRACK :: r) end.
Lemma one_text : number_text (bs "1").
Proof. exists [], (bs "1"), [], []. split; [reflexivity|]. split; [left; reflexivity|]. split; [|split; left; reflexivity]. right. exists 49%N, []. repeat split; try (cbn; lia). constructor. Qed.
Lemma nested_text n : forall b r, delimited r -> value_at any_layout b (nest n) (nested n r) r.
Proof.
  induction n as [|n IH]; intros b r Hr; cbn [nest nested].
  - apply ScanSpec.at_number; auto using one_text. exact I.
  - apply (at_array any_layout b [] (nest n) [] (nested n (RBRACK :: r)) (RBRACK :: r)); auto; [apply IH; reflexivity|]. apply (items_end any_layout []). auto.
Qed.
Lemma nested_value n : value_of (nest n) (nest_value n).
Proof.
  induction n as [|n IH]; cbn [nest nest_value]; [|constructor; constructor; [exact IH|constructor]].
  constructor. constructor. apply (is_positive (bs "1")). right. exists 49%N, []. repeat split; try (cbn; lia). constructor.
Qed.
Lemma nested_depth n : depth (nest n) = n.
Proof. induction n as [|n IH]; [reflexivity|]. cbn [nest depth map list_max fold_right]. rewrite IH. lia. Qed.

Lemma deep_reported s w l v r : valid s -> 2 <= rcap s -> rquiet s = true -> 0 < jidx s -> rest s = w ++ l -> spaces w ->
  value_at any_layout false v l r -> 200 < depth v -> len l <= rcap s ->
  (exists s' e, next_skip s = Done (s', Err e) /\ err_type e = JsonError RecursionLimitExceeded) /\
  (forall op x, value_method op -> value_of v x -> exists s' e, op s = Done (s', Err e) /\ err_type e = JsonError RecursionLimitExceeded).
Proof.
  intros V Hc Hq Hi Er Hw Hv Hd Hfit. split.
  - destruct (skip_too_deep s w l v r V Hc Hi Er Hw Hv Hd Hfit) as (s' & e & E & [H|(_ & H)]); [eauto|congruence].
  - intros op x Ho Hx. destruct (value_too_deep op s w l v x r Ho V Hc Hi Er Hw Hv Hx Hd Hfit) as (s' & e & E & [H|(_ & H)]); [eauto|congruence].
Qed.
Lemma deep_never s w l v r : valid s -> 2 <= rcap s -> 0 < jidx s -> rest s = w ++ l -> spaces w -> value_at any_layout false v l r -> 200 < depth v ->
  (exists s' e, next_skip s = Done (s', Err e)) /\
  (forall op x, value_method op -> value_of v x -> exists s' e, op s = Done (s', Err e)).
Proof.
  intros V Hc Hi Er Hw Hv Hd. split; [exact (skip_never s w l v r V Hc Hi Er Hw Hv Hd)|].
  intros op x Ho Hx. exact (value_never op s w l v x r Ho V Hc Hi Er Hw Hv Hx Hd).
Qed.
