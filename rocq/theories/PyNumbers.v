(** Proofs about the integers of the converter in Python. *)
From Coq Require Import ZArith Lia DecimalFacts DecimalN.
From Verif Require Import Base Buffer Jiter RJiter RJiterSpec ScanSpec ValueSpec DdbSpec Cli Bench BenchSpec Messages PyBench PyBenchSpec.
From Verif Require Import JiterValue ValueProofs BenchProofs ScanTop PyBenchProofs PyBenchRun.
Local Opaque max_digits.

(** ** Digits *)
Lemma shown_digits : forall u, Forall digit (digits u).
Proof. induction u; cbn [digits]; constructor; try assumption; unfold digit; lia. Qed.
Lemma shown_some t : Forall digit t -> exists u, digits u = t.
Proof.
  induction 1 as [|x t Hx _ (u & <-)]; [exists Decimal.Nil; reflexivity|]. unfold digit in Hx.
  assert (H : (x = 48 \/ x = 49 \/ x = 50 \/ x = 51 \/ x = 52 \/ x = 53 \/ x = 54 \/ x = 55 \/ x = 56 \/ x = 57)%N) by lia.
  destruct H as [->|[->|[->|[->|[->|[->|[->|[->|[->| ->]]]]]]]]].
  - exists (Decimal.D0 u). reflexivity. - exists (Decimal.D1 u). reflexivity. - exists (Decimal.D2 u). reflexivity. - exists (Decimal.D3 u). reflexivity. - exists (Decimal.D4 u). reflexivity.
  - exists (Decimal.D5 u). reflexivity. - exists (Decimal.D6 u). reflexivity. - exists (Decimal.D7 u). reflexivity. - exists (Decimal.D8 u). reflexivity. - exists (Decimal.D9 u). reflexivity.
Qed.
Lemma value_from : forall u acc, fold_left (fun z x => 10 * z + (Z.of_N x - 48))%Z (digits u) (Z.pos acc) = Z.pos (Pos.of_uint_acc u acc).
Proof. induction u; intros acc; cbn [digits fold_left Pos.of_uint_acc]; [reflexivity|..]; rewrite <- IHu; f_equal; lia. Qed.
Lemma value_digits : forall u, decimal (digits u) = Z.of_N (N.of_uint u).
Proof.
  intros u. rewrite <- digits_value_is. unfold digits_value, N.of_uint. induction u; cbn [digits fold_left Pos.of_uint]; [reflexivity| |..].
  - exact IHu.
  - exact (value_from u 1). - exact (value_from u 2). - exact (value_from u 3). - exact (value_from u 4). - exact (value_from u 5).
  - exact (value_from u 6). - exact (value_from u 7). - exact (value_from u 8). - exact (value_from u 9).
Qed.
Lemma head_some u : match Decimal.nzhead u with Decimal.D0 _ => False | _ => True end.
Proof. induction u; cbn [Decimal.nzhead]; auto. Qed.
Lemma shown_integer n : integer (show_N n).
Proof.
  unfold show_N. rewrite <- (Unsigned.of_to n) at 1. rewrite Unsigned.to_of. unfold Decimal.unorm. pose proof (head_some (N.to_uint n)) as H.
  destruct (Decimal.nzhead (N.to_uint n)) as [|u|u|u|u|u|u|u|u|u|u]; [left; reflexivity|contradiction|..]; right; cbn [digits]; eexists _, _; (split; [reflexivity|]); (split; [lia|apply shown_digits]).
Qed.
Lemma shown_value n : decimal (show_N n) = Z.of_N n.
Proof. unfold show_N. rewrite value_digits, Unsigned.of_to. reflexivity. Qed.
Lemma integer_digits i : integer i -> digits1 i.
Proof. intros [->|(x & d & -> & H & K)]; (split; [discriminate|]); constructor; auto; unfold digit; lia. Qed.
Lemma integer_norm u : integer (digits u) -> Decimal.unorm u = u.
Proof.
  intros [E|(x & d & E & H & _)]; destruct u; cbn [digits] in E; try discriminate; try reflexivity.
  - destruct u; [reflexivity|discriminate..].
  - injection E as E _. lia.
Qed.
Lemma integer_shown i : integer i -> show_N (Z.to_N (decimal i)) = i.
Proof.
  intros H. destruct (shown_some i (proj2 (integer_digits i H))) as (u & <-). rewrite value_digits, N2Z.id. unfold show_N. rewrite Unsigned.to_of, (integer_norm u H). reflexivity.
Qed.
Lemma decimal_nonneg l : Forall digit l -> (0 <= decimal l)%Z.
Proof. induction 1 as [|x l Hx _ IH]; cbn [decimal]; [lia|]. unfold digit in Hx. assert (0 <= 10 ^ Z.of_nat (len l))%Z by (apply Z.pow_nonneg; lia). nia. Qed.
Lemma shown_length n k : (Z.of_N n < 10 ^ Z.of_nat k)%Z -> 1 <= k -> len (show_N n) <= k.
Proof.
  intros H Hk. pose proof (shown_value n) as E. destruct (shown_integer n) as [->|(x & d & Es & Hx & Hd)]; [exact Hk|]. rewrite Es in *. cbn [decimal List.length] in *.
  pose proof (decimal_nonneg d Hd) as Hp. assert (0 < 10 ^ Z.of_nat (len d))%Z as H0 by (apply Z.pow_pos_nonneg; lia).
  assert (10 ^ Z.of_nat (len d) < 10 ^ Z.of_nat k)%Z as H1 by nia. apply Z.pow_lt_mono_r_iff in H1; lia.
Qed.

(** ** [int] *)
Lemma int_digits_decimal l : digits1 l -> len l <= max_digits -> int_digits l 0 0 false = Some (decimal l).
Proof. intros (A & B) C. rewrite int_digits_all; [|exact B|left; exact A|lia]. rewrite <- digits_value_is. reflexivity. Qed.
Lemma skip_none l : match l with [] => True | x :: _ => ascii_space x = false end -> skip_space l = l.
Proof. destruct l as [|x l]; intros H; [reflexivity|]. cbn [skip_space]. rewrite H. reflexivity. Qed.
Lemma digit_no_space x : digit x -> ascii_space x = false.
Proof. unfold digit, ascii_space. intros H. apply orb_false_iff. rewrite andb_false_iff, !N.leb_gt, N.eqb_neq. lia. Qed.
Lemma strip_sides l : match l with [] => True | x :: _ => ascii_space x = false end -> match rev l with [] => True | x :: _ => ascii_space x = false end -> rev (skip_space (rev (skip_space l))) = l.
Proof. intros A B. rewrite (skip_none l A), (skip_none (rev l) B). apply rev_involutive. Qed.
Lemma digits_last l : digits1 l -> exists l' x, rev l = x :: l' /\ digit x.
Proof.
  intros (A & B). destruct (exists_last A) as (l' & x & ->). exists (rev l'), x. rewrite rev_app_distr. split; [reflexivity|]. apply Forall_app in B. destruct B as (_ & B). inversion B; assumption.
Qed.
Lemma int_of_integer i : integer i -> len i <= max_digits -> int_of i = Some (decimal i) /\ int_of (45%N :: i) = Some (- decimal i)%Z.
Proof.
  intros H Hl. pose proof (integer_digits i H) as Hd. destruct (digits_last i Hd) as (i' & x & Er & Hx). unfold int_of. split.
  - rewrite strip_sides; [|destruct i; [exact I|]; apply digit_no_space; destruct Hd as (_ & Hd); inversion Hd; assumption|rewrite Er; apply digit_no_space; exact Hx].
    destruct i as [|y i]; [destruct Hd; contradiction|]. destruct Hd as (A & B). inversion B as [|? ? Hy Hr]; subst. unfold digit in Hy.
    destruct (N.eqb_spec y 45); [lia|]. destruct (N.eqb_spec y 43); [lia|]. apply int_digits_decimal; [split; assumption|exact Hl].
  - rewrite strip_sides; [|reflexivity|cbn [rev]; rewrite Er; apply digit_no_space; exact Hx]. cbn [N.eqb Pos.eqb]. rewrite int_digits_decimal by assumption. reflexivity.
Qed.
Lemma digits_no_float i : Forall digit i -> looks_float i = false.
Proof.
  induction 1 as [|x l Hx _ IH]; [reflexivity|]. unfold looks_float in *. cbn [existsb]. rewrite IH. unfold digit in Hx.
  destruct (N.eqb_spec x 46), (N.eqb_spec x 101), (N.eqb_spec x 69); lia || reflexivity.
Qed.
Section Numbers.
Context {float : Type} (float_of : bytes -> option float) (str_float : float -> bytes).
Lemma read_integer t z : integer_is t z -> len t <= max_digits -> py_read float_of t = Some (PyInt z).
Proof.
  unfold py_read. intros [i H|i H] Hl; pose proof (integer_digits i H) as (_ & Hd).
  - rewrite digits_no_float by exact Hd. rewrite (proj1 (int_of_integer i H Hl)). reflexivity.
  - replace (looks_float (45%N :: i)) with false; [|symmetry; exact (digits_no_float i Hd)]. cbn [List.length] in Hl. rewrite (proj2 (int_of_integer i H ltac:(lia))). reflexivity.
Qed.
Lemma str_integer t z : integer_is t z -> t <> bs "-0" -> str_int z = t.
Proof.
  intros [i H|i H] Hn; pose proof (integer_shown i H) as E; pose proof (decimal_nonneg i (proj2 (integer_digits i H))) as Hp.
  - destruct (decimal i) as [|p|p]; [exact E|exact E|lia].
  - destruct (decimal i) as [|p|p]; [|cbn [Z.opp str_int]; change (Npos p) with (Z.to_N (Z.pos p)); rewrite E; reflexivity|lia].
    cbn [Z.to_N] in E. destruct Hn. rewrite <- E. reflexivity.
Qed.
Lemma ten_digits : Z.of_nat max_digits = 4300%Z.
Proof. Local Transparent max_digits. unfold max_digits. lia. Qed.
Local Opaque max_digits.
Lemma int_again z : small_int z -> py_read float_of (str_int z) = Some (PyInt z).
Proof.
  unfold small_int. intros H. rewrite <- ten_digits in H.
  assert (Hm : 1 <= max_digits) by (pose proof ten_digits; lia).
  assert (HN : forall n, (Z.of_N n < 10 ^ Z.of_nat max_digits)%Z -> int_of (show_N n) = Some (Z.of_N n) /\ int_of (45%N :: show_N n) = Some (- Z.of_N n)%Z).
  { intros n Hl. rewrite <- (shown_value n). apply int_of_integer; [apply shown_integer|]. apply shown_length; assumption. }
  assert (HF : forall n, looks_float (show_N n) = false) by (intros n; apply digits_no_float; apply shown_digits).
  unfold py_read. destruct z as [|p|p]; cbn [str_int].
  - rewrite HF. rewrite (proj1 (HN 0%N H)). reflexivity.
  - rewrite HF. rewrite (proj1 (HN (Npos p) H)). reflexivity.
  - change (looks_float (45%N :: show_N (N.pos p))) with (looks_float (show_N (N.pos p))). rewrite HF, (proj2 (HN (Npos p) H)). reflexivity.
Qed.
Lemma fractional_float t : fractional t -> looks_float t = true.
Proof.
  intros H. apply existsb_exists. unfold fractional in H. apply Exists_exists in H. destruct H as (x & Hi & Hx). exists x. split; [exact Hi|]. destruct Hx as [->|[->| ->]]; reflexivity.
Qed.
Lemma sound_legible x : sound_numbers float_of str_float x -> legible (py_show str_float) (py_read float_of) x.
Proof.
  induction x as [|b|n|s|l IH|m IH] using value_induction; intros H; try exact I.
  - destruct n as [z|f]; cbn [sound_numbers legible py_show] in *; [apply int_again; exact H|]. destruct H as (A & B). unfold py_read. rewrite fractional_float, B by exact A. reflexivity.
  - cbn [sound_numbers legible] in *. induction IH as [|x l Hx _ IHl]; cbn [fold_right] in *; [exact I|]. destruct H; auto.
  - cbn [sound_numbers legible] in *. induction IH as [|[k x] m Hx _ IHm]; cbn [fold_right snd] in *; [exact I|]. destruct H; auto.
Qed.
(** The same functions, twice: the numbers agree. *)
Lemma agree_refl : shown_alike eq (py_show str_float) (py_show str_float).
Proof. intros p r ->. reflexivity. Qed.
Lemma read_refl l : Forall (read_alike eq (py_read float_of) (py_read float_of)) l.
Proof. apply Forall_forall. intros t _. unfold read_alike. destruct (py_read float_of t); [reflexivity|exact I]. Qed.
Lemma same_eq (x : value (pynum float)) : forall y, same eq x y -> x = y.
Proof.
  induction x as [|b|n|s|l IH|m IH] using value_induction; intros [|b'|n'|s'|l'|m'] H; try contradiction; try reflexivity; try (cbn in H; congruence).
  - f_equal. apply same_items in H. induction H as [|x y l l' Hxy _ IHl]; [reflexivity|]. inversion IH; subst. f_equal; auto.
  - f_equal. apply same_members in H. induction H as [|[k x] [k' y] m m' (A & B) _ IHm]; [reflexivity|]. inversion IH; subst. cbn [fst snd] in *. subst k'. f_equal; [f_equal; auto|auto].
Qed.
Lemma same_refl (x : value (pynum float)) : same eq x x.
Proof.
  induction x as [|b|n|s|l IH|m IH] using value_induction; try reflexivity.
  - apply same_items. induction IH; constructor; auto.
  - apply same_members. induction IH as [|[k x] m Hx _ IHm]; constructor; [split; [reflexivity|exact Hx]|exact IHm].
Qed.
Lemma py_to_ok x wrap y : to_dynamodb (py_show str_float) x wrap = Ok y -> py_to str_float x wrap = Ok y.
Proof.
  intros E. pose proof (to_alike str_float _ eq agree_refl x x wrap (same_refl x)) as H. rewrite E in H. destruct (py_to str_float x wrap) as [z|c]; [|contradiction]. f_equal. apply same_eq. exact H.
Qed.
Lemma py_from_ok x y : from_dynamodb (py_read float_of) x = Ok y -> py_from float_of x = Ok y.
Proof.
  intros E. pose proof (from_alike float_of (py_read float_of) eq x x (same_refl x) (read_refl _)) as H. rewrite E in H. destruct (py_from float_of x) as [z|c]; [|contradiction]. f_equal. apply same_eq. exact H.
Qed.
Lemma py_round x wrap : proper x -> sound_numbers float_of str_float x -> (exists m, x = SObject m) -> (wrap = false -> ~ only_item x) ->
  exists y, py_to str_float x wrap = Ok y /\ py_from float_of y = Ok x.
Proof.
  intros A B C D. destruct (round_value (py_show str_float) (py_read float_of) x wrap A (sound_legible x B) C D) as (y & E & F). exists y. split; [apply py_to_ok; exact E|apply py_from_ok; exact F].
Qed.
Lemma integer_number t z : integer_is t z -> number_text t.
Proof. intros [i H|i H]; [exists [], i, [], []|exists [45%N], i, [], []]; rewrite !app_nil_r; (split; [reflexivity|]); (split; [unfold sign; auto|]); split; auto; split; left; reflexivity. Qed.
Lemma whole_canonical v : whole_numbers v -> canonical (py_show str_float) (py_read float_of) v.
Proof.
  induction v as [v Ha|vs IH|ms IH] using json_induction; intros H.
  - destruct v; try exact I; try contradiction. destruct H as ((z & Hz) & Hn & Hl). split; [exact (integer_number _ _ Hz)|]. intros n E. rewrite (read_integer _ z Hz Hl) in E. injection E as <-. apply (str_integer _ _ Hz Hn).
  - cbn [whole_numbers canonical] in *. induction IH as [|x l Hx _ IHl]; cbn [fold_right] in *; [exact I|]. destruct H; auto.
  - cbn [whole_numbers canonical] in *. induction IH as [|[k x] m Hx _ IHm]; cbn [fold_right snd] in *; [exact I|]. destruct H; auto.
Qed.
Lemma py_record ms x wrap : denotes (py_read float_of) (JObject ms) x -> whole_numbers (JObject ms) ->
  exists y, py_to str_float x wrap = Ok y /\ denotes (py_read float_of) (record wrap (JObject ms)) y.
Proof.
  intros A B. destruct (to_record (py_show str_float) (py_read float_of) ms x wrap A (whole_canonical _ B)) as (y & E & F). exists y. split; [apply py_to_ok; exact E|exact F].
Qed.
Lemma py_item wrapped ms y : denotes (py_read float_of) (item_json wrapped ms) y -> Forall (fun kd => readable_numbers (py_read float_of) (snd kd)) ms -> (wrapped = false -> ~ only_item y) ->
  exists x, py_from float_of y = Ok x /\ denotes (py_read float_of) (plain_item ms) x.
Proof. intros A B C. destruct (from_item (py_read float_of) wrapped ms y A B C) as (x & E & F). exists x. split; [apply py_from_ok; exact E|exact F]. Qed.

(** ** What [int] takes *)
Lemma blank_is x : blank x <-> ascii_space x = true.
Proof. unfold blank, ascii_space. rewrite orb_true_iff, andb_true_iff, !N.leb_le, N.eqb_eq. tauto. Qed.
Lemma skip_split l : exists b, l = b ++ skip_space l /\ Forall blank b /\ match skip_space l with [] => True | x :: _ => ascii_space x = false end.
Proof.
  induction l as [|x l (b & E & A & B)]; [exists []; repeat split; constructor|]. cbn [skip_space]. destruct (ascii_space x) eqn:S.
  - exists (x :: b). cbn [app]. rewrite <- E. split; [reflexivity|]. split; [constructor; [apply blank_is; exact S|exact A]|exact B].
  - exists []. split; [reflexivity|]. split; [constructor|exact S].
Qed.
Lemma skip_blank b l : Forall blank b -> skip_space (b ++ l) = skip_space l.
Proof. induction 1 as [|x b Hx _ IH]; [reflexivity|]. cbn [app skip_space]. rewrite (proj1 (blank_is x) Hx). exact IH. Qed.
Lemma int_digits_run : forall d l z count fed, Forall digit d -> d <> [] -> int_digits (d ++ l) z count fed = int_digits l (fold_left (fun z x => 10 * z + (Z.of_N x - 48))%Z d z) (count + len d) true.
Proof.
  induction d as [|x d IH]; intros l z count fed H Hd; [contradiction|]. clear Hd. inversion H; subst. cbn [app int_digits fold_left List.length]. rewrite (proj1 (digit_is x)) by assumption.
  destruct d as [|y d]; [cbn [app fold_left List.length]; f_equal; lia|]. rewrite IH by (try assumption; discriminate). f_equal. cbn [List.length]. lia.
Qed.
Lemma int_digits_groups : forall gs z count fed, gs <> [] -> Forall digits1 gs -> count + len (List.concat gs) <= max_digits ->
  int_digits (underscored gs) z count fed = Some (fold_left (fun z x => 10 * z + (Z.of_N x - 48))%Z (List.concat gs) z).
Proof.
  induction gs as [|g gs IH]; intros z count fed Hg H Hc; [contradiction|]. inversion H as [|? ? (A & B) Hr]; subst. destruct gs as [|g2 gs].
  - cbn [underscored List.concat]. cbn [List.concat] in Hc. rewrite app_nil_r in *. apply int_digits_all; [exact B|left; exact A|exact Hc].
  - change (underscored (g :: g2 :: gs)) with (g ++ 95%N :: underscored (g2 :: gs)). rewrite int_digits_run by assumption. cbn [int_digits]. change (is_digit 95%N) with false. cbn [N.eqb Pos.eqb andb].
    cbn [List.concat] in Hc |- *. rewrite fold_left_app. apply IH; [discriminate|exact Hr|]. rewrite app_length in Hc. cbn [List.concat]. lia.
Qed.
Lemma int_digits_inv : forall l z count fed r, int_digits l z count fed = Some r ->
  (fed = true /\ l = [] /\ r = z /\ count <= max_digits) \/
  (exists gs, gs <> [] /\ Forall digits1 gs /\ count + len (List.concat gs) <= max_digits /\ r = fold_left (fun z x => 10 * z + (Z.of_N x - 48))%Z (List.concat gs) z /\
     (l = underscored gs \/ fed = true /\ l = 95%N :: underscored gs)).
Proof.
  induction l as [|x l IH]; intros z count fed r H; cbn [int_digits] in H.
  - destruct fed; [|discriminate]. cbn [andb] in H. destruct (count <=? max_digits) eqn:E; [|discriminate]. injection H as <-. left. apply Nat.leb_le in E. auto.
  - destruct (is_digit x) eqn:D.
    + apply digit_is in D. destruct (IH _ _ _ _ H) as [(_ & -> & -> & Hc)|(gs & A & B & C & -> & E)].
      * right. exists [[x]]. split; [discriminate|]. split; [constructor; [split; [discriminate|constructor; [exact D|constructor]]|constructor]|]. cbn [List.concat app List.length]. split; [lia|]. split; [reflexivity|]. left. reflexivity.
      * right. destruct E as [-> |(_ & ->)].
        -- destruct gs as [|g gs]; [contradiction|]. inversion B as [|? ? (G1 & G2) Hr]; subst. exists ((x :: g) :: gs). split; [discriminate|]. split; [constructor; [split; [discriminate|constructor; assumption]|exact Hr]|]. cbn [List.concat app List.length] in *. split; [lia|]. split; [reflexivity|]. left. destruct gs; reflexivity.
        -- exists ([x] :: gs). split; [discriminate|]. split; [constructor; [split; [discriminate|constructor; [exact D|constructor]]|exact B]|]. cbn [List.concat app List.length]. split; [lia|]. split; [reflexivity|]. left. destruct gs; [contradiction|reflexivity].
    + destruct (N.eqb_spec x 95) as [->|]; [|discriminate]. destruct fed; [|discriminate]. cbn [andb] in H. destruct (IH _ _ _ _ H) as [(X & _)|(gs & A & B & C & -> & E)]; [discriminate|].
      right. destruct E as [-> |(X & _)]; [|discriminate]. exists gs. split; [exact A|]. split; [exact B|]. split; [exact C|]. split; [reflexivity|]. right. auto.
Qed.
Lemma digits_start l z r : int_digits l z 0 false = Some r -> match l with [] => False | x :: _ => digit x end.
Proof.
  destruct l as [|x l]; [discriminate|]. cbn [int_digits]. destruct (is_digit x) eqn:D; [intros _; apply digit_is; exact D|]. rewrite andb_false_r. discriminate.
Qed.
Lemma group_front gs : gs <> [] -> Forall digits1 gs -> exists x l, underscored gs = x :: l /\ digit x.
Proof.
  destruct gs as [|[|x g] gs]; intros H K; [contradiction|inversion K as [|? ? (A & _)]; contradiction|]. inversion K as [|? ? (_ & B) _]; subst. inversion B; subst. destruct gs; eexists _, _; split; try reflexivity; assumption.
Qed.
Lemma group_back gs : gs <> [] -> Forall digits1 gs -> exists x l, rev (underscored gs) = x :: l /\ digit x.
Proof.
  induction gs as [|g gs IH]; intros H K; [contradiction|]. inversion K as [|? ? A B]; subst. destruct gs as [|g2 gs].
  - destruct (digits_last g A) as (l & x & E & D). exists x, l. auto.
  - destruct (IH ltac:(discriminate) B) as (x & l & E & D). change (underscored (g :: g2 :: gs)) with (g ++ 95%N :: underscored (g2 :: gs)). rewrite rev_app_distr. cbn [rev]. rewrite E. eexists _, _. split; [reflexivity|exact D].
Qed.
Lemma max_is : max_digits = N.to_nat 4300.
Proof. reflexivity. Qed.
Lemma int_of_is t z : int_of t = Some z <-> python_integer t z.
Proof.
  unfold python_integer. rewrite <- max_is. split.
  - intros H. unfold int_of in H. destruct (skip_split t) as (b & E & Hb & _). destruct (skip_split (rev (skip_space t))) as (c & E2 & Hc & _).
    apply (f_equal (@rev byte)) in E2. rewrite rev_involutive, rev_app_distr in E2. set (u := rev (skip_space (rev (skip_space t)))) in *. rewrite E2 in E. clearbody u. clear E2. apply Forall_rev in Hc. set (c' := rev c) in *. clearbody c'.
    assert (K : forall l r, int_digits l 0 0 false = Some r -> exists gs, l = underscored gs /\ gs <> [] /\ Forall digits1 gs /\ len (List.concat gs) <= max_digits /\ r = decimal (List.concat gs)).
    { intros l r Hl. destruct (int_digits_inv _ _ _ _ _ Hl) as [(X & _)|(gs & A & B & C & -> & D)]; [discriminate|]. destruct D as [->|(X & _)]; [|discriminate]. exists gs. repeat (split; [assumption || reflexivity|]). rewrite <- digits_value_is. reflexivity. }
    destruct u as [|x l]; [discriminate|]. destruct (N.eqb_spec x 45) as [->|N45].
    + destruct (int_digits l 0 0 false) as [r|] eqn:D; [|discriminate]. injection H as <-. destruct (K _ _ D) as (gs & -> & A & B & C & ->). exists b, [45%N], gs, c'. rewrite E. repeat (split; [assumption || reflexivity|]). right. auto.
    + destruct (N.eqb_spec x 43) as [->|N43].
      * destruct (K _ _ H) as (gs & -> & A & B & C & ->). exists b, [43%N], gs, c'. rewrite E. repeat (split; [assumption || reflexivity|]). left. auto.
      * destruct (K _ _ H) as (gs & Eg & A & B & C & ->). exists b, [], gs, c'. rewrite E, Eg. repeat (split; [assumption || reflexivity|]). left. auto.
  - intros (b & s & gs & c & -> & Hb & Hc & A & B & C & D).
    assert (V : int_digits (underscored gs) 0 0 false = Some (decimal (List.concat gs))) by (rewrite <- digits_value_is; apply int_digits_groups; [exact A|exact B|lia]).
    destruct (group_front gs A B) as (x & l & Ef & Dx). destruct (group_back gs A B) as (y & l' & Eb & Dy).
    unfold int_of. rewrite (skip_blank b) by exact Hb.
    assert (Hs : s = [] \/ s = [43%N] \/ s = [45%N]) by tauto.
    assert (E1 : skip_space (s ++ underscored gs ++ c) = s ++ underscored gs ++ c).
    { apply skip_none. destruct Hs as [->|[->| ->]]; [|reflexivity|reflexivity]. rewrite Ef. cbn [app]. apply digit_no_space. exact Dx. }
    rewrite E1, app_assoc, rev_app_distr. rewrite (skip_blank (rev c)) by (apply Forall_rev; exact Hc).
    rewrite skip_none; [|rewrite rev_app_distr, Eb; cbn [app]; apply digit_no_space; exact Dy]. rewrite rev_involutive.
    destruct D as [([->| ->] & ->)|(-> & ->)]; cbn [app].
    + rewrite Ef. unfold digit in Dx. destruct (N.eqb_spec x 45); [lia|]. destruct (N.eqb_spec x 43); [lia|]. rewrite <- Ef. exact V.
    + cbn [N.eqb Pos.eqb]. exact V.
    + cbn [N.eqb Pos.eqb]. rewrite V. reflexivity.
Qed.
Lemma looks_app a b : looks_float (a ++ b) = looks_float a || looks_float b.
Proof. apply existsb_app. Qed.
Lemma integer_no_float t z : python_integer t z -> looks_float t = false.
Proof.
  intros (b & s & gs & c & -> & Hb & Hc & A & B & C & D). rewrite !looks_app.
  assert (HB : forall l, Forall blank l -> looks_float l = false).
  { induction 1 as [|x l Hx _ IH]; [reflexivity|]. unfold looks_float in *. cbn [existsb]. rewrite IH. unfold blank in Hx. destruct (N.eqb_spec x 46), (N.eqb_spec x 101), (N.eqb_spec x 69); lia || reflexivity. }
  rewrite (HB b Hb), (HB c Hc). replace (looks_float s) with false by (destruct D as [([->| ->] & _)|(-> & _)]; reflexivity).
  replace (looks_float (underscored gs)) with false; [reflexivity|]. symmetry. clear - B. induction B as [|g gs (_ & G) _ IH]; [reflexivity|]. pose proof (digits_no_float g G) as E.
  destruct gs as [|g2 gs]; [exact E|]. change (underscored (g :: g2 :: gs)) with (g ++ [95%N] ++ underscored (g2 :: gs)). rewrite !looks_app, E, IH. reflexivity.
Qed.
Lemma read_int_is t z : py_read float_of t = Some (PyInt z) <-> python_integer t z.
Proof.
  unfold py_read. split.
  - destruct (looks_float t); [destruct (float_of t); discriminate|]. destruct (int_of t) as [z'|] eqn:E; [|discriminate]. intros X. injection X as <-. apply int_of_is. exact E.
  - intros H. rewrite (integer_no_float t z H). apply int_of_is in H. rewrite H. reflexivity.
Qed.
End Numbers.
