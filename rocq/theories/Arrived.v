(** Two readers that deliver the same bytes; then the input of one ends and the other reports an error: the parser. *)
From Verif Require Import Base Buffer BufferSpec BufferProofs Jiter JiterProofs JiterValue RJiter RJiterSpec RJiterProofs
  RJiterOpProofs RJiterLongProofs RJiterIndexProofs ArrivedSpec.

Definition chunk (v : event) : Prop := match v with Chunk _ => True | Fail _ => False end.
Definition failed {X Y} (r : result X Y) : Prop := exists y, r = Err y.
Lemma failed_err {X Y} (y : Y) : @failed X Y (Err y). Proof. exists y. reflexivity. Qed.

(** ** The last byte of a number *)
Definition digit_ends (g : bytes -> result nat (json_error * nat)) : Prop :=
  forall l n, g l = Ok (S n) -> exists x, nth_error l n = Some x /\ is_digit x = true.
Lemma digits_end l n : digits l = S n -> exists x, nth_error l n = Some x /\ is_digit x = true.
Proof.
  intros H. pose proof (run_length_all is_digit l) as F. unfold digits in H. rewrite H in F.
  pose proof (run_length_le is_digit l) as L. rewrite H in L.
  destruct (nth_error l n) as [x|] eqn:E; [|apply nth_error_None in E; unfold byte in *; lia].
  exists x. split; [reflexivity|]. rewrite Forall_forall in F. apply F. apply (nth_error_In _ n).
  rewrite <- E. revert L. clear. revert l. induction n as [|n IH]; intros [|y l] L; cbn in *; try lia; [reflexivity|]. apply IH. lia.
Qed.
Lemma nth_skip {A} (l : list A) k n : nth_error (skipn k l) n = nth_error l (k + n).
Proof. revert l. induction k as [|k IH]; intros [|x l]; cbn; [reflexivity|reflexivity|destruct n; reflexivity|apply IH]. Qed.
Lemma exponent_end : digit_ends num_exponent.
Proof.
  intros l n. unfold num_exponent. cbv zeta. set (s := match l with [] => 0 | _ => _ end). clearbody s.
  destruct (skipn s l) as [|x m] eqn:E; [discriminate|]. destruct (is_digit x) eqn:Hx; [|discriminate]. intros H. injection H as H.
  assert (D : exists k, digits (x :: m) = S k) by (unfold digits; cbn [run_length]; rewrite Hx; eauto). destruct D as [k D].
  destruct (digits_end _ _ D) as (y & Hy & Dy). exists y. split; [|exact Dy]. rewrite D in H. rewrite <- E, nth_skip in Hy.
  replace n with (s + k) by lia. exact Hy.
Qed.
Lemma decimal_end : digit_ends num_decimal.
Proof.
  intros [|x l] n; [discriminate|]. cbn [num_decimal]. cbv zeta. destruct (is_digit x) eqn:Hx; [|discriminate].
  destruct (skipn (digits (x :: l)) (x :: l)) as [|y m] eqn:E.
  - intros H. injection H as H. exact (digits_end _ _ H).
  - destruct (is_exp y); [|intros H; injection H as H; exact (digits_end _ _ H)].
    destruct (num_exponent m) as [k|[? ?]] eqn:Ek; [|discriminate]. cbn [add_off]. intros H. injection H as H.
    destruct k as [|k]; [exfalso; revert Ek; unfold num_exponent; cbv zeta; destruct (skipn _ m) as [|z o]; [discriminate|];
      destruct (is_digit z) eqn:Hz; [|discriminate]; unfold digits; cbn [run_length]; rewrite Hz; intros H1; injection H1 as H1; lia|].
    destruct (exponent_end _ _ Ek) as (z & Hz & Dz). exists z. split; [|exact Dz].
    assert (G : nth_error (skipn (digits (x :: l)) (x :: l)) (S k) = Some z) by (rewrite E; exact Hz).
    rewrite nth_skip in G. replace n with (digits (x :: l) + S k) by lia. exact G.
Qed.
Lemma tail_end : digit_ends num_tail.
Proof.
  intros [|x l] n; [discriminate|]. cbn [num_tail].
  assert (P : forall g : bytes -> result nat (json_error * nat), digit_ends g -> g l <> Ok 0 -> add_off 1 (g l) = Ok (S n) -> exists y, nth_error (x :: l) n = Some y /\ is_digit y = true).
  { intros g G Z. destruct (g l) as [k|[? ?]] eqn:E; [|discriminate]. cbn [add_off]. intros H. injection H as <-.
    destruct k as [|k]; [congruence|]. exact (G _ _ E). }
  destruct (N.eqb x 46); [apply P; [exact decimal_end|]|destruct (is_exp x); [apply P; [exact exponent_end|]|discriminate]].
  - unfold num_decimal. destruct l as [|y m]; [discriminate|]. destruct (is_digit y) eqn:Hy; [|discriminate]. cbv zeta.
    assert (D : exists k, digits (y :: m) = S k) by (unfold digits; cbn [run_length]; rewrite Hy; eauto). destruct D as [k ->].
    destruct (skipn _ _) as [|z o]; [discriminate|]. destruct (is_exp z); [|discriminate]. destruct (num_exponent o) as [j|[? ?]]; discriminate.
  - unfold num_exponent. cbv zeta. destruct (skipn _ l) as [|z o]; [discriminate|]. destruct (is_digit z) eqn:Hz; [|discriminate].
    unfold digits. cbn [run_length]. rewrite Hz. intros H. injection H as H. lia.
Qed.
Lemma unsigned_end : digit_ends num_unsigned.
Proof.
  intros [|x l] n; [discriminate|]. cbn [num_unsigned]. destruct (N.eqb_spec x 48) as [->|_].
  - destruct l as [|y m]; [intros H; injection H as <-; eexists; split; reflexivity|]. destruct (is_digit y); [discriminate|].
    destruct (num_tail (y :: m)) as [k|[? ?]] eqn:E; [|discriminate]. cbn [add_off]. intros H. injection H as <-.
    destruct k as [|k]; [eexists; split; reflexivity|]. exact (tail_end _ _ E).
  - destruct (is_digit x) eqn:Hx; [|discriminate]. cbv zeta.
    assert (D : exists j, digits (x :: l) = S j) by (unfold digits; cbn [run_length]; rewrite Hx; eauto). destruct D as [j D].
    destruct (num_tail _) as [k|[? ?]] eqn:E; [|discriminate]. cbn [add_off]. intros H. injection H as H.
    destruct k as [|k].
    + apply digits_end. lia.
    + destruct (tail_end _ _ E) as (z & Hz & Dz). exists z. split; [|exact Dz]. rewrite nth_skip in Hz. replace n with (digits (x :: l) + k) by lia. exact Hz.
Qed.
Lemma range_end : digit_ends num_range.
Proof.
  intros [|x l] n; [discriminate|]. cbn [num_range]. destruct (N.eqb x 45).
  - destruct (num_unsigned l) as [k|[? ?]] eqn:E; [|discriminate]. cbn [add_off]. intros H. injection H as <-.
    destruct k as [|k]; [exfalso|exact (unsigned_end _ _ E)]. revert E. destruct l as [|y m]; [discriminate|]. cbn [num_unsigned].
    destruct (N.eqb y 48).
    + destruct m as [|z m]; [discriminate|]. destruct (is_digit z); [discriminate|]. destruct (num_tail _) as [?|[? ?]]; discriminate.
    + destruct (is_digit y) eqn:Hy; [|discriminate]. cbv zeta. unfold digits. cbn [run_length]. rewrite Hy.
      destruct (num_tail _) as [?|[? ?]]; [|discriminate]. cbn [add_off]. intros H. injection H as H. lia.
  - destruct (is_inf_nan x); [discriminate|]. apply unsigned_end.
Qed.
Lemma number_last l v : j_next_number_bytes l = (Ok v, len l) -> l <> [] -> exists l' x, l = l' ++ [x] /\ is_digit x = true.
Proof.
  unfold j_next_number_bytes, next_as, after_ws. intros H Hl. apply jat_ok in H as (b & H & Hb).
  destruct (skipn (run_length json_ws l) l) as [|x m] eqn:E; [discriminate|]. destruct (is_num x); [|destruct (wrong_type_err (A:=bytes) TFloat x (x :: m)) as (er & Ew); rewrite Ew in H; discriminate].
  unfold j_number in H. destruct (num_range (x :: m)) as [n|[? ?]] eqn:En; [|discriminate]. injection H as _ <-.
  assert (Lm : len l = run_length json_ws l + S (len m)).
  { pose proof (f_equal (@List.length _) E) as L. rewrite skipn_length in L. cbn [List.length] in L. lia. }
  destruct n as [|n]; [lia|]. destruct (range_end _ _ En) as (z & Hz & Dz). rewrite <- E, nth_skip in Hz.
  exists (removelast l), z. split; [|exact Dz].
  destruct (exists_last Hl) as (l' & y & ->). rewrite removelast_last. f_equal. f_equal.
  rewrite app_length in Hb. cbn [List.length] in Hb. replace (run_length json_ws (l' ++ [y]) + n) with (len l') in Hz by lia.
  rewrite nth_error_app2 in Hz by lia. rewrite Nat.sub_diag in Hz. injection Hz as ->. reflexivity.
Qed.

(** The bytes of a number. *)
Definition num_bytes (g : bytes -> result nat (json_error * nat)) : Prop :=
  forall l n, g l = Ok n -> Forall (fun x => in_number x = true) (firstn n l).
Lemma digit_in x : is_digit x = true -> in_number x = true. Proof. unfold in_number, is_digit. intros ->. reflexivity. Qed.
Lemma digits_bytes l : Forall (fun x => in_number x = true) (firstn (digits l) l).
Proof.
  induction l as [|x l IH]; [constructor|]. unfold digits in *. cbn [run_length]. destruct (is_digit x) eqn:E; cbn [firstn]; constructor; [exact (digit_in _ E)|exact IH].
Qed.
Lemma firstn_plus {A} a b (l : list A) : firstn (a + b) l = firstn a l ++ firstn b (skipn a l).
Proof. revert l. induction a as [|a IH]; intros [|x l]; cbn; [reflexivity|reflexivity|rewrite firstn_nil; reflexivity|]. rewrite IH. reflexivity. Qed.
Lemma exponent_bytes : num_bytes num_exponent.
Proof.
  intros l n. unfold num_exponent. cbv zeta.
  set (s := match l with [] => 0 | _ => _ end).
  assert (F : Forall (fun x => in_number x = true) (firstn s l)).
  { unfold s. destruct l as [|x l]; [constructor|]. destruct (N.eqb_spec x 43) as [->|]; [repeat constructor|]. destruct (N.eqb_spec x 45) as [->|]; repeat constructor. }
  clearbody s. destruct (skipn s l) as [|x m] eqn:E; [discriminate|]. destruct (is_digit x); [|discriminate]. intros H. injection H as <-.
  rewrite firstn_plus, E. apply Forall_app. split; [exact F|]. rewrite <- E. apply digits_bytes.
Qed.
Lemma off_bytes (g : bytes -> result nat (json_error * nat)) : num_bytes g -> forall k l n, Forall (fun x => in_number x = true) (firstn k l) ->
  add_off k (g (skipn k l)) = Ok n -> Forall (fun x => in_number x = true) (firstn n l).
Proof.
  intros G k l n F. destruct (g (skipn k l)) as [j|[? ?]] eqn:E; [|discriminate]. cbn [add_off]. intros H. injection H as <-.
  rewrite firstn_plus. apply Forall_app. split; [exact F|]. exact (G _ _ E).
Qed.
Lemma exp_in x : is_exp x = true -> in_number x = true.
Proof. unfold is_exp, in_number. intros H. apply Bool.orb_true_iff in H as [H|H]; apply N.eqb_eq in H as ->; reflexivity. Qed.
Lemma decimal_bytes : num_bytes num_decimal.
Proof.
  intros [|x l] n; [discriminate|]. cbn [num_decimal]. cbv zeta. destruct (is_digit x); [|discriminate].
  pose proof (digits_bytes (x :: l)) as D.
  destruct (skipn (digits (x :: l)) (x :: l)) as [|y m] eqn:E; [intros H; injection H as <-; exact D|].
  destruct (is_exp y) eqn:Ey; [|intros H; injection H as <-; exact D].
  intros H. assert (S1 : skipn (S (digits (x :: l))) (x :: l) = m).
  { replace (S (digits (x :: l))) with (digits (x :: l) + 1) by lia. rewrite <- skipn_skipn, E. reflexivity. }
  rewrite <- S1 in H. refine (off_bytes num_exponent exponent_bytes _ _ _ _ H).
  replace (S (digits (x :: l))) with (digits (x :: l) + 1) by lia. rewrite firstn_plus, E. apply Forall_app. split; [exact D|]. repeat constructor. exact (exp_in _ Ey).
Qed.
Lemma tail_bytes : num_bytes num_tail.
Proof.
  intros [|x l] n; cbn [num_tail]; [intros H; injection H as <-; constructor|].
  destruct (N.eqb_spec x 46) as [->|_].
  - apply (off_bytes num_decimal decimal_bytes 1 (46%N :: l)). repeat constructor.
  - destruct (is_exp x) eqn:Ex; [|intros H; injection H as <-; constructor].
    apply (off_bytes num_exponent exponent_bytes 1 (x :: l)). repeat constructor. exact (exp_in _ Ex).
Qed.
Lemma unsigned_bytes : num_bytes num_unsigned.
Proof.
  intros [|x l] n; [discriminate|]. cbn [num_unsigned]. destruct (N.eqb_spec x 48) as [->|_].
  - destruct l as [|y m]; [intros H; injection H as <-; repeat constructor|]. destruct (is_digit y); [discriminate|].
    apply (off_bytes num_tail tail_bytes 1 (48%N :: y :: m)). repeat constructor.
  - destruct (is_digit x); [|discriminate]. cbv zeta. apply (off_bytes num_tail tail_bytes). apply digits_bytes.
Qed.
Lemma range_bytes : num_bytes num_range.
Proof.
  intros [|x l] n; [discriminate|]. cbn [num_range]. destruct (N.eqb_spec x 45) as [->|_].
  - apply (off_bytes num_unsigned unsigned_bytes 1 (45%N :: l)). repeat constructor.
  - destruct (is_inf_nan x); [discriminate|]. apply unsigned_bytes.
Qed.
Lemma number_all l v : j_next_number_bytes l = (Ok v, len l) -> run_length json_ws l = 0 -> Forall (fun x => in_number x = true) l.
Proof.
  unfold j_next_number_bytes, next_as, after_ws. intros H Hw. rewrite Hw in H. apply jat_ok in H as (b & H & Hb). cbn [skipn] in H.
  destruct l as [|x m]; [constructor|]. destruct (is_num x); [|destruct (wrong_type_err (A:=bytes) TFloat x (x :: m)) as (er & Ew); rewrite Ew in H; discriminate].
  unfold j_number in H. destruct (num_range (x :: m)) as [n|[? ?]] eqn:En; [|discriminate]. injection H as _ <-.
  apply range_bytes in En. cbn [Nat.add] in Hb. rewrite <- Hb, firstn_all in En. exact En.
Qed.

(** A buffer with another schedule. *)
Definition reb (b : buffer) (l : list event) : buffer :=
  mkBuf (buf b) (n_bytes b) (n_shifted_out b) (pos_line b) (pos_col b) (mkReader (src (rd b)) l).

Section Arrived.
Context (e : io_kind) (q : list event) (d : bytes) (c0 : nat).

(** The same buffers; the chunks to come suffice for all that is left of the input, and some more. *)
Inductive near (m : nat) : buffer -> buffer -> Prop :=
| near_at b p : Forall chunk p -> (src (rd b) <> [] -> len (src (rd b)) + m <= List.length p) -> near m (reb b (p ++ Fail e :: q)) (reb b p).
Definition ended (b : buffer) : Prop := src (rd b) = [] /\ sched (rd b) = [].
Lemma near_fields m b1 b2 : near m b1 b2 -> buf b2 = buf b1 /\ n_bytes b2 = n_bytes b1 /\ n_shifted_out b2 = n_shifted_out b1 /\ src (rd b2) = src (rd b1).
Proof. intros [b p _ _]. cbn. auto. Qed.
Lemma near_wf m b1 b2 : near m b1 b2 -> wf b2 -> wf b1.
Proof. intros H. destruct (near_fields _ _ _ H) as (A & B & C & D). unfold wf. rewrite A, B. auto. Qed.
Lemma near_shift m b1 b2 t f : near m b1 b2 -> near m (shift_buffer b1 t f) (shift_buffer b2 t f).
Proof.
  intros [b p Hp Hl].
  assert (E : forall l, shift_buffer (reb b l) t f = reb (shift_buffer b t f) l /\ rd (shift_buffer b t f) = rd b).
  { intros l. unfold shift_buffer, reb. cbn [buf n_bytes pos_line pos_col n_shifted_out rd src].
    destruct (if _ <? _ then _ else _) as [u v]. destruct (_ && _); split; reflexivity. }
  rewrite (proj1 (E _)), (proj1 (E p)). constructor; [exact Hp|]. rewrite (proj2 (E p)). exact Hl.
Qed.
Lemma ended_read b : ended b -> wf b -> exists c, read_more b = (c, Ok 0) /\ ended c /\ n_bytes c = n_bytes b /\ n_shifted_out c = n_shifted_out b /\ cut b 0 [] c.
Proof.
  intros [A C] W. destruct (read_more b) as [c r] eqn:E. destruct (read_more_spec _ _ _ W E) as (H1 & H2 & _ & H3).
  unfold read_more, reader_read in E. rewrite C, A, firstn_nil, skipn_nil in E. injection E as <- <-.
  eexists. split; [reflexivity|]. split; [split; reflexivity|]. cbn [n_bytes n_shifted_out List.length] in *. rewrite !Nat.add_0_r in *. auto.
Qed.
Lemma near_read m b1 b2 : near m b1 b2 -> wf b2 ->
  (exists c1 c2 n, read_more b1 = (c1, Ok n) /\ read_more b2 = (c2, Ok n) /\ near m c1 c2) \/
  (len (buf b2) <= n_bytes b2 /\ exists c1 c2, read_more b1 = (c1, Ok 0) /\ read_more b2 = (c2, Ok 0) /\ forall k, m = S k -> near k c1 c2) \/
  (ended b2 /\ exists c1 er, read_more b1 = (c1, Err er) /\ err_type er <> BufferFull).
Proof.
  intros [b p Hp Hl] W. unfold read_more, reb. cbn [rd buf n_bytes n_shifted_out pos_line pos_col].
  unfold reader_read. cbn [sched src]. destruct p as [|[k|k] p]; cbn [app].
  - right; right. split; [|eexists _, _; split; [reflexivity|discriminate]].
    destruct (src (rd b)) as [|y l] eqn:E; [split; reflexivity|]. specialize (Hl ltac:(discriminate)). cbn in Hl. lia.
  - destruct (len (buf b) - n_bytes b) as [|m0] eqn:Er.
    + right; left. split; [lia|]. cbn [Nat.min firstn skipn List.length]. eexists _, _. split; [reflexivity|]. split; [reflexivity|].
      intros j ->. match goal with |- near _ (mkBuf ?A ?B ?C ?D ?E (mkReader ?F _)) _ => apply (near_at j (mkBuf A B C D E (mkReader F [])) p) end.
      * inversion Hp. assumption.
      * cbn [rd src]. intros Hn. specialize (Hl Hn). cbn [List.length] in Hl. lia.
    + left. eexists _, _, _. split; [reflexivity|]. split; [reflexivity|].
      match goal with |- near _ (mkBuf ?A ?B ?C ?D ?E (mkReader ?F _)) _ => apply (near_at m (mkBuf A B C D E (mkReader F [])) p) end.
      * inversion Hp. assumption.
      * cbn [rd src]. intros Hn. destruct (src (rd b)) as [|y l] eqn:El; [rewrite skipn_nil in Hn; congruence|].
        specialize (Hl ltac:(discriminate)). rewrite skipn_length. cbn [List.length] in *. lia.
  - inversion Hp. elim H1.
Qed.
Ltac fields H := let A := fresh "EA" in let B := fresh "EB" in let C := fresh "EC" in let D := fresh "ED" in
  destruct (near_fields _ _ _ H) as (A & B & C & D).

(** Skipping spaces. *)
Lemma arrived_collect fuel : forall m b1 b2 pred p i c, near m b1 b2 -> wf b2 -> p <= n_bytes b2 ->
  match collect_while_loop fuel b1 pred p false i c false with
  | Done (c1, r) =>
      (exists c2, collect_while_loop fuel b2 pred p false i c false = Done (c2, r) /\ near m c1 c2 /\ wf c2 /\ p <= n_bytes c2 /\ cap c2 = cap b2) \/
      (exists er c2, r = Err er /\ err_type er <> BufferFull /\
         collect_while_loop fuel b2 pred p false i c false = Done (c2, Ok (c, n_bytes c2)) /\ ended c2 /\ wf c2 /\ p <= n_bytes c2)
  | _ => True
  end.
Proof.
  induction fuel as [|fuel IH]; intros m b1 b2 pred p i c H W Hp; [exact Logic.I|]. cbn [collect_while_loop].
  fields H. rewrite EA, EB, EC.
  destruct (_ <? _); [left; exists b2; auto|].
  destruct (Nat.leb_spec (len (buf b1)) (n_bytes b1)) as [Hf|Hf]; [left; exists b2; auto|].
  destruct (near_read _ _ _ H W) as [(c1 & c2 & n & -> & E2 & Hc)|[[Hz _]|[Hd (c1 & er & -> & Hb)]]].
  - rewrite E2. destruct (read_more_spec _ _ _ W E2) as (C & _ & _ & N & _).
    destruct n as [|n].
    + fields Hc. left. exists c2. rewrite EB0. split; [reflexivity|]. split; [exact Hc|]. split; [apply (cut_wf _ _ _ _ C)|].
      split; [lia|apply (cut_cap _ _ _ _ C)].
    + pose proof (IH m c1 c2 pred p (i + run_length pred (skipn i (firstn (n_bytes b1) (buf b1)))) c Hc (cut_wf _ _ _ _ C) ltac:(lia)) as G.
      destruct (collect_while_loop _ c1 _ _ _ _ _ _) as [[f1 r]| |]; [|exact Logic.I|exact Logic.I].
      rewrite (cut_cap _ _ _ _ C) in G. exact G.
  - rewrite EA, EB in Hz. lia.
  - destruct (ended_read _ Hd W) as (c2 & -> & Hc & N & _ & C). right. exists er, c2.
    split; [reflexivity|]. split; [exact Hb|]. split; [reflexivity|]. split; [exact Hc|]. split; [apply (cut_wf _ _ _ _ C)|lia].
Qed.
Lemma arrived_skip fuel : forall m b1 b2 p, near m b1 b2 -> wf b2 -> p <= n_bytes b2 ->
  match skip_spaces_loop fuel b1 p with
  | Done (c1, r) =>
      (exists c2, skip_spaces_loop fuel b2 p = Done (c2, r) /\ near m c1 c2) \/
      (failed r /\ exists c2, skip_spaces_loop fuel b2 p = Done (c2, Ok tt) /\ ended c2 /\ n_bytes c2 = p)
  | _ => True
  end.
Proof.
  induction fuel as [|fuel IH]; intros m b1 b2 p H W Hp; [exact Logic.I|]. cbn [skip_spaces_loop].
  unfold collect_while, fuel_for. fields H. rewrite ED.
  pose proof (arrived_collect (S (len (src (rd b1)))) m b1 b2 is_ascii_whitespace p p p H W Hp) as G.
  destruct (collect_while_loop _ b1 _ _ _ _ _ _) as [[c1 r]| |]; [|exact Logic.I|exact Logic.I].
  destruct G as [(c2 & -> & Hc & Wc & Pc & _)|(er & c2 & -> & Hb & -> & Hc & Wc & Pc)].
  - destruct r as [[u v]|er].
    + left. eexists. split; [reflexivity|]. destruct (_ <? _); [apply near_shift|]; exact Hc.
    + fields Hc. rewrite EB0. destruct (shift_spec c2 p (n_bytes c1) Wc) as (C & N & _). rewrite EB0, Nat.min_id in N.
      destruct (err_type er); try (left; eexists; split; [reflexivity|exact Hc]).
      apply IH; [apply near_shift; exact Hc|apply (cut_wf _ _ _ _ C)|lia].
  - destruct (err_type er) as [x|x y|x|]; try (elim Hb; reflexivity); right; (split; [apply failed_err|]);
      (eexists; split; [reflexivity|]); destruct (Nat.ltb_spec p (n_bytes c2)) as [L|L]; [|split; [exact Hc|lia]| |split; [exact Hc|lia]| |split; [exact Hc|lia]];
      destruct (shift_spec c2 p (n_bytes c2) Wc) as (C & N & _ & R); unfold ended; rewrite R; rewrite Nat.min_id in N; (split; [exact Hc|lia]).
Qed.
Lemma arrived_spaces m b1 b2 p : near m b1 b2 -> wf b2 -> p <= n_bytes b2 ->
  match skip_spaces b1 p with
  | Done (c1, r) =>
      (exists c2, skip_spaces b2 p = Done (c2, r) /\ near m c1 c2) \/
      (failed r /\ exists c2, skip_spaces b2 p = Done (c2, Ok tt) /\ ended c2 /\ n_bytes c2 = p)
  | _ => True
  end.
Proof. intros H W P. unfold skip_spaces, skip_fuel. fields H. rewrite EB, ED. rewrite <- EB in *. apply arrived_skip; assumption. Qed.

(** The parser: equal results, or both calls fail. *)
Inductive mate (m : nat) : rj -> rj -> Prop := mate_at b1 b2 l i : near m b1 b2 -> mate m (mkRj b1 l i) (mkRj b2 l i).
Definition racut {X} (x1 x2 : outcome (rj * result X rerror)) : Prop :=
  match x1 with
  | Done (s1, Ok v) => exists s2, x2 = Done (s2, Ok v) /\ mate 0 s1 s2
  | Done (s1, Err _) => exists s2 er, x2 = Done (s2, Err er)
  | _ => True
  end.
Lemma mate_bf m s1 s2 : mate m s1 s2 -> near m (bf s1) (bf s2) /\ jlen s2 = jlen s1 /\ jidx s2 = jidx s1.
Proof. intros [b1 b2 l i H]. auto. Qed.
Lemma mate_with m s1 s2 b1 b2 : mate m s1 s2 -> near m b1 b2 -> mate m (with_bf s1 b1) (with_bf s2 b2).
Proof. intros [c1 c2 l i H] G. constructor. exact G. Qed.
Lemma mate_new m s1 s2 : mate m s1 s2 -> mate m (create_new_jiter s1) (create_new_jiter s2).
Proof. intros [c1 c2 l i H]. unfold create_new_jiter. cbn [bf]. fields H. rewrite EB. constructor. exact H. Qed.
Lemma mate_jcall {A} m (f : jop A) s1 s2 : mate m s1 s2 ->
  exists t1 t2 r, jcall f s1 = (t1, r) /\ jcall f s2 = (t2, r) /\ mate m t1 t2.
Proof.
  intros [b1 b2 l i H]. unfold jcall, jview. cbn [bf jlen jidx]. fields H. rewrite EA.
  destruct (f _) as [r a]. eexists _, _, _. split; [reflexivity|]. split; [reflexivity|]. constructor. exact H.
Qed.
Lemma jcall_bf {A} (f : jop A) s : bf (fst (jcall f s)) = bf s /\ jlen (fst (jcall f s)) = jlen s.
Proof. unfold jcall. destruct (f _). auto. Qed.
Lemma mate_changed m b1 b2 c1 c2 : near m b1 b2 -> near m c1 c2 -> is_changed b2 c2 = is_changed b1 c1.
Proof. intros H G. fields H. fields G. unfold is_changed. rewrite EB, EC, EB0, EC0. reflexivity. Qed.
Lemma mate_ok m eager s1 s2 : mate m s1 s2 -> really_ok eager s2 = really_ok eager s1.
Proof. intros [b1 b2 l i H]. unfold really_ok. cbn [bf jidx]. fields H. rewrite EB. reflexivity. Qed.

(** After the spaces the second parser may have found the end of the input; then nothing or only the token is left. *)
Lemma arrived_feeding m s1 s2 p t : mate m s1 s2 -> wf (bf s2) -> p <= n_bytes (bf s2) -> 2 <= rcap s2 -> jlen s2 = n_bytes (bf s2) ->
  match skip_spaces_feeding s1 p t with
  | Done (u1, r) =>
      (exists u2, skip_spaces_feeding s2 p t = Done (u2, r) /\ mate m u1 u2) \/
      (failed r /\ exists u2, skip_spaces_feeding s2 p t = Done (u2, Ok tt) /\ ended (bf u2) /\ wf (bf u2) /\
         (jview u2 = [] \/ exists x, t = Some x /\ jview u2 = [x]))
  | _ => True
  end.
Proof.
  intros H W P C J. destruct (mate_bf _ _ _ H) as (Hb & _ & _). unfold rcap in C.
  unfold skip_spaces_feeding. cbv zeta.
  set (d1 := if 0 <? p then shift_buffer (bf s1) 0 p else bf s1). set (d2 := if 0 <? p then shift_buffer (bf s2) 0 p else bf s2).
  assert (N1 : near m d1 d2). { unfold d1, d2. destruct (_ <? _); [apply near_shift|]; exact Hb. }
  assert (W1 : wf d2 /\ cap d2 = cap (bf s2)).
  { unfold d2. destruct (_ <? _); [|auto]. destruct (shift_front (bf s2) p W P) as (K & _). split; [exact (cut_wf _ _ _ _ K)|exact (cut_cap _ _ _ _ K)]. }
  destruct W1 as [W1 C1]. clearbody d1 d2.
  assert (F : forall c1 c2, near m c1 c2 ->
    exists u2, Done (if is_changed (bf s2) c2 then create_new_jiter (with_bf s2 c2) else with_bf s2 c2, @Ok unit rerror tt) = Done (u2, Ok tt) /\
      mate m (if is_changed (bf s1) c1 then create_new_jiter (with_bf s1 c1) else with_bf s1 c1) u2).
  { intros c1 c2 Hc. eexists. split; [reflexivity|]. rewrite (mate_changed _ _ _ _ _ Hb Hc).
    destruct (is_changed _ _); [apply mate_new|]; apply mate_with; assumption. }
  assert (V : forall c2, ended c2 -> wf c2 -> n_bytes c2 = 0 \/ (exists x, t = Some x /\ firstn (n_bytes c2) (buf c2) = [x]) ->
    exists u2, Done (if is_changed (bf s2) c2 then create_new_jiter (with_bf s2 c2) else with_bf s2 c2, @Ok unit rerror tt) = Done (u2, Ok tt) /\
      ended (bf u2) /\ wf (bf u2) /\ (jview u2 = [] \/ exists x, t = Some x /\ jview u2 = [x])).
  { intros c2 Hd Hw Hv. eexists. split; [reflexivity|].
    assert (G : exists i, jview (if is_changed (bf s2) c2 then create_new_jiter (with_bf s2 c2) else with_bf s2 c2) = skipn i (firstn (n_bytes c2) (buf c2))).
    { destruct (is_changed (bf s2) c2) eqn:Ec; unfold jview; cbn [create_new_jiter with_bf bf jlen jidx]; [eexists; reflexivity|].
      apply is_changed_false in Ec as [_ Ec]. rewrite J, Ec. eexists. reflexivity. }
    destruct G as [i ->]. split; [destruct (is_changed _ _); exact Hd|]. split; [destruct (is_changed _ _); exact Hw|].
    destruct Hv as [Hz|(x & -> & Hx)]; [left; rewrite Hz; apply skipn_nil|]. rewrite Hx. destruct i as [|i]; [right; exists x; auto|left; apply skipn_nil]. }
  pose proof (arrived_spaces _ _ _ 0 N1 W1 ltac:(lia)) as G. destruct (skip_spaces_0 d2 W1 ltac:(lia)) as (c2' & r2 & E2 & W2 & C2 & _ & _ & _).
  destruct (skip_spaces d1 0) as [[c1 r]| |]; [|exact Logic.I|exact Logic.I].
  destruct G as [(c2 & E & Hc)|(Hf & c2 & E & Hd & Hz)]; rewrite E in E2; injection E2 as <- <-; rewrite E; clear E.
  2:{ destruct Hf as [er ->]. right. split; [apply failed_err|]. destruct t as [t|]; [|apply V; auto].
      rewrite Hz. cbn [Nat.eqb]. destruct (ended_read _ Hd W2) as (c3 & -> & D3 & N3 & _ & K3). rewrite N3, Hz. cbn [firstn].
      apply V; [exact D3|exact (cut_wf _ _ _ _ K3)|left; lia]. }
  destruct r as [[]|er]; [|left; eexists; split; [reflexivity|apply mate_with; assumption]].
  destruct t as [t|]; [|left; apply (F _ _ Hc)].
  assert (R : (exists f1 f2 n, (if n_bytes c1 =? 0 then read_more c1 else (c1, Ok 0)) = (f1, Ok n) /\ (if n_bytes c2 =? 0 then read_more c2 else (c2, Ok 0)) = (f2, Ok n) /\ near m f1 f2 /\ wf f2 /\ cap f2 = cap (bf s2)) \/
              (exists f1 er f2, (if n_bytes c1 =? 0 then read_more c1 else (c1, Ok 0)) = (f1, Err er) /\
                (if n_bytes c2 =? 0 then read_more c2 else (c2, Ok 0)) = (f2, Ok 0) /\ ended f2 /\ wf f2 /\ n_bytes f2 = 0)).
  { fields Hc. rewrite EB. destruct (Nat.eqb_spec (n_bytes c1) 0) as [Hz|Hz].
    2:{ left. exists c1, c2, 0. do 3 (split; [auto|]). split; [exact W2|congruence]. }
    destruct (near_read _ _ _ Hc W2) as [(f1 & f2 & n & Ea & Eb & Hn)|[[Hr _]|[Hd (f1 & er & Ea & _)]]].
    - left. exists f1, f2, n. do 3 (split; [assumption|]). destruct (read_more_spec _ _ _ W2 Eb) as (K & _).
      split; [exact (cut_wf _ _ _ _ K)|]. rewrite (cut_cap _ _ _ _ K). congruence.
    - unfold cap in *. lia.
    - right. destruct (ended_read _ Hd W2) as (f2 & Eb & D3 & N3 & _ & K3). exists f1, er, f2. do 3 (split; [assumption|]).
      split; [exact (cut_wf _ _ _ _ K3)|lia]. }
  destruct R as [(f1 & f2 & n & -> & -> & Hn & W3 & C3)|(f1 & er & f2 & -> & -> & D3 & W3 & Z3)].
  2:{ right. split; [apply failed_err|]. rewrite Z3. cbn [firstn]. apply V; auto. }
  fields Hn. rewrite EA, EB. destruct (firstn (n_bytes f1) (buf f1)) as [|x l] eqn:Ex; [left; apply (F _ _ Hn)|].
  destruct (N.eqb_spec x t) as [->|_]; [|left; apply (F _ _ Hn)].
  rewrite <- EA, <- EB in Ex.
  assert (Hp : 0 < n_bytes f2) by (destruct (n_bytes f2); [discriminate|lia]).
  assert (Hs : stream f2 = t :: l ++ src (rd f2)) by (unfold stream; rewrite Ex; reflexivity).
  pose proof (arrived_spaces _ _ _ 1 Hn W3 Hp) as G. destruct (skip_spaces_1 f2 t _ W3 ltac:(lia) Hs Hp) as (c4 & r4 & E4 & W4 & _ & _ & _ & P4).
  destruct (skip_spaces f1 1) as [[g1 r]| |]; [|exact Logic.I|exact Logic.I].
  destruct G as [(g2 & E & Hg)|(Hf & g2 & E & Hd & Hz)]; rewrite E in E4; injection E4 as <- <-; rewrite E; clear E.
  - destruct r as [[]|er]; [left; apply (F _ _ Hg)|left; eexists; split; [reflexivity|apply mate_with; assumption]].
  - destruct Hf as [er ->]. right. split; [apply failed_err|]. apply V; [exact Hd|exact W4|]. right. exists t. split; [reflexivity|].
    destruct P4 as [P4 _]. rewrite <- (stream_firstn g2 W4), P4, Hz. reflexivity.
Qed.

Lemma near_less m k b1 b2 : near m b1 b2 -> k <= m -> near k b1 b2.
Proof. intros [b p Hp Hl] L. constructor; [exact Hp|]. intros Hn. specialize (Hl Hn). lia. Qed.
Lemma mate_less m k s1 s2 : mate m s1 s2 -> k <= m -> mate k s1 s2.
Proof. intros [b1 b2 l i H] L. constructor. exact (near_less _ _ _ _ H L). Qed.
Lemma rest_less s : len (rest s) <= len (stream (bf s)).
Proof. unfold rest. rewrite skipn_length. lia. Qed.

(** A call at the end of the input. *)
Lemma ended_retry {A} fuel (f : jop A) eager s : ended (bf s) -> wf (bf s) -> failed (fst (f (jview s))) ->
  exists s' er, retry_loop (S fuel) f eager s = Done (s', Err er).
Proof.
  intros D W [[t o] Hf]. cbn [retry_loop]. unfold jcall. destruct (f (jview s)) as [r a]. cbn [fst] in Hf. subst r. cbn [fst].
  destruct (can_retry t); [|eauto]. cbn [bf]. destruct (ended_read _ D W) as (c & -> & _). eauto.
Qed.
(** No number ends with the input or fills the buffer. *)
Definition suits {A} (f : jop A) (token : option byte) (eager : bool) : Prop :=
  failed (fst (f [])) /\ (forall t, token = Some t -> failed (fst (f [t]))) /\ bounded f /\
  (eager = true -> token = None /\ (forall l, snd (f l) <= len l) /\ (forall l er a, f l = (Err er, a) -> a <= run_length json_ws l) /\
     (forall l v, f l = (Ok v, len l) -> l <> [] -> ~ suffix l d) /\
     (forall l v a b, f l = (Ok v, len l) -> run_length json_ws l = 0 -> len l = c0 -> d <> a ++ l ++ b)).
Definition ready (s : rj) : Prop :=
  suffix (stream (bf s)) d /\ jidx s <= n_bytes (bf s) /\ (jidx s = 0 \/ jview s = []) /\ run_length json_ws (stream (bf s)) = 0 /\ rcap s = c0.
Lemma arrived_retry {A} (f : jop A) token eager fuel : forall s1 s2, suits f token eager -> mate 0 s1 s2 -> wf (bf s2) -> jlen s2 = n_bytes (bf s2) ->
  (eager = true -> ready s2) ->
  racut (retry_loop fuel f eager s1) (retry_loop fuel f eager s2).
Proof.
  induction fuel as [|fuel IH]; intros s1 s2 F H W J I; [exact Logic.I|]. cbn [retry_loop].
  destruct (jcall_bf f s2) as [Eb El].
  assert (V : forall v, jcall f s2 = (fst (jcall f s2), Ok v) -> really_ok eager (fst (jcall f s2)) = false ->
    eager = true /\ f (jview s2) = (Ok v, len (jview s2)) /\ jview s2 <> []).
  { intros v. unfold jcall, really_ok. destruct (f (jview s2)) as [r a] eqn:Ef. cbn [fst bf jidx]. intros Ev Hr. injection Ev as Ev.
    destruct eager; [|discriminate]. split; [reflexivity|]. cbn [negb orb] in Hr. apply Nat.ltb_ge in Hr.
    destruct r as [v'|[]]; [|discriminate]. injection Ev as ->. destruct F as (F0 & _ & F2 & F1).
    assert (L : len (jview s2) = n_bytes (bf s2) - jidx s2).
    { unfold jview. rewrite skipn_length, firstn_length, J. unfold wf, cap in W. lia. }
    pose proof (F2 _ _ _ Ef) as Ha. destruct (I eq_refl) as (_ & Hi & _).
    split; [f_equal; lia|].
    intros E. rewrite E in Ef. destruct F0 as [y F0]. rewrite Ef in F0. discriminate. }
  destruct (mate_jcall 0 f _ _ H) as (t1 & t2 & r & E1 & E2 & Ht). rewrite E1, E2. rewrite E2 in Eb, El, V. cbn [fst] in Eb, El, V. cbv zeta.
  destruct (mate_bf _ _ _ Ht) as (Hb & _ & _). rewrite <- Eb in W.
  assert (G : (forall v, r = Ok v -> eager = true /\ f (jview s2) = (Ok v, len (jview s2)) /\ jview s2 <> []) ->
    racut (match read_more (bf t1) with
           | (b, Err e) => Done (with_bf t1 b, Err e)
           | (b, Ok 0) => Done (with_bf t1 b, match r with Ok v => Ok v | Err e => Err (from_jiter_error (current_index (with_bf t1 b)) e) end)
           | (b, Ok _) => retry_loop fuel f eager (create_new_jiter (with_bf t1 b))
           end)
          (match read_more (bf t2) with
           | (b, Err e) => Done (with_bf t2 b, Err e)
           | (b, Ok 0) => Done (with_bf t2 b, match r with Ok v => Ok v | Err e => Err (from_jiter_error (current_index (with_bf t2 b)) e) end)
           | (b, Ok _) => retry_loop fuel f eager (create_new_jiter (with_bf t2 b))
           end)).
  { clear V. intros V.
    assert (Wf : wf (bf s2)) by (rewrite <- Eb; exact W).
    assert (Sj : jidx s2 <= n_bytes (bf s2) -> rest s2 = jview s2 ++ src (rd (bf s2))).
    { intros Hi. apply jview_split. split; [exact Wf|]. split; [exact J|exact Hi]. }
    assert (Q : src (rd (bf s2)) = [] -> failed r).
    { intros Hq. destruct r as [v|y]; [exfalso|apply failed_err]. destruct (V v eq_refl) as (-> & Ev & Hv).
      destruct F as (_ & _ & _ & F). destruct (F eq_refl) as (-> & _ & _ & F2 & _). apply (F2 _ _ Ev Hv).
      destruct (I eq_refl) as (Hs & Hi & _).
      eapply suffix_trans; [|exact Hs]. exists (jidx s2). change (skipn (jidx s2) (stream (bf s2))) with (rest s2).
      rewrite Sj, Hq, app_nil_r by exact Hi. reflexivity. }
    assert (Z : len (buf (bf s2)) <= n_bytes (bf s2) -> failed r).
    { intros Hq. destruct r as [v|y]; [exfalso|apply failed_err]. destruct (V v eq_refl) as (-> & Ev & Hv).
      destruct F as (_ & _ & _ & F). destruct (F eq_refl) as (-> & _ & _ & _ & F2).
      destruct (I eq_refl) as ((k & Hs) & Hi & [Hz|Hz] & Hw & Hc); [|congruence].
      assert (Es : stream (bf s2) = jview s2 ++ src (rd (bf s2))) by (rewrite <- Sj by exact Hi; unfold rest; rewrite Hz; reflexivity).
      apply (F2 _ _ (firstn k d) (src (rd (bf s2))) Ev).
      - rewrite Es in Hw. destruct (jview s2) as [|x l]; [congruence|]. revert Hw. cbn [app run_length]. destruct (json_ws x); [discriminate|reflexivity].
      - rewrite <- Hc. unfold jview, rcap. rewrite skipn_length, firstn_length, J. unfold wf, cap in *. lia.
      - rewrite <- Es, Hs. symmetry. apply firstn_skipn. }
    rewrite <- Eb in Q, Z.
    destruct (near_read _ _ _ Hb W) as [(d1 & d2 & n & -> & Er & Hd)|[[Hr (d1 & d2 & -> & Er & _)]|[Hd (d1 & er & -> & _)]]].
    - rewrite Er. destruct (read_more_spec _ _ _ W Er) as (K & _ & _ & N & L & X). destruct n as [|n].
      + destruct r as [v|er]; [|cbn [racut]; eauto].
        exists (with_bf t2 d2). split; [reflexivity|]. apply mate_with; assumption.
      + apply IH.
        * exact F.
        * apply mate_new. apply mate_with; assumption.
        * exact (cut_wf _ _ _ _ K).
        * reflexivity.
        * intros He. destruct (I He) as (I1 & _ & _ & I4 & I5). unfold ready, rcap. cbn [create_new_jiter with_bf bf jidx].
          rewrite (cut_nil_stream _ _ _ K), Eb, (cut_cap _ _ _ _ K), Eb. repeat split; auto. lia.
    - rewrite Er. destruct (Z Hr) as [y ->]. cbn [racut]. eauto.
    - destruct (ended_read _ Hd W) as (c & -> & _). destruct Q as [y ->]; [apply Hd|]. cbn [racut]. eauto. }
  destruct r as [v|er].
  - rewrite (mate_ok _ eager _ _ Ht). destruct (really_ok eager t1) eqn:Eo.
    + cbn [racut]. exists t2. split; [reflexivity|exact Ht].
    + apply G. intros v' E. injection E as <-. apply V; [reflexivity|]. rewrite (mate_ok _ eager _ _ Ht). exact Eo.
  - destruct (can_retry _); [apply G; discriminate|]. cbn [racut]. eauto.
Qed.

Lemma no_space l : run_length json_ws (skip_aw l) = 0.
Proof.
  unfold skip_aw. pose proof (run_length_skip is_ascii_whitespace l) as H. destruct (skipn _ l) as [|x m]; [reflexivity|].
  revert H. cbn [run_length]. unfold is_ascii_whitespace, json_ws. repeat destruct (N.eqb _ _); cbn [orb]; congruence.
Qed.
(** What holds of the second parser between the calls. *)
Definition fine (s : rj) : Prop := valid s /\ 2 <= rcap s /\ rcap s = c0 /\ suffix (rest s) d.
Definition close (s1 s2 : rj) : Prop := mate 0 s1 s2 /\ fine s2.
Lemma strip_suffix_of token l : token = None -> suffix (strip token l) l.
Proof. intros ->. unfold strip, skip_aw. apply suffix_skipn. Qed.
Lemma arrived_loop {A} (f : jop A) token eager s1 s2 : suits f token eager -> close s1 s2 ->
  racut (loop_until_success f token eager s1) (loop_until_success f token eager s2).
Proof.
  intros F [H (V & C & C0 & Hd)]. unfold loop_until_success. destruct (mate_bf _ _ _ H) as (_ & _ & Ei). rewrite Ei. cbv zeta.
  destruct (jcall_bf f s2) as [Eb El].
  destruct (mate_jcall _ f _ _ H) as (t1 & t2 & r & E1 & E2 & Ht). rewrite E1, E2. rewrite E2 in Eb, El. cbn [fst] in Eb, El.
  destruct V as (W & J & I').
  match goal with |- racut (match r with Ok v => _ | Err _ => ?M1 end) (match r with Ok v => _ | Err _ => ?M2 end) =>
    assert (G : (forall v, r = Ok v -> really_ok eager t2 = false) -> racut M1 M2) end.
  { intros Hnot. assert (Wt : wf (bf t2)) by (rewrite Eb; exact W). assert (Ct : 2 <= rcap t2) by (unfold rcap in *; rewrite Eb; exact C).
    rewrite <- Ei in *.
    pose proof (arrived_feeding _ _ _ (jidx s2) token Ht Wt ltac:(rewrite Eb; exact I') Ct ltac:(rewrite Eb, El; exact J)) as G.
    destruct (feeding_spec t2 (jidx s2) token Wt ltac:(rewrite Eb; exact I') Ct) as (u2' & v' & Ef & Pf).
    destruct (skip_spaces_feeding t1 _ _) as [[u1 v]| |]; [|exact Logic.I|exact Logic.I].
    destruct G as [(u2 & E & Hu)|(Hf & u2 & E & Dn & Wn & Hv)]; rewrite E in Ef; injection Ef as <- <-; rewrite E.
    - destruct v as [[]|er]; [|cbn [racut]; eauto]. destruct Pf as (Wu & Cu & _ & _ & Su & Ju). rewrite Eb in Su. change (skipn (jidx s2) (stream (bf s2))) with (rest s2) in Su.
      destruct (mate_bf _ _ _ Hu) as (Hb & _ & _). unfold fuel_for. fields Hb. rewrite ED.
      apply (arrived_retry f token eager _); [exact F|exact Hu|exact Wu| |].
      + destruct Ju as [[Ju _]|(_ & _ & Jn & Jl & _)]; [exact Ju|]. rewrite Jl, Jn, El, Eb. exact J.
      + intros He. destruct F as (F0 & _ & F2 & F). destruct (F He) as (-> & F3 & F4 & _). cbn [strip] in Su.
        assert (Hw : run_length json_ws (stream (bf u2)) = 0) by (rewrite Su; apply no_space).
        assert (Hj : jidx u2 <= n_bytes (bf u2) /\ (jidx u2 = 0 \/ jview u2 = [])).
        { destruct Ju as [[_ Ji]|(P0 & Js & Jn & Jl & Ji)]; [lia|].
          unfold jcall in E2. specialize (F3 (jview s2)). destruct (f (jview s2)) as [r0 a] eqn:Ef.
          injection E2 as E2t E2r. rewrite <- E2t in Ji, Jl. cbn [jidx jlen snd] in *.
          rewrite jview_length in F3 by (split; [exact W|]; split; assumption).
          assert (Hn : n_bytes (bf u2) = n_bytes (bf s2)) by (rewrite Jn, Eb; reflexivity).
          split; [lia|].
          destruct r0 as [v0|[er0 o0]].
          - right. subst r. specialize (Hnot _ eq_refl). unfold really_ok in Hnot. rewrite He, <- E2t in Hnot. cbn [negb orb jidx bf] in Hnot.
            apply Nat.ltb_ge in Hnot. unfold jview. apply skipn_all2. rewrite firstn_length. lia.
          - left. pose proof (F4 _ _ _ Ef) as Fa.
            assert (Es : stream (bf u2) = jview s2 ++ src (rd (bf s2))).
            { rewrite Js, Eb. rewrite <- (jview_split s2) by (split; [exact W|]; split; assumption). unfold rest. rewrite P0. reflexivity. }
            rewrite Es in Hw. destruct (jview s2) as [|x l]; cbn [app run_length] in *; [lia|]. destruct (json_ws x); [discriminate|lia]. }
        unfold ready. split; [rewrite Su; eapply suffix_trans; [|exact Hd]; apply (strip_suffix_of None); reflexivity|].
        split; [apply Hj|]. split; [apply Hj|]. split; [exact Hw|]. rewrite Cu. unfold rcap in *. rewrite Eb. exact C0.
    - destruct Hf as [er ->]. cbn [racut]. unfold fuel_for.
      destruct (ended_retry (len (src (rd (bf u2)))) f eager u2 Dn Wn) as (s' & er' & ->); [|eauto].
      destruct F as (F0 & F1 & _). destruct Hv as [->|(x & Et & ->)]; [exact F0|exact (F1 _ Et)]. }
  destruct r as [v|er]; [|apply G; discriminate].
  rewrite (mate_ok _ eager _ _ Ht) in *. destruct (really_ok eager t1) eqn:Eo; [|apply G; auto].
  exists t2. split; [reflexivity|exact Ht].
Qed.

(** The calls: equal results and parsers that are still alike, or both calls fail. *)
Definition rcut {X} (x1 x2 : outcome (rj * result X rerror)) : Prop :=
  match x1 with
  | Done (s1, Ok v) => exists s2, x2 = Done (s2, Ok v) /\ close s1 s2
  | Done (s1, Err _) => exists s2 er, x2 = Done (s2, Err er)
  | _ => True
  end.
Definition wcut {X} (x1 x2 : outcome (rj * writer * result X rerror)) : Prop :=
  match x1 with
  | Done (s1, w1, Ok v) => exists s2, x2 = Done (s2, w1, Ok v) /\ close s1 s2
  | Done (s1, w1, Err _) => exists s2 er, x2 = Done (s2, w1, Err er)
  | _ => True
  end.
Lemma fine_step s s' : fine s -> rstep s s' -> fine s'.
Proof.
  intros (V & C & C0 & S) H. destruct (rstep_spec s s' V C H) as (V' & _ & C' & S').
  split; [exact V'|]. split; [lia|]. split; [lia|]. exact (suffix_trans _ _ _ S' S).
Qed.
Lemma arrived_op {A} k known token (f : jop A) op s1 s2 : method k known token f op -> suits f token (eager_of k) -> close s1 s2 -> rcut (op s1) (op s2).
Proof.
  intros M F H. pose proof (method_facts _ _ _ _ _ M) as [E _ _ _ _ _ _].
  pose proof (arrived_loop f token (eager_of k) s1 s2 F H) as G. rewrite <- E in G.
  destruct (op s1) as [[t1 [v|er]]| |]; [|exact G|exact Logic.I|exact Logic.I].
  destruct G as (t2 & E2 & Ht). exists t2. split; [exact E2|]. split; [exact Ht|].
  exact (fine_step _ _ (proj2 H) (st_method s2 t2 A k known token f op v M E2)).
Qed.
Lemma arrived_handle fuel pr sg : forall m s1 s2 w, mate m s1 s2 -> wf (bf s2) ->
  match handle_long fuel pr sg s1 w with
  | Done (t1, w1, Ok v) => exists t2, handle_long fuel pr sg s2 w = Done (t2, w1, Ok v) /\ mate m t1 t2
  | Done (t1, w1, Err _) => exists t2 er, handle_long fuel pr sg s2 w = Done (t2, w1, Err er)
  | _ => True
  end.
Proof.
  induction fuel as [|fuel IH]; intros m s1 s2 w H W; [exact Logic.I|]. cbn [handle_long].
  destruct (jcall_bf pr s2) as [Eb _].
  destruct (mate_jcall _ pr _ _ H) as (t1 & t2 & r & E1 & E2 & Ht). rewrite E1, E2. rewrite E2 in Eb. cbn [fst] in Eb. cbv zeta.
  rewrite <- Eb in W. clear E1 E2 Eb H s1 s2.
  destruct r as [v|er].
  - destruct (write_all w v) as [w1 [[]|k]]; eauto.
  - destruct (can_retry _); [|eauto].
    destruct (mate_bf _ _ _ Ht) as (Hb & _ & ->).
    set (u1 := if 0 <? jidx t1 then _ else t1). set (u2 := if 0 <? jidx t1 then _ else t2).
    assert (Hu : mate m u1 u2 /\ wf (bf u2)).
    { unfold u1, u2. destruct (0 <? jidx t1); [|auto]. split; [apply mate_new; apply mate_with; [exact Ht|]; apply near_shift; exact Hb|].
      destruct (shift_spec (bf t2) 0 (jidx t1) W) as (K & _). exact (cut_wf _ _ _ _ K). }
    clearbody u1 u2. destruct Hu as [Hu Wu]. destruct (mate_bf _ _ _ Hu) as (Hv & _ & _). unfold raw_segment_end. cbv zeta. fields Hv. rewrite EA, EB.
    destruct (find_leading _ _) as [seg|]; [|exact Logic.I].
    assert (G : forall v1 v2 w3, mate m v1 v2 -> wf (bf v2) ->
      match (match read_more (bf v1) with
            | (b, Err e) => Done (with_bf v1 b, w3, Err e)
            | (b, Ok 0) => Done (with_bf v1 b, w3, Err (from_jiter_error (current_index (with_bf v1 b)) er))
            | (b, Ok _) => handle_long fuel pr sg (create_new_jiter (with_bf v1 b)) w3
            end) with
      | Done (t1, w1, Ok v) => exists t2, (match read_more (bf v2) with
            | (b, Err e) => Done (with_bf v2 b, w3, Err e)
            | (b, Ok 0) => Done (with_bf v2 b, w3, Err (from_jiter_error (current_index (with_bf v2 b)) er))
            | (b, Ok _) => handle_long fuel pr sg (create_new_jiter (with_bf v2 b)) w3
            end) = Done (t2, w1, Ok v) /\ mate m t1 t2
      | Done (t1, w1, Err _) => exists t2 er', (match read_more (bf v2) with
            | (b, Err e) => Done (with_bf v2 b, w3, Err e)
            | (b, Ok 0) => Done (with_bf v2 b, w3, Err (from_jiter_error (current_index (with_bf v2 b)) er))
            | (b, Ok _) => handle_long fuel pr sg (create_new_jiter (with_bf v2 b)) w3
            end) = Done (t2, w1, Err er')
      | _ => True
      end).
    { clear - IH. intros v1 v2 w3 H W. destruct (mate_bf _ _ _ H) as (Hb & _ & _).
      destruct (near_read _ _ _ Hb W) as [(d1 & d2 & n & -> & Er & Hd)|[[Hr (d1 & d2 & -> & Er & Hd)]|[Hd (d1 & er' & -> & _)]]].
      - rewrite Er. destruct n as [|n]; [eauto|]. destruct (read_more_spec _ _ _ W Er) as (K & _).
        apply IH; [apply mate_new; apply mate_with; assumption|exact (cut_wf _ _ _ _ K)].
      - rewrite Er. eauto.
      - destruct (ended_read _ Hd W) as (c & -> & _). eauto. }
    destruct (1 <? seg); [|apply G; assumption].
    destruct (sg _ seg) as [x|er']; [|eauto].
    destruct (write_all w x) as [w1 [[]|k]]; [|eauto].
    apply G; [apply mate_with; [exact Hu|]; apply near_shift; exact Hv|].
    destruct (shift_spec (bf u2) 1 seg Wu) as (K & _). exact (cut_wf _ _ _ _ K).
Qed.
Lemma arrived_long s1 s2 w : close s1 s2 -> wcut (write_long_bytes s1 w) (write_long_bytes s2 w).
Proof.
  intros [H F]. pose proof (st_long_bytes s2) as S. unfold write_long_bytes, fuel_for in *. destruct (mate_bf _ _ _ H) as (Hb & _ & _). fields Hb. rewrite ED in *.
  pose proof (arrived_handle (Datatypes.S (len (src (rd (bf s1))))) j_known_bytes bytes_segment _ s1 s2 w H (proj1 (proj1 F))) as G.
  destruct (handle_long _ _ _ s1 w) as [[[t1 w1] [v|er]]| |]; [|exact G|exact Logic.I|exact Logic.I].
  destruct G as (t2 & E2 & Ht). exists t2. split; [exact E2|].
  split; [exact Ht|]. exact (fine_step _ t2 F (S _ _ _ _ E2)).
Qed.

(** The methods that the scanner and its callbacks call. *)
Lemma method_suits {A} k known token (f : jop A) op : method k known token f op -> eager_of k = false -> suits f token (eager_of k).
Proof.
  intros M E. pose proof (method_facts _ _ _ _ _ M) as [_ _ Hb (er & a & He) _ _ _]. rewrite E.
  split; [rewrite He; apply failed_err|]. split; [|split; [exact Hb|discriminate]].
  intros t ->. clear Hb He er a. remember (Some t) as token eqn:Et. destruct M; try discriminate; injection Et as <-; eexists; reflexivity.
Qed.
(** A number ends with a digit. *)
Context (Hdigit : ends_apart d) (Hshort : runs_below c0 d).
Lemma number_suits : suits j_next_number_bytes None true.
Proof.
  assert (B2 : forall l er a, j_next_number_bytes l = (Err er, a) -> a <= run_length json_ws l).
  { intros l er a. unfold j_next_number_bytes, next_as, after_ws, jat.
    destruct (skipn (run_length json_ws l) l) as [|x m]; [intros E; injection E as _ <-; lia|].
    destruct (is_num x).
    + destruct (j_number (x :: m)) as [[v|[e0 o]] b] eqn:E; [discriminate|]. apply number_inert in E. subst b. intros H. injection H as _ <-. lia.
    + destruct (wrong_type_err (A:=bytes) TFloat x (x :: m)) as ([e0 o] & ->). intros H. injection H as _ <-. lia. }
  split; [eexists; reflexivity|]. split; [discriminate|]. split; [exact next_number_bounded|]. intros _. split; [reflexivity|]. split; [|split; [exact B2|split]].
  - intros l. pose proof (next_number_bounded l) as B. destruct (j_next_number_bytes l) as [[v|er] a] eqn:E; [exact (B _ _ eq_refl)|]. cbn [snd].
    pose proof (B2 _ _ _ E). pose proof (run_length_le json_ws l). lia.
  - intros l v H Hl [k Hk]. destruct (number_last _ _ H Hl) as (l' & x & E & Hx).
    unfold is_digit in Hx. apply Bool.andb_true_iff in Hx as [X1 X2]. apply N.leb_le in X1, X2. apply (Hdigit (firstn k d ++ l') x); [|split; assumption].
    rewrite <- app_assoc, <- E, Hk. symmetry. apply firstn_skipn.
  - intros l v a b H Hw Hc Hd. pose proof (Hshort _ _ _ Hd (number_all _ _ H Hw)). lia.
Qed.
Lemma arrived_method {A} k known token (f : jop A) op s1 s2 : method k known token f op -> eager_of k = false -> close s1 s2 -> rcut (op s1) (op s2).
Proof. intros M E. exact (arrived_op _ _ _ _ _ _ _ M (method_suits _ _ _ _ _ M E)). Qed.
Lemma arrived_number s1 s2 : close s1 s2 -> rcut (next_number_bytes s1) (next_number_bytes s2).
Proof. exact (arrived_op _ _ _ _ _ _ _ m_next_number_bytes number_suits). Qed.
End Arrived.
