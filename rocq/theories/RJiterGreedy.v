(** Readers that fill what they are asked to fill: how much is in the buffer when the parser stands in front of a value. *)
From Verif Require Import Base Buffer BufferSpec BufferProofs Jiter JiterProofs RJiter RJiterSpec RJiterProofs RJiterOpProofs RJiterInvProofs.

Lemma closed_greedy : closed (fun b => sched (rd b) = []).
Proof.
  split; [intros b t f H; unfold shift_buffer; destruct (t <? _); try destruct (advance_pos _ _ _); destruct (_ && _)%bool; exact H|].
  intros b H. unfold read_more, reader_read. rewrite H. reflexivity.
Qed.
Lemma greedy_quiet b : sched (rd b) = [] -> quiet b = true.
Proof. unfold quiet. intros ->. reflexivity. Qed.

(** The position behind the last byte read. *)
Definition reach (b : buffer) : nat := n_shifted_out b + n_bytes b.
(** Since the buffer began at [i]: no read, or a read that filled it or took all the input. *)
Definition refilled (i e c : nat) (b : buffer) : Prop :=
  wf b /\ cap b = c /\ sched (rd b) = [] /\ i <= n_shifted_out b /\
  (reach b = e \/ src (rd b) = [] \/ i + c <= reach b).
Lemma closed_refilled i e c : closed (refilled i e c).
Proof.
  split.
  - intros b t f (W & C & S & I & H). destruct (shift_spec b t f W) as (CT & NB & LD & RD).
    pose proof CT as CT0. destruct CT as (W' & C' & _). split; [eapply cut_wf; eauto|]. split; [rewrite <- C; eapply cut_cap; eauto|].
    split; [rewrite RD; exact S|]. pose proof (cut_total _ _ _ _ CT0) as HT. rewrite !stream_length in HT by (eauto using cut_wf). rewrite RD in HT.
    split; [lia|]. unfold reach in *. rewrite RD. destruct H as [H|[H|H]]; [left; lia|right; left; exact H|right; right; lia].
  - intros b (W & C & S & I & H). destruct (read_more b) as [b' r] eqn:E. pose proof (read_more_spec b b' r W E) as (CT & HN & _ & HR). cbn [fst].
    split; [eapply cut_wf; eauto|]. split; [rewrite <- C; eapply cut_cap; eauto|]. pose proof (proj2 closed_greedy b S) as HS. rewrite E in HS.
    split; [exact HS|]. split; [lia|]. unfold read_more, reader_read in E. rewrite S in E. injection E as <- <-. unfold reach in *. cbn [n_shifted_out n_bytes rd src] in *.
    right. unfold cap in C. rewrite firstn_length. destruct (Nat.le_gt_cases (len (src (rd b))) (len (buf b) - n_bytes b)) as [L|L]; [left|right].
    + apply skipn_all2. exact L.
    + unfold wf in W. lia.
Qed.
Lemma refilled_feeding i e c s p t s' r : skip_spaces_feeding s p t = Done (s', r) ->
  refilled i e c (if 0 <? p then shift_buffer (bf s) 0 p else bf s) -> refilled i e c (bf s').
Proof.
  intros E H. set (b1 := if 0 <? p then shift_buffer (bf s) 0 p else bf s) in *.
  pose proof (closed_feeding _ (closed_refilled i e c) (with_bf s b1) 0 t) as HF. unfold skip_spaces_feeding in *. fold b1 in E. cbn [Nat.ltb Nat.leb bf with_bf] in HF.
  destruct (skip_spaces b1 0) as [[b2 [[]|x]]| |] eqn:E2; try discriminate.
  2:{ injection E as <- <-. apply (HF _ _ eq_refl H). }
  destruct t as [t|].
  - destruct (if n_bytes b2 =? 0 then read_more b2 else (b2, Ok 0)) as [b3 [n|x]].
    2:{ injection E as <- <-. apply (HF _ _ eq_refl H). }
    assert (Hfin : forall b, Done (if is_changed (bf s) b then create_new_jiter (with_bf s b) else with_bf s b, Ok tt) = Done (s', r) ->
      (forall s0 (r0 : result unit rerror), Done (if is_changed b1 b then create_new_jiter (with_bf (with_bf s b1) b) else with_bf (with_bf s b1) b, Ok tt) = Done (s0, r0) ->
         refilled i e c b1 -> refilled i e c (bf s0)) -> refilled i e c (bf s')).
    { intros b E3 H3. injection E3 as <- <-. specialize (H3 _ _ eq_refl H). destruct (is_changed (bf s) b), (is_changed b1 b); exact H3. }
    destruct (firstn (n_bytes b3) (buf b3)) as [|y l]; [eapply Hfin; eassumption|]. destruct (N.eqb y t); [|eapply Hfin; eassumption].
    destruct (skip_spaces b3 1) as [[b4 [[]|x]]| |]; try discriminate; [eapply Hfin; eassumption|]. injection E as <- <-. apply (HF _ _ eq_refl H).
  - injection E as <- <-. specialize (HF _ _ eq_refl H). destruct (is_changed (bf s) b2), (is_changed b1 b2); exact HF.
Qed.
Lemma loop_refilled {A} (f : jop A) token s s' r er a : valid s -> sched (rd (bf s)) = [] -> f (jview s) = (Err er, a) ->
  loop_until_success f token false s = Done (s', r) ->
  refilled (current_index s) (reach (bf s)) (rcap s) (bf s').
Proof.
  intros (W & HL & HI) HS Ef. unfold loop_until_success, jcall. rewrite Ef. destruct er as [ty o]. intros E.
  set (s1 := mkRj (bf s) (jlen s) (jidx s + a)) in E.
  assert (H0 : refilled (current_index s) (reach (bf s)) (rcap s) (if 0 <? jidx s then shift_buffer (bf s1) 0 (jidx s) else bf s1)).
  { cbn [bf s1]. unfold current_index. destruct (Nat.ltb_spec 0 (jidx s)) as [H|H].
    - destruct (shift_front (bf s) (jidx s) W HI) as (CT & NB & LD & RD & _).
      assert (HN : n_shifted_out (shift_buffer (bf s) 0 (jidx s)) = n_shifted_out (bf s) + jidx s).
      { pose proof (cut_total _ _ _ _ CT) as HT. rewrite !stream_length in HT by (eauto using cut_wf). rewrite RD in HT. lia. }
      split; [eapply cut_wf; eauto|]. split; [eapply cut_cap; eauto|]. split; [rewrite RD; exact HS|]. split; [lia|]. left. unfold reach. lia.
    - split; [exact W|]. split; [reflexivity|]. split; [exact HS|]. split; [lia|]. left. reflexivity. }
  destruct (skip_spaces_feeding s1 (jidx s) token) as [[s2 [[]|e]]| |] eqn:E2; try discriminate;
    apply (refilled_feeding _ _ _ _ _ _ _ _ E2) in H0; auto.
  - apply (closed_retry _ (closed_refilled _ _ _) _ _ _ _ _ _ E H0).
  - injection E as <- _. exact H0.
Qed.

(** The parser has gone over [n] bytes of white space: either it needed not read, or the value is not the first byte of the
    buffer, or the buffer holds all but [n] of the bytes it can hold, or all there is. *)
Lemma peek_refilled s s' x n l : valid s -> sched (rd (bf s)) = [] -> peek s = Done (s', Ok x) -> valid s' -> total s' = total s ->
  len (rest s) = n + len (rest s') -> rest s' = x :: l ->
  (forall er a, j_peek (jview s) = (Err er, a) -> len (jview s) <= n) ->
  (exists a, j_peek (jview s) = (Ok x, a) /\ bf s' = bf s /\ jidx s' = jidx s + a) \/
  (rcap s <= n_bytes (bf s') + n \/ src (rd (bf s')) = [] \/ n_bytes (bf s') = 0 \/ 0 < jidx s').
Proof.
  intros V HS Ep V' HT HL HR HJ. destruct (j_peek (jview s)) as [[y|er] a] eqn:Ef.
  - left. exists a. unfold peek, loop_until_success, jcall in Ep. rewrite Ef in Ep. cbn in Ep. injection Ep as <- <-. auto.
  - right. destruct (loop_refilled j_peek None s s' _ _ _ V HS Ef Ep) as (W & C & _ & I & H).
    pose proof (index_rest s V) as I1. pose proof (index_rest s' V') as I2. rewrite HT, <- I1 in I2. unfold current_index in *.
    unfold reach in H. destruct H as [H|[H|H]]; [|right; left; exact H|]; (destruct (jidx s') as [|j]; [|right; right; right; lia]).
    + right. right. left. specialize (HJ _ _ eq_refl). rewrite (jview_length s V) in HJ. destruct V as (_ & _ & V). lia.
    + left. lia.
Qed.
