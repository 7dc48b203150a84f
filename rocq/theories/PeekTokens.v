(** Proofs about [peek_skipping_tokens] (rjiter/README.md). *)
From Verif Require Import Base U8Pool Buffer BufferSpec Jiter JiterProofs RJiter RJiterSpec RJiterProofs RJiterOpProofs RJiterLookProofs RJiterInvProofs
  Scan ScanSpec ScanTokens ScanParser Readme ReadmeSpec.

Definition good (c t : nat) (s : rj) : Prop := valid s /\ rcap s = c /\ rquiet s = true /\ total s = t.
Lemma peek_here c t s w x l : 2 <= c -> good c t s -> rest s = w ++ x :: l -> spaces w -> solid x ->
  exists s', peek s = Done (s', Ok x) /\ good c t s' /\ rest s' = x :: l.
Proof.
  intros Hc (V & C & Q & T) HR Hw Hx.
  destruct (op_complete _ _ _ _ _ s x (x :: l) m_peek) as (s' & H); rewrite ?HR; auto; try lia.
  - intros H; discriminate.
  - apply nff_none; auto.
  - apply at_peek; auto.
  - cbn [strip]. rewrite aw_spaces by auto. lia.
  - exists s'. unfold good. intuition congruence.
Qed.

Definition attempts (again : rj -> outcome (rj * result byte rerror)) (r : result byte rerror) : list bytes -> rj -> outcome (rj * result byte rerror) :=
  fix attempt (l : list bytes) (s : rj) : outcome (rj * result byte rerror) :=
    match l with
    | [] => Done (s, r)
    | token :: l =>
        do (s, found) <- known_skip_token token s;
        match found with
        | Ok _ => again s
        | Err _ => attempt l s
        end
    end.
Lemma peek_skipping_step fuel tokens s : peek_skipping_tokens (S fuel) tokens s = do (s, r) <- peek s; attempts (peek_skipping_tokens fuel tokens) r tokens s.
Proof. reflexivity. Qed.
Lemma attempts_spec c t tokens s : 2 <= c -> good c t s -> Forall (fun k => len k <= c) tokens ->
  exists s', good c t s' /\
    match first_token tokens (rest s) with
    | Some k => rest s = k ++ rest s' /\ forall again r, attempts again r tokens s = again s'
    | None => rest s' = rest s /\ forall again r, attempts again r tokens s = Done (s', r)
    end.
Proof.
  intros Hc. revert s. induction tokens as [|k ks IH]; intros s G HT.
  - exists s. split; [exact G|]. split; reflexivity.
  - apply Forall_cons_iff in HT as (Hk & HT). cbn [first_token].
    pose proof G as (V & C & Q & T).
    destruct (known_skip_token_spec k s V ltac:(lia) ltac:(lia) Q) as (s1 & r1 & E & V1 & T1 & C1 & Q1 & [(-> & H)|(-> & H & K)]).
    + assert (HS : starts_with k (rest s) = true).
      { unfold starts_with. rewrite H, firstn_app, Nat.sub_diag, firstn_all. cbn [firstn]. rewrite app_nil_r. apply beq_eq. reflexivity. }
      rewrite HS. exists s1. split; [unfold good; intuition congruence|]. split; [exact H|]. intros again r. cbn [attempts]. rewrite E. reflexivity.
    + assert (HS : starts_with k (rest s) = false).
      { unfold starts_with. destruct (beq (firstn (len k) (rest s)) k) eqn:Eb; [|reflexivity]. apply beq_eq in Eb. exfalso.
        apply (K (skipn (len k) (rest s))). rewrite <- Eb at 1. symmetry. apply firstn_skipn. }
      rewrite HS. destruct (IH s1) as (s2 & G2 & H2); [unfold good; intuition congruence|exact HT|]. exists s2. split; [exact G2|].
      rewrite <- H in *. destruct (first_token ks (rest s1)) as [q|]; destruct H2 as (H2 & H3); (split; [exact H2|]); intros again r;
        (change (attempts again r (k :: ks) s) with (do (s', found) <- known_skip_token k s; match found with Ok _ => again s' | Err _ => attempts again r ks s' end));
        rewrite E; cbn [obind]; apply H3.
Qed.

Lemma nothing_fits tokens : Forall (fun k : bytes => k <> []) tokens -> first_token tokens [] = None.
Proof.
  induction 1 as [|k ks Hk HT IH]; [reflexivity|]. cbn [first_token]. unfold starts_with. rewrite firstn_nil. destruct k; [contradiction|]. exact IH.
Qed.

Lemma behind_tokens tokens s found :
  valid s -> rquiet s = true -> 2 <= rcap s -> Forall (fun k => k <> [] /\ len k <= rcap s) tokens -> token_run tokens (rest s) found ->
  exists s' r, eventually (fun fuel => peek_skipping_tokens fuel tokens s) (Done (s', r)) /\
    valid s' /\ rcap s' = rcap s /\ rquiet s' = true /\ total s' = total s /\
    match found with
    | Some (x, l) => r = Ok x /\ rest s' = x :: l
    | None => (exists e, r = Err e /\ err_type e = JsonError EofWhileParsingValue) /\ rest s' = []
    end.
Proof.
  intros V Q Hc HT HR.
  assert (HL : Forall (fun k => len k <= rcap s) tokens) by (eapply Forall_impl; [|exact HT]; intros k []; assumption).
  assert (HN : Forall (fun k => k <> []) tokens) by (eapply Forall_impl; [|exact HT]; intros k []; assumption). clear HT.
  assert (G : good (rcap s) (total s) s) by (unfold good; auto).
  set (c := rcap s) in *. set (t := total s) in *. clearbody c t. clear V Q.
  remember (rest s) as l0 eqn:El. revert s El G. induction HR as [w Hw|w x l Hw Hx Hf|w x k r found Hw Hx Hf HR IH]; intros s El G.
  - pose proof G as (V & C & Q & T). destruct (peek_blank s V ltac:(lia)) as (s1 & e & E & H).
    { rewrite <- El. clear -Hw. induction Hw as [|x w Hx Hw IH]; [reflexivity|]. unfold skip_jw in *. cbn [run_length]. rewrite (space_json _ Hx). exact IH. }
    destruct H as [(_ & H)|(H1 & H2 & H3 & H4 & H5 & H6)]; [congruence|].
    destruct (attempts_spec c t tokens s1 Hc) as (s2 & G2 & H); [unfold good; intuition congruence|exact HL|].
    rewrite H3, (nothing_fits _ HN) in H. destruct H as (H & K). exists s2, (Err e). unfold good in G2.
    split; [|intuition eauto]. exists 1. intros [|fuel] Hfu; [lia|]. rewrite peek_skipping_step, E. cbn [obind]. apply K.
  - destruct (peek_here c t s w x l Hc G (eq_sym El) Hw Hx) as (s1 & E & G1 & R1).
    destruct (attempts_spec c t tokens s1 Hc G1 HL) as (s2 & G2 & H). rewrite R1, Hf in H. destruct H as (H & K).
    exists s2, (Ok x). unfold good in G2. split; [|intuition eauto]. exists 1. intros [|fuel] Hfu; [lia|]. rewrite peek_skipping_step, E. cbn [obind]. apply K.
  - destruct (peek_here c t s w x (k ++ r) Hc G (eq_sym El) Hw Hx) as (s1 & E & G1 & R1).
    destruct (attempts_spec c t tokens s1 Hc G1 HL) as (s2 & G2 & H). rewrite R1 in H. cbn [app] in Hf. rewrite Hf in H. destruct H as (H & K).
    injection H as H. apply app_inv_head in H. destruct (IH s2 H G2) as (s3 & res & (n & Hn) & H3). exists s3, res. split; [|exact H3].
    exists (S n). intros [|fuel] Hfu; [lia|]. rewrite peek_skipping_step, E. cbn [obind]. rewrite K. apply Hn. lia.
Qed.

(** An empty token. *)
Lemma empty_token tokens s w x l : valid s -> rquiet s = true -> 2 <= rcap s -> Forall (fun k => len k <= rcap s) tokens ->
  rest s = w ++ x :: l -> spaces w -> solid x -> first_token tokens (x :: l) = Some [] ->
  forall fuel, peek_skipping_tokens fuel tokens s = Diverge.
Proof.
  intros V Q Hc HL HR Hw Hx Hf fuel. assert (G : good (rcap s) (total s) s) by (unfold good; auto).
  set (c := rcap s) in *. set (t := total s) in *. clearbody c t. clear V Q. revert s w G HR Hw.
  induction fuel as [|fuel IH]; intros s w G HR Hw; [reflexivity|]. rewrite peek_skipping_step.
  destruct (peek_here c t s w x l Hc G HR Hw Hx) as (s1 & E & G1 & R1). rewrite E. cbn [obind].
  destruct (attempts_spec c t tokens s1 Hc G1 HL) as (s2 & G2 & H). rewrite R1, Hf in H. destruct H as (H & K). rewrite K.
  apply (IH s2 []); [exact G2| |constructor]. exact (eq_sym H).
Qed.
