(** Corollaries in the shape of the property statements. *)
From Verif Require Import Base Buffer BufferSpec BufferProofs Jiter JiterProofs RJiter RJiterSpec RJiterProofs
  RJiterOpProofs RJiterLookProofs RJiterLongProofs RJiterIndexProofs.

Lemma lookahead_keeps s s' d : valid s ->
  (exists pred, lookahead_while pred s = Done (s', Ok d)) \/ (exists n, lookahead_n n s = Done (s', Ok d)) ->
  valid s' /\ rest s' = rest s /\ current_index s' = current_index s /\ exists l, rest s = d ++ l.
Proof.
  intros V H.
  assert (HH : keeps s s' /\ exists l, rest s = d ++ l).
  { destruct H as [(pred & E)|(n & E)].
    - destruct (lookahead_while_spec pred s V) as (s2 & r & E2 & P). rewrite E in E2. injection E2 as <- <-.
      destruct P as ((l & Hl & _) & K). split; [exact K|]. exists l. exact Hl.
    - destruct (lookahead_n_spec n s V) as (s2 & r & E2 & P). rewrite E in E2. injection E2 as <- <-.
      destruct P as (-> & K). split; [exact K|]. exists (skipn n (rest s)). symmetry. apply firstn_skipn. }
  destruct HH as ((V' & R' & T' & _) & Hl). split; [exact V'|]. split; [exact R'|]. split; [|exact Hl].
  pose proof (index_rest s V). pose proof (index_rest s' V'). rewrite R', T' in *. lia.
Qed.

Lemma number_complete s v l' :
  valid s -> 2 <= rcap s -> rquiet s = true -> no_form_feed None (rest s) ->
  parsed j_next_number_bytes (rest s) v l' ->
  len (strip None (rest s)) < rcap s + len l' ->
  0 < jidx s \/ l' <> [] ->
  exists s', next_number_bytes s = Done (s', Ok v) /\ valid s' /\ rest s' = l' /\ total s' = total s /\ rcap s' = rcap s /\ rquiet s' = true.
Proof.
  intros V Hc Hq Hff Hp Hfit Hk. apply (op_complete Number false None j_next_number_bytes next_number_bytes s v l'); auto.
  - constructor.
  - discriminate.
  - tauto.
Qed.

Lemma all_end s : valid s -> 2 <= rcap s ->
  (forall A k known token (f : jop A) op, method k known token f op -> exists s' r, op s = Done (s', r)) /\
  (forall pred, exists s' r, lookahead_while pred s = Done (s', r)) /\
  (forall n, exists s' r, lookahead_n n s = Done (s', r)) /\
  (forall n, exists s' r, skip_n_bytes n s = Done (s', r)) /\
  (forall t, exists s' r, known_skip_token t s = Done (s', r)) /\
  (exists s' r, finish s = Done (s', r)) /\
  (forall w, write_long_bytes s w <> Diverge /\ (8 <= rcap s -> write_long_bytes s w <> Panic)) /\
  (forall w, write_long_str s w <> Diverge /\ (8 <= rcap s -> write_long_str s w <> Panic)).
Proof.
  intros V Hc. split; [intros; eapply methods_end; eauto|].
  split; [intros pred; destruct (lookahead_while_spec pred s V) as (s' & r & E & _); eauto|].
  split; [intros n; destruct (lookahead_n_spec n s V) as (s' & r & E & _); eauto|].
  split; [intros n; destruct (skip_n_bytes_spec n s V ltac:(lia)) as (s' & r & E & _); eauto|].
  split; [intros t; apply known_skip_token_ends; [exact V|lia]|].
  split; [destruct (finish_spec s V ltac:(lia)) as (s' & r & E & _); eauto|].
  split; intros w; destruct (write_long_any s w V) as [H1 H2].
  - destruct H1 as [(Hs & E)|(s' & w' & r & E & _)]; rewrite E; (split; [discriminate|]); [intros; lia|discriminate].
  - destruct H2 as [(Hs & E)|(s' & w' & r & E & _)]; rewrite E; (split; [discriminate|]); [intros; lia|discriminate].
Qed.

Lemma tiny_buffers : exists s0 s1 b,
  valid s0 /\ rcap s0 = 0 /\ (forall fuel, skip_spaces_loop fuel (bf s0) 0 = Diverge) /\ peek s0 = Diverge /\
  (forall fuel, finish_loop fuel s0 = Diverge) /\
  valid s1 /\ rcap s1 = 1 /\ array_step s1 = Diverge /\
  b = bf s1 /\ (forall fuel, skip_spaces_loop fuel b 1 = Diverge).
Proof.
  exists (rj_new (mkReader (bs "1") []) []), (mkRj (mkBuf [COMMA] 1 0 0 0 (mkReader (bs "1") [])) 1 0).
  eexists. split; [apply valid_new|]. split; [reflexivity|].
  split; [intros fuel; apply skip_spaces_diverges; [unfold wf; vm_compute; auto|reflexivity|vm_compute; auto]|]. split; [vm_compute; reflexivity|].
  split; [intros fuel; apply finish_endless; [reflexivity|apply valid_new]|].
  split; [unfold valid, wf; cbn; auto|]. split; [reflexivity|]. split; [vm_compute; reflexivity|].
  split; [reflexivity|]. intros fuel. apply skip_spaces_diverges; [unfold wf; vm_compute; auto|reflexivity|vm_compute; auto].
Qed.
