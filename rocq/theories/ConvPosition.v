(** Where a conversion has failed: not behind the end of the input, unless the parser says so. *)
From Verif Require Import Base U8Pool Buffer BufferSpec BufferProofs Jiter JiterProofs RJiter RJiterSpec RJiterProofs RJiterOpProofs RJiterLookProofs RJiterLongProofs
  RJiterIndexProofs RJiterInvProofs ScanParser RJiterEndProofs Scan Conv NormalToDdb DdbToNormal Cli ErrorSpec Messages MessageSpec MessageProofs ConvErrors.

Section Input.
Context (T c : nat) (Hc : 2 <= c).
Definition whole (b : buffer) : Prop := wf b /\ n_shifted_out b + len (stream b) = T /\ cap b = c /\ quiet b = true.
Lemma closed_whole : closed whole.
Proof.
  split.
  - intros b t f (W & Ht & Hk & Hq). destruct (shift_spec b t f W) as (C & _ & _ & R).
    split; [apply (cut_wf _ _ _ _ C)|]. split; [rewrite (cut_total _ _ _ _ C); exact Ht|]. split; [rewrite (cut_cap _ _ _ _ C); exact Hk|].
    rewrite (quiet_rd b) by exact R. exact Hq.
  - intros b (W & Ht & Hk & Hq). destruct (read_more b) as [b' r] eqn:E. cbn [fst]. destruct (read_more_spec _ _ _ W E) as (C & _ & Q & _).
    split; [apply (cut_wf _ _ _ _ C)|]. split; [rewrite (cut_total _ _ _ _ C); exact Ht|]. split; [rewrite (cut_cap _ _ _ _ C); exact Hk|auto].
Qed.
Definition inside (r : rj) : Prop := valid r /\ whole (bf r).
Definition within (r : rj) : Prop := current_index r <= T.
Lemma whole_within r : whole (bf r) -> jidx r <= n_bytes (bf r) -> within r.
Proof. intros (W & Ht & _) Hj. unfold within, current_index. rewrite (stream_length _ W) in Ht. lia. Qed.
Lemma inside_within r : inside r -> within r.
Proof. intros [(_ & _ & Hj) H]. exact (whole_within r H Hj). Qed.
Lemma method_inside {A} k known token (f : jop A) op r r' v : method k known token f op -> inside r -> op r = Done (r', Ok v) -> inside r'.
Proof.
  intros M [V Hw] E. pose proof Hw as (_ & _ & Hk & Hq).
  split; [|exact (closed_method _ closed_whole _ _ _ _ _ _ _ _ M E Hw)].
  destruct (loop_progress k known token f op r r' v M V) as (V' & _); [unfold rcap; lia|exact E|exact V'].
Qed.
Lemma method_failed_inside {A} k known token (f : jop A) op r r' e : method k known token f op -> reined f -> inside r -> op r = Done (r', Err e) -> inside r'.
Proof.
  intros M Hr [V Hw] E. pose proof Hw as (_ & _ & Hk & Hq).
  split; [|exact (closed_method _ closed_whole _ _ _ _ _ _ _ _ M E Hw)].
  destruct (loop_failed k known token f op r r' e M Hr V) as [(_ & Q & _)|(V' & _)]; [unfold rcap; lia|exact E|unfold rquiet in Q; congruence|exact V'].
Qed.
Lemma simple_inside : forall A (op : rj -> outcome (rj * result A rerror)) r r' v, simple op -> inside r -> op r = Done (r', v) -> inside r'.
Proof.
  assert (H : forall A k known token (f : jop A) op r r' v, method k known token f op -> reined f -> inside r -> op r = Done (r', v) -> inside r').
  { intros A k known token f op r r' v M Hr Hi E. destruct v as [v|e]; [exact (method_inside _ _ _ _ _ _ _ _ M Hi E)|exact (method_failed_inside _ _ _ _ _ _ _ _ M Hr Hi E)]. }
  intros A op r r' v S. revert r r' v. destruct S as [|p| |]; intros r r' v.
  - apply (H _ _ _ _ _ _ _ _ _ m_peek). apply peek_reined.
  - apply (H _ _ _ _ _ _ _ _ _ (m_known_bool p)). apply inert_reined, known_bool_inert.
  - apply (H _ _ _ _ _ _ _ _ _ m_known_null). apply inert_reined, ident_inert.
  - apply (H _ _ _ _ _ _ _ _ _ m_next_number_bytes). apply number_reined.
Qed.
Lemma struct_inside : forall A (op : rj -> outcome (rj * result A rerror)) r r' v, structural op -> inside r -> op r = Done (r', Ok v) -> inside r'.
Proof.
  intros A op r r' v S. revert r r' v. destruct S; intros r r' v.
  - apply (method_inside _ _ _ _ _ _ _ _ m_known_array).
  - apply (method_inside _ _ _ _ _ _ _ _ m_array_step).
  - apply (method_inside _ _ _ _ _ _ _ _ m_next_object_bytes).
  - apply (method_inside _ _ _ _ _ _ _ _ m_next_key_bytes).
  - intros [V Hw] E. pose proof Hw as (_ & _ & Hk & _). split; [|exact (closed_finish _ closed_whole _ _ _ _ E Hw)].
    destruct (finish_spec r V) as (s & q & E' & P); [unfold rcap; lia|]. rewrite E in E'. injection E' as <- <-. destruct v. apply P.
Qed.
Lemma long_placed parser segment : bounded parser -> inert parser ->
  forall fuel s w s' w' r, valid s -> handle_long fuel parser segment s w = Done (s', w', r) -> jidx s' <= n_bytes (bf s').
Proof.
  intros Hbo Hin. induction fuel as [|fuel IH]; intros s w s' w' r V E; [discriminate|].
  cbn [handle_long] in E. unfold jcall in E. pose proof (jview_length s V) as Hvl. pose proof V as (W & J & I').
  destruct (parser (jview s)) as [[v|[er off]] a] eqn:Ep.
  { pose proof (Hbo _ _ _ Ep) as Ha. destruct (write_all w v) as [w2 [u|e]]; injection E as <- _ _; cbn [bf jidx]; lia. }
  apply Hin in Ep as Ha. subst a. replace (jidx s + 0) with (jidx s) in E by lia. cbn [fst] in E.
  destruct (can_retry er); [|injection E as <- _ _; exact I'].
  set (s1 := mkRj (bf s) (jlen s) (jidx s)) in E.
  set (s2 := if 0 <? jidx s1 then create_new_jiter (with_bf s1 (shift_buffer (bf s1) 0 (jidx s1))) else s1) in E.
  assert (H2 : wf (bf s2) /\ jidx s2 = 0).
  { unfold s2. cbn [s1 jidx bf]. destruct (Nat.ltb_spec 0 (jidx s)) as [Hj|Hj]; [|cbn [s1 bf jidx]; split; [exact W|lia]].
    destruct (shift_front (bf s) (jidx s) W I') as (C & _). split; [apply (cut_wf _ _ _ _ C)|reflexivity]. }
  clearbody s2. destruct H2 as [W2 J2].
  assert (Hread : forall s3 w3, wf (bf s3) -> jidx s3 = 0 ->
    match read_more (bf s3) with
      | (b, Err e) => Done (with_bf s3 b, w3, Err e)
      | (b, Ok 0) => Done (with_bf s3 b, w3, Err (from_jiter_error (current_index (with_bf s3 b)) (er, jidx s + off)))
      | (b, Ok _) => handle_long fuel parser segment (create_new_jiter (with_bf s3 b)) w3
      end = Done (s', w', r) -> jidx s' <= n_bytes (bf s')).
  { intros s3 w3 W3 J3 X. destruct (read_more (bf s3)) as [b [[|k]|e]] eqn:Er; destruct (read_more_spec _ _ _ W3 Er) as (C & _).
    - injection X as <- _ _. cbn [with_bf jidx]. lia.
    - apply IH in X; [exact X|]. split; [apply (cut_wf _ _ _ _ C)|]. cbn [create_new_jiter with_bf bf jlen jidx]. split; [reflexivity|lia].
    - injection X as <- _ _. cbn [with_bf jidx]. lia. }
  destruct (find_leading (buf (bf s2)) (raw_segment_end (bf s2))) as [seg|] eqn:Eg; [|discriminate].
  destruct (1 <? seg); [|exact (Hread _ _ W2 J2 E)].
  destruct (segment (buf (bf s2)) seg) as [x|er2]; [|injection E as <- _ _; lia].
  destruct (write_all w x) as [w2 [u|e]]; [|injection E as <- _ _; lia].
  destruct (shift_spec (bf s2) 1 seg W2) as (C & _).
  apply Hread in E; [exact E|apply (cut_wf _ _ _ _ C)|exact J2].
Qed.
Lemma long_inside : forall r w r' w' v, inside r -> write_long_bytes r w = Done (r', w', v) -> match v with Ok _ => inside r' | Err _ => within r' end.
Proof.
  intros r w r' w' v [V Hw] E. unfold write_long_bytes in E.
  pose proof (closed_long _ closed_whole _ _ _ _ _ _ _ _ E Hw) as Hw'.
  destruct v as [[]|e].
  - split; [|exact Hw']. apply long_progress in E; [apply E|apply known_bytes_bounded|apply known_bytes_inert|apply known_bytes_one|exact V].
  - apply long_placed in E; [exact (whole_within _ Hw' E)|apply known_bytes_bounded|apply known_bytes_inert|exact V].
Qed.
End Input.

Lemma new_inside r rb : 2 <= len rb -> quiet (buffer_new r rb) = true -> inside (len (src r)) (len rb) (rj_new r rb).
Proof. intros H Q. unfold inside, valid, whole, wf, rj_new, buffer_new, stream, data, cap. cbn [bf jlen jidx n_bytes buf n_shifted_out rd firstn app]. repeat split; try lia. exact Q. Qed.
Definition early (e : conversion_error) (p n : nat) : Prop := ~ match e with CScan (RJiterError _) => True | _ => False end -> p <= n.
Lemma n2d_early fuel rd w rb xb pretty wrapper w' e p : 2 <= len rb -> quiet (buffer_new rd rb) = true ->
  convert_normal_to_ddb fuel rd w rb xb pretty wrapper = Done (w', Err (e, p)) -> early e p (len (src rd)).
Proof.
  intros Hb Hq. unfold convert_normal_to_ddb. intros E.
  destruct (convert (n2d_callbacks wrapper) (fun c => c) 34 fuel rd rb xb (conv_new w pretty)) as [[c v]| |] eqn:E1; try discriminate.
  cbn [obind] in E. injection E as _ ->.
  set (K := inside (len (src rd)) (len rb)). set (Kw := within (len (src rd))).
  assert (H1 : forall r, K r -> Kw r) by (intros r; exact (inside_within (len (src rd)) (len rb) Hb r)).
  pose proof (simple_inside (len (src rd)) (len rb) Hb) as H2. pose proof (struct_inside (len (src rd)) (len rb) Hb) as H3.
  pose proof (long_inside (len (src rd)) (len rb) Hb) as H4. fold K in H2, H3. fold K Kw in H4.
  destruct (convert_errors K Kw H1 H2 H3 H4 (n2d_callbacks wrapper) (fun c => c)
    (n2d_begin K Kw H1 H2 H4 wrapper) (n2d_end K Kw H1 wrapper)
    34%N fuel rd rb xb (conv_new w pretty) _ _ _ (new_inside rd rb Hb Hq) eq_refl E1) as [(m & -> & ->)|[(re & -> & _)|(r & Hr & -> & H)]].
  - intros _. lia.
  - intros N. destruct (N I).
  - intros _. exact Hr.
Qed.
Lemma d2n_early fuel rd w rb xb pretty md w' e p : 2 <= len rb -> quiet (buffer_new rd rb) = true ->
  convert_ddb_to_normal fuel rd w rb xb pretty md = Done (w', Err (e, p)) -> early e p (len (src rd)).
Proof.
  intros Hb Hq. unfold convert_ddb_to_normal. intros E.
  destruct (convert (d2n_callbacks md) base 68 fuel rd rb xb (d2n_new w pretty)) as [[c v]| |] eqn:E1; try discriminate.
  cbn [obind] in E. injection E as _ ->.
  set (K := inside (len (src rd)) (len rb)). set (Kw := within (len (src rd))).
  assert (H1 : forall r, K r -> Kw r) by (intros r; exact (inside_within (len (src rd)) (len rb) Hb r)).
  pose proof (simple_inside (len (src rd)) (len rb) Hb) as H2. pose proof (struct_inside (len (src rd)) (len rb) Hb) as H3.
  pose proof (long_inside (len (src rd)) (len rb) Hb) as H4. fold K in H2, H3. fold K Kw in H4.
  destruct (convert_errors K Kw H1 H2 H3 H4 (d2n_callbacks md) base
    (d2n_begin K Kw H1 H2 H4 md) (d2n_end K Kw H1 md)
    68%N fuel rd rb xb (d2n_new w pretty) _ _ _ (new_inside rd rb Hb Hq) eq_refl E1) as [(m & -> & ->)|[(re & -> & _)|(r & Hr & -> & H)]].
  - intros _. lia.
  - intros N. destruct (N I).
  - intros _. exact Hr.
Qed.
