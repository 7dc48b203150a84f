(** Two parsers whose buffers differ only in cells that nothing has been written to yet. *)
From Verif Require Import Base Buffer BufferProofs Jiter JiterValue RJiter RJiterSpec.

Inductive mate (l : nat) : buffer -> buffer -> Prop :=
| mate_at c t1 t2 n so pl pc r : n <= len c -> l <= len c -> len t1 = len t2 -> Forall leading t1 -> Forall leading t2 ->
    mate l (mkBuf (c ++ t1) n so pl pc r) (mkBuf (c ++ t2) n so pl pc r).

Lemma mate_fields l b1 b2 : mate l b1 b2 ->
  n_bytes b2 = n_bytes b1 /\ n_shifted_out b2 = n_shifted_out b1 /\ pos_line b2 = pos_line b1 /\ pos_col b2 = pos_col b1 /\
  rd b2 = rd b1 /\ len (buf b2) = len (buf b1).
Proof.
  intros [c t1 t2 n so pl pc r H1 H2 H3 H4 H5]. cbn. rewrite !app_length, H3. repeat split; reflexivity.
Qed.
Lemma mate_firstn l b1 b2 k : mate l b1 b2 -> k <= n_bytes b1 \/ k <= l -> firstn k (buf b2) = firstn k (buf b1).
Proof.
  intros [c t1 t2 n so pl pc r H1 H2 H3 H4 H5] Hk. cbn [buf n_bytes] in *. rewrite !firstn_app_le by lia. reflexivity.
Qed.
Lemma mate_filled l b1 b2 : mate l b1 b2 -> firstn (n_bytes b2) (buf b2) = firstn (n_bytes b1) (buf b1).
Proof. intros H. destruct (mate_fields _ _ _ H) as (-> & _). apply (mate_firstn _ _ _ _ H). lia. Qed.
Lemma mate_new l b1 b2 : mate l b1 b2 -> mate (n_bytes b1) b1 b2.
Proof. intros [c t1 t2 n so pl pc r H1 H2 H3 H4 H5]. constructor; auto. Qed.

Lemma write_at_inside (c t d : bytes) p : p + len d <= len c -> write_at (c ++ t) p d = write_at c p d ++ t.
Proof.
  intros H. unfold write_at. rewrite firstn_app_le by lia. rewrite skipn_app.
  replace (p + len d - List.length c) with 0 by lia. rewrite skipn_O, <- !app_assoc. reflexivity.
Qed.
Lemma write_at_across (c t d : bytes) p : p <= len c -> len c <= p + len d ->
  write_at (c ++ t) p d = (firstn p c ++ d) ++ skipn (p + len d - len c) t.
Proof.
  intros H G. unfold write_at. rewrite firstn_app_le by lia. rewrite skipn_app, (skipn_all2 c) by lia.
  cbn [app]. rewrite <- app_assoc. reflexivity.
Qed.
Lemma leading_skipn n t : Forall leading t -> Forall leading (skipn n t).
Proof. intros H. apply Forall_forall. intros x Hx. rewrite Forall_forall in H. apply H. rewrite <- (firstn_skipn n t). apply in_or_app. auto. Qed.

Lemma mate_shift l b1 b2 t f : mate l b1 b2 -> mate l (shift_buffer b1 t f) (shift_buffer b2 t f).
Proof.
  intros [c t1 t2 n so pl pc r H1 H2 H3 H4 H5]. unfold shift_buffer. cbn [buf n_bytes pos_line pos_col n_shifted_out rd].
  assert (E : forall u, firstn (Nat.min f n - t) (skipn t (c ++ u)) = firstn (Nat.min f n - t) (skipn t c)).
  { intros u. destruct (Nat.le_gt_cases (Nat.min f n) t) as [G|G]; [replace (Nat.min f n - t) with 0 by lia; reflexivity|].
    rewrite skipn_app. replace (t - List.length c) with 0 by lia. rewrite skipn_O. apply firstn_app_le. rewrite skipn_length. lia. }
  rewrite !E. destruct (if t <? _ then _ else _) as [u v].
  destruct (Nat.ltb_spec t f) as [Hf|Hf]; [|constructor; assumption].
  destruct (Nat.ltb_spec t n) as [Hn|Hn]; [|constructor; assumption]. cbn [andb].
  destruct (Nat.ltb_spec f n) as [Hg|Hg]; [|constructor; auto; lia].
  assert (F : forall u, firstn (n - f) (skipn f (c ++ u)) = firstn (n - f) (skipn f c)).
  { intros w. rewrite skipn_app. replace (f - List.length c) with 0 by lia. rewrite skipn_O. apply firstn_app_le. rewrite skipn_length. lia. }
  rewrite !F. set (d := firstn (n - f) (skipn f c)).
  assert (Ld : len d = n - f) by (unfold d; rewrite firstn_length, skipn_length; lia).
  rewrite !write_at_inside by lia. assert (Lw : len (write_at c t d) = len c) by (apply write_at_length; lia).
  constructor; auto; lia.
Qed.
Lemma mate_read l b1 b2 : mate l b1 b2 ->
  exists c1 c2 r, read_more b1 = (c1, r) /\ read_more b2 = (c2, r) /\ mate l c1 c2.
Proof.
  intros H. destruct (mate_fields _ _ _ H) as (E1 & _ & _ & _ & E2 & E3). unfold read_more. rewrite E1, E2, E3. clear E1 E2 E3.
  destruct (reader_read (rd b1) (len (buf b1) - n_bytes b1)) as [[d|e] r'] eqn:E.
  - assert (L : len d <= len (buf b1) - n_bytes b1).
    { unfold reader_read in E. destruct (sched (rd b1)) as [|[k|k] s]; try discriminate; injection E as E _; rewrite <- E, firstn_length; lia. }
    clear E. destruct H as [c t1 t2 n so pl pc r H1 H2 H3 H4 H5]. cbn [buf n_bytes pos_line pos_col n_shifted_out rd] in *.
    rewrite app_length in L. eexists _, _, _. split; [reflexivity|]. split; [reflexivity|].
    destruct (Nat.le_gt_cases (n + len d) (len c)) as [G|G].
    + rewrite !write_at_inside by lia. assert (Lw : len (write_at c n d) = len c) by (apply write_at_length; lia).
      constructor; auto; lia.
    + rewrite !write_at_across by lia.
      assert (Lf : len (firstn n c ++ d) = n + len d) by (rewrite app_length, firstn_length; lia).
      constructor; try (apply leading_skipn; assumption); rewrite ?Lf, ?skipn_length; lia.
  - destruct H as [c t1 t2 n so pl pc r H1 H2 H3 H4 H5]. cbn [buf n_bytes pos_line pos_col n_shifted_out rd] in *.
    eexists _, _, _. split; [reflexivity|]. split; [reflexivity|]. constructor; assumption.
Qed.
Ltac fields H := let A := fresh "EN" in let B := fresh "ES" in let C := fresh "EL" in let D := fresh "EC" in let E := fresh "ER" in let F := fresh "EB" in
  destruct (mate_fields _ _ _ H) as (A & B & C & D & E & F).

(** Equal results and states that are still mates. *)
Definition both {X} (R : X -> X -> Prop) (x1 x2 : outcome X) : Prop :=
  match x1, x2 with
  | Done a, Done b => R a b
  | Panic, Panic | Diverge, Diverge => True
  | _, _ => False
  end.
Lemma both_bind {X Y} (R : X -> X -> Prop) (Q : Y -> Y -> Prop) x1 x2 f1 f2 :
  both R x1 x2 -> (forall a b, R a b -> both Q (f1 a) (f2 b)) -> both Q (obind x1 f1) (obind x2 f2).
Proof. destruct x1, x2; cbn [both obind]; intros H G; try contradiction; try exact Logic.I. apply G. exact H. Qed.
Definition bmate {X} l (p1 p2 : buffer * X) : Prop := mate l (fst p1) (fst p2) /\ snd p1 = snd p2.
Lemma bmate_done {X} l b1 b2 (v : X) : mate l b1 b2 -> both (bmate l) (Done (b1, v)) (Done (b2, v)).
Proof. intros H. split; [exact H|reflexivity]. Qed.

Lemma mate_collect_while l fuel : forall b1 b2 pred p a i c sh, mate l b1 b2 ->
  both (bmate l) (collect_while_loop fuel b1 pred p a i c sh) (collect_while_loop fuel b2 pred p a i c sh).
Proof.
  induction fuel as [|fuel IH]; intros b1 b2 pred p a i c sh H; [exact Logic.I|]. cbn [collect_while_loop].
  rewrite (mate_filled _ _ _ H). fields H. rewrite EN, ES, EB.
  assert (G : forall c1 c2 i c sh, mate l c1 c2 ->
    both (bmate l) (match read_more c1 with
         | (b', Err e) => Done (b', Err e)
         | (b', Ok 0) => Done (b', Ok (c, n_bytes b'))
         | (b', Ok _) => collect_while_loop fuel b' pred p a i c sh
         end)
        (match read_more c2 with
         | (b', Err e) => Done (b', Err e)
         | (b', Ok 0) => Done (b', Ok (c, n_bytes b'))
         | (b', Ok _) => collect_while_loop fuel b' pred p a i c sh
         end)).
  { clear - IH. intros c1 c2 i c sh H. destruct (mate_read _ _ _ H) as (d1 & d2 & r & -> & -> & Hd).
    destruct r as [[|n]|er]; [|apply IH; exact Hd|apply bmate_done; exact Hd].
    fields Hd. rewrite EN. apply bmate_done. exact Hd. }
  destruct (_ <? _); [apply bmate_done; exact H|].
  destruct (_ <=? _); [|apply G; exact H].
  destruct (_ || _); [apply bmate_done; exact H|]. apply G. apply mate_shift. exact H.
Qed.
Lemma mate_collect_count l fuel : forall b1 b2 n a t c sh, mate l b1 b2 ->
  both (bmate l) (collect_count_loop fuel b1 n a t c sh) (collect_count_loop fuel b2 n a t c sh).
Proof.
  induction fuel as [|fuel IH]; intros b1 b2 n a t c sh H; [exact Logic.I|]. cbn [collect_count_loop].
  fields H. rewrite EN, ES, EB.
  assert (G : forall c1 c2 t c sh, mate l c1 c2 ->
    both (bmate l) (match read_more c1 with
         | (b', Err e) => Done (b', Err e)
         | (b', Ok 0) => Done (b', Ok (c, n_bytes b'))
         | (b', Ok _) => collect_count_loop fuel b' n a t c sh
         end)
        (match read_more c2 with
         | (b', Err e) => Done (b', Err e)
         | (b', Ok 0) => Done (b', Ok (c, n_bytes b'))
         | (b', Ok _) => collect_count_loop fuel b' n a t c sh
         end)).
  { clear - IH. intros c1 c2 t c sh H. destruct (mate_read _ _ _ H) as (d1 & d2 & r & -> & -> & Hd).
    destruct r as [[|m]|er]; [|apply IH; exact Hd|apply bmate_done; exact Hd].
    fields Hd. rewrite EN. apply bmate_done. exact Hd. }
  destruct (_ <=? _); [apply bmate_done; exact H|].
  destruct (_ <=? _); [|apply G; exact H].
  destruct (_ || _); [apply bmate_done; exact H|]. destruct (_ <? _); [apply bmate_done; exact H|].
  apply G. apply mate_shift. exact H.
Qed.
Lemma mate_skip_n l fuel : forall b1 b2 r p t, mate l b1 b2 -> both (bmate l) (skip_n_loop fuel b1 r p t) (skip_n_loop fuel b2 r p t).
Proof.
  induction fuel as [|fuel IH]; intros b1 b2 r p t H; [exact Logic.I|]. cbn [skip_n_loop]. cbv zeta.
  fields H. rewrite EN, EB.
  destruct (_ =? 0); [apply bmate_done; exact H|]. destruct (_ <=? _); [apply bmate_done; exact H|].
  assert (G : forall c1 c2 t u, mate l c1 c2 ->
    both (bmate l) (match read_more c1 with
         | (b', Err e) => Done (b', Err e)
         | (b', Ok 0) => Done (b', Ok (t, u))
         | (b', Ok _) => skip_n_loop fuel b' (r - (n_bytes b1 - p)) t u
         end)
        (match read_more c2 with
         | (b', Err e) => Done (b', Err e)
         | (b', Ok 0) => Done (b', Ok (t, u))
         | (b', Ok _) => skip_n_loop fuel b' (r - (n_bytes b1 - p)) t u
         end)).
  { clear - IH. intros c1 c2 t c H. destruct (mate_read _ _ _ H) as (d1 & d2 & r' & -> & -> & Hd).
    destruct r' as [[|m]|er]; [apply bmate_done; exact Hd|apply IH; exact Hd|apply bmate_done; exact Hd]. }
  destruct (_ =? _); apply G; [apply mate_shift|]; exact H.
Qed.
Lemma mate_fuel l b1 b2 : mate l b1 b2 -> fuel_for b2 = fuel_for b1.
Proof. intros H. fields H. unfold fuel_for. rewrite ER. reflexivity. Qed.
Lemma mate_skip_spaces l fuel : forall b1 b2 p, mate l b1 b2 -> both (bmate l) (skip_spaces_loop fuel b1 p) (skip_spaces_loop fuel b2 p).
Proof.
  induction fuel as [|fuel IH]; intros b1 b2 p H; [exact Logic.I|]. cbn [skip_spaces_loop].
  unfold collect_while. rewrite (mate_fuel _ _ _ H).
  pose proof (mate_collect_while l (fuel_for b1) b1 b2 is_ascii_whitespace p false p p false H) as G.
  destruct (collect_while_loop _ b1 _ _ _ _ _ _) as [[c1 r]| |], (collect_while_loop _ b2 _ _ _ _ _ _) as [[c2 r2]| |]; cbn [both] in G; try contradiction; try exact Logic.I.
  destruct G as [Hc E]. cbn [fst snd] in Hc, E. subst r2. destruct r as [[u v]|er].
  - apply bmate_done. destruct (_ <? _); [apply mate_shift|]; exact Hc.
  - fields Hc. rewrite EN. destruct (err_type er); try (apply bmate_done; exact Hc). apply IH. apply mate_shift. exact Hc.
Qed.
Lemma mate_spaces l b1 b2 p : mate l b1 b2 -> both (bmate l) (skip_spaces b1 p) (skip_spaces b2 p).
Proof.
  intros H. unfold skip_spaces, skip_fuel. fields H. rewrite EN, ER. apply mate_skip_spaces. exact H.
Qed.

(** The parser. *)
Inductive peer : rj -> rj -> Prop := peer_at b1 b2 l i : mate l b1 b2 -> peer (mkRj b1 l i) (mkRj b2 l i).
Definition rpeer {X} (p1 p2 : rj * X) : Prop := peer (fst p1) (fst p2) /\ snd p1 = snd p2.
Lemma rpeer_done {X} s1 s2 (v : X) : peer s1 s2 -> both rpeer (Done (s1, v)) (Done (s2, v)).
Proof. intros H. split; [exact H|reflexivity]. Qed.
Lemma peer_bf s1 s2 : peer s1 s2 -> mate (jlen s1) (bf s1) (bf s2) /\ jlen s2 = jlen s1 /\ jidx s2 = jidx s1.
Proof. intros [b1 b2 l i H]. auto. Qed.
Lemma peer_with s1 s2 b1 b2 : peer s1 s2 -> mate (jlen s1) b1 b2 -> peer (with_bf s1 b1) (with_bf s2 b2).
Proof. intros [c1 c2 l i H] G. constructor. exact G. Qed.
Lemma peer_new s1 s2 : peer s1 s2 -> peer (create_new_jiter s1) (create_new_jiter s2).
Proof. intros [c1 c2 l i H]. unfold create_new_jiter. cbn [bf]. fields H. rewrite EN. constructor. exact (mate_new _ _ _ H). Qed.
Lemma peer_index s1 s2 : peer s1 s2 -> current_index s2 = current_index s1.
Proof. intros [c1 c2 l i H]. unfold current_index. cbn [bf jidx]. fields H. rewrite ES. reflexivity. Qed.
Lemma peer_jcall {A} (f : jop A) s1 s2 : peer s1 s2 ->
  exists t1 t2 r, jcall f s1 = (t1, r) /\ jcall f s2 = (t2, r) /\ peer t1 t2 /\ jlen t1 = jlen s1.
Proof.
  intros [b1 b2 l i H]. unfold jcall, jview. cbn [bf jlen jidx]. rewrite (mate_firstn _ _ _ l H) by lia.
  destruct (f _) as [r a]. eexists _, _, _. split; [reflexivity|]. split; [reflexivity|]. split; [constructor; exact H|reflexivity].
Qed.
Lemma mate_changed k l b1 b2 c1 c2 : mate k b1 b2 -> mate l c1 c2 -> is_changed b2 c2 = is_changed b1 c1.
Proof. intros H G. fields H. fields G. unfold is_changed. rewrite EN, ES, EN0, ES0. reflexivity. Qed.

Lemma peer_feeding s1 s2 p t : peer s1 s2 -> both rpeer (skip_spaces_feeding s1 p t) (skip_spaces_feeding s2 p t).
Proof.
  intros H. destruct (peer_bf _ _ H) as (Hb & _ & _). unfold skip_spaces_feeding. cbv zeta.
  assert (N1 : mate (jlen s1) (if 0 <? p then shift_buffer (bf s1) 0 p else bf s1) (if 0 <? p then shift_buffer (bf s2) 0 p else bf s2)).
  { destruct (_ <? _); [apply mate_shift|]; exact Hb. }
  pose proof (mate_spaces _ _ _ 0 N1) as G. revert G.
  destruct (skip_spaces (if 0 <? p then shift_buffer (bf s1) 0 p else bf s1) 0) as [[c1 r]| |],
    (skip_spaces (if 0 <? p then shift_buffer (bf s2) 0 p else bf s2) 0) as [[c2 r2]| |]; intros G; cbn [both] in G; try contradiction; try exact Logic.I.
  destruct G as [Hc E]. cbn [fst snd] in Hc, E. subst r2.
  destruct r as [[]|er]; [|apply rpeer_done; apply peer_with; assumption].
  assert (F : forall d1 d2, mate (jlen s1) d1 d2 ->
    both rpeer (Done (if is_changed (bf s1) d1 then create_new_jiter (with_bf s1 d1) else with_bf s1 d1, @Ok unit rerror tt))
         (Done (if is_changed (bf s2) d2 then create_new_jiter (with_bf s2 d2) else with_bf s2 d2, Ok tt))).
  { intros d1 d2 Hd. rewrite (mate_changed _ _ _ _ _ _ Hb Hd). apply rpeer_done.
    destruct (is_changed _ _); [apply peer_new|]; apply peer_with; assumption. }
  destruct t as [t|]; [|apply F; exact Hc].
  assert (R : exists d1 d2 r, (if n_bytes c1 =? 0 then read_more c1 else (c1, Ok 0)) = (d1, r) /\ (if n_bytes c2 =? 0 then read_more c2 else (c2, Ok 0)) = (d2, r) /\ mate (jlen s1) d1 d2).
  { fields Hc. rewrite EN. destruct (_ =? 0); [apply mate_read; exact Hc|]. exists c1, c2, (Ok 0). auto. }
  destruct R as (d1 & d2 & r & -> & -> & Hd).
  destruct r as [n|er]; [|apply rpeer_done; apply peer_with; assumption].
  rewrite (mate_filled _ _ _ Hd). destruct (firstn _ _) as [|x l]; [apply F; exact Hd|].
  destruct (N.eqb x t); [|apply F; exact Hd].
  pose proof (mate_spaces _ _ _ 1 Hd) as G.
  destruct (skip_spaces d1 1) as [[f1 r]| |], (skip_spaces d2 1) as [[f2 r2]| |]; cbn [both] in G; try contradiction; try exact Logic.I.
  destruct G as [Hf E]. cbn [fst snd] in Hf, E. subst r2.
  destruct r as [[]|er]; [apply F; exact Hf|apply rpeer_done; apply peer_with; assumption].
Qed.

Lemma peer_ok eager s1 s2 : peer s1 s2 -> really_ok eager s2 = really_ok eager s1.
Proof. intros [b1 b2 l i H]. unfold really_ok. cbn [bf jidx]. fields H. rewrite EN. reflexivity. Qed.
Lemma peer_retry {A} fuel (f : jop A) eager : forall s1 s2, peer s1 s2 -> both rpeer (retry_loop fuel f eager s1) (retry_loop fuel f eager s2).
Proof.
  induction fuel as [|fuel IH]; intros s1 s2 H; [exact Logic.I|]. cbn [retry_loop].
  destruct (peer_jcall f _ _ H) as (t1 & t2 & r & -> & -> & Ht & _). cbv zeta.
  destruct (peer_bf _ _ Ht) as (Hb & _ & _).
  match goal with |- both rpeer (match r with Ok _ => if _ then _ else ?M1 | Err _ => _ end) (match r with Ok _ => if _ then _ else ?M2 | Err _ => _ end) =>
    assert (G : both rpeer M1 M2) end.
  { destruct (mate_read _ _ _ Hb) as (d1 & d2 & n & -> & -> & Hd).
    destruct n as [[|n]|er].
    - rewrite (peer_index (with_bf t1 d1) (with_bf t2 d2)) by (apply peer_with; assumption). apply rpeer_done. apply peer_with; assumption.
    - apply IH. apply peer_new. apply peer_with; assumption.
    - apply rpeer_done. apply peer_with; assumption. }
  destruct r as [v|er].
  - rewrite (peer_ok eager _ _ Ht). destruct (really_ok eager t1); [apply rpeer_done; exact Ht|exact G].
  - destruct (can_retry _); [exact G|]. rewrite (peer_index _ _ Ht). apply rpeer_done. exact Ht.
Qed.
Lemma peer_loop {A} (f : jop A) t eager s1 s2 : peer s1 s2 -> both rpeer (loop_until_success f t eager s1) (loop_until_success f t eager s2).
Proof.
  intros H. unfold loop_until_success. destruct (peer_bf _ _ H) as (_ & _ & ->). cbv zeta.
  destruct (peer_jcall f _ _ H) as (t1 & t2 & r & -> & -> & Ht & _).
  match goal with |- both rpeer (match r with Ok _ => _ | Err _ => ?M1 end) (match r with Ok _ => _ | Err _ => ?M2 end) =>
    assert (G : both rpeer M1 M2) end.
  { pose proof (peer_feeding _ _ (jidx s1) t Ht) as G.
    destruct (skip_spaces_feeding t1 _ _) as [[u1 v]| |], (skip_spaces_feeding t2 _ _) as [[u2 v2]| |]; cbn [both] in G; try contradiction; try exact Logic.I.
    destruct G as [Hu E]. cbn [fst snd] in Hu, E. subst v2.
    destruct v as [[]|er]; [|apply rpeer_done; exact Hu].
    destruct (peer_bf _ _ Hu) as (Hb & _ & _). rewrite (mate_fuel _ _ _ Hb). apply peer_retry. exact Hu. }
  destruct r as [v|er]; [|exact G].
  rewrite (peer_ok eager _ _ Ht). destruct (really_ok eager t1); [apply rpeer_done; exact Ht|exact G].
Qed.
Lemma peer_finish_loop fuel : forall s1 s2, peer s1 s2 -> both rpeer (finish_loop fuel s1) (finish_loop fuel s2).
Proof.
  induction fuel as [|fuel IH]; intros s1 s2 H; [exact Logic.I|]. cbn [finish_loop].
  destruct (peer_jcall j_finish _ _ H) as (t1 & t2 & r & -> & -> & Ht & _). cbv zeta.
  destruct (peer_bf _ _ Ht) as (Hb & _ & ->). destruct r as [v|er].
  - fields Hb. rewrite EB. destruct (_ <? _).
    + destruct (mate_read _ _ _ Hb) as (d1 & d2 & n & -> & -> & Hd).
      destruct n as [[|n]|er]; [apply rpeer_done; apply peer_with; assumption| |apply rpeer_done; apply peer_with; assumption].
      apply IH. apply peer_new. apply peer_with; [exact Ht|]. apply mate_shift. exact Hd.
    + apply IH. apply peer_new. apply peer_with; [exact Ht|]. apply mate_shift. exact Hb.
  - rewrite (peer_index _ _ Ht). apply rpeer_done. exact Ht.
Qed.
Lemma peer_finish s1 s2 : peer s1 s2 -> both rpeer (finish s1) (finish s2).
Proof.
  intros H. unfold finish, finish_fuel. destruct (peer_bf _ _ H) as (Hb & _ & _). fields Hb. rewrite ER. apply peer_finish_loop. exact H.
Qed.
Lemma peer_position s1 s2 i : peer s1 s2 -> error_position s2 i = error_position s1 i.
Proof.
  intros [b1 b2 l j H]. unfold error_position. cbn [bf jlen]. rewrite (mate_firstn _ _ _ l H) by lia.
  fields H. rewrite ES, EL, EC. reflexivity.
Qed.

(** Long strings. *)
Definition wpeer {W X} (p1 p2 : rj * W * X) : Prop := peer (fst (fst p1)) (fst (fst p2)) /\ snd (fst p1) = snd (fst p2) /\ snd p1 = snd p2.
Lemma wpeer_done {W X} s1 s2 (w : W) (v : X) : peer s1 s2 -> both wpeer (Done (s1, w, v)) (Done (s2, w, v)).
Proof. intros H. split; [exact H|]. split; reflexivity. Qed.
Lemma segment_end_le b : raw_segment_end b <= n_bytes b.
Proof.
  unfold raw_segment_end. cbv zeta. set (k := run_length _ _). destruct (Nat.ltb_spec k (n_bytes b)) as [H|H]; [|lia].
  destruct (Nat.ltb_spec 1 k) as [G|G]; [lia|]. destruct (Nat.ltb_spec (n_bytes b) 3) as [F|F]; [lia|].
  destruct (_ && _); [lia|]. destruct (Nat.ltb_spec (n_bytes b) 7); lia.
Qed.
Lemma nth_firstn (l1 l2 : bytes) k i d : firstn k l1 = firstn k l2 -> i < k -> nth i l1 d = nth i l2 d.
Proof.
  revert l1 l2 k. induction i as [|i IH]; intros l1 l2 k H L; destruct k; try lia; destruct l1, l2; cbn [firstn nth] in *; try congruence.
  - injection H as _ H. apply (IH _ _ k); [exact H|lia].
Qed.
Lemma mate_segment_end l b1 b2 : mate l b1 b2 -> raw_segment_end b2 = raw_segment_end b1.
Proof.
  intros H. pose proof (mate_filled _ _ _ H) as E. fields H. unfold raw_segment_end. cbv zeta. rewrite E, EN.
  destruct (_ <? n_bytes b1); [|reflexivity]. destruct (1 <? _); [reflexivity|].
  destruct (Nat.ltb_spec (n_bytes b1) 3) as [F|F]; [reflexivity|].
  rewrite (nth_firstn (buf b2) (buf b1) (n_bytes b1) 2); [reflexivity| |lia]. rewrite EN in E. exact E.
Qed.
Lemma find_le l : forall p e, find_leading l p = Some e -> e <= p.
Proof.
  induction p as [|p IH]; intros e H; cbn [find_leading] in H; destruct (nth_error l _); try discriminate; destruct (is_utf8_leading_byte _);
    try (injection H as <-; lia). specialize (IH _ H). lia.
Qed.
Lemma find_inside (c t1 t2 : bytes) : forall p, p < len c -> find_leading (c ++ t1) p = find_leading (c ++ t2) p.
Proof.
  induction p as [|p IH]; intros H; cbn [find_leading]; rewrite !nth_error_app1 by lia; [reflexivity|].
  destruct (nth_error c (S p)); [|reflexivity]. destruct (is_utf8_leading_byte _); [reflexivity|]. apply IH. lia.
Qed.
Lemma mate_find l b1 b2 p : mate l b1 b2 -> p <= n_bytes b1 -> find_leading (buf b2) p = find_leading (buf b1) p.
Proof.
  intros [c t1 t2 n so pl pc r H1 H2 H3 H4 H5] Hp. cbn [buf n_bytes] in *.
  destruct (Nat.lt_ge_cases p (len c)) as [G|G]; [apply find_inside; exact G|].
  assert (p = len c) as -> by lia.
  assert (F : forall t, Forall leading t -> find_leading (c ++ t) (len c) = match t with [] => None | _ => Some (len c) end).
  { intros t Ht. assert (E : nth_error (c ++ t) (len c) = hd_error t) by (rewrite nth_error_app2, Nat.sub_diag by lia; destruct t; reflexivity).
    destruct (len c); cbn [find_leading]; rewrite E; destruct t; try reflexivity; cbn [hd_error]; inversion Ht as [|? ? X]; rewrite X; reflexivity. }
  rewrite !F by assumption. destruct t1, t2; try discriminate; reflexivity.
Qed.
Lemma peer_handle fuel pr sg : (forall a b n, firstn n a = firstn n b -> sg a n = sg b n) ->
  forall s1 s2 w, peer s1 s2 -> both wpeer (handle_long fuel pr sg s1 w) (handle_long fuel pr sg s2 w).
Proof.
  intros Hsg. induction fuel as [|fuel IH]; intros s1 s2 w H; [exact Logic.I|]. cbn [handle_long].
  destruct (peer_jcall pr _ _ H) as (t1 & t2 & r & -> & -> & Ht & _). cbv zeta.
  destruct r as [v|er].
  - rewrite (peer_index _ _ Ht). destruct (write_all w v) as [w1 [[]|k]]; apply wpeer_done; exact Ht.
  - destruct (can_retry _); [|rewrite (peer_index _ _ Ht); apply wpeer_done; exact Ht].
    destruct (peer_bf _ _ Ht) as (Hb & _ & ->).
    set (u1 := if 0 <? jidx t1 then _ else t1). set (u2 := if 0 <? jidx t1 then _ else t2).
    assert (Hu : peer u1 u2).
    { unfold u1, u2. destruct (0 <? jidx t1); [|exact Ht]. apply peer_new. apply peer_with; [exact Ht|]. apply mate_shift. exact Hb. }
    clearbody u1 u2. destruct (peer_bf _ _ Hu) as (Hv & _ & _).
    rewrite (mate_segment_end _ _ _ Hv), (mate_find _ _ _ _ Hv (segment_end_le _)).
    destruct (find_leading _ _) as [seg|] eqn:Es; [|exact Logic.I].
    pose proof (find_le _ _ _ Es) as Ls. pose proof (segment_end_le (bf u1)) as Lr.
    assert (G : forall v1 v2 w3, peer v1 v2 ->
      both wpeer (match read_more (bf v1) with
            | (b, Err e) => Done (with_bf v1 b, w3, Err e)
            | (b, Ok 0) => Done (with_bf v1 b, w3, Err (from_jiter_error (current_index (with_bf v1 b)) er))
            | (b, Ok _) => handle_long fuel pr sg (create_new_jiter (with_bf v1 b)) w3
            end)
           (match read_more (bf v2) with
            | (b, Err e) => Done (with_bf v2 b, w3, Err e)
            | (b, Ok 0) => Done (with_bf v2 b, w3, Err (from_jiter_error (current_index (with_bf v2 b)) er))
            | (b, Ok _) => handle_long fuel pr sg (create_new_jiter (with_bf v2 b)) w3
            end)).
    { clear - IH. intros v1 v2 w3 H. destruct (peer_bf _ _ H) as (Hb & _ & _).
      destruct (mate_read _ _ _ Hb) as (d1 & d2 & n & -> & -> & Hd).
      destruct n as [[|n]|er'].
      - rewrite (peer_index (with_bf v1 d1) (with_bf v2 d2)) by (apply peer_with; assumption). apply wpeer_done. apply peer_with; assumption.
      - apply IH. apply peer_new. apply peer_with; assumption.
      - apply wpeer_done. apply peer_with; assumption. }
    destruct (1 <? seg); [|apply G; exact Hu].
    rewrite (Hsg (buf (bf u2)) (buf (bf u1)) seg) by (apply (mate_firstn _ _ _ _ Hv); lia).
    destruct (sg _ seg) as [d|er']; [|rewrite (peer_index _ _ Hu); apply wpeer_done; exact Hu].
    rewrite (peer_index _ _ Hu). destruct (write_all w d) as [w1 [[]|k]]; [|apply wpeer_done; exact Hu].
    apply G. apply peer_with; [exact Hu|]. apply mate_shift. exact Hv.
Qed.
Lemma bytes_segment_firstn a b n : firstn n a = firstn n b -> bytes_segment a n = bytes_segment b n.
Proof.
  intros H. unfold bytes_segment. f_equal.
  assert (E : forall l : bytes, firstn (n - 1) (skipn 1 l) = skipn 1 (firstn n l)) by (intros l; symmetry; apply skipn_firstn).
  rewrite !E, H. reflexivity.
Qed.
Lemma str_segment_firstn a b n : firstn n a = firstn n b -> str_segment a n = str_segment b n.
Proof. intros H. unfold str_segment. rewrite H. reflexivity. Qed.
Lemma peer_long_bytes s1 s2 w : peer s1 s2 -> both wpeer (write_long_bytes s1 w) (write_long_bytes s2 w).
Proof.
  intros H. unfold write_long_bytes. destruct (peer_bf _ _ H) as (Hb & _ & _). rewrite (mate_fuel _ _ _ Hb). apply peer_handle; [apply bytes_segment_firstn|exact H].
Qed.
Lemma peer_long_str s1 s2 w : peer s1 s2 -> both wpeer (write_long_str s1 w) (write_long_str s2 w).
Proof.
  intros H. unfold write_long_str. destruct (peer_bf _ _ H) as (Hb & _ & _). rewrite (mate_fuel _ _ _ Hb). apply peer_handle; [apply str_segment_firstn|exact H].
Qed.

(** Looking ahead. *)
Lemma collect_while_end fuel : forall b pred p a i c sh b' s e,
  collect_while_loop fuel b pred p a i c sh = Done (b', Ok (s, e)) -> e <= n_bytes b'.
Proof.
  induction fuel as [|fuel IH]; intros b pred p a i c sh b' s e H; [discriminate|]. cbn [collect_while_loop] in H.
  assert (G : forall b i c sh, (match read_more b with
         | (b', Err e) => Done (b', Err e)
         | (b', Ok 0) => Done (b', Ok (c, n_bytes b'))
         | (b', Ok _) => collect_while_loop fuel b' pred p a i c sh
         end) = Done (b', Ok (s, e)) -> e <= n_bytes b').
  { intros b1 i1 c1 sh1. destruct (read_more b1) as [b2 [[|n]|er]]; [|apply IH|discriminate]. intros E. injection E as <- <- <-. lia. }
  match type of H with context [if ?x <? ?y then _ else _] => destruct (Nat.ltb_spec x y) as [K|K] end;
    [injection H as <- <- <-; lia|].
  destruct (_ <=? _) in H; [|exact (G _ _ _ _ H)]. destruct (_ || _) in H; [discriminate|exact (G _ _ _ _ H)].
Qed.
Lemma collect_count_end fuel : forall b n a t c sh b' s e,
  collect_count_loop fuel b n a t c sh = Done (b', Ok (s, e)) -> e <= n_bytes b'.
Proof.
  induction fuel as [|fuel IH]; intros b n a t c sh b' s e H; [discriminate|]. cbn [collect_count_loop] in H.
  assert (G : forall b t c sh, (match read_more b with
         | (b', Err e) => Done (b', Err e)
         | (b', Ok 0) => Done (b', Ok (c, n_bytes b'))
         | (b', Ok _) => collect_count_loop fuel b' n a t c sh
         end) = Done (b', Ok (s, e)) -> e <= n_bytes b').
  { intros b1 i1 c1 sh1. destruct (read_more b1) as [b2 [[|m]|er]]; [|apply IH|discriminate]. intros E. injection E as <- <- <-. lia. }
  destruct (Nat.leb_spec t (n_bytes b)) as [K|K]; [injection H as <- <- <-; lia|].
  destruct (_ <=? _) in H; [|exact (G _ _ _ _ H)]. destruct (_ || _) in H; [discriminate|].
  destruct (_ <? _) in H; [discriminate|exact (G _ _ _ _ H)].
Qed.
Lemma shift_count b k : n_bytes (shift_buffer b 0 k) = n_bytes b - Nat.min k (n_bytes b).
Proof.
  unfold shift_buffer. destruct (if _ <? _ then _ else _) as [u v].
  destruct (Nat.ltb_spec 0 k); destruct (Nat.ltb_spec 0 (n_bytes b)); cbn [andb n_bytes]; lia.
Qed.
Lemma mate_slice l b1 b2 s e : mate l b1 b2 -> e <= n_bytes b1 -> slice (buf b2) s e = slice (buf b1) s e.
Proof.
  intros H He. fields H. unfold slice. rewrite EB. destruct (_ && _); [|reflexivity]. f_equal.
  assert (E : forall x : bytes, firstn (e - s) (skipn s x) = skipn s (firstn e x)) by (intros x; symmetry; apply skipn_firstn).
  rewrite !E, (mate_firstn _ _ _ e H) by lia. reflexivity.
Qed.
Lemma peer_lookahead collect : (forall l b1 b2 p, mate l b1 b2 -> both (bmate l) (collect b1 p) (collect b2 p)) ->
  (forall b p b' s e, collect b p = Done (b', Ok (s, e)) -> e <= n_bytes b') ->
  forall s1 s2, peer s1 s2 -> both rpeer (lookahead collect s1) (lookahead collect s2).
Proof.
  intros HC HE s1 s2 H. unfold lookahead. cbv zeta. destruct (peer_bf _ _ H) as (Hb & _ & ->).
  specialize (HC (jlen s1) _ _ (jidx s1) Hb). specialize (HE (bf s1) (jidx s1)).
  destruct (collect (bf s1) _) as [[c1 r]| |], (collect (bf s2) _) as [[c2 r2]| |]; cbn [both] in HC; try contradiction; try exact Logic.I.
  destruct HC as [Hc E]. cbn [fst snd] in Hc, E. subst r2. destruct r as [[u v]|er]; [|apply rpeer_done; apply peer_with; assumption].
  specialize (HE _ _ _ eq_refl). rewrite (mate_changed _ _ _ _ _ _ Hb Hc).
  assert (F : forall t1 t2 a b, peer t1 t2 -> b <= n_bytes (bf t1) ->
    both rpeer (match slice (buf (bf t1)) a b with Some d => Done (t1, @Ok _ rerror d) | None => Panic end)
               (match slice (buf (bf t2)) a b with Some d => Done (t2, Ok d) | None => Panic end)).
  { intros t1 t2 a b Ht Lb. destruct (peer_bf _ _ Ht) as (Hd & _). rewrite (mate_slice _ _ _ a b Hd Lb).
    destruct (slice _ _ _); [apply rpeer_done; exact Ht|exact Logic.I]. }
  destruct (is_changed (bf s1) c1).
  - fields Hb. fields Hc. rewrite ES, ES0. destruct (_ && _).
    + apply F; [apply peer_new; apply peer_with; [exact H|apply mate_shift; exact Hc]|]. cbn. rewrite shift_count. lia.
    + apply F; [apply peer_new; apply peer_with; assumption|exact HE].
  - apply F; [apply peer_with; assumption|exact HE].
Qed.
Lemma peer_lookahead_while pred s1 s2 : peer s1 s2 -> both rpeer (lookahead_while pred s1) (lookahead_while pred s2).
Proof.
  apply peer_lookahead.
  - intros l b1 b2 p H. unfold collect_while. rewrite (mate_fuel _ _ _ H). apply mate_collect_while. exact H.
  - intros b p b' s e E. exact (collect_while_end _ _ _ _ _ _ _ _ _ _ _ E).
Qed.
Lemma peer_lookahead_n n s1 s2 : peer s1 s2 -> both rpeer (lookahead_n n s1) (lookahead_n n s2).
Proof.
  apply peer_lookahead.
  - intros l b1 b2 p H. unfold collect_count. rewrite (mate_fuel _ _ _ H). apply mate_collect_count. exact H.
  - intros b p b' s e E. exact (collect_count_end _ _ _ _ _ _ _ _ _ _ E).
Qed.
Lemma peer_skip_n n s1 s2 : peer s1 s2 -> both rpeer (skip_n_bytes n s1) (skip_n_bytes n s2).
Proof.
  intros H. unfold skip_n_bytes, skip_n. destruct (peer_bf _ _ H) as (Hb & _ & ->). rewrite (mate_fuel _ _ _ Hb).
  pose proof (mate_skip_n (jlen s1) (fuel_for (bf s1)) _ _ n (jidx s1) 0 Hb) as G.
  destruct (skip_n_loop _ (bf s1) _ _ _) as [[c1 r]| |], (skip_n_loop _ (bf s2) _ _ _) as [[c2 r2]| |]; cbn [both] in G; try contradiction; try exact Logic.I.
  destruct G as [Hc E]. cbn [fst snd] in Hc, E. subst r2. destruct r as [[u v]|er]; apply rpeer_done.
  - apply peer_new. apply peer_with; [exact H|]. apply mate_shift. exact Hc.
  - apply peer_with; assumption.
Qed.
Lemma peer_token t s1 s2 : peer s1 s2 -> both rpeer (known_skip_token t s1) (known_skip_token t s2).
Proof.
  intros H. unfold known_skip_token. pose proof (peer_lookahead_n (len t) _ _ H) as G.
  destruct (lookahead_n _ s1) as [[u1 r]| |], (lookahead_n _ s2) as [[u2 r2]| |]; cbn [both] in G; try contradiction; try exact Logic.I.
  destruct G as [Hu E]. cbn [fst snd] in Hu, E. subst r2. destruct r as [d|er]; [|apply rpeer_done; exact Hu].
  destruct (beq d t); [|rewrite (peer_index _ _ Hu); apply rpeer_done; exact Hu].
  pose proof (peer_skip_n (len t) _ _ Hu) as F.
  destruct (skip_n_bytes _ u1) as [[v1 r]| |], (skip_n_bytes _ u2) as [[v2 r2]| |]; cbn [both] in F; try contradiction; try exact Logic.I.
  destruct F as [Hv E]. cbn [fst snd] in Hv, E. subst r2. destruct r; apply rpeer_done; exact Hv.
Qed.
Lemma peer_start r c1 c2 : len c1 = len c2 -> Forall leading c1 -> Forall leading c2 -> peer (rj_new r c1) (rj_new r c2).
Proof.
  intros H1 H2 H3. unfold rj_new, buffer_new. constructor. exact (mate_at 0 [] c1 c2 0 0 0 0 r (le_n 0) (le_n 0) H1 H2 H3).
Qed.
