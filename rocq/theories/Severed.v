(** Two readers that give the same up to a point, where one of them reports an error: the parser. *)
From Verif Require Import Base Buffer Jiter JiterValue RJiter RJiterLongProofs.

(** The error of a reader. *)
Definition broken {X} (r : result X rerror) : Prop := exists e k, r = Err e /\ err_type e = IoError k.
Lemma broken_err {X Y} e : broken (@Err X rerror e) -> broken (@Err Y rerror e).
Proof. intros (e1 & k & A & C). injection A as ->. exists e1, k. auto. Qed.
Lemma broken_full {X} e : broken (@Err X rerror e) -> err_type e <> BufferFull.
Proof. intros (e1 & k & A & C). injection A as ->. congruence. Qed.

Section Severed.
Context (e : io_kind) (q q' : list event).

Definition reb (b : buffer) (l : list event) : buffer :=
  mkBuf (buf b) (n_bytes b) (n_shifted_out b) (pos_line b) (pos_col b) (mkReader (src (rd b)) l).
Inductive near : buffer -> buffer -> Prop :=
| near_at b p : near (reb b (p ++ Fail e :: q)) (reb b (p ++ q')).
Lemma near_fields b1 b2 : near b1 b2 -> buf b2 = buf b1 /\ n_bytes b2 = n_bytes b1 /\ n_shifted_out b2 = n_shifted_out b1 /\ src (rd b2) = src (rd b1).
Proof. intros [b p]. cbn. auto. Qed.
Lemma near_shift b1 b2 t f : near b1 b2 -> near (shift_buffer b1 t f) (shift_buffer b2 t f).
Proof.
  intros [b p].
  assert (E : forall l, shift_buffer (reb b l) t f = reb (shift_buffer b t f) l).
  { intros l. unfold shift_buffer, reb. cbn [buf n_bytes pos_line pos_col n_shifted_out rd src].
    destruct (if _ <? _ then _ else _) as [u v]. destruct (_ && _); reflexivity. }
  rewrite !E. constructor.
Qed.
Lemma near_read b1 b2 : near b1 b2 ->
  (exists c1 c2 r, read_more b1 = (c1, r) /\ read_more b2 = (c2, r) /\ near c1 c2) \/ (exists c1 er, read_more b1 = (c1, Err er) /\ @broken nat (Err er)).
Proof.
  intros [b p]. unfold read_more, reb. cbn [rd buf n_bytes n_shifted_out pos_line pos_col].
  unfold reader_read. cbn [sched src]. destruct p as [|[k|k] p]; cbn [app].
  - right. eexists _, _. split; [reflexivity|]. eexists _, e. split; reflexivity.
  - left. eexists _, _, _. split; [reflexivity|]. split; [reflexivity|].
    match goal with |- near (mkBuf ?A ?B ?C ?D ?E (mkReader ?F _)) _ => exact (near_at (mkBuf A B C D E (mkReader F [])) p) end.
  - left. eexists _, _, _. split; [reflexivity|]. split; [reflexivity|].
    match goal with |- near (mkBuf ?A ?B ?C ?D ?E (mkReader ?F _)) _ => exact (near_at (mkBuf A B C D E (mkReader F [])) p) end.
Qed.
Ltac fields H := let A := fresh "EA" in let B := fresh "EB" in let C := fresh "EC" in let D := fresh "ED" in
  destruct (near_fields _ _ H) as (A & B & C & D).

(** Equal results and states that are still alike, or the first call has met the error. *)
Definition cut {X} (x1 x2 : outcome (buffer * result X rerror)) : Prop :=
  match x1 with
  | Done (b1, r) => (exists b2, x2 = Done (b2, r) /\ near b1 b2) \/ broken r
  | _ => True
  end.
Lemma cut_done {X} b1 b2 (r : result X rerror) : near b1 b2 -> cut (Done (b1, r)) (Done (b2, r)).
Proof. left. eauto. Qed.

Lemma cut_collect_while fuel : forall b1 b2 pred p a i c sh, near b1 b2 ->
  cut (collect_while_loop fuel b1 pred p a i c sh) (collect_while_loop fuel b2 pred p a i c sh).
Proof.
  induction fuel as [|fuel IH]; intros b1 b2 pred p a i c sh H; [exact Logic.I|]. cbn [collect_while_loop].
  fields H. rewrite EA, EB, EC.
  assert (G : forall c1 c2 i c sh, near c1 c2 ->
    cut (match read_more c1 with
         | (b', Err e) => Done (b', Err e)
         | (b', Ok 0) => Done (b', Ok (c, n_bytes b'))
         | (b', Ok _) => collect_while_loop fuel b' pred p a i c sh
         end)
        (match read_more c2 with
         | (b', Err e) => Done (b', Err e)
         | (b', Ok 0) => Done (b', Ok (c, n_bytes b'))
         | (b', Ok _) => collect_while_loop fuel b' pred p a i c sh
         end)).
  { clear - IH. intros c1 c2 i c sh H. destruct (near_read _ _ H) as [(d1 & d2 & r & -> & -> & Hd)|(d1 & er & -> & Hb)].
    - destruct r as [[|n]|er]; [|apply IH; exact Hd|apply cut_done; exact Hd].
      fields Hd. rewrite EB. apply cut_done. exact Hd.
    - right. exact (broken_err _ Hb). }
  destruct (_ <? _); [apply cut_done; exact H|].
  destruct (_ <=? _); [|apply G; exact H].
  destruct (_ || _); [apply cut_done; exact H|]. apply G. apply near_shift. exact H.
Qed.
Lemma cut_collect_count fuel : forall b1 b2 n a t c sh, near b1 b2 ->
  cut (collect_count_loop fuel b1 n a t c sh) (collect_count_loop fuel b2 n a t c sh).
Proof.
  induction fuel as [|fuel IH]; intros b1 b2 n a t c sh H; [exact Logic.I|]. cbn [collect_count_loop].
  fields H. rewrite EA, EB, EC.
  assert (G : forall c1 c2 t c sh, near c1 c2 ->
    cut (match read_more c1 with
         | (b', Err e) => Done (b', Err e)
         | (b', Ok 0) => Done (b', Ok (c, n_bytes b'))
         | (b', Ok _) => collect_count_loop fuel b' n a t c sh
         end)
        (match read_more c2 with
         | (b', Err e) => Done (b', Err e)
         | (b', Ok 0) => Done (b', Ok (c, n_bytes b'))
         | (b', Ok _) => collect_count_loop fuel b' n a t c sh
         end)).
  { clear - IH. intros c1 c2 t c sh H. destruct (near_read _ _ H) as [(d1 & d2 & r & -> & -> & Hd)|(d1 & er & -> & Hb)].
    - destruct r as [[|m]|er]; [|apply IH; exact Hd|apply cut_done; exact Hd].
      fields Hd. rewrite EB. apply cut_done. exact Hd.
    - right. exact (broken_err _ Hb). }
  destruct (_ <=? _); [apply cut_done; exact H|].
  destruct (_ <=? _); [|apply G; exact H].
  destruct (_ || _); [apply cut_done; exact H|]. destruct (_ <? _); [apply cut_done; exact H|].
  apply G. apply near_shift. exact H.
Qed.
Lemma cut_skip_n fuel : forall b1 b2 r p t, near b1 b2 -> cut (skip_n_loop fuel b1 r p t) (skip_n_loop fuel b2 r p t).
Proof.
  induction fuel as [|fuel IH]; intros b1 b2 r p t H; [exact Logic.I|]. cbn [skip_n_loop]. cbv zeta.
  fields H. rewrite EA, EB. clear EC ED.
  destruct (_ =? 0); [apply cut_done; exact H|]. destruct (_ <=? _); [apply cut_done; exact H|].
  assert (G : forall c1 c2 t u, near c1 c2 ->
    cut (match read_more c1 with
         | (b', Err e) => Done (b', Err e)
         | (b', Ok 0) => Done (b', Ok (t, u))
         | (b', Ok _) => skip_n_loop fuel b' (r - (n_bytes b1 - p)) t u
         end)
        (match read_more c2 with
         | (b', Err e) => Done (b', Err e)
         | (b', Ok 0) => Done (b', Ok (t, u))
         | (b', Ok _) => skip_n_loop fuel b' (r - (n_bytes b1 - p)) t u
         end)).
  { clear - IH. intros c1 c2 t c H. destruct (near_read _ _ H) as [(d1 & d2 & r' & -> & -> & Hd)|(d1 & er & -> & Hb)].
    - destruct r' as [[|m]|er]; [apply cut_done; exact Hd|apply IH; exact Hd|apply cut_done; exact Hd].
    - right. exact (broken_err _ Hb). }
  destruct (_ =? _); apply G; [apply near_shift|]; exact H.
Qed.
Lemma cut_skip_spaces fuel : forall b1 b2 p, near b1 b2 -> cut (skip_spaces_loop fuel b1 p) (skip_spaces_loop fuel b2 p).
Proof.
  induction fuel as [|fuel IH]; intros b1 b2 p H; [exact Logic.I|]. cbn [skip_spaces_loop].
  unfold collect_while, fuel_for. fields H. rewrite ED.
  pose proof (cut_collect_while (S (len (src (rd b1)))) b1 b2 is_ascii_whitespace p false p p false H) as G.
  destruct (collect_while_loop _ b1 _ _ _ _ _ _) as [[c1 r]| |]; cbn [cut] in G; [|exact Logic.I|exact Logic.I].
  destruct G as [(c2 & -> & Hc)|Hb].
  - destruct r as [[u v]|er].
    + apply cut_done. destruct (_ <? _); [apply near_shift|]; exact Hc.
    + fields Hc. rewrite EB0. destruct (err_type er); try (apply cut_done; exact Hc). apply IH. apply near_shift. exact Hc.
  - destruct Hb as (er & k & -> & Et). rewrite Et. right. exists er, k. auto.
Qed.
Lemma cut_spaces b1 b2 p : near b1 b2 -> cut (skip_spaces b1 p) (skip_spaces b2 p).
Proof.
  intros H. unfold skip_spaces, skip_fuel. fields H. rewrite EB, ED. apply cut_skip_spaces. exact H.
Qed.

(** The parser. *)
Inductive close : rj -> rj -> Prop := close_at b1 b2 l i : near b1 b2 -> close (mkRj b1 l i) (mkRj b2 l i).
Definition rcut {X} (x1 x2 : outcome (rj * result X rerror)) : Prop :=
  match x1 with
  | Done (s1, r) => (exists s2, x2 = Done (s2, r) /\ close s1 s2) \/ broken r
  | _ => True
  end.
Lemma rcut_done {X} s1 s2 (r : result X rerror) : close s1 s2 -> rcut (Done (s1, r)) (Done (s2, r)).
Proof. left. eauto. Qed.
Lemma close_bf s1 s2 : close s1 s2 -> near (bf s1) (bf s2) /\ jlen s2 = jlen s1 /\ jidx s2 = jidx s1.
Proof. intros [b1 b2 l i H]. auto. Qed.
Lemma close_with s1 s2 b1 b2 : close s1 s2 -> near b1 b2 -> close (with_bf s1 b1) (with_bf s2 b2).
Proof. intros [c1 c2 l i H] G. constructor. exact G. Qed.
Lemma close_new s1 s2 : close s1 s2 -> close (create_new_jiter s1) (create_new_jiter s2).
Proof. intros [c1 c2 l i H]. unfold create_new_jiter. cbn [bf]. fields H. rewrite EB. constructor. exact H. Qed.
Lemma close_index s1 s2 : close s1 s2 -> current_index s2 = current_index s1.
Proof. intros [c1 c2 l i H]. unfold current_index. cbn [bf jidx]. fields H. rewrite EC. reflexivity. Qed.
Lemma close_jcall {A} (f : jop A) s1 s2 : close s1 s2 ->
  exists t1 t2 r, jcall f s1 = (t1, r) /\ jcall f s2 = (t2, r) /\ close t1 t2.
Proof.
  intros [b1 b2 l i H]. unfold jcall, jview. cbn [bf jlen jidx]. fields H. rewrite EA.
  destruct (f _) as [r a]. eexists _, _, _. split; [reflexivity|]. split; [reflexivity|]. constructor. exact H.
Qed.
Lemma close_changed b1 b2 c1 c2 : near b1 b2 -> near c1 c2 -> is_changed b2 c2 = is_changed b1 c1.
Proof. intros H G. fields H. fields G. unfold is_changed. rewrite EB, EC, EB0, EC0. reflexivity. Qed.

Lemma cut_feeding s1 s2 p t : close s1 s2 -> rcut (skip_spaces_feeding s1 p t) (skip_spaces_feeding s2 p t).
Proof.
  intros H. destruct (close_bf _ _ H) as (Hb & _ & _). unfold skip_spaces_feeding. cbv zeta.
  assert (N1 : near (if 0 <? p then shift_buffer (bf s1) 0 p else bf s1) (if 0 <? p then shift_buffer (bf s2) 0 p else bf s2)).
  { destruct (_ <? _); [apply near_shift|]; exact Hb. }
  pose proof (cut_spaces _ _ 0 N1) as G. revert G.
  destruct (skip_spaces (if 0 <? p then shift_buffer (bf s1) 0 p else bf s1) 0) as [[c1 r]| |]; intros G; [|exact Logic.I|exact Logic.I].
  cbn [cut] in G. destruct G as [(c2 & -> & Hc)|G]; [|destruct G as (er & k & -> & Et); right; exists er, k; auto].
  destruct r as [[]|er]; [|apply rcut_done; apply close_with; assumption].
  assert (F : forall d1 d2, near d1 d2 ->
    rcut (Done (if is_changed (bf s1) d1 then create_new_jiter (with_bf s1 d1) else with_bf s1 d1, @Ok unit rerror tt))
         (Done (if is_changed (bf s2) d2 then create_new_jiter (with_bf s2 d2) else with_bf s2 d2, Ok tt))).
  { intros d1 d2 Hd. rewrite (close_changed _ _ _ _ Hb Hd). apply rcut_done.
    destruct (is_changed _ _); [apply close_new|]; apply close_with; assumption. }
  destruct t as [t|]; [|apply F; exact Hc].
  assert (R : (exists d1 d2 r, (if n_bytes c1 =? 0 then read_more c1 else (c1, Ok 0)) = (d1, r) /\ (if n_bytes c2 =? 0 then read_more c2 else (c2, Ok 0)) = (d2, r) /\ near d1 d2) \/
              (exists d1 er, (if n_bytes c1 =? 0 then read_more c1 else (c1, Ok 0)) = (d1, Err er) /\ @broken nat (Err er))).
  { fields Hc. rewrite EB. destruct (_ =? 0); [apply near_read; exact Hc|].
    left. exists c1, c2, (Ok 0). auto. }
  destruct R as [(d1 & d2 & r & -> & -> & Hd)|(d1 & er & -> & G)]; [|right; exact (broken_err _ G)].
  destruct r as [n|er]; [|apply rcut_done; apply close_with; assumption].
  fields Hd. rewrite EA, EB. destruct (firstn _ _) as [|x l]; [apply F; exact Hd|].
  destruct (N.eqb x t); [|apply F; exact Hd].
  pose proof (cut_spaces _ _ 1 Hd) as G. destruct (skip_spaces d1 1) as [[f1 r]| |]; [|exact Logic.I|exact Logic.I].
  cbn [cut] in G. destruct G as [(f2 & -> & Hf)|G]; [|destruct G as (er & k & -> & Et); right; exists er, k; auto].
  destruct r as [[]|er]; [apply F; exact Hf|apply rcut_done; apply close_with; assumption].
Qed.

Lemma close_ok eager s1 s2 : close s1 s2 -> really_ok eager s2 = really_ok eager s1.
Proof. intros [b1 b2 l i H]. unfold really_ok. cbn [bf jidx]. fields H. rewrite EB. reflexivity. Qed.
Lemma cut_retry {A} fuel (f : jop A) eager : forall s1 s2, close s1 s2 -> rcut (retry_loop fuel f eager s1) (retry_loop fuel f eager s2).
Proof.
  induction fuel as [|fuel IH]; intros s1 s2 H; [exact Logic.I|]. cbn [retry_loop].
  destruct (close_jcall f _ _ H) as (t1 & t2 & r & -> & -> & Ht). cbv zeta.
  destruct (close_bf _ _ Ht) as (Hb & _ & _).
  match goal with |- rcut (match r with Ok v => if _ then _ else ?M1 | Err _ => _ end) (match r with Ok v => if _ then _ else ?M2 | Err _ => _ end) =>
    assert (G : rcut M1 M2) end.
  { destruct (near_read _ _ Hb) as [(d1 & d2 & n & -> & -> & Hd)|(d1 & er & -> & G)]; [|right; exact (broken_err _ G)].
    destruct n as [[|n]|er].
    - rewrite (close_index (with_bf t1 d1) (with_bf t2 d2)) by (apply close_with; assumption). apply rcut_done. apply close_with; assumption.
    - apply IH. apply close_new. apply close_with; assumption.
    - apply rcut_done. apply close_with; assumption. }
  destruct r as [v|er].
  - rewrite (close_ok eager _ _ Ht). destruct (really_ok eager t1); [apply rcut_done; exact Ht|exact G].
  - destruct (can_retry _); [exact G|]. rewrite (close_index _ _ Ht). apply rcut_done. exact Ht.
Qed.
Lemma cut_loop {A} (f : jop A) t eager s1 s2 : close s1 s2 -> rcut (loop_until_success f t eager s1) (loop_until_success f t eager s2).
Proof.
  intros H. unfold loop_until_success. destruct (close_bf _ _ H) as (_ & _ & ->). cbv zeta.
  destruct (close_jcall f _ _ H) as (t1 & t2 & r & -> & -> & Ht).
  match goal with |- rcut (match r with Ok v => _ | Err _ => ?M1 end) (match r with Ok v => _ | Err _ => ?M2 end) =>
    assert (G : rcut M1 M2) end.
  { pose proof (cut_feeding _ _ (jidx s1) t Ht) as G.
    destruct (skip_spaces_feeding t1 _ _) as [[u1 v]| |]; [|exact Logic.I|exact Logic.I]. cbn [rcut] in G.
    destruct G as [(u2 & -> & Hu)|G]; [|destruct G as (er & k & -> & Et); right; exists er, k; auto].
    destruct v as [[]|er]; [|apply rcut_done; exact Hu].
    destruct (close_bf _ _ Hu) as (Hb & _ & _). unfold fuel_for. fields Hb. rewrite ED. apply cut_retry. exact Hu. }
  destruct r as [v|er]; [|exact G].
  rewrite (close_ok eager _ _ Ht). destruct (really_ok eager t1); [apply rcut_done; exact Ht|exact G].
Qed.
Lemma cut_finish_loop fuel : forall s1 s2, close s1 s2 -> rcut (finish_loop fuel s1) (finish_loop fuel s2).
Proof.
  induction fuel as [|fuel IH]; intros s1 s2 H; [exact Logic.I|]. cbn [finish_loop].
  destruct (close_jcall j_finish _ _ H) as (t1 & t2 & r & -> & -> & Ht). cbv zeta.
  destruct (close_bf _ _ Ht) as (Hb & _ & ->). destruct r as [v|er].
  - fields Hb. rewrite EA. destruct (_ <? _).
    + destruct (near_read _ _ Hb) as [(d1 & d2 & n & -> & -> & Hd)|(d1 & er & -> & G)]; [|right; exact (broken_err _ G)].
      destruct n as [[|n]|er]; [apply rcut_done; apply close_with; assumption| |apply rcut_done; apply close_with; assumption].
      apply IH. apply close_new. apply close_with; [exact Ht|]. apply near_shift. exact Hd.
    + apply IH. apply close_new. apply close_with; [exact Ht|]. apply near_shift. exact Hb.
  - rewrite (close_index _ _ Ht). apply rcut_done. exact Ht.
Qed.
Lemma cut_finish s1 s2 : close s1 s2 -> rcut (finish s1) (finish s2).
Proof.
  intros H. unfold finish, finish_fuel. destruct (close_bf _ _ H) as (Hb & _ & _). fields Hb. rewrite ED. apply cut_finish_loop. exact H.
Qed.

(** What the second writer has taken extends what the first has taken. *)
Definition longer (w1 w2 : writer) : Prop := exists a, written w2 = written w1 ++ a.
Lemma longer_same w : longer w w. Proof. exists []. rewrite app_nil_r. reflexivity. Qed.
Lemma longer_trans w1 w2 w3 : longer w1 w2 -> longer w2 w3 -> longer w1 w3.
Proof. intros [a A] [b B]. exists (a ++ b). rewrite B, A, app_assoc. reflexivity. Qed.
Lemma longer_write w d w' r : write_all w d = (w', r) -> longer w w'.
Proof. intros E. destruct (write_all_cases w d) as (w1 & r1 & p & x & y & E1 & _ & P & _). rewrite E in E1. injection E1 as <- <-. exists p. exact P. Qed.

Lemma longer_handle fuel pr sg : forall s w s' w' r, handle_long fuel pr sg s w = Done (s', w', r) -> longer w w'.
Proof.
  induction fuel as [|fuel IH]; intros s w s' w' r H; [discriminate|]. cbn [handle_long] in H.
  destruct (jcall pr s) as [s1 v]. cbv zeta in H. destruct v as [v|er].
  - destruct (write_all w v) as [w1 [[]|k]] eqn:E; injection H as <- <- <-; exact (longer_write _ _ _ _ E).
  - destruct (can_retry _); [|injection H as <- <- <-; apply longer_same].
    destruct (find_leading _ _) as [seg|]; [|discriminate].
    assert (G : forall s3 w3, (match read_more (bf s3) with
                  | (b, Err e) => Done (with_bf s3 b, w3, Err e)
                  | (b, Ok 0) => Done (with_bf s3 b, w3, Err (from_jiter_error (current_index (with_bf s3 b)) er))
                  | (b, Ok _) => handle_long fuel pr sg (create_new_jiter (with_bf s3 b)) w3
                  end) = Done (s', w', r) -> longer w3 w').
    { intros s3 w3. destruct (read_more (bf s3)) as [b [[|n]|k]]; intros G.
      - injection G as <- <- <-. apply longer_same.
      - exact (IH _ _ _ _ _ G).
      - injection G as <- <- <-. apply longer_same. }
    destruct (1 <? seg); [|exact (G _ _ H)].
    destruct (sg _ seg) as [d|er']; [|injection H as <- <- <-; apply longer_same].
    destruct (write_all w d) as [w1 [[]|k]] eqn:E.
    + exact (longer_trans _ _ _ (longer_write _ _ _ _ E) (G _ _ H)).
    + injection H as <- <- <-. exact (longer_write _ _ _ _ E).
Qed.
(** The same for operations that write. *)
Definition wcut {X} (x1 x2 : outcome (rj * writer * result X rerror)) : Prop :=
  match x1 with
  | Done (s1, w1, r) => (exists s2, x2 = Done (s2, w1, r) /\ close s1 s2) \/
                        (broken r /\ forall s2 w2 r2, x2 = Done (s2, w2, r2) -> longer w1 w2)
  | _ => True
  end.
Lemma wcut_done {X} s1 s2 w (r : result X rerror) : close s1 s2 -> wcut (Done (s1, w, r)) (Done (s2, w, r)).
Proof. left. eauto. Qed.
Lemma cut_handle fuel pr sg : forall s1 s2 w, close s1 s2 -> wcut (handle_long fuel pr sg s1 w) (handle_long fuel pr sg s2 w).
Proof.
  induction fuel as [|fuel IH]; intros s1 s2 w H; [exact Logic.I|]. cbn [handle_long].
  destruct (close_jcall pr _ _ H) as (t1 & t2 & r & -> & -> & Ht). cbv zeta.
  destruct r as [v|er].
  - rewrite (close_index _ _ Ht). destruct (write_all w v) as [w1 [[]|k]]; apply wcut_done; exact Ht.
  - destruct (can_retry _); [|rewrite (close_index _ _ Ht); apply wcut_done; exact Ht].
    destruct (close_bf _ _ Ht) as (Hb & _ & ->).
    set (u1 := if 0 <? jidx t1 then _ else t1). set (u2 := if 0 <? jidx t1 then _ else t2).
    assert (Hu : close u1 u2).
    { unfold u1, u2. destruct (0 <? jidx t1); [|exact Ht]. apply close_new. apply close_with; [exact Ht|]. apply near_shift. exact Hb. }
    clearbody u1 u2. destruct (close_bf _ _ Hu) as (Hv & _ & _). unfold raw_segment_end. cbv zeta. fields Hv. rewrite EA, EB.
    destruct (find_leading _ _) as [seg|]; [|exact Logic.I].
    assert (G : forall v1 v2 w3, close v1 v2 ->
      wcut (match read_more (bf v1) with
            | (b, Err e) => Done (with_bf v1 b, w3, Err e)
            | (b, Ok 0) => Done (with_bf v1 b, w3, Err (from_jiter_error (current_index (with_bf v1 b)) er))
            | (b, Ok _) => handle_long fuel pr sg (create_new_jiter (with_bf v1 b)) w3
            end)
           (match read_more (bf v2) with
            | (b, Err e) => Done (with_bf v2 b, w3, Err e)
            | (b, Ok 0) => Done (with_bf v2 b, w3, Err (from_jiter_error (current_index (with_bf v2 b)) er))
            | (b, Ok _) => handle_long fuel pr sg (create_new_jiter (with_bf v2 b)) w3
            end)).
    { clear - IH. intros v1 v2 w3 H. destruct (close_bf _ _ H) as (Hb & _ & _).
      destruct (near_read _ _ Hb) as [(d1 & d2 & n & -> & -> & Hd)|(d1 & er' & -> & G)].
      - destruct n as [[|n]|er'].
        + rewrite (close_index (with_bf v1 d1) (with_bf v2 d2)) by (apply close_with; assumption). apply wcut_done. apply close_with; assumption.
        + apply IH. apply close_new. apply close_with; assumption.
        + apply wcut_done. apply close_with; assumption.
      - right. split; [exact (broken_err _ G)|]. intros s2 w2 r2. destruct (read_more _) as [b [[|n]|k]]; intros E.
        + injection E as <- <- <-. apply longer_same.
        + exact (longer_handle _ _ _ _ _ _ _ _ E).
        + injection E as <- <- <-. apply longer_same. }
    destruct (1 <? seg); [|apply G; exact Hu].
    destruct (sg _ seg) as [d|er']; [|rewrite (close_index _ _ Hu); apply wcut_done; exact Hu].
    rewrite (close_index _ _ Hu). destruct (write_all w d) as [w1 [[]|k]]; [|apply wcut_done; exact Hu].
    apply G. apply close_with; [exact Hu|]. apply near_shift. exact Hv.
Qed.
Lemma cut_long s1 s2 w : close s1 s2 -> wcut (write_long_bytes s1 w) (write_long_bytes s2 w).
Proof.
  intros H. unfold write_long_bytes, fuel_for. destruct (close_bf _ _ H) as (Hb & _ & _). fields Hb. rewrite ED. apply cut_handle. exact H.
Qed.
End Severed.
