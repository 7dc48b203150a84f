(** How much is written: a scan whose callbacks write no more than they consume, and a little on top of it each time, writes no more
    than the input is long, and that little in every round of the main loop. *)
From Verif Require Import Base U8Pool PoolSpec PoolProofs Buffer BufferSpec BufferProofs Jiter JiterProofs RJiter RJiterSpec RJiterProofs RJiterOpProofs RJiterLookProofs RJiterLongProofs RJiterIndexProofs RJiterInvProofs.
From Verif Require Import Scan ScanSpec ScanParser RJiterEndProofs ScanStack ScanProofs ScanTop EndsSpec ScanBalance ScanEnds.

(** ** The parser *)
(** What is returned is not longer than what is consumed. *)
Definition heavy {A} (g : A -> nat) (f : jop A) : Prop := forall l v a, f l = (Ok v, a) -> g v <= a.
Definition key_length (k : option bytes) : nat := match k with Some k => len k | None => 0 end.
Lemma jat_heavy {A} (g : A -> nat) n (f : jop A) : heavy g f -> heavy g (jat n f).
Proof.
  intros H l v a. unfold jat. destruct (f (skipn n l)) as [[w|[e o]] b] eqn:E; [|discriminate]. intros X. injection X as -> <-. apply H in E. lia.
Qed.
Lemma after_ws_heavy {A} (g : A -> nat) (f : jop A) : heavy g f -> heavy g (after_ws f).
Proof. intros H l v a. unfold after_ws. intros E. eapply jat_heavy; eauto. Qed.
Lemma known_bytes_heavy : heavy len j_known_bytes.
Proof.
  intros l k a. unfold j_known_bytes. destruct (scan_string 0 (skipn 1 l)) as [[n d]|[e o]]; [|discriminate]. unfold jok. intros E. injection E as <- <-. rewrite firstn_length. lia.
Qed.
Lemma object_key_heavy : heavy key_length (object_key j_known_bytes).
Proof.
  intros l v a. unfold object_key. destruct (j_known_bytes l) as [[k|e] b] eqn:Ek; [|discriminate]. apply known_bytes_heavy in Ek.
  unfold jat, after_ws, jat. destruct (skipn (run_length json_ws (skipn b l)) (skipn b l)) as [|x l']; [discriminate|].
  destruct (N.eqb x COLON); [|discriminate]. unfold jok. intros X. injection X as <- <-. cbn [key_length]. lia.
Qed.
Lemma next_key_heavy : heavy key_length (j_next_key j_known_bytes).
Proof.
  apply after_ws_heavy. intros l v a. destruct l as [|x l]; [discriminate|]. destruct (N.eqb x COMMA).
  - apply jat_heavy, after_ws_heavy. clear. intros l v a. destruct l as [|x l]; [discriminate|].
    destruct (N.eqb x QUOTE); [apply object_key_heavy|]. destruct (N.eqb x RBRACE); discriminate.
  - destruct (N.eqb x RBRACE); [|discriminate]. unfold jok. intros X. injection X as <- <-. cbn [key_length]. lia.
Qed.
Lemma known_object_heavy : heavy key_length (j_known_object j_known_bytes).
Proof.
  apply jat_heavy, after_ws_heavy. intros l v a. destruct l as [|x l]; [discriminate|]. destruct (N.eqb x QUOTE); [apply object_key_heavy|].
  destruct (N.eqb x RBRACE); [|discriminate]. unfold jok. intros X. injection X as <- <-. cbn [key_length]. lia.
Qed.
Lemma next_as_heavy {A} (g : A -> nat) expected ok (f : byte -> jop A) : (forall x, heavy g (f x)) -> heavy g (next_as expected ok f).
Proof.
  intros H. apply after_ws_heavy. intros l v a. destruct l as [|x l]; [discriminate|]. destruct (ok x); [apply H|].
  destruct (wrong_type expected x (x :: l)) as [u|e] eqn:E; [|discriminate]. unfold wrong_type in E.
  repeat match type of E with context [if ?b then _ else _] => destruct b | context [match ?b with _ => _ end] => destruct b end; discriminate.
Qed.
Lemma next_object_heavy : heavy key_length (j_next_object j_known_bytes).
Proof. apply next_as_heavy. intros _. exact known_object_heavy. Qed.
Lemma number_heavy : heavy len j_next_number_bytes.
Proof.
  apply next_as_heavy. intros _ l v a. unfold j_number. destruct (num_range l) as [n|[e o]]; [|discriminate]. unfold jok. intros X. injection X as <- <-.
  rewrite firstn_length. lia.
Qed.
Lemma loop_weight {A} (g : A -> nat) k known token (f : jop A) op s s' v : method k known token f op -> heavy g f ->
  valid s -> 2 <= rcap s -> op s = Done (s', Ok v) -> left s' + g v <= left s.
Proof.
  intros M Hh V Hc E. apply method_facts in M as M'. destruct M' as [-> Hw Hb He Hl Hbl Hd].
  destruct (loop_spec f token (eager_of k) s Hw Hb He V Hc) as (s2 & r & E2 & P). rewrite E in E2. injection E2 as <- <-.
  destruct P as (V' & C' & Q' & T' & P). pose proof (strip_le token (rest s)) as Hst. unfold left.
  destruct P as [(a & Hf & ->)|[(a & Hf & ->)|[(He' & H1 & Hf & ->)|(He' & _ & r0 & a0 & a1 & H1 & H2 & H3 & Hf & ->)]]];
    pose proof (Hh _ _ _ Hf); rewrite skipn_length.
  - pose proof (Hb _ _ _ Hf). lia.
  - pose proof (Hb _ _ _ Hf). lia.
  - lia.
  - pose proof (Hb _ _ _ Hf) as Hb1. rewrite skipn_length in Hb1. rewrite (jview_split s V), app_length. lia.
Qed.
(** ** The writer *)
(** What has been accepted, arrived or not. *)
Definition size (w : writer) : nat := len (written w).
Lemma write_size w d w' r : write_all w d = (w', r) -> size w' <= size w + len d.
Proof.
  intros E. destruct (write_all_cases w d) as (w2 & r2 & p & q & a & E2 & -> & Ew & _). rewrite E in E2. injection E2 as <- <-.
  unfold size. rewrite Ew, !app_length. lia.
Qed.
Lemma find_leading_le l : forall p e, find_leading l p = Some e -> e <= p.
Proof.
  induction p as [|p IH]; intros e; cbn [find_leading]; (destruct (nth_error l _) as [x|]; [|discriminate]); destruct (is_utf8_leading_byte x); intros E; try (injection E as <-; lia).
  apply IH in E. lia.
Qed.
Lemma long_size parser segment : bounded parser -> inert parser -> heavy len parser -> (forall b e x, segment b e = Ok x -> len x <= e - 1) ->
  forall fuel s w s' w' v, valid s -> handle_long fuel parser segment s w = Done (s', w', v) ->
  size w' <= size w + left s /\ match v with Ok _ => size w' + left s' <= size w + left s | Err _ => True end.
Proof.
  intros Hbo Hin Hhe Hseg. induction fuel as [|fuel IH]; intros s w s' w' r V E; [discriminate|].
  cbn [handle_long] in E. unfold jcall in E. pose proof (jview_length s V) as Hvl. pose proof V as (W & J & I').
  assert (Hstay : forall s2 w2 e, Done (s2, w2, Err e) = Done (s', w', r) -> size w2 <= size w + left s ->
    size w' <= size w + left s /\ match r with Ok _ => size w' + left s' <= size w + left s | Err _ => True end).
  { intros s2 w2 e X Hw. injection X as _ <- <-. auto. }
  destruct (parser (jview s)) as [[v|[er off]] a] eqn:Ep.
  { pose proof (Hbo _ _ _ Ep) as Ha. pose proof (Hhe _ _ _ Ep) as Hv.
    assert (Hl : left (mkRj (bf s) (jlen s) (jidx s + a)) + a = left s).
    { unfold left, rest. cbn [bf jidx]. rewrite !skipn_length, stream_length by exact W. lia. }
    destruct (write_all w v) as [w2 [u|e]] eqn:Ew; apply write_size in Ew.
    - injection E as <- <- <-. split; lia.
    - apply (Hstay _ _ _ E). lia. }
  apply Hin in Ep as Ha. subst a. replace (jidx s + 0) with (jidx s) in E by lia. cbn [fst] in E.
  destruct (can_retry er); [|apply (Hstay _ _ _ E); lia].
  set (s1 := mkRj (bf s) (jlen s) (jidx s)) in E.
  set (s2 := if 0 <? jidx s1 then create_new_jiter (with_bf s1 (shift_buffer (bf s1) 0 (jidx s1))) else s1) in E.
  assert (H2 : valid s2 /\ rest s2 = rest s /\ jidx s2 = 0).
  { unfold s2. cbn [s1 jidx bf]. destruct (Nat.ltb_spec 0 (jidx s)) as [Hj|Hj].
    - destruct (shift_front (bf s) (jidx s) W I') as (C & N' & L & R & S').
      cbn [with_bf create_new_jiter bf jlen jidx]. unfold valid, rest, rcap. cbn [with_bf create_new_jiter bf jlen jidx].
      split; [split; [apply (cut_wf _ _ _ _ C)|split; [reflexivity|lia]]|].
      split; [cbn [skipn]; exact S'|]. reflexivity.
    - assert (jidx s = 0) by lia. subst s1. destruct s as [b jl ji]. cbn [jidx bf jlen] in *. subst ji.
      split; [split; [exact W|split; [exact J|exact I']]|]. repeat split; auto. }
  clearbody s2. clear s1. destruct H2 as (V2 & R2 & J2).
  assert (Hstream : stream (bf s2) = rest s) by (rewrite <- R2; unfold rest; rewrite J2; reflexivity).
  assert (Hread : forall s3 w3, wf (bf s3) -> size w3 + len (stream (bf s3)) <= size w + left s ->
    match read_more (bf s3) with
      | (b, Err e) => Done (with_bf s3 b, w3, Err e)
      | (b, Ok 0) => Done (with_bf s3 b, w3, Err (from_jiter_error (current_index (with_bf s3 b)) (er, jidx s + off)))
      | (b, Ok _) => handle_long fuel parser segment (create_new_jiter (with_bf s3 b)) w3
      end = Done (s', w', r) -> size w' <= size w + left s /\ match r with Ok _ => size w' + left s' <= size w + left s | Err _ => True end).
  { intros s3 w3 W3 Hl X.
    destruct (read_more (bf s3)) as [b [[|k]|e]] eqn:Er; [apply (Hstay _ _ _ X); lia| |apply (Hstay _ _ _ X); lia].
    destruct (read_more_spec _ _ _ W3 Er) as (C & Sh & Q & N' & Ls).
    pose proof (cut_nil_stream _ _ _ C) as Hs. apply IH in X.
    2:{ split; [apply (cut_wf _ _ _ _ C)|]. cbn [create_new_jiter with_bf bf jlen jidx]. split; [reflexivity|lia]. }
    assert (Hl3 : left (create_new_jiter (with_bf s3 b)) = len (stream (bf s3))) by (unfold left, rest; cbn [create_new_jiter with_bf bf jidx skipn]; rewrite Hs; reflexivity).
    rewrite Hl3 in X. destruct X as (X1 & X2). split; [lia|]. destruct r; [lia|exact I]. }
  destruct (find_leading (buf (bf s2)) (raw_segment_end (bf s2))) as [seg|] eqn:Eg; [|discriminate].
  apply find_leading_le in Eg. pose proof (proj2 (raw_segment_bound (bf s2) (proj1 V2))) as Hraw.
  destruct (Nat.ltb_spec 1 seg) as [He1|He1].
  2:{ apply Hread in E; auto; [apply V2|]. rewrite Hstream. apply le_n. }
  destruct (segment (buf (bf s2)) seg) as [x|er2] eqn:Ex; [|apply (Hstay _ _ _ E); lia]. apply Hseg in Ex.
  assert (Hnb : n_bytes (bf s2) <= left s) by (unfold left; rewrite <- Hstream, stream_length by apply V2; lia).
  destruct (write_all w x) as [w2 [u|e]] eqn:Ew; apply write_size in Ew; [|apply (Hstay _ _ _ E); lia].
  destruct (shift_spec (bf s2) 1 seg (proj1 V2)) as (C & N' & Ld & Rd').
  apply Hread in E; auto; cbn [with_bf bf].
  - apply (cut_wf _ _ _ _ C).
  - rewrite stream_length by apply (cut_wf _ _ _ _ C). rewrite Rd', N'. unfold left. rewrite <- Hstream, (stream_length (bf s2)) by apply V2. lia.
Qed.
Lemma write_long_size s w s' w' v : valid s -> write_long_bytes s w = Done (s', w', v) ->
  size w' <= size w + left s /\ match v with Ok _ => size w' + left s' <= size w + left s | Err _ => True end.
Proof.
  intros V E. apply (long_size j_known_bytes bytes_segment known_bytes_bounded known_bytes_inert known_bytes_heavy) with (2 := V) in E; [exact E|].
  intros b e x X. unfold bytes_segment in X. injection X as <-. rewrite firstn_length. lia.
Qed.

(** ** The scanner *)
Section Thrift.
Context {B : Type} (c : nat) (q : bool) (amount : B -> nat) (cost : nat -> nat) (I : nat -> B -> Prop) (cb : callbacks B).
(** The callbacks: [I n] holds after [n] of them, and what the next one writes is at most what it consumes, the key if it is called
    for one, and [cost n]. *)
Definition modest_result (n w : nat) (x : outcome (rj * B * stream_op)) : Prop :=
  match x with
  | Done (_, u', OpError _) => amount u' <= w
  | Done (r', u', _) => ready c q r' /\ amount u' + left r' <= w /\ I (S n) u'
  | _ => True
  end.
Record modest : Prop := {
  mo_begin : forall n name x r u, ready c q r -> I n u ->
    let w := amount u + left r + cost n + match name with PNone => len (hd [] (names x)) | _ => 0 end in
    let '(u1, a) := find_action cb name x u in
    match a with
    | None => amount u1 + left r <= w /\ I (S n) u1
    | Some act => modest_result n w (act r u1)
    end;
  mo_end : forall n name x u, I n u ->
    let '(u1, a) := find_end_action cb name x u in
    match a with
    | None => amount u1 <= amount u + cost n /\ I (S n) u1
    | Some act =>
        match act u1 with
        | Done (u', Ok _) => amount u' <= amount u + cost n /\ I (S n) u'
        | Done (u', Err _) => amount u' <= amount u + cost n
        | _ => True
        end
    end }.
Context (Hmo : modest) (Hcost : forall n m, n <= m -> cost n <= cost m) (Hmono : forall n m u, n <= m -> I n u -> I m u) (o : options) (d : dims) (es0 : list entry).
Context (Hc : 8 <= c) (Htok : Forall (fun t => 1 <= len t) (sse_tokens o)) (Hq : sse_tokens o = [] \/ q = true).

(** After [n] callbacks: at most [w] bytes written or still to be read. *)
Definition holds_to (n w : nat) (s : sstate B) : Prop := ready c q (parser s) /\ amount (user s) + left (parser s) <= w /\ I n (user s).
Definition keeps_to {X} (n w : nat) (x : sres B X) (Q : sstate B -> X -> Prop) : Prop :=
  match x with
  | Done (s, Ok v) => holds_to n w s /\ Q s v
  | Done (s, Err _) => amount (user s) <= w
  | _ => True
  end.
Lemma keeps_sbind {X Y} n w m w' (x : sres B X) (f : sstate B -> X -> sres B Y) Q R : keeps_to n w x Q -> w <= w' ->
  (forall s v, holds_to n w s -> Q s v -> keeps_to m w' (f s v) R) -> keeps_to m w' (sbind x f) R.
Proof. intros H Hw Hf. destruct x as [[s [v|e]]| |]; cbn in *; auto; [destruct H; auto|lia]. Qed.
Lemma keeps_up {X} n w m w' (x : sres B X) (Q R : sstate B -> X -> Prop) : keeps_to n w x Q -> n <= m -> w <= w' -> (forall s v, Q s v -> R s v) -> keeps_to m w' x R.
Proof.
  intros H Hn Hw HR. destruct x as [[s [v|e]]| |]; cbn in *; auto; [|lia]. destruct H as ((H1 & H2 & H3) & H4). split; [|auto].
  split; [exact H1|]. split; [lia|]. eauto.
Qed.
Lemma keeps_begin n w k name s : (name = PNone -> forall x, context_of (stack s) = Done x -> len (hd [] (names x)) <= k) -> holds_to n w s -> 
  keeps_to (S n) (w + cost n + k) (run_begin cb name s) (fun s' _ => stack s' = stack s).
Proof.
  intros Hk (HR & Hw & HI). unfold run_begin. destruct (context_of (stack s)) as [x| |]; cbn [obind].
  2,3: exact Logic.I.
  assert (Hk' : match name with PNone => len (hd [] (names x)) | _ => 0 end <= k) by (destruct name; try lia; apply Hk; reflexivity).
  pose proof (mo_begin Hmo n name x (parser s) (user s) HR HI) as H.
  destruct (find_action cb name _ (user s)) as [u1 [act|]].
  - unfold modest_result in H. destruct (act (parser s) u1) as [[[r' u'] op]| |]; cbn [obind]; [|exact H|exact H].
    destruct op as [| |m]; cbn [keeps_to parser user stack].
    + destruct H as (H1 & H2 & H3). split; [|reflexivity]. split; [exact H1|]. cbn [user parser]. split; [lia|exact H3].
    + destruct H as (H1 & H2 & H3). split; [|reflexivity]. split; [exact H1|]. cbn [user parser]. split; [lia|exact H3].
    + lia.
  - destruct H as (H2 & H3). cbn [keeps_to]. split; [|reflexivity]. split; [exact HR|]. cbn [user parser]. split; [lia|exact H3].
Qed.
Lemma keeps_action n w name x s u1 a p : holds_to n w s -> find_end_action cb name x (user s) = (u1, a) ->
  keeps_to (S n) (w + cost n) (run_end_action a (mkS (parser s) u1 p)) (fun s' _ => stack s' = p).
Proof.
  intros (HR & Hw & HI) E. pose proof (mo_end Hmo n name x (user s) HI) as H. rewrite E in H. destruct a as [act|]; cbn [run_end_action user].
  - destruct (act u1) as [[u' [[]|m]]| |]; cbn [obind keeps_to user stack parser]; auto.
    + destruct H as (H1 & H2). split; [|reflexivity]. split; [exact HR|]. cbn [user parser]. split; [lia|exact H2].
    + lia.
  - destruct H as (H1 & H2). split; [|reflexivity]. split; [exact HR|]. cbn [user parser]. split; [lia|exact H2].
Qed.
Lemma keeps_end n w name s : holds_to n w s -> keeps_to (S n) (w + cost n) (run_end cb name s) (fun s' _ => stack s' = stack s).
Proof.
  intros H. unfold run_end, look_up_end. destruct (context_of (stack s)) as [x| |]; cbn [obind]; [|exact Logic.I|exact Logic.I].
  destruct (find_end_action cb name _ (user s)) as [u1 a] eqn:E. cbn [obind]. exact (keeps_action n w _ _ s u1 a (stack s) H E).
Qed.
Lemma keeps_parse {X} n w k known token (f : jop X) op (g : X -> nat) s : method k known token f op -> heavy g f -> holds_to n w s ->
  keeps_to n w (parse op s) (fun s' v => stack s' = stack s /\ holds_to n (w - g v) s' /\ g v <= w).
Proof.
  intros M Hh (HR & Hw & HI). unfold parse. destruct (method_ready c q k known token f op (parser s) M ltac:(lia) HR) as (r & v & E & P).
  rewrite E. cbn [obind]. destruct v as [v|e]; [|cbn; lia]. destruct P as (P1 & P2 & _).
  pose proof (loop_weight g k known token f op (parser s) r v M Hh (proj1 HR) ltac:(rewrite (proj1 (proj2 HR)); lia) E) as P3.
  cbn [keeps_to user parser stack]. split; [split; [exact P1|cbn [user parser]; split; [lia|exact HI]]|]. split; [reflexivity|].
  split; [|lia]. split; [exact P1|]. cbn [user parser]. split; [lia|exact HI].
Qed.
Lemma keeps_position n w m s : holds_to n w s -> keeps_to n w (top_position m s) (fun _ _ => True).
Proof.
  intros H. unfold top_position. destruct (top_assoc_obj (stack s) pos_ty) as [[a|]| |]; cbn [obind]; [|destruct H as (_ & H & _); cbn; lia|exact Logic.I|exact Logic.I].
  destruct (pos_of a); cbn; auto.
Qed.
(** The names on the stack are as the scanner expects them (ScanBalance.v). *)
Notation placed := (@ScanBalance.held B d es0).
Notation full es := (es ++ top_entry :: es0).
Lemma keeps_object n w pos s : pos = ObjectBegin \/ pos = ObjectMiddle -> placed pos s -> holds_to n w s ->
  keeps_to (2 + n) (w + 2 * cost (S n)) (handle_object cb pos s) (fun _ _ => True).
Proof.
  intros Hp (es & (Hi & Hf) & Hn) H. unfold handle_object. pose proof (Hcost n (S n) ltac:(lia)) as Hle.
  assert (HK : forall es s w k op token (f : jop (option bytes)), method k false (Some token) f op -> heavy key_length f ->
      names_are d es0 es (stack s) -> holds_to (S n) w s -> keeps_to (2 + n) (w + cost (S n)) (sbind (parse op s)
      (fun s keyr =>
    match keyr with
    | None =>
        sbind (run_end cb PObject s) (fun s _ => top_position "Context stack is empty when ending object" s)
    | Some key =>
        do (p, pushed) <- push_assoc (stack s) pos_ty [pos_code ObjectMiddle] key;
        let s := mkS (parser s) (user s) p in
        match pushed with
        | Err (SliceLimitExceeded max) => Done (s, Err (MaxNestingExceeded (current_index (parser s)) max))
        | Err _ => Done (s, Err (InternalError (current_index (parser s)) "Failed to push key to context pool"))
        | Ok _ =>
            sbind (run_begin cb PNone s)
              (fun s consumed => Done (s, Ok (if consumed then ObjectMiddle else ObjectBetweenKV)))
        end
    end)) (fun _ _ => True)).
  { clear - Hmo Hcost Hmono Hc Htok Hq. intros es s w k op token f M Hh Hn H. eapply keeps_sbind; [apply (keeps_parse _ _ _ _ _ _ _ key_length _ M Hh H)|lia|].
    intros s1 keyr H1 (Es & H2 & Hle). destruct keyr as [key|].
    - cbn [key_length] in *. rewrite Es. destruct (stack_push d (stack s) _ (pos_code ObjectMiddle) key Hn) as (p & r & Ep & Hst). rewrite Ep. cbn [obind].
      destruct (admit_name d (path_of (full es)) key) as [x|].
      + destruct Hst as (_ & e & -> & _). destruct H1 as (_ & H1 & _). destruct e; cbn; lia.
      + destruct Hst as (-> & Hst). eapply keeps_sbind.
        * apply (keeps_begin (S n) (w - len key) (len key) PNone (mkS (parser s1) (user s1) p)); [|exact H2].
          intros _ x Hx. cbn [stack] in Hx. rewrite (stack_context _ _ _ Hst) in Hx. injection Hx as <-. cbn. lia.
        * lia.
        * intros s2 v2 H3 _. cbn. split; [|exact Logic.I]. destruct H3 as (A1 & A2 & A3). split; [exact A1|]. split; [lia|exact A3].
    - eapply keeps_sbind; [apply (keeps_end (S n) w PObject s1 H1)|lia|]. intros s2 v2 H3 _. apply (keeps_position _ _ _ _ H3). }
  destruct Hp as [-> | ->].
  - change (pos_eqb ObjectBegin ObjectBegin) with true. cbv beta zeta iota.
    eapply keeps_sbind; [apply (keeps_begin n w 0 PObject s); [discriminate|exact H]|lia|]. intros s1 consumed H1 Es.
    assert (H1' : holds_to (S n) (w + cost (S n)) s1) by (destruct H1 as (A1 & A2 & A3); split; [exact A1|split; [lia|exact A3]]). destruct consumed.
    + eapply keeps_up; [apply (keeps_position _ _ _ _ H1')|lia|lia|auto].
    + cbn [sbind]. eapply keeps_up; [apply (HK es s1 (w + cost (S n)) _ _ _ _ m_next_object_bytes next_object_heavy); [unfold names_are; rewrite Es; exact Hn|exact H1']|lia|lia|auto].
  - change (pos_eqb ObjectMiddle ObjectBegin) with false. cbv beta zeta iota.
    destruct Hf as (k & es' & ->). eapply keeps_sbind with (n := S n) (w := w + cost (S n)) (Q := fun s' (_ : unit) => names_are d es0 es' (stack s')).
    + unfold look_up_end. rewrite (stack_context _ _ _ Hn). cbn [obind].
      destruct (find_end_action cb PNone _ (user s)) as [u1 a] eqn:E. cbn [obind stack parser user].
      destruct (stack_pop _ _ _ _ _ Hn) as (p & Ep & Hp). rewrite Ep. cbn [obind].
      eapply keeps_up; [apply (keeps_action n w _ _ s u1 a p H E)|lia|lia|]. intros s' v ->. exact Hp.
    + lia.
    + intros s1 v1 H1 Hn1. eapply keeps_up; [apply (HK es' s1 (w + cost (S n)) _ _ _ _ m_next_key_bytes next_key_heavy Hn1 H1)|lia|lia|auto].
Qed.
Lemma heavy_zero {A} (f : jop A) : heavy (fun _ => 0) f.
Proof. intros l v a _. lia. Qed.
Lemma keeps_array n w pos s : pos = ArrayBegin \/ pos = ArrayMiddle -> holds_to n w s ->
  keeps_to (2 + n) (w + 2 * cost (S n)) (handle_array cb pos s) (fun s' r => fst r <> None -> holds_to (S n) (w + cost n) s').
Proof.
  intros Hp H. unfold handle_array. pose proof (Hcost n (S n) ltac:(lia)) as Hle.
  assert (HP : forall m n w s, holds_to n w s -> keeps_to n w (sbind (top_position m s) (fun s p => Done (s, Ok (@None byte, p)))) (fun _ r => fst r = None)).
  { clear - Hmo Hcost Hmono Hc Htok Hq. intros m n w s H. eapply keeps_sbind; [apply (keeps_position n w m s H)|lia|]. intros s1 p H1 _. cbn. auto. }
  assert (HK : forall s n w k known op token (f : jop (option byte)), method k known (Some token) f op -> holds_to n w s ->
    keeps_to (S n) (w + cost n) (sbind (parse op s)
      (fun s peeked =>
    match peeked with
    | Some x => Done (s, Ok (Some x, ArrayMiddle))
    | None =>
        do (p, popped) <- pop_assoc (stack s) pos_ty;
        let s := mkS (parser s) (user s) p in
        match popped with
        | None => Done (s, Err (InternalError (current_index (parser s)) "Context stack is empty when ending array"))
        | Some _ => sbind (run_end cb PArray s) (fun s _ => 
            sbind (top_position "Context stack is empty when ending array" s) (fun s p => Done (s, Ok (None, p))))
        end
    end)) (fun s' r => fst r <> None -> holds_to n w s')).
  { clear - HP Hmo Hcost Hmono Hc Htok Hq. intros s n w k known op token f M H. eapply keeps_sbind; [apply (keeps_parse _ _ _ _ _ _ _ (fun _ => 0) _ M (heavy_zero f) H)|lia|].
    intros s1 keyr H1 (Es & _ & _). destruct keyr as [x|].
    - cbn [keeps_to]. split; [|auto]. destruct H1 as (A1 & A2 & A3). split; [exact A1|]. split; [lia|]. apply (Hmono n); auto.
    - destruct (pop_assoc (stack s1) pos_ty) as [[p [v|]]| |]; cbn [obind]; try exact Logic.I.
      + eapply keeps_sbind; [apply (keeps_end n w PArray (mkS (parser s1) (user s1) p)); exact H1|lia|]. intros s2 v2 H3 _.
        eapply keeps_up; [apply (HP _ _ _ _ H3)|lia|lia|]. intros s' r E E'. congruence.
      + destruct H1 as (_ & H1 & _). cbn. lia. }
  destruct Hp as [-> | ->].
  - change (pos_eqb ArrayBegin ArrayBegin) with true. cbv beta zeta iota.
    eapply keeps_sbind; [apply (keeps_begin n w 0 PArray s); [discriminate|exact H]|lia|]. intros s1 consumed H1 Es. replace (w + cost n + 0) with (w + cost n) in H1 by lia. destruct consumed.
    + eapply keeps_up; [apply (HP _ _ _ _ H1)|lia|lia|]. intros s' r E E'. congruence.
    + destruct (push_assoc (stack s1) pos_ty _ _) as [[p [v|e]]| |]; cbn [obind]; try exact Logic.I.
      * eapply keeps_up; [apply (HK (mkS (parser s1) (user s1) p) (S n) (w + cost n) _ _ _ _ _ m_known_array); exact H1|lia|lia|auto].
      * destruct H1 as (_ & H1 & _). cbn. lia.
  - change (pos_eqb ArrayMiddle ArrayBegin) with false. cbv beta zeta iota.
    eapply keeps_up; [apply (HK s n w _ _ _ _ _ m_array_step H)|lia|lia|]. intros s' r Hr E. destruct (Hr E) as (A1 & A2 & A3). split; [exact A1|].
    split; [lia|]. apply (Hmono n); auto.
Qed.
(** One round of the main loop. *)
Definition verdict_keeps (n w : nat) (v : sverdict B) : Prop :=
  match v with
  | Done (s, Continue _) => holds_to n w s
  | Done (s, Return _) => amount (user s) <= w
  | _ => True
  end.
Lemma keeps_vbind {X} n w m w' (x : sres B X) f Q : keeps_to n w x Q -> w <= w' -> (forall s v, holds_to n w s -> Q s v -> verdict_keeps m w' (f s v)) ->
  verdict_keeps m w' (vbind x f).
Proof. intros H Hw Hf. destruct x as [[s [v|e]]| |]; cbn in *; auto; [destruct H; auto|lia]. Qed.
Lemma verdict_up n w m w' v : verdict_keeps n w v -> n <= m -> w <= w' -> verdict_keeps m w' v.
Proof.
  intros H Hn Hw. destruct v as [[s [p|r]]| |]; cbn in *; auto; [|lia]. destruct H as (H1 & H2 & H3). split; [exact H1|]. split; [lia|]. eauto.
Qed.
Lemma no_halts : stop_early o = true \/ forall r, ~ no_halt r.
Proof. right. intros r H. exact H. Qed.
Lemma keeps_value n w pos x s : holds_to n w s -> verdict_keeps (S n) (w + cost n) (scan_value cb o pos x s).
Proof.
  intros H. unfold scan_value.
  assert (HB : forall p, verdict_keeps (S n) (w + cost n) (Done (s, Continue p))) by (intros p; apply (verdict_up n w); [exact H|lia|lia]).
  destruct (N.eqb x LBRACK); [apply HB|]. destruct (N.eqb x LBRACE); [apply HB|]. clear HB.
  eapply keeps_vbind; [apply (keeps_begin n w 0 PAtom s); [discriminate|exact H]|lia|]. intros s1 consumed (HR & Hw & HI) _.
  replace (w + cost n + 0) with (w + cost n) in Hw by lia. destruct consumed; [split; [exact HR|]; auto|].
  destruct (skip_goes c q no_halt o Hc Hq no_halts x s1 (left (parser s1)) (conj HR (le_n _))) as (s2 & r & E & Es2 & Eu2 & P). cbv beta zeta. rewrite E. cbn [obind].
  assert (HC : forall s', user s' = user s1 -> stays c q (left (parser s1)) s' -> forall p, verdict_keeps (S n) (w + cost n) (Done (s', Continue p))).
  { intros s' Eu (HR' & Hl) p. split; [exact HR'|]. rewrite Eu. split; [lia|exact HI]. }
  assert (HE : forall s' e, user s' = user s1 -> verdict_keeps (S n) (w + cost n) (Done (s', Return e))) by (intros s' e Eu; cbn; rewrite Eu; lia).
  destruct r as [v|e]; [apply HC; [exact Eu2|apply P]|].
  destruct (_ || _)%bool; [|cbn [obind]; apply HE, Eu2].
  destruct (tokens_goes c q no_halt o Hc Hq no_halts (sse_tokens o) Htok s2 (left (parser s1))) as (s3 & b & E3 & Es3 & Eu3 & P3).
  { destruct Hq as [Hq'|Hq']; [left; exact Hq'|right]. auto. }
  rewrite E3. cbn [obind]. destruct b; [|apply HE; congruence]. apply HC; [congruence|]. apply (P3 eq_refl).
Qed.
Lemma keeps_iter n w pos s : placed pos s -> holds_to n w s -> verdict_keeps (2 + n) (w + 2 * cost (S n)) (scan_iter cb o pos s).
Proof.
  intros Hpl H. pose proof (Hcost n (S n) ltac:(lia)) as Hle.
  assert (HP : verdict_keeps (2 + n) (w + 2 * cost (S n)) (
      do (r, v) <- peek (parser s);
      let s := mkS r (user s) (stack s) in
      match v with
      | Ok x => scan_value cb o pos x s
      | Err e =>
          match err_type e with
          | JsonError EofWhileParsingValue =>
              if pos_eqb pos Top then vbind (parse finish s) (fun s _ => Done (s, Return (Ok tt)))
              else Done (s, Return (Err (UnbalancedJson (current_index r))))
          | _ => Done (s, Return (Err (RJiterError e)))
          end
      end)).
  { destruct H as (HR & Hw & HI). destruct (method_ready c q _ _ _ _ _ (parser s) m_peek ltac:(lia) HR) as (r & v & E & P). rewrite E. cbn [obind]. cbv zeta. destruct v as [x|e].
    - destruct P as (P1 & P2 & _). eapply verdict_up; [apply (keeps_value n w pos x (mkS r (user s) (stack s)))|lia|lia].
      split; [exact P1|]. cbn [user parser]. split; [lia|exact HI].
    - assert (HE : forall v, verdict_keeps (2 + n) (w + 2 * cost (S n)) (Done (mkS r (user s) (stack s), Return v))) by (intros v; cbn; lia).
      destruct (err_type e) as [j| | |]; try apply HE. destruct j; try apply HE. destruct (pos_eqb pos Top); [|apply HE].
      unfold parse. cbn [parser user stack]. destruct (finish r) as [[r' [v|e']]| |]; cbn; try exact Logic.I; lia. }
  destruct pos; cbn [scan_iter]; try exact HP.
  - eapply keeps_vbind; [apply (keeps_object n w ObjectBegin s); auto|lia|]. intros s1 p H1 _. exact H1.
  - eapply keeps_vbind; [apply (keeps_object n w ObjectMiddle s); auto|lia|]. intros s1 p H1 _. exact H1.
  - eapply keeps_vbind; [apply (keeps_array n w ArrayBegin s); auto|lia|]. intros s1 [[x|] p] H1 H2; cbn [fst] in *; [|exact H1].
    specialize (H2 ltac:(discriminate)). destruct p; try (destruct H1 as (_ & H1 & _); cbn; lia).
    eapply verdict_up; [apply (keeps_value _ _ ArrayMiddle x s1 H2)|lia|lia].
  - eapply keeps_vbind; [apply (keeps_array n w ArrayMiddle s); auto|lia|]. intros s1 [[x|] p] H1 H2; cbn [fst] in *; [|exact H1].
    specialize (H2 ltac:(discriminate)). destruct p; try (destruct H1 as (_ & H1 & _); cbn; lia).
    eapply verdict_up; [apply (keeps_value _ _ ArrayMiddle x s1 H2)|lia|lia].
Qed.
(** The whole scan. *)
Context (steady : bool) (K : place -> list entry -> B -> Prop) (Hco : cooperative c q true steady no_halt K cb).
Lemma stands_placed p s : stands K d es0 p s -> placed p s.
Proof. intros (es & H1 & H2 & _). exists es. auto. Qed.
Lemma keeps_loop fuel : forall progressed pos s n w m, stands K d es0 pos s -> holds_to n w s -> weighs pos (left (parser s)) < m ->
  match scan_loop cb o fuel progressed pos s with Done (s', _) => amount (user s') <= w + m * (2 * cost (n + 2 * m)) | _ => True end.
Proof.
  induction fuel as [|fuel IH]; intros progressed pos s n w m Hst H Hm; [exact Logic.I|]. cbn [scan_loop].
  destruct (progressed && stop_early o && pos_eqb pos Top)%bool; [destruct H as (_ & H & _); lia|].
  pose proof (iter_goes c q true steady no_halt K cb Hco o d es0 Hc Htok Hq no_halts pos s (left (parser s)) Hst ltac:(split; [apply H|apply le_n])) as Hi.
  pose proof (keeps_iter n w pos s (stands_placed _ _ Hst) H) as Hk. pose proof (Hcost (S n) (n + 2 * m) ltac:(lia)) as Hle.
  destruct m as [|m]; [lia|].
  destruct (scan_iter cb o pos s) as [[s1 [p|r]]| |]; cbn [advances verdict_keeps] in *; [| |exact Logic.I|exact Logic.I].
  - destruct Hi as (H1 & H2 & H3). destruct (H3 eq_refl) as [H4|(_ & _ & H4)]; [|destruct H4].
    specialize (IH true p s1 (2 + n) (w + 2 * cost (S n)) m H1 Hk ltac:(lia)). destruct (scan_loop cb o fuel true p s1) as [[s2 v]| |]; auto.
    replace (2 + n + 2 * m) with (n + 2 * S m) in IH by lia. lia.
  - destruct r; lia.
Qed.
Lemma keeps_scan fuel s n w : stack_of d (stack s) es0 -> holds_to n w s -> K Between (top_entry :: es0) (user s) ->
  match scan cb o fuel s with Done (s', _) => amount (user s') <= w + (2 * left (parser s) + 2) * (2 * cost (n + 2 * (2 * left (parser s) + 2))) | _ => True end.
Proof.
  intros Hst H Hk. destruct (scan_enters cb o d s es0 Hst) as (p & E). destruct (admit_name d (path_of es0) (bs "#top")).
  - rewrite E. cbn [user]. destruct H as (_ & H & _). lia.
  - destruct E as (Hp & E). rewrite E. apply (keeps_loop fuel false Top (mkS (parser s) (user s) p) n w (2 * left (parser s) + 2)); [|exact H|cbn; lia].
    exists []. split; [split; [constructor|reflexivity]|]. split; [exact Hp|exact Hk].
Qed.
End Thrift.
