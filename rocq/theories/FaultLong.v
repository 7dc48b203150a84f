(** Proofs about long strings that are not JSON. *)
From Verif Require Import Base Buffer BufferSpec Jiter RJiter RJiterSpec UnicodeSpec FaultSpec.
From Verif Require Import BufferProofs JiterProofs RJiterProofs RJiterOpProofs RJiterLongProofs UnicodeProofs FaultProofs.

Lemma long_text_utf8 cells T : long_text cells T -> is_utf8 T.
Proof. intros [(_ & H)|(_ & H & _)]; [exact H|apply utf8_ascii; exact H]. Qed.
(** A fault of at most six bytes; what there can be of it if it is not all there. *)
Lemma brief_part f e o a q : fault f e o -> len f <= 6 -> f = a ++ q -> q <> [] -> a = [] \/ a = [92%N] \/ exists h, a = 92%N :: 117%N :: h /\ len h < 4.
Proof.
  intros H Hl E Hq. destruct a as [|x [|y h]]; [auto| |].
  - destruct H; cbn [app] in E; injection E as E1 E2; subst; auto. destruct Hq. auto.
  - right. right. exists h. assert (Hn : len (x :: y :: h) < 6) by (rewrite E, app_length in Hl; destruct q; [congruence|cbn [List.length] in *; lia]).
    destruct H; cbn [app] in E; try discriminate; injection E as E1 E2; subst; try (split; [reflexivity|cbn [List.length] in Hn; lia]).
    destruct h; [destruct q; [congruence|discriminate]|discriminate].
Qed.
(** Where the text is cut if it is all in the buffer, with a part of the fault behind it. *)
Lemma segment_cut_part b T d a :
  wf b -> 8 <= cap b -> n_bytes b = S (len T + len a) ->
  firstn (n_bytes b) (buf b) = QUOTE :: T ++ a ->
  a = [92%N] \/ (exists h, a = 92%N :: 117%N :: h /\ len h < 4) ->
  json_text false T d -> is_utf8 T ->
  exists e, find_leading (buf b) (raw_segment_end b) = Some e /\
    ((e <= 1 /\ n_bytes b < cap b) \/
     (1 < e <= S (len T) /\ firstn e (buf b) = QUOTE :: firstn (e - 1) T /\
      is_utf8 (skipn (e - 1) T) /\
      exists d1 d2, json_text false (firstn (e - 1) T) d1 /\ json_text false (skipn (e - 1) T) d2 /\ d = d1 ++ d2 /\
        (is_utf8 d -> is_utf8 d1 /\ is_utf8 d2))).
Proof.
  intros W Hc Hn Hf Ha HT Hu. unfold wf, cap in *.
  assert (Ha' : exists a', a = BACKSLASH :: a' /\ len a' < 5 /\ (forall y a'', a' = y :: a'' -> y = 117%N)).
  { destruct Ha as [->|(h & -> & Hh)]; eexists; (split; [reflexivity|]); (split; [cbn [List.length]; lia|]); intros y a'' E; [discriminate|congruence]. }
  clear Ha. destruct Ha' as (a' & -> & Ha & Hy).
  assert (Hfirst : forall e, e <= S (len T) -> 1 <= e -> firstn e (buf b) = QUOTE :: firstn (e - 1) T).
  { intros e He He1. replace (firstn e (buf b)) with (firstn e (firstn (n_bytes b) (buf b))).
    - rewrite Hf. destruct e; [lia|]. cbn [firstn Nat.sub]. rewrite Nat.sub_0_r. rewrite firstn_app_le by lia. reflexivity.
    - rewrite firstn_firstn. f_equal. lia. }
  assert (Hnth : forall i, 1 <= i < n_bytes b -> nth_error (buf b) i = nth_error (T ++ BACKSLASH :: a') (i - 1)).
  { intros i Hi. rewrite <- (firstn_skipn (n_bytes b) (buf b)), Hf. rewrite nth_error_app1.
    - destruct i; [lia|]. cbn [nth_error Nat.sub]. rewrite Nat.sub_0_r. reflexivity.
    - rewrite <- Hf, firstn_length. lia. }
  unfold raw_segment_end. rewrite Hf.
  assert (Hrun : run_length (fun x => negb (N.eqb x BACKSLASH)) (QUOTE :: T ++ BACKSLASH :: a') = S (run_length no_bs T)).
  { cbn [run_length]. change (negb (N.eqb QUOTE BACKSLASH)) with true. cbn iota. f_equal. clear. induction T as [|x T IH]; [reflexivity|].
    cbn [app run_length]. unfold no_bs at 1. destruct (negb (N.eqb x BACKSLASH)); [f_equal; exact IH|reflexivity]. }
  rewrite Hrun. clear Hrun. cbn zeta.
  pose proof (run_length_le no_bs T) as Hrl. cbn [List.length] in Hn.
  destruct (Nat.ltb_spec (S (run_length no_bs T)) (n_bytes b)) as [Hlt|?]; [|lia].
  assert (Hbs : nth_error (T ++ BACKSLASH :: a') (run_length no_bs T) = Some BACKSLASH).
  { clear. induction T as [|x T IH]; [reflexivity|]. cbn [app run_length]. unfold no_bs at 1. destruct (N.eqb_spec x BACKSLASH) as [->|]; [reflexivity|]. exact IH. }
  assert (Hhead : forall t, is_utf8 t -> exists z t', t ++ BACKSLASH :: a' = z :: t' /\ leading z).
  { intros [|z t] Ht; [do 2 eexists; split; [reflexivity|reflexivity]|]. do 2 eexists. split; [reflexivity|exact (utf8_head _ _ Ht)]. }
  destruct (Nat.ltb_spec 1 (S (run_length no_bs T))) as [Hr|Hr].
  { exists (S (run_length no_bs T)). split.
    - apply (find_leading_here _ _ BACKSLASH); [|reflexivity]. rewrite Hnth by lia. cbn [Nat.sub]. rewrite Nat.sub_0_r. exact Hbs.
    - right. split; [lia|]. split; [apply Hfirst; lia|]. cbn [Nat.sub]. rewrite Nat.sub_0_r.
      assert (Hu1 : is_utf8 (firstn (run_length no_bs T) T)).
      { destruct (Nat.eq_dec (run_length no_bs T) (len T)) as [E|E]; [rewrite E, firstn_all; exact Hu|].
        rewrite nth_error_app1 in Hbs by lia. apply nth_error_split in Hbs as (l1 & l2 & E1 & E2). rewrite <- E2. rewrite E1. rewrite firstn_app_all.
        eapply (utf8_cut _ _ BACKSLASH l2 (Nat.le_refl _)); [|reflexivity]. rewrite <- E1. exact Hu. }
      assert (Hu2 : is_utf8 (skipn (run_length no_bs T) T)) by (apply (utf8_app _ _ _ (Nat.le_refl _) Hu1); rewrite firstn_skipn; exact Hu).
      split; [exact Hu2|]. destruct (text_split false T d HT (run_length no_bs T) (Nat.le_refl _)) as (H1 & d2 & H2 & ->).
      eexists. exists d2. split; [exact H1|]. split; [exact H2|]. split; [reflexivity|]. intros Hd. split; [exact Hu1|]. apply (utf8_app _ _ _ (Nat.le_refl _) Hu1). exact Hd. }
  assert (Hr0 : run_length no_bs T = 0) by lia. rewrite Hr0 in *. clear Hr.
  assert (H1 : find_leading (buf b) 1 = Some 1) by (apply (find_leading_here _ _ BACKSLASH); [rewrite Hnth by lia; exact Hbs|reflexivity]).
  destruct T as [|x T].
  { cbn [List.length app] in *. destruct (Nat.ltb_spec (n_bytes b) 3) as [Hn3|Hn3]; [exists 1; split; [exact H1|left; lia]|].
    destruct a' as [|y a'']; [cbn [List.length] in *; lia|]. rewrite (Hy _ _ eq_refl) in *.
    match goal with |- context [nth 2 ?l ?z] => replace (nth 2 l z) with 117%N by (symmetry; apply nth_error_nth; rewrite Hnth by lia; reflexivity) end.
    change (negb (N.eqb 117%N 117%N) && negb (N.eqb 117%N 85%N))%bool with false. cbn iota.
    destruct (Nat.ltb_spec (n_bytes b) 7) as [Hn7|Hn7]; [|lia]. exists 1. split; [exact H1|left; lia]. }
  cbn [app nth_error] in Hbs. injection Hbs as ->.
  inversion HT as [| |y c t d' He Ht|a0 b0 c0 e0 n t d' Hu4 Hlo Hhi Ht|? ? ? ? ? ? ? ? ? ? ? ? Habs]; subst; [congruence| | |discriminate].
  - assert (Hya : (negb (N.eqb y 117) && negb (N.eqb y 85))%bool = true).
    { unfold simple_escape in He. destruct (N.eqb_spec y 117) as [->|]; [discriminate|]. destruct (N.eqb_spec y 85) as [->|]; [discriminate|]. reflexivity. }
    assert (Hyb : (y < 128)%N) by (unfold simple_escape in He; step_cases He; try discriminate; lia).
    apply utf8_tail_ascii in Hu; [|reflexivity]. apply utf8_tail_ascii in Hu; [|exact Hyb].
    cbn [List.length] in *. destruct (Nat.ltb_spec (n_bytes b) 3) as [?|_]; [lia|].
    match goal with |- context [nth 2 ?l ?z] => replace (nth 2 l z) with y by (symmetry; apply nth_error_nth; rewrite Hnth by lia; reflexivity) end.
    rewrite Hya. destruct (Hhead t Hu) as (z & t' & Ez & Hz).
    exists 3. split; [apply (find_leading_here _ _ z); [rewrite Hnth by lia; change (3 - 1) with 2; cbn [app nth_error]; rewrite Ez; reflexivity|exact Hz]|].
    right. split; [lia|]. split; [apply Hfirst; cbn [List.length]; lia|]. change (3 - 1) with 2. cbn [skipn firstn].
    split; [exact Hu|]. exists [c], d'. split; [constructor; [exact He|constructor]|]. split; [exact Ht|]. split; [reflexivity|]. intros Hd.
    assert (Hu1 : is_utf8 [c]).
    { apply utf8_ascii. repeat constructor. unfold simple_escape in He. step_cases He; injection He as <-; lia. }
    split; [exact Hu1|]. apply (utf8_app _ _ _ (Nat.le_refl _) Hu1). exact Hd.
  - destruct (u4_ascii _ _ _ _ _ Hu4) as (Hx1 & Hx2 & Hx3 & Hx4).
    do 6 (apply utf8_tail_ascii in Hu; [|first [reflexivity|assumption]]).
    cbn [List.length] in *. destruct (Nat.ltb_spec (n_bytes b) 3) as [?|_]; [lia|].
    match goal with |- context [nth 2 ?l ?z] => replace (nth 2 l z) with 117%N by (symmetry; apply nth_error_nth; rewrite Hnth by lia; reflexivity) end.
    change (negb (N.eqb 117%N 117%N) && negb (N.eqb 117%N 85%N))%bool with false. cbn iota.
    destruct (Nat.ltb_spec (n_bytes b) 7) as [?|_]; [lia|]. destruct (Hhead t Hu) as (z & t' & Ez & Hz).
    exists 7. split; [apply (find_leading_here _ _ z); [rewrite Hnth by lia; change (7 - 1) with 6; cbn [app nth_error]; rewrite Ez; reflexivity|exact Hz]|].
    right. split; [lia|]. split; [apply Hfirst; cbn [List.length]; lia|]. change (7 - 1) with 6. cbn [skipn firstn].
    split; [exact Hu|]. exists (utf8_encode n), d'.
    split. { rewrite <- (app_nil_r (utf8_encode n)). eapply jt_hex; eauto. constructor. }
    split; [exact Ht|]. split; [reflexivity|]. intros Hd.
    assert (Hu1 : is_utf8 (utf8_encode n)) by (apply utf8_encoded; auto; eapply u4_bound; eauto).
    split; [exact Hu1|]. apply (utf8_app _ _ _ (Nat.le_refl _) Hu1). exact Hd.
Qed.

(** A fault behind text that is copied in segments; after the proof of [handle_long_spec]. *)
Lemma long_fault (parser : jop bytes) segment (sem : bytes -> bytes -> bytes -> Prop) (f : bytes) (ty0 : json_error) (o0 : nat) :
  fault f ty0 o0 -> len f <= 6 -> can_retry (JsonError ty0) = false ->
  (forall T d after, json_text false T d -> exists o, parser (QUOTE :: T ++ f ++ after) = (Err (JsonError ty0, o), 0) /\ o = S (len T + o0)) ->
  (forall T d p q, json_text false T d -> QUOTE :: T ++ f = p ++ q -> q <> [] -> exists ty o, parser p = (Err (ty, o), 0) /\ can_retry ty = true) ->
  (forall T1 d1 T2 d2 o, json_text false T1 d1 -> json_text false T2 d2 ->
     (is_utf8 (d1 ++ d2) -> is_utf8 d1 /\ is_utf8 d2) -> sem (T1 ++ T2) (d1 ++ d2) o ->
     exists o1 o2, o = o1 ++ o2 /\ sem T2 d2 o2 /\
       forall cells e, e = S (len T1) -> firstn e cells = QUOTE :: T1 -> segment cells e = Ok o1) ->
  forall fuel s w T d o after,
  valid s -> 8 <= rcap s -> rest s = QUOTE :: T ++ f ++ after -> json_text false T d -> sem T d o ->
  (copyable s T \/ (S (len T) < n_bytes (bf s) - jidx s /\ is_utf8 T)) ->
  len (src (rd (bf s))) < fuel ->
  exists s' w' e p q, handle_long fuel parser segment s w = Done (s', w', Err e) /\
    o = p ++ q /\ written w' = written w ++ p /\ (wfail w = None -> wfail w' = None) /\
    ((is_io e = true /\ (rquiet s = false \/ wfail w <> None)) \/ e = mkErr (JsonError ty0) (total s - len (f ++ after) + o0 + (if len T + len f <? len (jview s) then jidx s else 0))).
Proof.
  intros Hfa Hf6 Hnr Hpar Hpre Hseg. assert (Hf1 : 1 <= len f) by (destruct Hfa; cbn [List.length]; lia). induction fuel as [|fuel IH]; intros s w T d o after V Hc HR HT Ho Hm Hfu; [lia|].
  cbn [handle_long]. unfold jcall.
  pose proof (jview_split s V) as Hsp. pose proof (jview_length s V) as Hvl. rewrite Hvl.
  destruct (Nat.le_gt_cases (n_bytes (bf s) - jidx s) (len T + len f)) as [Hshort|Hlong].
  2:{ rewrite (jview_rest s V), HR.
      replace (QUOTE :: T ++ f ++ after) with ((QUOTE :: T ++ f) ++ after) by (cbn [app]; rewrite <- app_assoc; reflexivity).
      rewrite firstn_app. rewrite firstn_all2 by (cbn [List.length]; rewrite app_length; cbn [List.length]; lia).
      cbn [app]. rewrite <- app_assoc. match goal with |- context [f ++ ?m] => destruct (Hpar T d m HT) as (off & Ep & ->) end. rewrite Ep. cbn [fst]. rewrite Hnr.
      exists (mkRj (bf s) (jlen s) (jidx s + 0)), w. eexists. exists [], o. split; [reflexivity|]. split; [reflexivity|]. split; [symmetry; apply app_nil_r|]. split; [auto|]. right.
      unfold from_jiter_error. cbn [fst snd]. f_equal. unfold current_index. cbn [jidx bf].
      pose proof (f_equal (@List.length byte) HR) as HL. unfold rest in HL. rewrite skipn_length in HL. cbn [List.length] in HL. rewrite !app_length in HL. rewrite app_length. destruct (Nat.ltb_spec (len T + len f) (n_bytes (bf s) - jidx s)) as [_|?]; [|lia]. unfold total. lia. }
  destruct (Hpre T d (jview s) (skipn (len (jview s)) (QUOTE :: T ++ f)) HT) as (er & off & Ep & Hretry).
  { rewrite (jview_rest s V), HR. replace (QUOTE :: T ++ f ++ after) with ((QUOTE :: T ++ f) ++ after) by (cbn [app]; rewrite <- app_assoc; reflexivity).
    rewrite firstn_app_le by (cbn [List.length]; rewrite app_length; lia).
    rewrite firstn_length_le' by (cbn [List.length]; rewrite app_length; lia). symmetry. apply firstn_skipn. }
  { intros E. apply (f_equal (@List.length byte)) in E. rewrite skipn_length in E. cbn [List.length] in E. rewrite app_length in E. lia. }
  rewrite Ep. replace (jidx s + 0) with (jidx s) by lia. cbn [fst]. rewrite Hretry. destruct (Nat.ltb_spec (len T + len f) (n_bytes (bf s) - jidx s)) as [?|_]; [lia|]. rewrite !Nat.add_0_r.
  set (s1 := mkRj (bf s) (jlen s) (jidx s)).
  set (s2 := if 0 <? jidx s1 then create_new_jiter (with_bf s1 (shift_buffer (bf s1) 0 (jidx s1))) else s1).
  assert (H2 : valid s2 /\ rest s2 = QUOTE :: T ++ f ++ after /\ jidx s2 = 0 /\ n_bytes (bf s2) = n_bytes (bf s) - jidx s /\
               total s2 = total s /\ rcap s2 = rcap s /\ rquiet s2 = rquiet s /\ rd (bf s2) = rd (bf s) /\ (copyable s2 T \/ (S (len T) < n_bytes (bf s2) /\ is_utf8 T))).
  { destruct V as (W & J & I). unfold s2. cbn [s1 jidx bf]. destruct (Nat.ltb_spec 0 (jidx s)) as [Hj|Hj].
    - destruct (shift_front (bf s) (jidx s) W I) as (C & N' & L & R & S').
      cbn [with_bf create_new_jiter bf jlen jidx]. unfold valid, rest, total, rcap, rquiet. cbn [with_bf create_new_jiter bf jlen jidx].
      split; [split; [apply (cut_wf _ _ _ _ C)|split; [reflexivity|lia]]|].
      split; [cbn [skipn]; rewrite S'; exact HR|]. split; [reflexivity|]. split; [exact N'|].
      split; [apply (cut_total _ _ _ _ C)|]. split; [apply (cut_cap _ _ _ _ C)|]. split; [apply quiet_rd; exact R|].
      split; [exact R|]. destruct Hm as [Hlt|[H1 H2]]; [left|right; split; [lia|exact H2]]. destruct Hlt as [Hlt|(F1 & F2 & F3)].
      + left. eapply long_text_move; [exact Hlt|]. apply shift_cells.
      + right. unfold fills in *. cbn [with_bf create_new_jiter bf]. rewrite R. split; [exact F1|]. split; [exact F2|]. left. destruct F3 as [F3|(F3 & _)]; [exact F3|lia].
    - assert (jidx s = 0) by lia. subst s1. destruct s as [b jl ji]. cbn [jidx bf jlen] in *. subst ji.
      split; [split; [exact W|split; [exact J|exact I]]|]. split; [exact HR|]. split; [reflexivity|].
      split; [lia|]. repeat (split; [reflexivity|]). cbn [bf] in *. rewrite Nat.sub_0_r in Hm. exact Hm. }
  clearbody s2. clear s1. destruct H2 as (V2 & R2 & J2 & N2 & T2 & C2 & Q2 & D2 & L2).
  assert (Hstream : stream (bf s2) = QUOTE :: T ++ f ++ after) by (unfold rest in R2; rewrite J2 in R2; exact R2).
  assert (Hsrc : n_bytes (bf s2) + len (src (rd (bf s2))) = S (len T + len f + len after)).
  { rewrite <- stream_length by apply V2. rewrite Hstream. cbn [List.length]. rewrite !app_length. lia. }
  (* reading on *)
  assert (Hread : forall s3 w3 T3 d3 o3 p0,
    wf (bf s3) -> jidx s3 = 0 -> n_bytes (bf s3) < rcap s3 -> rest s3 = QUOTE :: T3 ++ f ++ after -> json_text false T3 d3 -> sem T3 d3 o3 ->
    total s3 = total s2 -> rcap s3 = rcap s2 -> rd (bf s3) = rd (bf s2) -> n_bytes (bf s3) <= len T3 + len f ->
    ((n_bytes (bf s3) <= S (len T3) /\ (long_text (buf (bf s3)) T3 \/ (fills (bf s3) /\ is_utf8 T3))) \/ (S (len T3) < n_bytes (bf s3) /\ is_utf8 T3)) -> o = p0 ++ o3 -> written w3 = written w ++ p0 -> (wfail w = None -> wfail w3 = None) ->
    exists s' w' e p q,
      match read_more (bf s3) with
      | (b, Err e) => Done (with_bf s3 b, w3, Err e)
      | (b, Ok 0) => Done (with_bf s3 b, w3, Err (from_jiter_error (current_index (with_bf s3 b)) (er, jidx s + off)))
      | (b, Ok _) => handle_long fuel parser segment (create_new_jiter (with_bf s3 b)) w3
      end = Done (s', w', Err e) /\
      o = p ++ q /\ written w' = written w ++ p /\ (wfail w = None -> wfail w' = None) /\
      ((is_io e = true /\ (rquiet s = false \/ wfail w <> None)) \/ e = mkErr (JsonError ty0) (total s - len (f ++ after) + o0))).
  { intros s3 w3 T3 d3 o3 p0 V3 J3 Hroom R3 HT3 Ho3 Tt3 Cp3 Rd3 N3 L3 -> Hw3 Hwf3.
    assert (Hst3 : stream (bf s3) = QUOTE :: T3 ++ f ++ after) by (unfold rest in R3; rewrite J3 in R3; exact R3).
    destruct (read_more (bf s3)) as [b [k|e]] eqn:Er.
    - destruct (read_more_spec _ _ _ V3 Er) as (C & Sh & Q & N' & Ls & Hz).
      pose proof (cut_nil_stream _ _ _ C) as Hs.
      assert (Hslen : n_bytes (bf s3) + len (src (rd (bf s3))) = S (len T3 + len f + len after)).
      { rewrite <- stream_length by exact V3. rewrite Hst3. cbn [List.length]. rewrite !app_length. lia. }
      destruct k as [|k].
      { exfalso. destruct (Hz eq_refl) as [H|H]; [unfold rcap in *; lia|]. rewrite H in Hslen. cbn in Hslen. lia. }
      destruct (IH (create_new_jiter (with_bf s3 b)) w3 T3 d3 o3 after) as (s' & w' & r & p & q & E & Hpq & Hw' & Hwf' & Hr).
      + unfold valid. cbn [create_new_jiter with_bf bf jlen jidx]. split; [apply (cut_wf _ _ _ _ C)|]. split; [reflexivity|lia].
      + unfold rcap in *. cbn [create_new_jiter with_bf bf]. rewrite (cut_cap _ _ _ _ C). lia.
      + unfold rest. cbn [create_new_jiter with_bf bf jidx skipn]. rewrite Hs. exact Hst3.
      + exact HT3.
      + exact Ho3.
      + cbn [create_new_jiter with_bf bf jidx].
        destruct (Nat.le_gt_cases (S (S (len T3))) (n_bytes b - 0)) as [Hge|Hlt'].
        { right. split; [lia|]. destruct L3 as [(_ & [L3|(_ & L3)])|(_ & L3)]; [exact (long_text_utf8 _ _ L3)|exact L3|exact L3]. }
        left. destruct L3 as [(_ & L3)|(L3 & _)]; [|lia].
        destruct L3 as [L3|(F1 & F2)].
        2:{ right. cbn [create_new_jiter with_bf bf jidx]. destruct (read_fills _ _ _ V3 F1 Er) as (F3 & [F4|F4]).
            - split; [exact F3|]. split; [exact F2|]. right. split; [reflexivity|exact F4].
            - exfalso. pose proof (stream_length b (cut_wf _ _ _ _ C)) as HL. rewrite Hs, Hst3, F4 in HL. cbn [List.length] in HL. rewrite !app_length in HL. lia. }
        left. destruct L3 as [HA|(Hlead & Hasc & Hd)]; [left; exact HA|right]. split; [|auto]. cbn [create_new_jiter with_bf bf].
        destruct (read_cells _ _ _ Er) as (x0 & Hx & Lx & ->).
        apply Forall_write_at; [exact Hlead|].
        replace x0 with (skipn (n_bytes (bf s3)) (firstn (n_bytes (bf s3) + len x0) (stream (bf s3)))).
        * rewrite Hst3. change (QUOTE :: T3 ++ f ++ after) with ((QUOTE :: T3) ++ f ++ after).
          rewrite firstn_app_le by (cbn [List.length]; lia). apply Forall_skipn', Forall_firstn'.
          constructor; [reflexivity|]. eapply Forall_impl; [|exact Hasc]. apply ascii_leading.
        * rewrite skipn_firstn. replace (n_bytes (bf s3) + len x0 - n_bytes (bf s3)) with (len x0) by lia.
          rewrite stream_skipn by exact V3. rewrite Hx. apply firstn_app_all.
      + cbn [create_new_jiter with_bf bf]. rewrite Rd3, D2 in Ls. lia.
      + exists s', w', r, (p0 ++ p), q. split; [exact E|]. split; [rewrite Hpq; apply app_assoc|].
        split; [rewrite Hw', Hw3; symmetry; apply app_assoc|]. split; [auto|].
        destruct Hr as [[H1 H2]|H1]; [left; split; [exact H1|]; destruct H2 as [H2|H2]; [left|right]|right].
        * unfold rquiet in *. cbn [create_new_jiter with_bf bf] in H2. rewrite <- Q2, <- (quiet_rd _ _ Rd3).
          destruct (quiet (bf s3)); [rewrite Q in H2 by reflexivity; discriminate|reflexivity].
        * intros H. apply H2. auto.
        * rewrite H1. f_equal. cbn [create_new_jiter jidx]. replace (if _ <? _ then 0 else 0) with 0 by (destruct (_ <? _); reflexivity). rewrite Nat.add_0_r. f_equal. f_equal. rewrite <- T2, <- Tt3. unfold total. cbn [create_new_jiter with_bf bf]. rewrite Hs, Sh. reflexivity.
    - destruct (read_more_spec _ _ _ V3 Er) as (C & Sh & Q & (kind & ->) & N' & Ls & Hb & Hq).
      do 5 eexists. split; [reflexivity|]. split; [reflexivity|]. split; [exact Hw3|]. split; [exact Hwf3|].
      left. split; [reflexivity|]. left. unfold rquiet in *. rewrite <- Q2, <- (quiet_rd _ _ Rd3). exact Hq. }
  destruct (Nat.eq_dec (n_bytes (bf s2)) 0) as [H0|H0].
  { assert (Hraw : raw_segment_end (bf s2) = 0).
    { unfold raw_segment_end. rewrite H0. reflexivity. }
    rewrite Hraw.
    assert (Hfl : find_leading (buf (bf s2)) 0 = Some 0).
    { cbn [find_leading]. destruct (nth_error (buf (bf s2)) 0) as [x0|] eqn:E.
      - destruct (is_utf8_leading_byte x0); reflexivity.
      - apply nth_error_None in E. unfold rcap, cap in *. lia. }
    rewrite Hfl. cbn [Nat.ltb Nat.leb].
    apply (Hread s2 w T d o []); auto; try lia; [apply V2| |symmetry; apply app_nil_r].
    left. split; [lia|]. destruct L2 as [[L2|(F1 & F2 & _)]|(L2 & _)]; [auto|auto|lia]. }
  assert (Hcut : exists e, find_leading (buf (bf s2)) (raw_segment_end (bf s2)) = Some e /\
    ((e <= 1 /\ n_bytes (bf s2) < cap (bf s2)) \/
     (1 < e <= S (len T) /\ e <= n_bytes (bf s2) /\ firstn e (buf (bf s2)) = QUOTE :: firstn (e - 1) T /\
      ((n_bytes (bf s2) <= S (len T) /\ (long_text (buf (bf s2)) (skipn (e - 1) T) \/ (fills (bf s2) /\ is_utf8 (skipn (e - 1) T)))) \/
       (S (len T) < n_bytes (bf s2) /\ is_utf8 (skipn (e - 1) T))) /\
      exists d1 d2, json_text false (firstn (e - 1) T) d1 /\ json_text false (skipn (e - 1) T) d2 /\ d = d1 ++ d2 /\
        (is_utf8 d -> is_utf8 d1 /\ is_utf8 d2)))).
  { assert (G1 : wf (bf s2)) by apply V2. assert (G2 : 8 <= cap (bf s2)) by (unfold rcap in *; lia).
    destruct (Nat.le_gt_cases (n_bytes (bf s2)) (S (len T))) as [Hin|Hin].
    2:{ assert (Hu : is_utf8 T) by (destruct L2 as [[L2|(_ & L2 & _)]|(_ & L2)]; [exact (long_text_utf8 _ _ L2)|exact L2|exact L2]).
        set (k := n_bytes (bf s2) - S (len T)).
        assert (Hk : len (firstn k f) = k) by (apply firstn_length_le'; lia).
        assert (Hq : skipn k f <> []) by (intros E; apply (f_equal (@List.length byte)) in E; rewrite skipn_length in E; cbn [List.length] in E; lia).
        destruct (segment_cut_part (bf s2) T d (firstn k f) G1 G2) as (e & He & [Hcase|(A1 & A2 & A3 & A4)]); auto; try lia.
        - rewrite <- stream_firstn by apply V2. rewrite Hstream. replace (n_bytes (bf s2)) with (S (len T + k)) by lia. cbn [firstn]. f_equal.
          rewrite firstn_app. rewrite firstn_all2 by lia. f_equal. replace (len T + k - len T) with k by lia. apply firstn_app_le. lia.
        - destruct (brief_part f ty0 o0 (firstn k f) (skipn k f) Hfa Hf6 (eq_sym (firstn_skipn _ _)) Hq) as [E|E]; [|exact E].
          rewrite E in Hk. cbn [List.length] in Hk. lia.
        - exists e. auto.
        - exists e. split; [exact He|]. right. split; [exact A1|]. split; [lia|]. split; [exact A2|]. split; [right; split; [lia|exact A3]|exact A4]. }
    assert (G3 : 1 <= n_bytes (bf s2) <= S (len T)) by lia.
    assert (G4 : firstn (n_bytes (bf s2)) (buf (bf s2)) = firstn (n_bytes (bf s2)) (QUOTE :: T)).
    { rewrite <- stream_firstn by apply V2. rewrite Hstream.
      change (QUOTE :: T ++ f ++ after) with ((QUOTE :: T) ++ f ++ after). apply firstn_app_le. cbn [List.length]. lia. }
    destruct L2 as [[L2|(F1 & F2 & F3)]|(L2 & _)]; [| |lia].
    - destruct (segment_cut (bf s2) T d G1 G2 G3 G4 HT L2) as (e & He & [Hcase|(A1 & A2 & A3 & A4)]); exists e; (split; [exact He|]); [left; exact Hcase|right].
      split; [lia|]. split; [lia|]. split; [exact A2|]. split; [left; split; [lia|left; exact A3]|exact A4].
    - assert (F4 : hd_error T <> Some BACKSLASH \/ n_bytes (bf s2) = cap (bf s2)) by tauto.
      destruct (segment_cut_full (bf s2) T d G1 G2 G3 G4 HT F2 F4) as (e & He & [Hcase|(A1 & A2 & A3 & A4)]); exists e; (split; [exact He|]); [left; exact Hcase|right].
      split; [lia|]. split; [lia|]. split; [exact A2|]. split; [left; split; [lia|right; split; [exact F1|exact A3]]|exact A4]. }
  destruct Hcut as (e & He & Hcase).
  rewrite He. destruct Hcase as [[He1 Hroom]|(He1 & He2 & Hfirst & Hlt2 & d1 & d2 & HT1 & HT2 & -> & Hutf)].
  { destruct (Nat.ltb_spec 1 e) as [?|_]; [lia|].
    apply (Hread s2 w T d o []); auto; try lia; [apply V2| |symmetry; apply app_nil_r].
    destruct (Nat.le_gt_cases (n_bytes (bf s2)) (S (len T))) as [Hin|Hin].
    - left. split; [exact Hin|]. destruct L2 as [[L2|(F1 & F2 & _)]|(L2 & _)]; [auto|auto|lia].
    - right. split; [exact Hin|]. destruct L2 as [[L2|(_ & L2 & _)]|(_ & L2)]; [exact (long_text_utf8 _ _ L2)|exact L2|exact L2]. }
  destruct (Nat.ltb_spec 1 e) as [_|?]; [|lia].
  assert (Hl1 : len (firstn (e - 1) T) = e - 1) by (apply firstn_length_le'; lia).
  destruct (Hseg (firstn (e - 1) T) d1 (skipn (e - 1) T) d2 o HT1 HT2 Hutf) as (o1 & o2 & -> & Ho2 & Hsegok).
  { rewrite firstn_skipn. exact Ho. }
  rewrite (Hsegok (buf (bf s2)) e) by (try lia; exact Hfirst).
  destruct (write_all_spec w o1) as (w' & r & Ew & Hwf & Hr). rewrite Ew.
  destruct r as [u|er'].
  2:{ destruct Hr as (Hr & p & q & -> & Hp). exists s2, w'. do 3 eexists. split; [reflexivity|].
      split; [symmetry; apply app_assoc|]. split; [exact Hp|]. split; [exact Hwf|]. left. split; [reflexivity|auto]. }
  destruct (shift_spec (bf s2) 1 e (proj1 V2)) as (C & N' & Ld & Rd').
  replace (Nat.min e (n_bytes (bf s2))) with e in * by lia.
  assert (Hcutst : stream (shift_buffer (bf s2) 1 e) = QUOTE :: skipn (e - 1) T ++ f ++ after).
  { destruct C as (_ & _ & _ & _ & a' & c & E1 & E2 & Ha). rewrite E2. rewrite Hstream in E1 at 1.
    rewrite Hstream in E1, Ha, Ld. cbn [skipn] in *.
    destruct Ha as [Ha|Ha]; [rewrite Ha in Ld; cbn in Ld; lia|].
    destruct a' as [|x0 [|y a']]; [cbn in Ha; lia| |cbn in Ha; lia]. cbn [app] in E1 |- *. injection E1 as Hx1 E1. rewrite <- Hx1.
    f_equal. apply (app_inv_head (firstn (e - 1) (T ++ f ++ after))). rewrite <- E1.
    rewrite firstn_app_le by lia. rewrite (app_assoc (firstn (e - 1) T)), firstn_skipn. reflexivity. }
  apply (Hread (with_bf s2 (shift_buffer (bf s2) 1 e)) w' (skipn (e - 1) T) d2 o2 o1); auto.
  - apply (cut_wf _ _ _ _ C).
  - unfold rcap. cbn [with_bf bf]. rewrite (cut_cap _ _ _ _ C), N'. unfold rcap in *. destruct V2 as (W2 & _). unfold wf, cap in *. lia.
  - unfold rest. cbn [with_bf bf jidx]. rewrite J2. exact Hcutst.
  - unfold total. cbn [with_bf bf]. apply (cut_total _ _ _ _ C).
  - unfold rcap. cbn [with_bf bf]. apply (cut_cap _ _ _ _ C).
  - cbn [with_bf bf]. rewrite N', skipn_length. lia.
  - cbn [with_bf bf]. rewrite N', skipn_length. destruct Hlt2 as [(K & Hlt2)|(K & Hlt2)]; [left|right; split; [lia|exact Hlt2]].
    split; [lia|]. destruct Hlt2 as [Hlt2|(F1 & F2)]; [left|right].
    + eapply long_text_move; [exact Hlt2|]. apply shift_cells.
    + unfold fills in *. rewrite Rd'. auto.
Qed.

Lemma text_faultless p T d : json_text p T d -> faultless T.
Proof.
  induction 1 as [|x t d H1 H2 H3 H IH|y c t d Hy H IH|a b c e n t d Hu Hl Hh H IH|a b c e n a' b' c' e' m t d Hp Hu Hh Hu' Hl H IH].
  - constructor.
  - constructor; assumption.
  - eapply fl_escape; [apply escape_is; exact Hy|exact IH].
  - pose proof (u4_bound _ _ _ _ _ Hu) as Hb. apply (fl_hex [a; b; c; e] n t); [apply hex4_is; exact Hu|apply surrogates; assumption|exact IH].
  - unfold is_high, is_low in Hh, Hl. apply Bool.andb_true_iff in Hh as [Hh1 Hh2], Hl as [Hl1 Hl2]. apply N.leb_le in Hh1, Hh2, Hl1, Hl2.
    apply (fl_pair [a; b; c; e] [a'; b'; c'; e'] (n - 55296) (m - 56320) t); try lia; [| |exact IH].
    + replace (55296 + (n - 55296))%N with n by lia. apply hex4_is. exact Hu.
    + replace (56320 + (m - 56320))%N with m by lia. apply hex4_is. exact Hu'.
Qed.
Lemma faultless_text T : faultless T -> exists d, json_text true T d.
Proof.
  induction 1 as [|x t H1 H2 H3 H IH|y c t Hy H IH|h c t Hh Hc H IH|h g hi lo t Hi Hl Hh Hg H IH].
  - eexists. constructor.
  - destruct IH as (d & IH). eexists. constructor; eassumption.
  - destruct IH as (d & IH). eexists. eapply jt_escape; [apply escape_is; exact Hy|exact IH].
  - destruct IH as (d & IH). destruct (hex4_four _ _ Hh) as (a & b & c' & e & -> & Eu & _). destruct (surrogates_not c Hc) as (S1 & S2).
    eexists. cbn [app]. eapply jt_hex; eauto.
  - destruct IH as (d & IH). destruct (hex4_four _ _ Hh) as (a & b & c' & e & -> & Eu & _). destruct (hex4_four _ _ Hg) as (a2 & b2 & c2 & e2 & -> & Eu2 & _).
    eexists. cbn [app]. eapply jt_pair; eauto; [apply (high_is hi Hi)|apply (low_is lo Hl)].
Qed.
Lemma fault_scan T d f e o after : json_text false T d -> fault f e o -> scan_string 0 (T ++ f ++ after) = Err (e, len T + o).
Proof.
  intros HT Hf. pose proof (fault_found _ _ _ Hf after) as E. apply scan_stops in E.
  exact (faultless_through T (text_faultless _ _ _ HT) _ _ _ E).
Qed.
Lemma fault_short T d f e o p q : json_text false T d -> fault f e o -> len f <= 6 -> QUOTE :: T ++ f = p ++ q -> q <> [] ->
  exists k, scan_string 0 (skipn 1 p) = Err (EofWhileParsingString, k).
Proof.
  intros HT Hf H6 E Hq. destruct p as [|y p]; [eexists; reflexivity|]. cbn [app skipn] in *. assert (E' : T ++ f = p ++ q) by congruence. clear E.
  assert (Hp : (exists q', T = p ++ q') \/ exists a, p = T ++ a /\ f = a ++ q).
  { revert p E'. clear - T. induction T as [|x T IH]; intros p E; [right; exists p; auto|]. destruct p as [|y p]; [left; eexists; reflexivity|].
    cbn [app] in E. injection E as -> E. destruct (IH p E) as [(q' & ->)|(a & -> & H)]; [left; eexists; reflexivity|right; exists a; auto]. }
  pose proof (text_faultless _ _ _ HT) as Hl. destruct Hp as [(q' & Hp)|(a & -> & Ea)].
  - eexists. exact (faultless_ends T Hl p q' Hp).
  - eexists. apply (faultless_through T Hl). apply scan_stops, broken_step.
    destruct (brief_part _ _ _ _ _ Hf H6 Ea Hq) as [->|[->|(h & -> & Hh)]]; constructor. exact Hh.
Qed.
Lemma fault_final f e o : fault f e o -> can_retry (JsonError e) = false.
Proof. destruct 1; reflexivity. Qed.
Lemma fault_bytes s w T f e o after : valid s -> 8 <= rcap s -> rest s = QUOTE :: T ++ f ++ after -> fault f e o -> len f <= 6 -> faultless T ->
  long_text (buf (bf s)) T \/ (fills (bf s) /\ steady_text T) ->
  stopped_at s w T (mkErr (JsonError e) (total s - len (f ++ after) + o + (if len T + len f <? len (jview s) then jidx s else 0)))
    (write_long_bytes s w).
Proof.
  intros V Hc HR Hx H6 HF Hl. destruct (faultless_text T HF) as (d & HT). apply (copied_text_plain _ _ _ Hl) in HT as [HT HC].
  unfold write_long_bytes.
  apply (long_fault j_known_bytes bytes_segment (fun T _ o => o = T) f e o Hx H6 (fault_final _ _ _ Hx)) with (d := d) (fuel := fuel_for (bf s)) (o := T); auto.
  - intros T0 d0 af H. exists (S (len T0 + o)). unfold j_known_bytes. cbn [skipn]. rewrite (fault_scan _ _ _ _ _ _ H Hx). auto.
  - intros T0 d0 p q H E Hq. unfold j_known_bytes. destruct (fault_short _ _ _ _ _ _ _ H Hx H6 E Hq) as (k & ->). do 2 eexists. split; reflexivity.
  - intros T1 d1 T2 d2 o' H1 H2 _ ->. exists T1, T2. split; [reflexivity|]. split; [reflexivity|]. intros cells e' -> Hf. unfold bytes_segment. f_equal.
    cbn [Nat.sub]. rewrite Nat.sub_0_r. destruct cells as [|y cells]; [discriminate|]. cbn [firstn] in Hf. injection Hf as _ Hf. exact Hf.
Qed.
Lemma fault_str s w T f e o after cs v : valid s -> 8 <= rcap s -> rest s = QUOTE :: T ++ f ++ after -> fault f e o -> len f <= 6 -> reads T cs -> spells cs v ->
  long_text (buf (bf s)) T \/ (fills (bf s) /\ steady_text T) ->
  stopped_at s w v (mkErr (JsonError e) (total s - len (f ++ after) + o + (if len T + len f <? len (jview s) then jidx s else 0)))
    (write_long_str s w).
Proof.
  intros V Hc HR Hx H6 Hcs Ho Hl. destruct (proj2 (string_reads T v)) as (HT & Hu); [eauto|]. apply (copied_text_plain _ _ _ Hl) in HT as [HT HC].
  unfold write_long_str.
  apply (long_fault j_known_str str_segment (fun T d o => o = d /\ is_utf8 d) f e o Hx H6 (fault_final _ _ _ Hx)) with (d := v) (fuel := fuel_for (bf s)) (o := v); auto.
  - intros T0 d0 af H. exists (S (len T0 + o)). unfold j_known_str. cbn [skipn]. rewrite (fault_scan _ _ _ _ _ _ H Hx). auto.
  - intros T0 d0 p q H E Hq. unfold j_known_str. destruct (fault_short _ _ _ _ _ _ _ H Hx H6 E Hq) as (k & ->). do 2 eexists. split; reflexivity.
  - intros T1 d1 T2 d2 o' H1 H2 Hu12 [-> Hu']. exists d1, d2. destruct (Hu12 Hu') as [Hu1 Hu2].
    split; [reflexivity|]. split; [auto|]. intros cells e' -> Hf. unfold str_segment, j_known_str.
    rewrite Hf. cbn [app skipn]. rewrite (scan_text _ _ _ H1), Hu1. reflexivity.
Qed.
