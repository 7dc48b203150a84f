(** A long string without escapes is handed on as it arrives: when the reader is asked for more, at most one character is kept back. *)
From Verif Require Import Base U8Pool Buffer BufferSpec BufferProofs Jiter JiterProofs RJiter RJiterSpec RJiterProofs RJiterLongProofs RJiterInvProofs SoundParser ScanParser UnicodeSpec UnicodeProofs Utf8Spec Utf8Proofs Utf8Always.

Definition plain (l : bytes) : Prop := Forall (fun x => x <> BACKSLASH) l.
(** At most one character, whole or in part. *)
Lemma one_character x t m : is_utf8 (x :: t ++ m) -> Forall (fun y => ~ leading y) t -> len (x :: t) <= 4.
Proof.
  intros H Ht. change (x :: t ++ m) with ((x :: t) ++ m) in H. destruct (utf8_next _ H ltac:(discriminate)) as (k & Hk & Hl & Hn).
  destruct (Nat.le_gt_cases (len (x :: t)) k) as [L|L]; [lia|]. destruct Hn as [Hn|(y & Hy & Hlead)]; [rewrite app_length in Hn; lia|].
  exfalso. rewrite nth_error_app1 in Hy by exact L. destruct k as [|k]; [lia|]. cbn [nth_error] in Hy. apply nth_error_In in Hy. rewrite Forall_forall in Ht. exact (Ht _ Hy Hlead).
Qed.
Lemma nth_skipn {A} (x : A) n : forall l, nth_error l n = Some x -> exists t, skipn n l = x :: t.
Proof. induction n as [|n IH]; intros [|y l] H; try discriminate; [cbn [nth_error] in H; inversion H; subst; eexists; reflexivity|]. exact (IH l H). Qed.
(** Where a text without escapes is cut. *)
Lemma plain_end b q : firstn (n_bytes b) (buf b) = QUOTE :: q -> n_bytes b = S (len q) -> plain q -> raw_segment_end b = len q.
Proof.
  intros HB HN Hq. unfold raw_segment_end. rewrite HB. cbn [run_length]. change (N.eqb QUOTE BACKSLASH) with false. cbn [negb].
  rewrite run_length_whole by (apply no_bs_forall; exact Hq). rewrite HN. rewrite (proj2 (Nat.ltb_ge _ _)) by lia. lia.
Qed.
Lemma plain_cut b q m seg : firstn (n_bytes b) (buf b) = QUOTE :: q -> n_bytes b = S (len q) -> n_bytes b <= len (buf b) -> plain q -> is_utf8 (q ++ m) ->
  find_leading (buf b) (raw_segment_end b) = Some seg ->
  seg <= len q /\ (seg <= 1 -> len q <= 4) /\ (1 < seg -> is_utf8 (skipn (seg - 1) q ++ m) /\ len (skipn (seg - 1) q) <= 4).
Proof.
  intros HB HN HC Hq Hu Hf. rewrite (plain_end b q HB HN Hq) in Hf.
  assert (Hnth : forall i, i <= len q -> nth_error (buf b) i = nth_error (QUOTE :: q) i).
  { intros i Hi. apply (nth_error_firstn_eq _ _ (n_bytes b)); [|lia]. rewrite HB, HN. cbn [firstn]. rewrite firstn_all. reflexivity. }
  destruct (find_leading_spec (buf b) (len q) ltac:(lia)) as (e & He & Hle & Hno & Hlead). rewrite Hf in He. injection He as <-.
  assert (Hcont : forall j, seg - 1 <= j -> 0 < j -> forall y, nth_error q j = Some y -> (1 < seg -> seg - 1 < j) -> ~ leading y).
  { intros j Hj H0 y Hy Hs. assert (j < len q) by (apply nth_error_Some; congruence). apply (Hno (S j)); [lia|]. rewrite Hnth by lia. exact Hy. }
  split; [exact Hle|]. split.
  - intros Hs. destruct q as [|x t]; [cbn; lia|]. apply (one_character x t m Hu). apply Forall_forall. intros y Hy. apply In_nth_error in Hy as (j & Hj).
    apply (Hcont (S j)); [lia|lia|exact Hj|lia].
  - intros Hs. destruct Hlead as [->|(x & Hx & Hxl)]; [lia|]. rewrite Hnth in Hx by lia. destruct seg as [|[|seg]]; try lia. change (nth_error q (S seg) = Some x) in Hx. cbn [Nat.sub].
    pose proof (nth_skipn _ _ _ Hx) as Hsk.
    destruct Hsk as (t & Ht). rewrite <- (firstn_skipn (S seg) q), Ht, <- app_assoc in Hu. cbn [app] in Hu.
    pose proof (RJiterLongProofs.utf8_cut _ _ _ _ (le_n _) Hu Hxl) as H1. apply (proj1 (RJiterLongProofs.utf8_app _ _ _ (le_n _) H1)) in Hu. rewrite Ht. split; [exact Hu|].
    apply (one_character x t m Hu). apply Forall_forall. intros y Hy. apply In_nth_error in Hy as (j & Hj). apply (Hcont (S seg + S j)); [lia|lia| |lia].
    rewrite <- (firstn_skipn (S seg) q), Ht, nth_error_app2; rewrite firstn_length; [|lia].
    assert (S seg < len q) by (apply nth_error_Some; congruence). rewrite Nat.min_l by lia. replace (S seg + S j - S seg) with (S j) by lia. exact Hj.
Qed.

Lemma some_view s b n k : wf b -> n_bytes b = n + S k -> jview (create_new_jiter (with_bf s b)) <> [].
Proof.
  intros W H E. apply (f_equal (@List.length byte)) in E. unfold jview in E. cbn [create_new_jiter with_bf bf jlen jidx skipn] in E. rewrite firstn_length in E.
  unfold wf in W. cbn [List.length] in E. lia.
Qed.

Section Long.
Context (parser : jop bytes) (segment : bytes -> nat -> result bytes jerr) (P : bytes -> bytes -> Prop).
Context (Hinert : inert parser) (Hjson : forall l e a, parser l = (Err e, a) -> exists je, fst e = JsonError je).
Context (Hwrong : forall b e x, segment b e = Err x -> exists je, fst x = JsonError je).
Context (P0 : P [] []) (Papp : forall a b x y, P a b -> P x y -> P (a ++ x) (b ++ y)).
Context (Hsegment : forall b e q d je o a, parser (QUOTE :: q) = (Err (JsonError je, o), a) -> can_retry (JsonError je) = true ->
  firstn (n_bytes b) (buf b) = QUOTE :: q -> n_bytes b = S (len q) -> 1 < e <= n_bytes b -> segment (buf b) e = Ok d -> P (firstn (e - 1) q) d).
Lemma long_prompt fuel : forall s w s' w' e l, valid s -> jview s <> [] -> rest s = QUOTE :: l -> takes_all w ->
  handle_long fuel parser segment s w = Done (s', w', Err e) -> is_io e = true ->
  exists t p d, l = t ++ p ++ src (rd (bf s')) /\ len (src (rd (bf s'))) <= len (src (rd (bf s))) /\ takes_all w' /\ RJiter.written w' = RJiter.written w ++ d /\ P t d /\
    (is_utf8 l -> plain (t ++ p) -> len p <= 4).
Proof.
  induction fuel as [|fuel IH]; intros s w s' w' e l V Hne HR Hw E Hio; [discriminate|].
  cbn [handle_long] in E. unfold jcall in E. pose proof (jview_length s V) as Hvl. pose proof V as (W & J & I').
  destruct (parser (jview s)) as [[v|[er off]] a] eqn:Ep.
  { destruct (write_all_open w v Hw) as (w2 & Ew & Hw2 & _). rewrite Ew in E. discriminate. }
  apply Hinert in Ep as Ha. subst a. replace (jidx s + 0) with (jidx s) in E by lia. cbn [fst] in E.
  destruct (Hjson _ _ _ Ep) as (je & Hje). cbn [fst] in Hje. subst er.
  destruct (can_retry (JsonError je)) eqn:Hret; [|injection E as <- <- <-; discriminate].
  set (s1 := mkRj (bf s) (jlen s) (jidx s)) in E.
  set (s2 := if 0 <? jidx s1 then create_new_jiter (with_bf s1 (shift_buffer (bf s1) 0 (jidx s1))) else s1) in E.
  assert (HS2 : valid s2 /\ rest s2 = rest s /\ jidx s2 = 0 /\ src (rd (bf s2)) = src (rd (bf s))).
  { unfold s2. cbn [s1 jidx bf]. destruct (Nat.ltb_spec 0 (jidx s)) as [Hj|Hj].
    - destruct (shift_front (bf s) (jidx s) W I') as (C & N' & L & R & S').
      cbn [with_bf create_new_jiter bf jlen jidx]. unfold valid, rest. cbn [with_bf create_new_jiter bf jlen jidx].
      split; [split; [apply (cut_wf _ _ _ _ C)|split; [reflexivity|lia]]|].
      split; [cbn [skipn]; exact S'|]. split; [reflexivity|]. rewrite R. reflexivity.
    - assert (jidx s = 0) by lia. subst s1. destruct s as [b jl ji]. cbn [jidx bf jlen] in *. subst ji.
      split; [split; [exact W|split; [exact J|exact I']]|]. repeat split; auto. }
  clearbody s2. clear s1. destruct HS2 as (V2 & R2 & J2 & Q2).
  assert (Hstream : stream (bf s2) = QUOTE :: l) by (rewrite <- HR, <- R2; unfold rest; rewrite J2; reflexivity).
  (* asking the reader, with [QUOTE :: p] in the buffer *)
  assert (Hread : forall s3 w3 p, wf (bf s3) -> src (rd (bf s3)) = src (rd (bf s)) -> stream (bf s3) = QUOTE :: p ++ src (rd (bf s)) -> takes_all w3 ->
    match read_more (bf s3) with
      | (b, Err e) => Done (with_bf s3 b, w3, Err e)
      | (b, Ok 0) => Done (with_bf s3 b, w3, Err (from_jiter_error (current_index (with_bf s3 b)) (JsonError je, jidx s + off)))
      | (b, Ok _) => handle_long fuel parser segment (create_new_jiter (with_bf s3 b)) w3
      end = Done (s', w', Err e) ->
    exists t p' d, p ++ src (rd (bf s)) = t ++ p' ++ src (rd (bf s')) /\ len (src (rd (bf s'))) <= len (src (rd (bf s))) /\ takes_all w' /\ RJiter.written w' = RJiter.written w3 ++ d /\ P t d /\
      (is_utf8 (p ++ src (rd (bf s))) -> plain (t ++ p') -> len p <= 4 -> len p' <= 4)).
  { intros s3 w3 p W3 Q3 S3 Hw3 X.
    destruct (read_more (bf s3)) as [b [[|k]|e']] eqn:Er.
    - injection X as _ _ <-. discriminate.
    - destruct (read_more_spec _ _ _ W3 Er) as (C & Sh & Q & N' & Ls & _). pose proof (cut_nil_stream _ _ _ C) as Hs.
      assert (R3 : rest (create_new_jiter (with_bf s3 b)) = QUOTE :: p ++ src (rd (bf s))) by (unfold rest; cbn [create_new_jiter with_bf bf jidx skipn]; congruence).
      assert (V3 : valid (create_new_jiter (with_bf s3 b))) by (split; [apply (cut_wf _ _ _ _ C)|]; cbn [create_new_jiter with_bf bf jlen jidx]; split; [reflexivity|lia]).
      destruct (IH _ _ _ _ _ _ V3 (some_view s3 b _ _ (cut_wf _ _ _ _ C) N') R3 Hw3 X Hio) as (t & p' & d & H1 & H2 & H3 & H4 & H5 & H6).
      cbn [create_new_jiter with_bf bf] in H2. exists t, p', d. split; [exact H1|]. split; [rewrite Q3 in Ls; lia|]. auto.
    - destruct (read_more_spec _ _ _ W3 Er) as (C & Sh & Q & He & N' & Ls & _). injection X as <- <- _. cbn [with_bf bf]. rewrite Ls, Q3.
      exists [], p, []. repeat split; auto. symmetry. apply app_nil_r. }
  destruct (find_leading (buf (bf s2)) (raw_segment_end (bf s2))) as [seg|] eqn:Eg; [|discriminate].
  assert (HL : len (firstn (n_bytes (bf s2)) (buf (bf s2))) = n_bytes (bf s2)) by (rewrite firstn_length; pose proof (proj1 V2); unfold wf in *; lia).
  destruct (firstn (n_bytes (bf s2)) (buf (bf s2))) as [|x q] eqn:EB.
  { exfalso. apply Hne. pose proof (jview_split s V) as Hv. rewrite HR, <- Hstream in Hv. unfold stream in Hv. rewrite EB, Q2 in Hv. cbn [app] in Hv.
    apply (f_equal (@List.length byte)) in Hv. rewrite app_length in Hv. destruct (jview s); [reflexivity|]. cbn [List.length] in Hv. lia. }
  assert (x = QUOTE /\ l = q ++ src (rd (bf s))) as (-> & Hl) by (unfold stream in Hstream; rewrite EB, Q2 in Hstream; cbn [app] in Hstream; injection Hstream as -> <-; auto).
  cbn [List.length] in HL.
  assert (Hseg : seg <= n_bytes (bf s2)).
  { assert (seg <= raw_segment_end (bf s2)) by (eapply find_leading_le; eauto). pose proof (raw_end_le (bf s2) l (proj1 V2) Hstream). lia. }
  assert (Hcut : is_utf8 l -> plain q -> seg <= len q /\ (seg <= 1 -> len q <= 4) /\ (1 < seg -> is_utf8 (skipn (seg - 1) q ++ src (rd (bf s))) /\ len (skipn (seg - 1) q) <= 4)).
  { intros Hu Hq. rewrite Hl in Hu. apply (plain_cut (bf s2) q _ seg EB); auto. pose proof (proj1 V2); unfold wf in *; lia. }
  (* what is in the buffer has been delivered in the end *)
  assert (Hpre : forall t p, l = t ++ p ++ src (rd (bf s')) -> len (src (rd (bf s'))) <= len (src (rd (bf s))) -> plain (t ++ p) -> plain q).
  { intros t p H1 H2 H3. rewrite Hl, app_assoc in H1.
    assert (q = firstn (len q) (t ++ p)) as ->.
    { pose proof (f_equal (@List.length byte) H1) as H4. rewrite !app_length in H4. pose proof (f_equal (firstn (len q)) H1) as H5.
      rewrite firstn_app_le, firstn_all in H5 by lia. rewrite firstn_app_le in H5 by (rewrite app_length; lia). exact H5. }
    unfold plain in *. apply Forall_firstn', H3. }
  destruct (Nat.ltb_spec 1 seg) as [He1|He1].
  2:{ destruct (Hread s2 w q (proj1 V2) Q2 ltac:(rewrite Hstream, Hl; reflexivity) Hw E) as (t & p & d & H1 & H2 & H3 & H4 & H5 & H6). rewrite <- Hl in H1, H6.
      exists t, p, d. split; [exact H1|]. do 4 (split; [assumption|]). intros Hu Hp. apply (H6 Hu Hp). apply (Hcut Hu (Hpre t p H1 H2 Hp)), He1. }
  destruct (segment (buf (bf s2)) seg) as [d|je'] eqn:Es; [|destruct (Hwrong _ _ _ Es) as (y & Hy); injection E as _ _ <-; destruct je' as [y' o]; cbn [fst] in Hy; subst y'; discriminate].
  destruct (write_all_open w d Hw) as (w2 & Ew & Hw2 & Hwr). rewrite Ew in E.
  assert (Hview : jview s = QUOTE :: q).
  { destruct (view_front s l V HR) as [Hn|(q' & Hq' & Hl')]; [contradiction|]. rewrite Hq'; f_equal; apply (app_inv_tail (src (rd (bf s)))); congruence. }
  rewrite Hview in Ep. pose proof (Hsegment (bf s2) seg q d je off 0 Ep Hret EB ltac:(auto) ltac:(lia) Es) as HP.
  destruct (shift_spec (bf s2) 1 seg (proj1 V2)) as (C & N' & Ld & Rd'). rewrite Nat.min_l in * by exact Hseg.
  rewrite Hstream in C. change (skipn 1 (QUOTE :: l)) with l in C.
  assert (Hdl : firstn (seg - 1) l = firstn (seg - 1) q) by (rewrite Hl; apply firstn_app_le; lia).
  rewrite Hdl in C. assert (Hld : len (firstn (seg - 1) q) = seg - 1) by (rewrite firstn_length; lia).
  apply cut_at in C as HC; [|intros X; rewrite X in Hld; cbn in Hld; lia]. destruct HC as (HC & _). rewrite Hstream, Hld in HC.
  replace (1 + (seg - 1)) with (S (seg - 1)) in HC by lia. change (firstn 1 (QUOTE :: l) ++ skipn (S (seg - 1)) (QUOTE :: l)) with (QUOTE :: skipn (seg - 1) l) in HC.
  rewrite Hl in HC at 1. rewrite skipn_app_le in HC by lia.
  destruct (Hread (with_bf s2 (shift_buffer (bf s2) 1 seg)) w2 (skipn (seg - 1) q)) as (t & p & d2 & H1 & H2 & H3 & H4 & H5 & H6); cbn [with_bf bf]; auto.
  - apply (cut_wf _ _ _ _ C).
  - congruence.
  - exists (firstn (seg - 1) q ++ t), p, (d ++ d2). rewrite <- app_assoc, <- H1, app_assoc, firstn_skipn. split; [exact Hl|]. split; [exact H2|]. split; [exact H3|].
    split; [rewrite H4, Hwr, app_assoc; reflexivity|]. split; [apply Papp; assumption|]. intros Hu Hp.
    assert (Hq : plain q).
    { refine (Hpre (firstn (seg - 1) q ++ t) p _ H2 Hp). rewrite <- app_assoc, <- H1, app_assoc, firstn_skipn. exact Hl. }
    destruct (Hcut Hu Hq) as (_ & _ & Hc). destruct (Hc He1) as (Hc1 & Hc2). apply H6; auto. rewrite <- app_assoc in Hp. unfold plain in *. apply Forall_app in Hp. apply Hp.
Qed.
End Long.

Lemma front_bytes b q e : firstn (n_bytes b) (buf b) = QUOTE :: q -> n_bytes b = S (len q) -> 1 < e <= n_bytes b -> firstn e (buf b) = QUOTE :: firstn (e - 1) q.
Proof.
  intros HB HN He. rewrite <- (firstn_skipn (n_bytes b) (buf b)), HB, firstn_app_le by (cbn [List.length]; lia). destruct e as [|e]; [lia|]. cbn [firstn]. rewrite Nat.sub_succ, Nat.sub_0_r. reflexivity.
Qed.
Lemma bytes_prompt s w s' w' e l : valid s -> jview s <> [] -> rest s = QUOTE :: l -> wfail w = None -> write_long_bytes s w = Done (s', w', Err e) -> is_io e = true ->
  exists t p, l = t ++ p ++ src (rd (bf s')) /\ RJiter.written w' = RJiter.written w ++ t /\ (characters l -> plain (t ++ p) -> len p <= 4).
Proof.
  intros V Hne HR Hw E Hio.
  edestruct (long_prompt j_known_bytes bytes_segment eq known_bytes_inert known_bytes_json ltac:(discriminate) eq_refl ltac:(congruence)) as (t & p & d & H1 & H2 & H3 & H4 & <- & H6);
    [|exact V|exact Hne|exact HR|exact Hw|exact E|exact Hio|].
  - intros b e' q d je o a _ _ HB HN He X. injection X as <-. pose proof (f_equal (skipn 1) (front_bytes b q e' HB HN He)) as Y. rewrite skipn_firstn_comm in Y. symmetry. exact Y.
  - exists t, p. rewrite <- characters_eq. auto.
Qed.
Lemma plain_scan m : forall r e o, plain r -> scan_string 0 (r ++ m) = Err (e, o) -> can_retry (JsonError e) = true -> json_text false r r.
Proof.
  induction r as [|x r IH]; intros e o Hp E Hr; [constructor|]. inversion Hp as [|? ? Hx Hp']; subst. cbn [app scan_string string_step] in E.
  destruct (N.eqb_spec x QUOTE) as [->|Hq]; [discriminate|]. destruct (N.eqb_spec x BACKSLASH) as [?|_]; [contradiction|].
  destruct (N.ltb_spec x 32) as [Hc|Hc]; [injection E as <- _; discriminate|]. cbn [Nat.sub] in E.
  destruct (scan_string 0 (r ++ m)) as [[n d]|[e' o']] eqn:Es; [discriminate|]. injection E as <- _. constructor; auto. exact (IH _ _ Hp' eq_refl Hr).
Qed.
Lemma known_str_json l e a : j_known_str l = (Err e, a) -> exists je, fst e = JsonError je.
Proof. unfold j_known_str. destruct (scan_string 0 (skipn 1 l)) as [[n d]|[e' o]]; [destruct (utf8_invalid 0 d)|]; intros H; inversion H; eexists; reflexivity. Qed.
Lemma str_prompt s w s' w' e l : valid s -> jview s <> [] -> rest s = QUOTE :: l -> wfail w = None -> write_long_str s w = Done (s', w', Err e) -> is_io e = true ->
  exists t p d, l = t ++ p ++ src (rd (bf s')) /\ RJiter.written w' = RJiter.written w ++ d /\ (plain t -> d = t) /\ (characters l -> plain (t ++ p) -> len p <= 4).
Proof.
  intros V Hne HR Hw E Hio.
  edestruct (long_prompt j_known_str str_segment (fun t d => plain t -> d = t) known_str_inert known_str_json) as (t & p & d & H1 & H2 & H3 & H4 & H5 & H6);
    [|auto| | |exact V|exact Hne|exact HR|exact Hw|exact E|exact Hio|].
  - intros b e' x X. unfold str_segment in X. destruct (j_known_str (firstn e' b ++ [QUOTE])) as [[v|y] a] eqn:Ek; [discriminate|]. cbn [fst] in X. injection X as <-. exact (known_str_json _ _ _ Ek).
  - intros a b x y H1 H2 H. unfold plain in *. apply Forall_app in H as (H3 & H4). rewrite H1, H2; auto.
  - intros b e' q d je o a Hf Hr HB HN He X Hp. unfold str_segment in X. rewrite (front_bytes b q e' HB HN He) in X. unfold j_known_str in Hf, X. cbn [app skipn] in Hf, X.
    assert (Hs : exists x, scan_string 0 q = Err (je, x)).
    { destruct (scan_string 0 q) as [[n y]|[e1 o1]]; [destruct (utf8_invalid 0 y)|]; inversion Hf; subst; [discriminate|]. eauto. }
    destruct Hs as (x & Hs). rewrite <- (firstn_skipn (e' - 1) q) in Hs. pose proof (plain_scan _ _ _ _ Hp Hs Hr) as Hj.
    rewrite (scan_text _ _ _ Hj []) in X. destruct (utf8_invalid 0 _); [discriminate|]. injection X as <-. reflexivity.
  - exists t, p, d. rewrite <- characters_eq. auto.
Qed.
(** A string that is in the buffer is handed on without asking the reader. *)
Lemma bytes_at_once s w T d m : jview s = QUOTE :: T ++ QUOTE :: m -> json_text true T d -> wfail w = None ->
  exists s' w', write_long_bytes s w = Done (s', w', Ok tt) /\ bf s' = bf s /\ RJiter.written w' = RJiter.written w ++ T.
Proof.
  intros HV HT Hw. unfold write_long_bytes, fuel_for. cbn [handle_long]. unfold jcall. rewrite HV. unfold j_known_bytes. cbn [skipn]. rewrite (scan_text _ _ _ HT). unfold jok.
  rewrite firstn_app_le, firstn_all by lia. destruct (write_all_open w T Hw) as (w2 & Ew & _ & H). rewrite Ew. do 2 eexists. split; [reflexivity|]. auto.
Qed.
Lemma str_at_once s w T d m : jview s = QUOTE :: T ++ QUOTE :: m -> json_text true T d -> is_utf8 d -> wfail w = None ->
  exists s' w', write_long_str s w = Done (s', w', Ok tt) /\ bf s' = bf s /\ RJiter.written w' = RJiter.written w ++ d.
Proof.
  intros HV HT Hd Hw. unfold write_long_str, fuel_for. cbn [handle_long]. unfold jcall. rewrite HV. unfold j_known_str. cbn [skipn]. rewrite (scan_text _ _ _ HT).
  unfold is_utf8 in Hd. rewrite Hd. unfold jok. destruct (write_all_open w d Hw) as (w2 & Ew & _ & H). rewrite Ew. do 2 eexists. split; [reflexivity|]. auto.
Qed.
