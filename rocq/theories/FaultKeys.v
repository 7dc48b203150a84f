(** Proofs about keys that are not JSON strings. *)
From Verif Require Import Base Buffer BufferSpec Jiter JiterValue RJiter RJiterSpec Scan ScanSpec ValueSpec SoundSpec TypeSpec UnicodeSpec FaultSpec FaultKeySpec.
From Verif Require Import BufferProofs JiterProofs JiterValueProofs RJiterProofs RJiterOpProofs RJiterInvProofs ScanTokens SoundParser TypeProofs UnicodeProofs FaultProofs ValueProofs RJiterLongProofs.

Definition errs {A} (x : jres A * nat) : Prop := exists e a, x = (Err e, a).
Lemma errs_jat {A} n (f : jop A) l : errs (f (skipn n l)) -> errs (jat n f l).
Proof. intros ([e o] & a & E). unfold jat. rewrite E. repeat eexists. Qed.
(** What does not begin with white space. *)
Definition solid (m : bytes) : Prop := match m with [] => True | x :: _ => is_ascii_whitespace x = false end.
(** White space in front of [m]; only a part of it may be there, and it may have form feeds. *)
Lemma errs_ws {A} (g : jop A) w m : blanks w -> solid m -> (forall l, errs (g (12%N :: l))) ->
  (forall p q, m = p ++ q -> errs (g p)) -> forall p q, w ++ m = p ++ q -> errs (after_ws g p).
Proof.
  intros Hw Hx G12 G p q E. assert (G0 : errs (g [])) by (apply (G [] m); reflexivity).
  unfold after_ws. apply errs_jat. revert p q E. induction Hw as [|y w Hy Hw IH]; intros p q E.
  - destruct p as [|z p]; [exact G0|]. cbn [app] in E. subst m. cbn [app solid] in Hx.
    assert (Hj : json_ws z = false).
    { unfold is_ascii_whitespace in Hx. unfold json_ws. repeat (apply Bool.orb_false_elim in Hx as [Hx ?]).
      repeat (apply Bool.orb_false_intro); auto. }
    cbn [run_length]. rewrite Hj. cbn [skipn]. eapply G. reflexivity.
  - destruct p as [|z p]; [exact G0|]. cbn [app] in E. injection E as <- E. cbn [run_length].
    destruct Hy as [Hy| ->].
    + assert (json_ws y = true) as -> by (destruct Hy as [->|[->|[->| ->]]]; reflexivity). cbn [skipn]. apply (IH p q E).
    + change (json_ws 12%N) with false. cbn [skipn]. apply G12.
Qed.

(** On every beginning of [L] the parser fails; the error that is settled is found [adv] bytes further. *)
Definition settles_after {A} (f : jop A) (L : bytes) (K : nat) (e : error_type) (off adv : nat) : Prop :=
  forall p q, L = p ++ q -> exists e' o a, f p = (Err (e', o), a) /\
    (if can_retry e' then len p < K \/ (q = [] /\ e' = e /\ o = off /\ a = adv) else e' = e /\ o = off /\ a = adv).
Lemma retry_settles_after {A} (f : jop A) eager L K ty off adv fuel : forall s,
  settles_after f L K ty off adv -> K <= rcap s -> K <= len L -> wf (bf s) -> jlen s = n_bytes (bf s) -> jidx s = 0 -> stream (bf s) = L ->
  len (src (rd (bf s))) < fuel -> blamed (rquiet s) ty (total s - len L + adv + off) (retry_loop fuel f eager s).
Proof.
  induction fuel as [|fuel IH]; intros s Hf Hc HK W HL HI HS Hfu; [lia|].
  assert (V : valid s) by (unfold valid; repeat split; auto; lia).
  assert (Hsp : rest s = L) by (unfold rest; rewrite HI; exact HS).
  cbn [retry_loop]. unfold jcall. pose proof Hsp as Hsp'. rewrite (jview_split s V) in Hsp'. pose proof (jview_length s V) as Hlen.
  destruct (Hf (jview s) (src (rd (bf s)))) as (e & o & a & E & P); [auto|]. rewrite E. cbn [fst].
  destruct (can_retry e) eqn:Er.
  - cbn [bf].
    destruct (read_more (bf s)) as [b r] eqn:Em. destruct (read_more_spec _ _ _ W Em) as (C3 & N3 & Q3 & P3).
    assert (St : stream b = L) by (rewrite (cut_nil_stream _ _ _ C3); exact HS).
    destruct r as [[|k]|x].
    + destruct P3 as (A1 & A2 & A3). rewrite HI in Hlen.
      assert (Pq : e = ty /\ o = off /\ a = adv).
      { destruct P as [P|P]; [|apply P]. exfalso. destruct (A3 eq_refl) as [A4|A4]; [unfold rcap in Hc; lia|].
        rewrite A4, app_nil_r in Hsp'. rewrite Hsp' in P. lia. }
      destruct Pq as (-> & -> & ->). eexists _, _. split; [reflexivity|]. right.
      cbn [from_jiter_error fst snd err_type err_index]. split; [reflexivity|].
      unfold current_index, total. cbn [bf jidx with_bf]. rewrite HI, N3, HS. lia.
    + destruct P3 as (A1 & A2 & _).
      destruct (IH (create_new_jiter (with_bf (mkRj (bf s) (jlen s) (jidx s + a)) b))) as (s' & er & E' & P'); auto.
      { unfold rcap in *. cbn. rewrite (cut_cap _ _ _ _ C3). exact Hc. } { eapply cut_wf; eauto. } { cbn. lia. }
      exists s', er. split; [exact E'|]. unfold rcap, total, rquiet in *. cbn [create_new_jiter with_bf bf] in P'.
      rewrite St, N3 in P'. rewrite HS.
      destruct P' as [(P1 & P2)|P']; [left|right; exact P'].
      split; [exact P1|]. destruct (quiet (bf s)); [rewrite Q3 in P2 by reflexivity; discriminate|reflexivity].
    + eexists _, _. split; [reflexivity|]. left. destruct P3 as ((kd & ->) & _ & _ & _ & P3). split; [reflexivity|exact P3].
  - destruct P as (-> & -> & ->). eexists _, _. split; [reflexivity|]. right. cbn [from_jiter_error fst snd err_type err_index].
    split; [reflexivity|]. unfold current_index, total. cbn [bf jidx]. rewrite HI, HS. lia.
Qed.
Lemma skip_aw_blanks w m : blanks w -> solid m -> skip_aw (w ++ m) = m.
Proof.
  intros Hw Hx. unfold skip_aw. induction Hw as [|y w Hy Hw IH]; cbn [app run_length].
  - destruct m as [|x m]; [reflexivity|]. cbn [solid] in Hx. cbn [run_length]. rewrite Hx. reflexivity.
  - assert (Ey : is_ascii_whitespace y = true) by (destruct Hy as [[->|[->|[->| ->]]]| ->]; reflexivity). rewrite Ey. cbn [skipn]. exact IH.
Qed.
Lemma loop_settles_after {A} (f : jop A) eager s w tok w2 m K ty off adv a0 :
  valid s -> 2 <= rcap s -> rest s = w ++ tok :: w2 ++ m -> blanks w -> blanks w2 -> is_ascii_whitespace tok = false -> solid m ->
  (forall p q, rest s = p ++ q -> errs (f p)) -> settles_after f (tok :: m) K ty off adv -> K <= rcap s -> K <= S (len m) ->
  (0 < jidx s \/ (n_bytes (bf s) = 0 /\ exists e, f [] = (Err e, a0) /\ a0 = 0)) ->
  blamed (rquiet s) ty (total s - S (len m) + adv + off) (loop_until_success f (Some tok) eager s).
Proof.
  intros V Hc HR Hw Hw2 Ht Hx H1 Hf HK HK' Hg. pose proof V as (W & HL & HI). unfold loop_until_success, jcall.
  destruct (H1 (jview s) (src (rd (bf s)))) as ([e oe] & a & Ef); [apply jview_split; exact V|]. rewrite Ef.
  set (s1 := mkRj (bf s) (jlen s) (jidx s + a)).
  assert (Hstrip : strip (Some tok) (rest s) = tok :: m).
  { rewrite HR. unfold strip. rewrite (skip_aw_blanks w (tok :: w2 ++ m) Hw Ht), N.eqb_refl, (skip_aw_blanks w2 m Hw2 Hx). reflexivity. }
  destruct (feeding_spec s1 (jidx s) (Some tok) W HI Hc) as (s2 & r2 & E2 & P2). rewrite E2.
  destruct r2 as [[]|e2]; [|exists s2, e2; split; [reflexivity|]; left; split; [apply P2|apply P2]].
  destruct P2 as (W2 & C2 & Q2 & T2 & S2 & P2). change (stream (bf s1)) with (stream (bf s)) in *.
  fold (rest s) in S2. rewrite Hstrip in S2.
  assert (Hj : jlen s2 = n_bytes (bf s2) /\ jidx s2 = 0).
  { destruct P2 as [P2|(P1 & P2 & P3 & P4 & P5)]; [exact P2|]. destruct Hg as [Hg|(Hn & e' & E' & Ea)]; [lia|].
    assert (Hv : jview s = []).
    { pose proof (jview_length s V) as Hl. destruct (jview s); [reflexivity|]. cbn in Hl. lia. }
    rewrite Hv, E' in Ef. injection Ef as _ <-. cbn [s1 jlen jidx bf] in *. subst a0. split; [congruence|lia]. }
  destruct Hj as [Hjl Hji].
  destruct (retry_settles_after f eager (tok :: m) K ty off adv (fuel_for (bf s2)) s2) as (s' & e' & E & P); auto.
  { rewrite C2. exact HK. }
  exists s', e'. split; [exact E|]. change (rcap s1) with (rcap s) in *. change (total s1) with (total s) in *. change (rquiet s1) with (rquiet s) in *.
  rewrite T2 in P. destruct P as [(P1 & P3)|P]; [left|right; exact P].
  split; [exact P1|]. destruct (rquiet s); [rewrite Q2 in P3 by reflexivity; discriminate|reflexivity].
Qed.

(** The parsers of keys. *)
Definition key_step (D : jop bytes) (e0 : json_error) (closed : jres (option bytes) * nat) : jop (option bytes) := fun l =>
  match l with
  | [] => jfail e0
  | x :: _ => if N.eqb x QUOTE then object_key D l else if N.eqb x RBRACE then closed else jfail KeyMustBeAString
  end.
Definition key_behind (D : jop bytes) (tok : byte) (f : jop (option bytes)) (e0 : json_error) (closed : jres (option bytes) * nat) : Prop :=
  forall l, f (tok :: l) = jat 1 (after_ws (key_step D e0 closed)) (tok :: l).
Definition known_parser (D : jop bytes) : Prop := forall t cs r, reads t cs -> exists v, D (QUOTE :: t ++ QUOTE :: r) = (Ok v, 2 + len t).
Lemma known_parsers : known_parser j_known_str /\ known_parser j_known_bytes.
Proof.
  split; intros t cs r H; destruct (reads_text _ _ H) as (d & Ht & Hs).
  - assert (Hd : string_is t d) by (apply string_reads; eauto). destruct Hd as (_ & Hu).
    exists d. apply known_str_decodes. exists t. split; [apply known_bytes_text; exists d; exact Ht|split; auto].
  - exists t. apply known_bytes_text. exists d. exact Ht.
Qed.
Lemma method_key known tok op : key_method known tok op -> exists f D e0 closed, op = loop_until_success f (Some tok) false /\
  known_reader D /\ known_parser D /\ key_behind D tok f e0 closed /\
  (tok = 123%N /\ e0 = EofWhileParsingObject /\ closed = jok None 1 \/ tok = 44%N /\ e0 = EofWhileParsingValue /\ closed = jfail TrailingComma) /\ can_retry (JsonError e0) = true /\
  (exists e o a, f [] = (Err (JsonError e, o), a) /\ can_retry (JsonError e) = true /\ (known = false -> a = 0)) /\
  is_ascii_whitespace tok = false /\ (known = false -> exists g, f = after_ws g /\ errs (g []) /\ (forall m, errs (g (12%N :: m))) /\ forall m, g (tok :: m) = f (tok :: m)).
Proof.
  destruct known_readers as (K1 & K2). destruct known_parsers as (L1 & L2).
  assert (HO : forall D, key_behind D 123%N (j_next_object D) EofWhileParsingObject (jok None 1) /\
    exists g, j_next_object D = after_ws g /\ errs (g []) /\ (forall m, errs (g (12%N :: m))) /\ forall m, g (123%N :: m) = j_next_object D (123%N :: m)).
  { intros D. assert (B : forall m, j_next_object D (123%N :: m) = j_known_object D (123%N :: m)).
    { intros m. unfold j_next_object, next_as, after_ws. cbn [run_length]. change (json_ws 123%N) with false. unfold jat at 1. cbn [skipn].
      change (N.eqb LBRACE 123%N) with true. cbn iota. destruct (j_known_object D (123%N :: m)) as [[v|[e o]] a]; reflexivity. }
    split; [intros l; rewrite B; reflexivity|]. eexists. split; [reflexivity|]. split; [repeat eexists|]. split; [intros; repeat eexists|]. intros m. rewrite B. reflexivity. }
  assert (HC : forall D, key_behind D 44%N (j_next_key D) EofWhileParsingValue (jfail TrailingComma) /\
    exists g, j_next_key D = after_ws g /\ errs (g []) /\ (forall m, errs (g (12%N :: m))) /\ forall m, g (44%N :: m) = j_next_key D (44%N :: m)).
  { intros D. assert (B : forall m, j_next_key D (44%N :: m) = jat 1 (after_ws (key_step D EofWhileParsingValue (jfail TrailingComma))) (44%N :: m)).
    { intros m. unfold j_next_key, after_ws at 1. cbn [run_length]. change (json_ws 44%N) with false. unfold jat at 1. cbn [skipn].
      change (N.eqb 44%N COMMA) with true. cbn iota.
      fold (key_step D EofWhileParsingValue (jfail TrailingComma)).
      change (fun l : list byte => _) with (key_step D EofWhileParsingValue (jfail TrailingComma)).
      destruct (jat 1 (after_ws (key_step D EofWhileParsingValue (jfail TrailingComma))) (44%N :: m)) as [[v|[e o]] a]; reflexivity. }
    split; [exact B|]. eexists. split; [reflexivity|]. split; [repeat eexists|]. split; [intros; repeat eexists|]. intros m. rewrite B. reflexivity. }
  intros [].
  - exists (j_next_object j_known_str), j_known_str, EofWhileParsingObject, (jok None 1). destruct (HO j_known_str) as (H1 & H2).
    split; [reflexivity|]. split; [exact K1|]. split; [exact L1|]. split; [exact H1|]. split; [auto|]. split; [reflexivity|]. split; [exists EofWhileParsingValue, 0, 0; auto|]. split; [reflexivity|auto].
  - exists (j_next_object j_known_bytes), j_known_bytes, EofWhileParsingObject, (jok None 1). destruct (HO j_known_bytes) as (H1 & H2).
    split; [reflexivity|]. split; [exact K2|]. split; [exact L2|]. split; [exact H1|]. split; [auto|]. split; [reflexivity|]. split; [exists EofWhileParsingValue, 0, 0; auto|]. split; [reflexivity|auto].
  - exists (j_known_object j_known_str), j_known_str, EofWhileParsingObject, (jok None 1).
    split; [reflexivity|]. split; [exact K1|]. split; [exact L1|]. split; [intros l; reflexivity|]. split; [auto|]. split; [reflexivity|].
    split; [do 3 eexists; split; [reflexivity|split; [reflexivity|discriminate]]|]. split; [reflexivity|discriminate].
  - exists (j_next_key j_known_str), j_known_str, EofWhileParsingValue, (jfail TrailingComma). destruct (HC j_known_str) as (H1 & H2).
    split; [reflexivity|]. split; [exact K1|]. split; [exact L1|]. split; [exact H1|]. split; [auto|]. split; [reflexivity|]. split; [exists EofWhileParsingObject, 0, 0; auto|]. split; [reflexivity|auto].
  - exists (j_next_key j_known_bytes), j_known_bytes, EofWhileParsingValue, (jfail TrailingComma). destruct (HC j_known_bytes) as (H1 & H2).
    split; [reflexivity|]. split; [exact K2|]. split; [exact L2|]. split; [exact H1|]. split; [auto|]. split; [reflexivity|]. split; [exists EofWhileParsingObject, 0, 0; auto|]. split; [reflexivity|auto].
Qed.

(** A parser behind the token. *)
Lemma key_refused known tok op s w w2 m K e o a : key_method known tok op -> (known = true -> w = []) ->
  valid s -> 2 <= rcap s -> rest s = w ++ tok :: w2 ++ m -> blanks w -> blanks w2 -> solid m ->
  (forall D e0 closed, known_reader D -> known_parser D -> tok = 123%N /\ e0 = EofWhileParsingObject /\ closed = jok None 1 \/
     tok = 44%N /\ e0 = EofWhileParsingValue /\ closed = jfail TrailingComma ->
   forall p q, m = p ++ q -> exists e' o' a', key_step D e0 closed p = (Err (JsonError e', o'), a') /\
    (if can_retry (JsonError e') then len p < K \/ (q = [] /\ e' = e /\ o' = o /\ a' = a) else e' = e /\ o' = o /\ a' = a)) ->
  1 + K <= rcap s -> K <= len m -> (0 < jidx s \/ (n_bytes (bf s) = 0 /\ known = false)) ->
  blamed (rquiet s) (JsonError e) (total s - len m + o + (1 + a)) (op s).
Proof.
  intros Hm Hk V Hc HR Hw Hw2 Hs Hstep HK HK' Hg.
  destruct (method_key known tok op Hm) as (f & D & e0 & closed & -> & HD & HP & HB & Hc0 & R0 & (en & on & an & En & Rn & An) & Htok & Hl).
  specialize (Hstep D e0 closed HD HP Hc0).
  assert (Hset : settles_after f (tok :: m) (1 + K) (JsonError e) (1 + o) (1 + a)).
  { intros p q E. destruct p as [|x p]; [exists (JsonError en), on, an; split; [exact En|]; rewrite Rn; left; cbn; lia|].
    cbn [app] in E. injection E as <- E. rewrite HB. unfold jat at 1. cbn [skipn].
    destruct (Hstep p q E) as (e' & o' & a' & Es & P).
    assert (Ew : after_ws (key_step D e0 closed) p = key_step D e0 closed p).
    { unfold after_ws. assert (run_length json_ws p = 0) as ->.
      { destruct p as [|y p]; [reflexivity|]. subst m. cbn [app solid] in Hs. cbn [run_length].
        assert (json_ws y = false) as ->; [|reflexivity].
        unfold is_ascii_whitespace in Hs. unfold json_ws. repeat (apply Bool.orb_false_elim in Hs as [Hs ?]).
        repeat (apply Bool.orb_false_intro); auto. }
      unfold jat. cbn [skipn]. rewrite Es. reflexivity. }
    rewrite Ew, Es. exists (JsonError e'), (1 + o'), (1 + a'). split; [reflexivity|].
    destruct (can_retry (JsonError e')).
    - destruct P as [P|(-> & -> & -> & ->)]; [left; cbn; lia|right; auto].
    - destruct P as (-> & -> & ->). auto. }
  assert (Htot : len (rest s) <= total s) by (unfold rest, total; rewrite skipn_length; lia).
  assert (Hrest : 1 + len m <= len (rest s)) by (rewrite HR; rewrite !app_length; cbn [List.length]; rewrite !app_length; lia).
  replace (total s - len m + o + (1 + a)) with (total s - S (len m) + (1 + a) + (1 + o)) by lia.
  apply (loop_settles_after f false s w tok w2 m (1 + K) (JsonError e) (1 + o) (1 + a) 0); auto.
  - assert (HT : forall p q, w2 ++ m = p ++ q -> errs (f (tok :: p))).
    { intros p q E. rewrite HB. apply errs_jat. cbn [skipn]. revert p q E. apply errs_ws; auto.
      - intros l. repeat eexists.
      - intros p q E. destruct (Hstep p q E) as (e' & o' & a' & -> & _). repeat eexists. }
    rewrite HR. destruct known.
    + rewrite (Hk eq_refl). cbn [app]. intros p q E. destruct p as [|x p]; [rewrite En; repeat eexists|].
      cbn [app] in E. injection E as <- E. eapply HT. exact E.
    + destruct (Hl eq_refl) as (g & -> & G0 & G12 & G). apply errs_ws; auto. intros p q E. destruct p as [|x p]; [exact G0|].
      cbn [app] in E. injection E as <- E. rewrite G. eapply HT. exact E.
  - lia.
  - destruct Hg as [Hg|(Hg & Hn)]; [left; exact Hg|right]. split; [exact Hg|]. rewrite (An Hn) in En. eexists. split; [exact En|reflexivity].
Qed.

(** The text of a key. *)
Lemma byte_plain e : Forall (fun x : byte => (32 <= x)%N /\ x <> 34%N /\ x <> 92%N) e -> forall t, faultless t -> faultless (e ++ t).
Proof. induction 1 as [|x e (H1 & H2 & H3) H IH]; intros t Ht; [exact Ht|]. cbn [app]. apply fl_byte; auto. Qed.
Lemma reads_faultless t cs : reads t cs -> faultless t.
Proof.
  induction 1 as [|c e t cs Hc H1 H2 H3 He H IH|y c t cs Hy H IH|h c t cs Hh Hc H IH|h g hi lo t cs Hi Hl Hh Hg H IH].
  - constructor.
  - apply byte_plain; [|exact IH]. destruct He; repeat (apply Forall_cons; [split; [|split]; unfold byte in *; lia|]); apply Forall_nil.
  - exact (fl_escape y c t Hy IH).
  - exact (fl_hex h c t Hh Hc IH).
  - exact (fl_pair h g hi lo t Hi Hl Hh Hg IH).
Qed.
Lemma solid_not x r : ~ blank x -> solid (x :: r).
Proof.
  intros H. cbn [solid]. unfold blank, space in H. unfold is_ascii_whitespace.
  repeat (apply Bool.orb_false_intro); apply N.eqb_neq; intros ->; apply H; auto 6.
Qed.
Lemma colon_step (w m : bytes) : spaces w -> (forall x r, m = x :: r -> ~ space x /\ x <> 58%N) -> forall p q, w ++ m = p ++ q -> forall k : bytes,
  exists e, after_ws (fun l => match l with [] => jfail EofWhileParsingObject | x :: _ => if N.eqb x COLON then jok (Some k) 1 else jfail ExpectedColon end) p =
    (Err (JsonError e, Nat.min (len p) (len w)), Nat.min (len p) (len w)) /\
  (len p <= len w /\ e = EofWhileParsingObject \/ len w < len p /\ e = ExpectedColon).
Proof.
  intros Hw Hm p q E k. unfold after_ws, jat. revert p E. induction Hw as [|y w Hy Hw IH]; intros p E.
  - destruct p as [|x p]; [exists EofWhileParsingObject; split; [reflexivity|left; split; [cbn; lia|reflexivity]]|].
    cbn [app] in E. destruct (Hm x (p ++ q) E) as (H1 & H2).
    assert (Hj : json_ws x = false).
    { unfold space in H1. unfold json_ws. repeat (apply Bool.orb_false_intro); apply N.eqb_neq; intros ->; apply H1; auto 6. }
    cbn [run_length]. rewrite Hj. cbn [skipn]. apply N.eqb_neq in H2. unfold COLON. rewrite H2. exists ExpectedColon. split; [reflexivity|right; split; [cbn; lia|reflexivity]].
  - destruct p as [|x p]; [exists EofWhileParsingObject; split; [reflexivity|left; split; [cbn; lia|reflexivity]]|].
    cbn [app] in E. injection E as <- E. destruct (IH p E) as (e & Ee & He). exists e. cbn [run_length].
    assert (json_ws y = true) as -> by (destruct Hy as [->|[->|[->| ->]]]; reflexivity). cbn [skipn List.length Nat.min].
    split; [|destruct He as [(He & ->)|(He & ->)]; [left|right]; split; auto; lia].
    destruct (skipn (run_length json_ws p) p) as [|z l]; cbn in Ee |- *; [injection Ee as <- <-; reflexivity|].
    destruct (N.eqb z COLON); cbn in Ee |- *; [discriminate Ee|injection Ee as <- <-; reflexivity].
Qed.
Lemma key_then D e0 closed t cs (w m : bytes) : known_reader D -> known_parser D -> reads t cs -> spaces w -> (forall x r, m = x :: r -> ~ space x /\ x <> 58%N) ->
  forall p q, QUOTE :: t ++ QUOTE :: w ++ m = p ++ q -> exists e' o' a', key_step D e0 closed p = (Err (JsonError e', o'), a') /\
   ((p = [] /\ e' = e0) \/ (len p < 2 + len t /\ e' = EofWhileParsingString) \/
    (exists p', p = QUOTE :: t ++ QUOTE :: p' /\ w ++ m = p' ++ q /\ o' = 2 + len t + Nat.min (len p') (len w) /\ a' = o' /\
     (len p' <= len w /\ e' = EofWhileParsingObject \/ len w < len p' /\ e' = ExpectedColon))).
Proof.
  intros HD HP Ht Hw Hm p q E. destruct p as [|x p]; [do 3 eexists; split; [reflexivity|left; auto]|].
  cbn [app] in E. injection E as <- E. unfold key_step. rewrite N.eqb_refl. unfold object_key.
  assert (Hs : forall p' q', t = p' ++ q' -> p = p' -> exists e' o' a', match D (QUOTE :: p) with (Ok k, a) => jat a (after_ws (fun l => match l with [] => jfail EofWhileParsingObject | x :: _ => if N.eqb x COLON then jok (Some k) 1 else jfail ExpectedColon end)) (QUOTE :: p) | (Err e, _) => (Err e, 0) end = (Err (JsonError e', o'), a') /\ len (QUOTE :: p) < 2 + len t /\ e' = EofWhileParsingString).
  { intros p' q' Et ->. rewrite (HD _ _ _ (faultless_ends t (reads_faultless t cs Ht) p' q' Et)). do 3 eexists. split; [reflexivity|]. split; [|reflexivity].
    rewrite Et, app_length. cbn [List.length]. lia. }
  apply app_eq_app in E as (l & [(Et & El)|(Ep & El)]).
  - destruct (Hs p l Et eq_refl) as (e' & o' & a' & Es & H). exists e', o', a'. split; [exact Es|auto].
  - destruct l as [|x l].
    + rewrite app_nil_r in Ep. destruct (Hs t [] (eq_sym (app_nil_r t)) Ep) as (e' & o' & a' & Es & H). exists e', o', a'. split; [exact Es|auto].
    + cbn [app] in El. injection El as <- El. destruct (HP t cs l Ht) as (v & Ev). rewrite Ep, Ev.
      destruct (colon_step w m Hw Hm l q El v) as (e' & Ee & He).
      assert (Ek : skipn (2 + len t) (QUOTE :: t ++ QUOTE :: l) = l).
      { cbn [skipn Nat.add]. clear. induction t as [|y t IH]; [reflexivity|exact IH]. }
      exists e', (2 + len t + Nat.min (len l) (len w)), (2 + len t + Nat.min (len l) (len w)). unfold jat. rewrite Ek, Ee. split; [reflexivity|].
      right. right. exists l. split; [reflexivity|]. auto.
Qed.
Lemma key_blamed known tok op s w w2 m e o K a : key_method known tok op -> (known = true -> w = []) ->
  valid s -> 2 <= rcap s -> rest s = w ++ tok :: w2 ++ m -> blanks w -> blanks w2 -> key_wrong tok m e o K a ->
  1 + K <= rcap s -> (0 < jidx s \/ (n_bytes (bf s) = 0 /\ known = false)) ->
  blamed (rquiet s) (JsonError e) (total s - len m + o + (1 + a)) (op s).
Proof.
  intros Hm Hk V Hc HR Hw Hw2 Hx HK Hg.
  apply (key_refused known tok op s w w2 m K e o a); auto.
  - destruct Hx; try reflexivity. apply solid_not. assumption.
  - intros D e0 closed HD HP Hcase p q E. destruct Hx as [t f e o r Ht Hf|t b Ht Hb|x r H1 H2 H3|r Htok|Htok|Htok|t cs u x r Ht Hu H1 H2|t cs u Ht Hu].
    + destruct p as [|y p]; [exists e0, 0, 0; split; [reflexivity|]; destruct Hcase as [(_ & -> & _)|(_ & -> & _)]; left; cbn; lia|].
      cbn [app] in E. injection E as <- E. change 34%N with QUOTE. unfold key_step. rewrite N.eqb_refl. unfold object_key.
      destruct (fault_scanned t f e o r Ht Hf p q E) as [(Es & Hlt)|Es]; rewrite (HD _ _ _ Es); do 3 eexists; (split; [reflexivity|]).
      * left. cbn. lia.
      * assert (can_retry (JsonError e) = false) as -> by (destruct Hf; reflexivity). auto.
    + destruct p as [|y p]; [exists e0, 0, 0; split; [reflexivity|]; destruct Hcase as [(_ & -> & _)|(_ & -> & _)]; left; cbn; lia|].
      cbn [app] in E. injection E as <- E. change 34%N with QUOTE. unfold key_step. rewrite N.eqb_refl. unfold object_key.
      assert (Es : scan_string 0 p = Err (EofWhileParsingString, len p)).
      { apply app_eq_app in E as (l & [(-> & _)|(-> & ->)]); [eapply faultless_ends; [exact Ht|reflexivity]|].
        rewrite app_length. apply faultless_through; [exact Ht|]. apply scan_stops, broken_step, (broken_before l q). exact Hb. }
      rewrite (HD _ _ _ Es). do 3 eexists. split; [reflexivity|]. cbn [can_retry].
      assert (El : len t + len b = len p + len q) by (rewrite <- !app_length; f_equal; exact E).
      destruct q as [|z q]; [right; cbn [List.length] in El; split; [reflexivity|]; split; [reflexivity|]; split; lia|left; cbn [List.length] in *; lia].
    + destruct p as [|y p]; [exists e0, 0, 0; split; [reflexivity|]; destruct Hcase as [(_ & -> & _)|(_ & -> & _)]; left; cbn; lia|].
      cbn [app] in E. injection E as <- E. unfold key_step, QUOTE, RBRACE. apply N.eqb_neq in H2, H3. rewrite H2, H3. do 3 eexists. split; [reflexivity|]. cbn [can_retry]. auto.
    + destruct p as [|y p]; [exists e0, 0, 0; split; [reflexivity|]; destruct Hcase as [(_ & -> & _)|(_ & -> & _)]; left; cbn; lia|].
      cbn [app] in E. injection E as <- E. destruct Hcase as [(Hcase & _)|(_ & _ & ->)]; [subst tok; discriminate|]. do 3 eexists. split; [reflexivity|]. cbn [can_retry]. auto.
    + destruct Hcase as [(_ & -> & _)|(Hcase & _)]; [|subst tok; discriminate]. destruct p; [|discriminate]. do 3 eexists. split; [reflexivity|]. right. destruct q; [auto|discriminate].
    + destruct Hcase as [(Hcase & _)|(_ & -> & _)]; [subst tok; discriminate|]. destruct p; [|discriminate]. do 3 eexists. split; [reflexivity|]. right. destruct q; [auto|discriminate].
    + destruct (key_then D e0 closed t cs u (x :: r) HD HP Ht Hu) with (p := p) (q := q) as (e' & o' & a' & Es & P); [intros y l Ey; injection Ey as <- _; auto|exact E|].
      exists e', o', a'. split; [exact Es|]. destruct P as [(-> & ->)|[(P & ->)|(p' & -> & Eu & -> & -> & P)]].
      * destruct Hcase as [(_ & -> & _)|(_ & -> & _)]; left; cbn; lia.
      * left. lia.
      * destruct P as [(P & ->)|(P & ->)]; cbn [can_retry].
        -- left. cbn [List.length]. rewrite app_length. cbn [List.length]. lia.
        -- split; [reflexivity|]. split; lia.
    + destruct (key_then D e0 closed t cs u [] HD HP Ht Hu) with (p := p) (q := q) as (e' & o' & a' & Es & P); [discriminate|rewrite app_nil_r; exact E|].
      exists e', o', a'. split; [exact Es|]. destruct P as [(-> & ->)|[(P & ->)|(p' & -> & Eu & -> & -> & P)]].
      * destruct Hcase as [(_ & -> & _)|(_ & -> & _)]; left; cbn; lia.
      * left. lia.
      * rewrite app_nil_r in Eu. assert (El : len u = len p' + len q) by (rewrite Eu, app_length; reflexivity).
        destruct P as [(P & ->)|(P & ->)]; [|lia]. cbn [can_retry].
        destruct q as [|z q]; [right; cbn [List.length] in El; split; [reflexivity|]; split; [reflexivity|]; split; lia|left].
        cbn [List.length] in *. rewrite app_length. cbn [List.length]. lia.
  - destruct Hx; cbn [List.length]; rewrite ?app_length; cbn [List.length]; rewrite ?app_length; cbn [List.length]; lia.
Qed.

(** These are all cases. *)
Lemma reads_dec t : faultless t -> (exists cs, reads t cs) \/ forall cs, ~ reads t cs.
Proof.
  intros Ht. destruct (j_known_str (QUOTE :: t ++ [QUOTE])) as [[d|e] a] eqn:E.
  - left. destruct (known_str_parsed (t ++ [QUOTE]) d (skipn a (QUOTE :: t ++ [QUOTE]))) as (t' & Et & Hd); [exists a; auto|].
    apply string_reads in Hd as (cs & Hr & Hs). remember (skipn a (QUOTE :: t ++ [QUOTE])) as r eqn:Er. clear Er.
    cbn [app] in Et. injection Et as Et. rewrite <- app_assoc in Et. cbn [app] in Et. exists cs.
    apply app_eq_app in Et as (l & [(Ea & Eb)|(Ea & Eb)]).
    + destruct l as [|x l]; [rewrite app_nil_r in Ea; subst t'; exact Hr|]. exfalso. cbn [app] in Eb. injection Eb as <- _.
      assert (H : scan_string 0 (t' ++ [QUOTE]) = Err (EofWhileParsingString, len (t' ++ [QUOTE]))) by (apply (faultless_ends t Ht _ l); rewrite Ea, <- app_assoc; reflexivity).
      destruct (reads_text _ _ Hr) as (d' & Hd' & _). rewrite (scan_text _ _ _ Hd' []) in H. discriminate H.
    + destruct l as [|x l]; [rewrite app_nil_r in Ea; subst t'; exact Hr|]. exfalso. cbn [app] in Eb. injection Eb as _ Eb. destruct l; discriminate Eb.
  - right. intros cs H. destruct (proj1 known_parsers t cs [] H) as (v & Ev). rewrite Ev in E. discriminate E.
Qed.
Lemma spaces_split (r : bytes) : exists w m, r = w ++ m /\ spaces w /\ forall x l, m = x :: l -> ~ space x.
Proof.
  induction r as [|x r IH]; [exists [], []; split; [reflexivity|split; [constructor|discriminate]]|].
  destruct (json_ws x) eqn:Ex.
  - destruct IH as (w & m & -> & Hw & Hm). exists (x :: w), m. split; [reflexivity|]. split; [|exact Hm]. constructor; [|exact Hw].
    unfold json_ws in Ex. unfold space. repeat (apply Bool.orb_true_iff in Ex as [Ex|Ex]); apply N.eqb_eq in Ex; auto.
  - exists [], (x :: r). split; [reflexivity|]. split; [constructor|]. intros y l E. injection E as <- _.
    intros [H|[H|[H|H]]]; subst x; discriminate Ex.
Qed.
Lemma key_cases token m : token = 123%N \/ token = 44%N -> (forall x l, m = x :: l -> ~ blank x) -> key_case token m.
Proof.
  intros Ht Hm. destruct m as [|x m].
  - destruct Ht as [Ht|Ht]; eapply kc_wrong; [apply kw_end_brace|apply kw_end_comma]; exact Ht.
  - destruct (N.eq_dec x 34) as [->|H1].
    + destruct (string_cases m) as [t r Hf|t f e o r Hf Hw|t a Hf Hw].
      * destruct (reads_dec t Hf) as [(cs & Hr)|Hn]; [|apply kc_no_characters; assumption].
        destruct (spaces_split r) as (w & l & -> & Hw & Hl). destruct l as [|y l].
        -- rewrite app_nil_r. eapply kc_wrong, kw_end_key; eauto.
        -- destruct (N.eq_dec y 58) as [->|Hy]; [eapply kc_key; eauto|]. eapply kc_wrong, kw_no_colon; eauto.
      * eapply kc_wrong, kw_text; eauto.
      * eapply kc_wrong, kw_unended; eauto.
    + destruct (N.eq_dec x 125) as [->|H2].
      * destruct Ht as [Ht|Ht]; [apply kc_closed; exact Ht|eapply kc_wrong, kw_comma; exact Ht].
      * eapply kc_wrong, kw_no_string; eauto.
Qed.
