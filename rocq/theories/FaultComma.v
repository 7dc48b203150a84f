(** Proofs about what is wrong between the elements of an array, and about commas that are missing. *)
From Verif Require Import Base Buffer BufferSpec Jiter JiterValue RJiter RJiterSpec Scan ScanSpec ValueSpec SoundSpec TypeSpec UnicodeSpec ReadsSpec FaultSpec FaultKeySpec.
From Verif Require Import BufferProofs JiterProofs JiterValueProofs RJiterProofs RJiterOpProofs RJiterInvProofs ScanTokens TypeProofs FaultProofs FaultKeys ReadsErr.

(** The error is the same for whatever there is. *)
Lemma retry_place {A} (f : jop A) eager (x : byte) l e fuel : forall s,
  can_retry e = true -> (forall m, f (x :: m) = (Err (e, 0), 0)) -> (exists e0 o0, f [] = (Err (e0, o0), 0) /\ can_retry e0 = true) ->
  2 <= rcap s -> wf (bf s) -> jlen s = n_bytes (bf s) -> jidx s = 0 -> stream (bf s) = x :: l -> len (src (rd (bf s))) < fuel ->
  blamed (rquiet s) e (total s - len (x :: l)) (retry_loop fuel f eager s).
Proof.
  induction fuel as [|fuel IH]; intros s He Hf Hn Hc W HL HI HS Hfu; [lia|].
  assert (V : valid s) by (unfold valid; repeat split; auto; lia).
  assert (Hsp : rest s = x :: l) by (unfold rest; rewrite HI; exact HS).
  cbn [retry_loop]. unfold jcall. rewrite (jview_split s V) in Hsp. pose proof (jview_length s V) as Hlen.
  assert (Hr : exists e1 o1, f (jview s) = (Err (e1, o1), 0) /\ can_retry e1 = true /\ (jview s <> [] -> e1 = e /\ o1 = 0)).
  { destruct (jview s) as [|y m]; [destruct Hn as (e0 & o0 & E0 & R0); exists e0, o0; split; [exact E0|split; [exact R0|contradiction]]|].
    cbn [app] in Hsp. injection Hsp as -> _. exists e, 0. auto. }
  destruct Hr as (e1 & o1 & E & R & Hv). rewrite E. cbn [fst]. rewrite R. cbn [bf].
  destruct (read_more (bf s)) as [b r] eqn:Em. destruct (read_more_spec _ _ _ W Em) as (C3 & N3 & Q3 & P3).
  assert (St : stream b = x :: l) by (rewrite (cut_nil_stream _ _ _ C3); exact HS).
  destruct r as [[|k]|er].
  - destruct P3 as (A1 & A2 & A3). rewrite HI in Hlen.
    assert (Hj : jview s <> []).
    { intros Hj. rewrite Hj in Hlen, Hsp. cbn [List.length app] in *. destruct (A3 eq_refl) as [A4|A4]; [unfold rcap in Hc; lia|]. rewrite A4 in Hsp. discriminate Hsp. }
    destruct (Hv Hj) as (-> & ->). eexists _, _. split; [reflexivity|]. right. cbn [from_jiter_error fst snd err_type err_index]. split; [reflexivity|].
    unfold current_index, total. cbn [bf jidx with_bf]. rewrite HI, N3, HS. lia.
  - destruct P3 as (A1 & A2 & _).
    destruct (IH (create_new_jiter (with_bf (mkRj (bf s) (jlen s) (jidx s + 0)) b))) as (s' & er & E' & P'); auto.
    { unfold rcap in *. cbn. rewrite (cut_cap _ _ _ _ C3). exact Hc. } { eapply cut_wf; eauto. } { cbn. lia. }
    exists s', er. split; [exact E'|]. unfold rcap, total, rquiet in *. cbn [create_new_jiter with_bf bf] in P'.
    rewrite St, N3 in P'. rewrite HS.
    destruct P' as [(P1 & P2)|P']; [left|right; exact P'].
    split; [exact P1|]. destruct (quiet (bf s)); [rewrite Q3 in P2 by reflexivity; discriminate|reflexivity].
  - eexists _, _. split; [reflexivity|]. left. destruct P3 as ((kd & ->) & _ & _ & _ & P3). split; [reflexivity|exact P3].
Qed.
Lemma comma_place_of {A} (g : jop A) t c er e0 eager s w x l : is_ascii_whitespace t = false -> is_ascii_whitespace c = false ->
  g [] = jfail e0 -> can_retry (JsonError e0) = true -> can_retry (JsonError er) = true -> (forall y m, y <> t -> y <> c -> g (y :: m) = jfail er) ->
  valid s -> 2 <= rcap s -> rest s = w ++ x :: l -> blanks w -> ~ blank x -> x <> t -> x <> c ->
  blamed (rquiet s) (JsonError er) (total s - len (x :: l)) (loop_until_success (after_ws g) (Some t) eager s).
Proof.
  intros Wt Wc G0 R0 Re G V Hc HR Hw Hx Nt Nc. pose proof V as (W & HL & HI).
  assert (Sx : solid (x :: l)) by (apply solid_not; exact Hx).
  assert (H1 : forall p q, rest s = p ++ q -> errs (after_ws g p)).
  { rewrite HR. apply errs_ws; auto.
    - intros m. rewrite G; [repeat eexists|intros E; subst t; discriminate Wt|intros E; subst c; discriminate Wc].
    - intros [|y p] q E; [rewrite G0; repeat eexists|]. cbn [app] in E. injection E as <- _. rewrite G by assumption. repeat eexists. }
  assert (Jx : json_ws x = false).
  { destruct (json_ws x) eqn:Jx; [|reflexivity]. cbn [solid] in Sx. rewrite (json_ws_ascii x Jx) in Sx. discriminate Sx. }
  assert (Hf : forall m, after_ws g (x :: m) = (Err (JsonError er, 0), 0)) by (intros m; unfold after_ws; cbn [run_length]; rewrite Jx, jat_0; apply G; assumption).
  assert (Hn : after_ws g [] = (Err (JsonError e0, 0), 0)) by (unfold after_ws; cbn [run_length]; rewrite jat_0; exact G0).
  unfold loop_until_success, jcall.
  destruct (H1 (jview s) (src (rd (bf s)))) as ([e oe] & a & Ef); [apply jview_split; exact V|]. rewrite Ef.
  set (s1 := mkRj (bf s) (jlen s) (jidx s + a)).
  assert (Hstrip : strip (Some t) (rest s) = x :: l).
  { rewrite HR. unfold strip. rewrite (skip_aw_blanks w (x :: l) Hw Sx). destruct (N.eqb_spec x t); [contradiction|reflexivity]. }
  destruct (feeding_spec s1 (jidx s) (Some t) W HI Hc) as (s2 & r2 & E2 & P2). rewrite E2.
  destruct r2 as [[]|e2]; [|exists s2, e2; split; [reflexivity|]; left; split; [apply P2|apply P2]].
  destruct P2 as (W2 & C2 & Q2 & T2 & S2 & P2). change (stream (bf s1)) with (stream (bf s)) in *.
  fold (rest s) in S2. rewrite Hstrip in S2.
  assert (Hj : jlen s2 = n_bytes (bf s2) /\ jidx s2 = 0).
  { destruct P2 as [P2|(P1 & P2 & P3 & P4 & P5)]; [exact P2|]. cbn [s1 jlen jidx bf] in *. split; [congruence|]. rewrite P5, P1.
    assert (Hs0 : jview s ++ src (rd (bf s)) = x :: l).
    { rewrite <- (jview_split s V). unfold rest. rewrite P1. cbn [skipn]. congruence. }
    destruct (jview s) as [|y m]; [rewrite Hn in Ef; injection Ef as _ _ <-; reflexivity|].
    cbn [app] in Hs0. injection Hs0 as -> _. rewrite Hf in Ef. injection Ef as _ _ <-. reflexivity. }
  destruct Hj as [Hjl Hji].
  destruct (retry_place (after_ws g) eager x l (JsonError er) (fuel_for (bf s2)) s2) as (s' & e' & E & P); auto.
  { do 2 eexists. split; [exact Hn|exact R0]. } { rewrite C2. exact Hc. }
  exists s', e'. split; [exact E|]. change (total s1) with (total s) in *. change (rquiet s1) with (rquiet s) in *.
  rewrite T2 in P. destruct P as [(P1 & P3)|P]; [left|right; exact P].
  split; [exact P1|]. destruct (rquiet s); [rewrite Q2 in P3 by reflexivity; discriminate|reflexivity].
Qed.
Lemma comma_place {A} t c er (op : rj -> outcome (rj * result A rerror)) s w x l : step_method t c er op -> valid s -> 2 <= rcap s ->
  rest s = w ++ x :: l -> blanks w -> ~ blank x -> x <> t -> x <> c ->
  blamed (rquiet s) (JsonError er) (total s - len (x :: l)) (op s).
Proof.
  intros []; (eapply comma_place_of; [reflexivity|reflexivity|reflexivity|reflexivity|reflexivity|]);
    intros y m H1 H2; apply N.eqb_neq in H1; apply N.eqb_neq in H2; rewrite H1, H2; reflexivity.
Qed.

(** White space without form feeds. *)
Lemma errs_spaces {A} (g : jop A) w m : spaces w -> solid m -> (forall p q, m = p ++ q -> errs (g p)) ->
  forall p q, w ++ m = p ++ q -> errs (after_ws g p).
Proof.
  intros Hw Hx G p q E. assert (G0 : errs (g [])) by (apply (G [] m); reflexivity).
  unfold after_ws. apply errs_jat. revert p q E. induction Hw as [|y w Hy Hw IH]; intros p q E.
  - destruct p as [|z p]; [exact G0|]. cbn [app] in E. subst m. cbn [app solid] in Hx.
    assert (Hj : json_ws z = false) by (destruct (json_ws z) eqn:Jx; [rewrite (json_ws_ascii z Jx) in Hx; discriminate Hx|reflexivity]).
    cbn [run_length]. rewrite Hj. cbn [skipn]. eapply G. reflexivity.
  - destruct p as [|z p]; [exact G0|]. cbn [app] in E. injection E as <- E. cbn [run_length].
    assert (json_ws y = true) as -> by (destruct Hy as [->|[->|[->| ->]]]; reflexivity). cbn [skipn]. apply (IH p q E).
Qed.
Definition element_step (e0 : json_error) (closed : jres (option byte) * nat) : jop (option byte) := fun l =>
  match l with [] => jfail e0 | x :: _ => if N.eqb x RBRACK then closed else jok (Some x) 0 end.
Lemma method_element known tok op : element_method known tok op -> exists f e0 closed, op = loop_until_success f (Some tok) false /\
  (forall l, f (tok :: l) = jat 1 (after_ws (element_step e0 closed)) (tok :: l)) /\
  (tok = 91%N /\ e0 = EofWhileParsingList /\ closed = jok None 1 \/ tok = 44%N /\ e0 = EofWhileParsingValue /\ closed = jfail TrailingComma) /\
  (exists e o a, f [] = (Err (JsonError e, o), a) /\ can_retry (JsonError e) = true /\ (known = false -> a = 0)) /\ is_ascii_whitespace tok = false /\
  (known = false -> exists g, f = after_ws g /\ errs (g []) /\ (forall m, errs (g (12%N :: m))) /\ forall m, g (tok :: m) = f (tok :: m)).
Proof.
  intros [].
  - assert (B : forall m, j_next_array (91%N :: m) = j_known_array (91%N :: m)).
    { intros m. unfold j_next_array, next_as, after_ws. cbn [run_length]. change (json_ws 91%N) with false. unfold jat at 1. cbn [skipn].
      change (N.eqb LBRACK 91%N) with true. cbn iota. destruct (j_known_array (91%N :: m)) as [[v|[e o]] a]; reflexivity. }
    exists j_next_array, EofWhileParsingList, (jok None 1). split; [reflexivity|]. split; [intros l; rewrite B; reflexivity|]. split; [auto|].
    split; [exists EofWhileParsingValue, 0, 0; auto|]. split; [reflexivity|]. intros _. eexists. split; [reflexivity|]. split; [repeat eexists|].
    split; [intros; repeat eexists|]. intros m. rewrite B. reflexivity.
  - exists j_known_array, EofWhileParsingList, (jok None 1). split; [reflexivity|]. split; [intros l; reflexivity|]. split; [auto|].
    split; [do 3 eexists; split; [reflexivity|split; [reflexivity|discriminate]]|]. split; [reflexivity|discriminate].
  - assert (B : forall m, j_array_step (44%N :: m) = jat 1 array_peek (44%N :: m)).
    { intros m. unfold j_array_step, after_ws at 1. cbn [run_length]. change (json_ws 44%N) with false. unfold jat at 1. cbn [skipn].
      change (N.eqb 44%N COMMA) with true. cbn iota. destruct (jat 1 array_peek (44%N :: m)) as [[v|[e o]] a]; reflexivity. }
    exists j_array_step, EofWhileParsingValue, (jfail TrailingComma). split; [reflexivity|]. split; [intros l; rewrite B; reflexivity|]. split; [auto|].
    split; [exists EofWhileParsingList, 0, 0; auto|]. split; [reflexivity|]. intros _. eexists. split; [reflexivity|]. split; [repeat eexists|].
    split; [intros; repeat eexists|]. intros m. rewrite B. reflexivity.
Qed.
Lemma element_blamed known tok op s w u m e : element_method known tok op -> (known = true -> w = []) ->
  valid s -> 2 <= rcap s -> rest s = w ++ tok :: u ++ m -> blanks w -> spaces u -> element_wrong tok m e ->
  (0 < jidx s \/ (n_bytes (bf s) = 0 /\ known = false)) ->
  blamed (rquiet s) (JsonError e) (total s - len m + 1) (op s).
Proof.
  intros Hm Hk V Hc HR Hw Hu Hx Hg.
  destruct (method_element known tok op Hm) as (f & e0 & closed & -> & HB & Hcase & (en & on & an & En & Rn & An) & Htok & Hl).
  assert (Hs : solid m) by (destruct Hx; reflexivity).
  assert (Hstep : forall p q, m = p ++ q -> exists e', element_step e0 closed p = (Err (JsonError e', 0), 0) /\
    (if can_retry (JsonError e') then len p < len (firstn 1 m) \/ (q = [] /\ e' = e) else e' = e)).
  { intros p q E. destruct Hx as [Ht|Ht|r Ht].
    - destruct p; [|discriminate]. destruct q; [|discriminate]. destruct Hcase as [(_ & -> & _)|(Hc' & _)]; [|subst tok; discriminate].
      eexists. split; [reflexivity|]. right. auto.
    - destruct p; [|discriminate]. destruct q; [|discriminate]. destruct Hcase as [(Hc' & _)|(_ & -> & _)]; [subst tok; discriminate|].
      eexists. split; [reflexivity|]. right. auto.
    - destruct Hcase as [(Hc' & _)|(_ & -> & ->)]; [subst tok; discriminate|]. destruct p as [|y p].
      + eexists. split; [reflexivity|]. left. cbn. lia.
      + cbn [app] in E. injection E as <- E. eexists. split; [reflexivity|]. reflexivity. }
  assert (Hset : settles_after f (tok :: m) (1 + len (firstn 1 m)) (JsonError e) 1 1).
  { intros p q E. destruct p as [|x p]; [exists (JsonError en), on, an; split; [exact En|]; rewrite Rn; left; cbn; lia|].
    cbn [app] in E. injection E as <- E. rewrite HB. unfold jat at 1. cbn [skipn].
    destruct (Hstep p q E) as (e' & Es & P).
    assert (Ew : after_ws (element_step e0 closed) p = element_step e0 closed p).
    { unfold after_ws. assert (run_length json_ws p = 0) as ->.
      { destruct p as [|y p]; [reflexivity|]. subst m. cbn [app solid] in Hs. cbn [run_length].
        destruct (json_ws y) eqn:Jy; [rewrite (json_ws_ascii y Jy) in Hs; discriminate Hs|reflexivity]. }
      unfold jat. cbn [skipn]. rewrite Es. reflexivity. }
    rewrite Ew, Es. exists (JsonError e'), 1, 1. split; [reflexivity|].
    destruct (can_retry (JsonError e')).
    - destruct P as [P|(-> & ->)]; [left; cbn [List.length]; lia|right; auto].
    - subst e'. auto. }
  assert (Htot : len (rest s) <= total s) by (unfold rest, total; rewrite skipn_length; lia).
  assert (Hrest : 1 + len m <= len (rest s)) by (rewrite HR; rewrite !app_length; cbn [List.length]; rewrite !app_length; lia).
  assert (H1 : len (firstn 1 m) <= 1 /\ len (firstn 1 m) <= len m) by (rewrite firstn_length; lia).
  replace (total s - len m + 1) with (total s - S (len m) + 1 + 1) by lia.
  assert (Hb : blanks u).
  { clear - Hu. induction Hu as [|y u Hy Hu IH]; constructor; [left; exact Hy|exact IH]. }
  apply (loop_settles_after f false s w tok u m (1 + len (firstn 1 m)) (JsonError e) 1 1 0); auto; try lia.
  - assert (HT : forall p q, u ++ m = p ++ q -> errs (f (tok :: p))).
    { intros p q E. rewrite HB. apply errs_jat. cbn [skipn]. revert p q E. apply errs_spaces; auto.
      intros p q E. destruct (Hstep p q E) as (e' & -> & _). repeat eexists. }
    rewrite HR. destruct known.
    + rewrite (Hk eq_refl). cbn [app]. intros p q E. destruct p as [|x p]; [rewrite En; repeat eexists|].
      cbn [app] in E. injection E as <- E. eapply HT. exact E.
    + destruct (Hl eq_refl) as (g & -> & G0 & G12 & G). apply errs_ws; auto. intros p q E. destruct p as [|x p]; [exact G0|].
      cbn [app] in E. injection E as <- E. rewrite G. eapply HT. exact E.
  - destruct Hg as [Hg|(Hg & Hn)]; [left; exact Hg|right]. split; [exact Hg|]. rewrite (An Hn) in En. eexists. split; [exact En|reflexivity].
Qed.
