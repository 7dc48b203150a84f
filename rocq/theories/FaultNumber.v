(** Proofs about numbers that are not JSON. *)
From Verif Require Import Base Buffer BufferSpec Jiter JiterValue RJiter RJiterSpec Scan ScanSpec ValueSpec SoundSpec TypeSpec UnicodeSpec FaultSpec FaultNumberSpec.
From Verif Require Import BufferProofs JiterProofs RJiterProofs ScanTokens TypeProofs FaultProofs.

(** The plain parser. *)
Lemma digit_is x : digit x -> is_digit x = true.
Proof. unfold digit, is_digit. intros H. apply andb_true_intro. rewrite !N.leb_le. lia. Qed.
Lemma digit_not x : ~ digit x -> is_digit x = false.
Proof. unfold digit, is_digit. intros H. apply Bool.andb_false_iff. rewrite !N.leb_gt. lia. Qed.
Lemma digits_then ds l : Forall digit ds -> (forall x m, l = x :: m -> is_digit x = false) -> digits (ds ++ l) = len ds /\ skipn (len ds) (ds ++ l) = l.
Proof.
  intros H Hl. split; [|rewrite skipn_app, skipn_all, Nat.sub_diag; reflexivity]. unfold digits.
  induction H as [|x ds Hx H IH]; cbn [app run_length List.length].
  - destruct l as [|x m]; [reflexivity|]. cbn [run_length]. rewrite (Hl x m eq_refl). reflexivity.
  - rewrite (digit_is x Hx), IH. reflexivity.
Qed.
Lemma signed g l : sign g -> (forall x m, l = x :: m -> is_digit x = true) -> l <> [] -> num_range (g ++ l) = add_off (len g) (num_unsigned l).
Proof.
  intros [] Hl Hn; [|reflexivity]. cbn [app List.length]. destruct l as [|x m]; [contradiction|]. specialize (Hl x m eq_refl). cbn [num_range].
  assert (Hx : digit x) by (unfold is_digit in Hl; apply andb_prop in Hl as [H1 H2]; apply N.leb_le in H1, H2; split; assumption).
  unfold digit in Hx. destruct (N.eqb_spec x 45); [lia|]. unfold is_inf_nan. destruct (N.eqb_spec x 73); [lia|]. destruct (N.eqb_spec x 78); [lia|]. cbn [orb].
  destruct (num_unsigned (x :: m)) as [k|[e o]]; reflexivity.
Qed.
Lemma whole_head n : whole n -> n <> [] /\ forall l x m, n ++ l = x :: m -> is_digit x = true.
Proof.
  intros [|x ds Hx Hd]; (split; [discriminate|]); intros l y m E; injection E as <- _; [reflexivity|]. apply digit_is. unfold digit. lia.
Qed.
Lemma whole_then n l : whole n -> (forall x m, l = x :: m -> is_digit x = false) -> num_unsigned (n ++ l) = add_off (len n) (num_tail l).
Proof.
  intros [|x ds Hx Hd] Hl.
  - cbn [app num_unsigned]. rewrite N.eqb_refl. destruct l as [|y m]; [reflexivity|]. rewrite (Hl y m eq_refl). reflexivity.
  - cbn [app num_unsigned]. destruct (N.eqb_spec x 48); [lia|]. rewrite (digit_is x) by (unfold digit; lia).
    change (x :: ds ++ l) with ((x :: ds) ++ l). destruct (digits_then (x :: ds) l) as (E1 & E2); [constructor; [unfold digit; lia|exact Hd]|exact Hl|]. cbv zeta. unfold bytes, byte in *. rewrite E1. rewrite E2. reflexivity.
Qed.
Lemma add_add a b r : add_off a (add_off b r) = add_off (a + b) r.
Proof. destruct r as [k|[e o]]; cbn; f_equal; [lia|f_equal; lia]. Qed.
Lemma number_then g n l : sign g -> whole n -> (forall x m, l = x :: m -> is_digit x = false) -> num_range (g ++ n ++ l) = add_off (len g + len n) (num_tail l).
Proof.
  intros Hg Hn Hl. destruct (whole_head n Hn) as (H1 & H2). rewrite signed; auto; [|eapply H2|destruct n; [contradiction|discriminate]].
  rewrite whole_then by assumption. apply add_add.
Qed.
Lemma is_exp_is (x : byte) : x = 101%N \/ x = 69%N -> is_exp x = true /\ is_digit x = false /\ N.eqb x 46 = false.
Proof. intros [-> | ->]; repeat split. Qed.
Lemma fraction_then f (x : byte) l : fraction f -> x = 101%N \/ x = 69%N -> num_tail (f ++ x :: l) = add_off (S (len f)) (num_exponent l).
Proof.
  intros Hf Hx. destruct (is_exp_is x Hx) as (X1 & X2 & X3). destruct Hf as [|d ds Hd Hds].
  - cbn [app num_tail List.length]. rewrite X3, X1. reflexivity.
  - cbn [app num_tail]. cbn [N.eqb Pos.eqb]. cbn [num_decimal]. rewrite (digit_is d Hd).
    change (d :: ds ++ x :: l) with ((d :: ds) ++ x :: l). destruct (digits_then (d :: ds) (x :: l)) as (E1 & E2).
    + constructor; assumption.
    + intros y m E. injection E as <- _. exact X2.
    + cbv zeta. unfold bytes, byte in *. rewrite E1. rewrite E2. rewrite X1, add_add. f_equal.
Qed.
Lemma awaits_then a b l : awaits a b -> exists r, num_range (a ++ l) = add_off (len a) r /\
  (l = [] -> r = Err (EofWhileParsingValue, 0)) /\
  (forall y m, l = y :: m -> ~ digit y -> (b = true -> y <> 43%N /\ y <> 45%N) -> r = Err (InvalidNumber, 0)).
Proof.
  intros [|g n Hg Hn|g n f x Hg Hn Hf Hx|g n f x h Hg Hn Hf Hx Hh].
  - eexists. split; [reflexivity|]. split; [intros ->; reflexivity|]. intros y m -> Hy _. cbn [num_unsigned]. rewrite (digit_not y Hy).
    destruct (N.eqb_spec y 48) as [->|_]; [exfalso; apply Hy; unfold digit; lia|reflexivity].
  - exists (num_decimal l). rewrite <- !app_assoc. rewrite (number_then g n _ Hg Hn) by (intros y m E; injection E as <- _; reflexivity).
    cbn [app num_tail N.eqb Pos.eqb]. rewrite add_add, !app_length. cbn [List.length].
    split; [f_equal; lia|]. split; [intros ->; reflexivity|]. intros y m -> Hy _. cbn [num_decimal]. rewrite (digit_not y Hy). reflexivity.
  - exists (num_exponent l). rewrite <- !app_assoc. cbn [app]. rewrite (number_then g n _ Hg Hn).
    2:{ intros y m E. destruct (is_exp_is x Hx) as (_ & X2 & _). destruct Hf; cbn [app] in E; injection E as <- _; [exact X2|reflexivity]. }
    rewrite (fraction_then f x l Hf Hx), add_add, !app_length. cbn [List.length].
    split; [f_equal; lia|]. split; [intros ->; reflexivity|]. intros y m -> Hy Hb. destruct (Hb eq_refl) as (B1 & B2). apply N.eqb_neq in B1, B2.
    unfold num_exponent. rewrite B1, B2. cbn [orb skipn]. rewrite (digit_not y Hy). reflexivity.
  - exists (match l with [] => Err (EofWhileParsingValue, 0) | y :: _ => if is_digit y then Ok (digits l) else Err (InvalidNumber, 0) end).
    rewrite <- !app_assoc. cbn [app]. rewrite (number_then g n _ Hg Hn).
    2:{ intros y m E. destruct (is_exp_is x Hx) as (_ & X2 & _). destruct Hf; cbn [app] in E; injection E as <- _; [exact X2|reflexivity]. }
    rewrite (fraction_then f x (h :: l) Hf Hx), add_add, !app_length. cbn [List.length].
    split.
    + unfold num_exponent. assert ((N.eqb h 43 || N.eqb h 45)%bool = true) as -> by (destruct Hh as [-> | ->]; reflexivity). cbn [skipn].
      destruct l as [|y m]; [|destruct (is_digit y)]; cbn [add_off List.length]; (apply (f_equal Ok) || (apply (f_equal (@Err nat _)); apply f_equal)); lia.
    + split; [intros ->; reflexivity|]. intros y m -> Hy _. rewrite (digit_not y Hy). reflexivity.
Qed.
Lemma number_wrong_is a e o : number_wrong a e o -> num_range a = Err (e, o) /\ e = InvalidNumber.
Proof.
  intros [a' b y Ha Hy Hb|g d Hg Hd]; (split; [|reflexivity]).
  - destruct (awaits_then a' b [y] Ha) as (r & -> & _ & H). rewrite (H y [] eq_refl Hy Hb). cbn. rewrite Nat.add_0_r. reflexivity.
  - rewrite (signed g [48%N; d] Hg); [|intros x m E; injection E as <- _; reflexivity|discriminate]. cbn [num_unsigned]. rewrite N.eqb_refl, (digit_is d Hd). cbn. rewrite Nat.add_1_r. reflexivity.
Qed.
Lemma awaits_end a b : awaits a b -> num_range a = Err (EofWhileParsingValue, len a).
Proof. intros Ha. destruct (awaits_then a b [] Ha) as (r & E & H & _). rewrite app_nil_r in E. rewrite E, (H eq_refl). cbn. rewrite Nat.add_0_r. reflexivity. Qed.

(** The loop. A beginning may be a number, as long as more can follow. *)
Definition settles_num {A} (f : jop A) (L : bytes) (K : nat) (e : error_type) (off : nat) : Prop :=
  forall p q, L = p ++ q ->
    (exists v, f p = (Ok v, len p) /\ len p < K /\ p <> []) \/
    (exists e' o, f p = (Err (e', o), 0) /\ (if can_retry e' then len p < K \/ (q = [] /\ e' = e /\ o = off) else e' = e /\ o = off)).
Lemma retry_num {A} (f : jop A) L K ty off fuel : forall s,
  settles_num f L K ty off -> (exists e o, f [] = (Err (e, o), 0) /\ can_retry e = true) ->
  K <= rcap s -> K <= len L -> L <> [] -> wf (bf s) -> jlen s = n_bytes (bf s) ->
  (jidx s = 0 \/ (jidx s = n_bytes (bf s) /\ n_bytes (bf s) < K)) -> stream (bf s) = L ->
  len (src (rd (bf s))) < fuel -> refused_at s L ty off (retry_loop fuel f true s).
Proof.
  induction fuel as [|fuel IH]; intros s Hf Hn Hc HK HL0 W HL HI HS Hfu; [lia|].
  assert (V : valid s) by (unfold valid; repeat split; auto; lia).
  assert (Hsplit : L = jview (mkRj (bf s) (jlen s) 0) ++ src (rd (bf s))).
  { rewrite <- HS. apply (jview_split (mkRj (bf s) (jlen s) 0)). unfold valid. cbn [bf jlen jidx]. repeat split; auto; lia. }
  assert (Hlen0 : len (jview (mkRj (bf s) (jlen s) 0)) = n_bytes (bf s)).
  { rewrite jview_length; [cbn [bf jidx]; lia|]. unfold valid. cbn [bf jlen jidx]. repeat split; auto; lia. }
  assert (Hmore : forall a r, n_bytes (bf s) < K ->
    let s1 := mkRj (bf s) (jlen s) a in
    refused_at s L ty off (match read_more (bf s1) with
        | (b, Err e) => Done (with_bf s1 b, Err e)
        | (b, Ok 0) => let s2 := with_bf s1 b in Done (s2, match r with Ok v => Ok v | Err e => Err (from_jiter_error (current_index s2) e) end)
        | (b, Ok _) => retry_loop fuel f true (create_new_jiter (with_bf s1 b)) end)).
  { intros a r Hlt. cbn [bf]. destruct (read_more (bf s)) as [b rr] eqn:Em. destruct (read_more_spec _ _ _ W Em) as (C3 & N3 & Q3 & P3).
    assert (St : stream b = L) by (rewrite (cut_nil_stream _ _ _ C3); exact HS).
    destruct rr as [[|k]|x].
    - exfalso. destruct P3 as (A1 & A2 & A3). destruct (A3 eq_refl) as [A4|A4]; [unfold rcap in Hc; lia|].
      rewrite A4, app_nil_r in Hsplit. rewrite Hsplit, Hlen0 in HK. lia.
    - destruct P3 as (A1 & A2 & _).
      destruct (IH (create_new_jiter (with_bf (mkRj (bf s) (jlen s) a) b))) as (s' & er & E' & P'); auto.
      { unfold rcap in *. cbn. rewrite (cut_cap _ _ _ _ C3). exact Hc. } { eapply cut_wf; eauto. } { cbn. lia. }
      exists s', er. split; [exact E'|]. unfold rcap, total, rquiet in *. cbn [create_new_jiter with_bf bf] in P'.
      rewrite (cut_cap _ _ _ _ C3), St, N3 in P'. rewrite HS.
      destruct P' as [(P1 & P2)|P']; [left|right; intuition].
      split; [exact P1|]. destruct (quiet (bf s)); [rewrite Q3 in P2 by reflexivity; discriminate|reflexivity].
    - eexists _, _. split; [reflexivity|]. left. destruct P3 as ((kd & ->) & _ & _ & _ & P3). split; [reflexivity|exact P3]. }
  cbn [retry_loop]. unfold jcall.
  destruct HI as [HI|(HI & Hlt)].
  - assert (Es : mkRj (bf s) (jlen s) 0 = s) by (destruct s; cbn in *; congruence). rewrite Es in Hsplit, Hlen0.
    destruct (Hf (jview s) (src (rd (bf s)))) as [(v & E & Hlt & Hne)|(e & o & E & P)]; [exact Hsplit| |]; rewrite E; cbn [fst].
    + unfold really_ok. cbn [negb orb bf jidx]. rewrite HI, Hlen0. cbn [Nat.add]. rewrite Nat.ltb_irrefl. rewrite Hlen0 in Hlt. apply (Hmore (n_bytes (bf s)) (Ok v)). exact Hlt.
    + destruct (can_retry e) eqn:Er.
      * destruct P as [P|(Eq & -> & ->)]; [rewrite Hlen0 in P; apply (Hmore (jidx s + 0) (Err (e, jidx s + o))); exact P|].
        assert (Hsp : rest s = L) by (unfold rest; rewrite HI; exact HS).
        cbn [bf]. destruct (read_more (bf s)) as [b rr] eqn:Em. destruct (read_more_spec _ _ _ W Em) as (C3 & N3 & Q3 & P3).
        assert (St : stream b = L) by (rewrite (cut_nil_stream _ _ _ C3); exact HS).
        destruct rr as [[|k]|x].
        -- destruct P3 as (A1 & A2 & A3). eexists _, _. split; [reflexivity|]. right.
           cbn [from_jiter_error fst snd err_type err_index]. split; [reflexivity|].
           assert (Nb : n_bytes b = n_bytes (bf s)) by lia.
           split; [unfold current_index, total; cbn [bf jidx with_bf]; rewrite HI, N3, HS; lia|].
           split; [unfold valid; cbn [bf jlen jidx with_bf]; rewrite Nb; split; [eapply cut_wf; eauto|split; lia]|].
           split; [unfold rest; cbn [bf jidx with_bf]; rewrite HI; exact St|].
           unfold rcap, total, rquiet. cbn [bf with_bf]. rewrite (cut_cap _ _ _ _ C3), St, N3, HS. auto.
        -- exfalso. destruct P3 as (A1 & A2 & _). rewrite Eq in A2. cbn [List.length] in A2. lia.
        -- eexists _, _. split; [reflexivity|]. left. destruct P3 as ((kd & ->) & _ & _ & _ & P3). split; [reflexivity|exact P3].
      * destruct P as (-> & ->). eexists _, _. split; [reflexivity|]. right. cbn [from_jiter_error fst snd err_type err_index].
        rewrite Nat.add_0_r. replace (mkRj (bf s) (jlen s) (jidx s)) with s by (destruct s; reflexivity).
        split; [reflexivity|]. split; [|split; [exact V|split; [unfold rest; rewrite HI; exact HS|auto]]].
        unfold current_index, total. rewrite HI, HS. lia.
  - assert (Ev : jview s = []).
    { pose proof (jview_length s V) as Hl. destruct (jview s); [reflexivity|]. cbn in Hl. lia. }
    destruct Hn as (e & o & En & Rn). rewrite Ev, En. cbn [fst]. rewrite Rn. apply (Hmore (jidx s + 0) (Err (e, jidx s + o))). exact Hlt.
Qed.
Lemma loop_num {A} (f : jop A) s w x l K ty off :
  valid s -> 2 <= rcap s -> rest s = w ++ x :: l -> blanks w -> is_ascii_whitespace x = false ->
  (forall p q, rest s = p ++ q -> (exists e a, f p = (Err e, a)) \/ exists v, f p = (Ok v, len p)) ->
  settles_num f (x :: l) K ty off -> (exists e o, f [] = (Err (e, o), 0) /\ can_retry e = true) -> K <= rcap s -> K <= S (len l) ->
  refused_at s (x :: l) ty off (loop_until_success f None true s).
Proof.
  intros V Hc HR Hw Hx H1 Hf Hn HK HK'. pose proof V as (W & HL & HI). unfold loop_until_success, jcall.
  pose proof (jview_length s V) as Hlen.
  destruct (f (jview s)) as [r0 a0] eqn:Ef.
  set (s1 := mkRj (bf s) (jlen s) (jidx s + a0)).
  assert (Hgo : refused_at s (x :: l) ty off
    match skip_spaces_feeding s1 (jidx s) None with
    | Done (s2, Ok tt) => retry_loop (fuel_for (bf s2)) f true s2
    | Done (s2, Err e) => Done (s2, Err e) | Panic => Panic | Diverge => Diverge end).
  { assert (Hstrip : strip None (rest s) = x :: l).
    { rewrite HR. assert (E : skip_aw (w ++ x :: l) = x :: l).
      { clear - Hw Hx. unfold skip_aw. induction Hw as [|y w Hy Hw IH]; cbn [app run_length].
        - rewrite Hx. reflexivity.
        - assert (Ey : is_ascii_whitespace y = true) by (destruct Hy as [[->|[->|[->| ->]]]| ->]; reflexivity). rewrite Ey. cbn [skipn]. exact IH. }
      unfold strip. rewrite E. reflexivity. }
    destruct (feeding_spec s1 (jidx s) None W HI Hc) as (s2 & r2 & E2 & P2). rewrite E2.
    destruct r2 as [[]|e]; [|exists s2, e; split; [reflexivity|]; left; split; [apply P2|apply P2]].
    destruct P2 as (W2 & C2 & Q2 & T2 & S2 & P2). change (stream (bf s1)) with (stream (bf s)) in *.
    fold (rest s) in S2. rewrite Hstrip in S2.
    assert (Hj : jlen s2 = n_bytes (bf s2) /\ (jidx s2 = 0 \/ (jidx s2 = n_bytes (bf s2) /\ n_bytes (bf s2) < K))).
    { destruct P2 as [P2|(P1 & P2 & P3 & P4 & P5)]; [destruct P2; auto|]. cbn [s1 jlen jidx bf] in *. split; [congruence|].
      assert (Hw0 : rest s = x :: l) by (unfold rest; rewrite P1; cbn [skipn]; congruence).
      destruct (Hf (jview s) (src (rd (bf s)))) as [(v & E & Hlt & _)|(e & o' & E & _)]; [rewrite <- Hw0; apply jview_split; exact V| |];
        rewrite E in Ef; injection Ef as _ <-; [right|left; lia]. lia. }
    destruct Hj as [Hjl Hji].
    destruct (retry_num f (x :: l) K ty off (fuel_for (bf s2)) s2) as (s' & e & E & P); auto; [rewrite C2; exact HK|discriminate|].
    exists s', e. split; [exact E|]. change (rcap s1) with (rcap s) in *. change (total s1) with (total s) in *. change (rquiet s1) with (rquiet s) in *.
    rewrite C2, T2 in P. destruct P as [(P1 & P3)|P]; [left|right].
    - split; [exact P1|]. destruct (rquiet s); [rewrite Q2 in P3 by reflexivity; discriminate|reflexivity].
    - destruct P as (P0 & P1 & P3 & P4 & P5 & P6 & P7). repeat split; auto; apply P3. }
  destruct r0 as [v|[e o]]; [|exact Hgo].
  destruct (H1 (jview s) (src (rd (bf s)))) as [(e & a & E)|(v' & E)]; [apply jview_split; exact V|congruence|]. rewrite E in Ef. injection Ef as _ <-.
  assert (really_ok true s1 = false) as ->; [|exact Hgo].
  unfold s1, really_ok. cbn [negb orb bf jidx]. rewrite Hlen. replace (jidx s + (n_bytes (bf s) - jidx s)) with (n_bytes (bf s)) by lia. apply Nat.ltb_irrefl.
Qed.

(** [next_number_bytes]. *)
Lemma looks_num {A} (f : jop A) g w T : looks f g -> blanks w -> (forall l, exists e, g 12%N (12%N :: l) = (Err e, 0)) ->
  (forall y p q, T = (y :: p) ++ q -> is_ascii_whitespace y = false /\ ((exists e, g y (y :: p) = (Err e, 0)) \/ exists v, g y (y :: p) = (Ok v, S (len p)))) ->
  forall p q, w ++ T = p ++ q -> (exists e a, f p = (Err e, a)) \/ exists v, f p = (Ok v, len p).
Proof.
  intros Hl Hw H12 HS p q E. rewrite Hl. unfold jat. 
  assert (Hr : run_length json_ws p <= len p).
  { clear. induction p as [|x p IH]; cbn [run_length List.length]; [lia|]. destruct (json_ws x); lia. }
  pose proof (skipn_length (run_length json_ws p) p) as Hs. set (m := skipn (run_length json_ws p) p) in *.
  assert (Hm : m = [] \/ (exists l, m = 12%N :: l) \/ exists y m' q', m = y :: m' /\ T = (y :: m') ++ q').
  { unfold m. clear m Hs Hr. revert p q E. induction Hw as [|z w Hz Hw IH]; intros p q E.
    - cbn [app] in E. destruct p as [|y p]; [left; reflexivity|]. destruct (HS y p q E) as (Hy & _). cbn [run_length].
      assert (Ej : json_ws y = false).
      { clear - Hy. unfold json_ws, is_ascii_whitespace in *. repeat (apply Bool.orb_false_iff in Hy as [Hy ?]).
        repeat match goal with H : N.eqb _ _ = false |- _ => rewrite H; clear H end. reflexivity. }
      rewrite Ej. cbn [skipn]. right. right. eauto.
    - destruct p as [|y p]; [left; reflexivity|]. cbn [app] in E. injection E as <- E. cbn [run_length].
      destruct Hz as [Hz| ->]; [|right; left; eexists; reflexivity].
      assert (Ej : json_ws z = true) by (destruct Hz as [->|[->|[->| ->]]]; reflexivity). rewrite Ej. cbn [skipn]. eapply IH; eauto. }
  destruct Hm as [Em|[(l & Em)|(y & m' & q' & Em & Eq)]]; rewrite Em in *.
  - left. eexists _, _. reflexivity.
  - left. destruct (H12 l) as ([e o] & ->). eexists _, _. reflexivity.
  - destruct (HS y m' q' Eq) as (_ & [([e o] & ->)|(v & ->)]); [left; eexists _, _; reflexivity|]. right. exists v. cbn [List.length] in Hs. f_equal. lia.
Qed.
Lemma number_prefix a e o r p q : num_range a = Err (e, o) -> e <> EofWhileParsingValue -> a ++ r = p ++ q ->
  num_range p = Err (e, o) \/ (len p < len a /\ ((exists o', num_range p = Err (EofWhileParsingValue, o')) \/ num_range p = Ok (len p))).
Proof.
  intros Ea He E. destruct (le_lt_dec (len a) (len p)) as [H|H].
  - assert (exists m, p = a ++ m) as (m & ->).
    { exists (skipn (len a) p). assert (E' : a = firstn (len a) p).
      { assert (E1 : firstn (len a) (a ++ r) = firstn (len a) (p ++ q)) by (rewrite E; reflexivity).
        rewrite firstn_app, Nat.sub_diag, firstn_all in E1. cbn [firstn] in E1. rewrite app_nil_r in E1.
        rewrite firstn_app in E1. replace (len a - len p) with 0 in E1 by lia. cbn [firstn] in E1. rewrite app_nil_r in E1. exact E1. }
      rewrite E' at 1. symmetry. apply firstn_skipn. }
    left. destruct (range_stable a m) as [(o' & E')|[E'|E']]; congruence.
  - assert (exists m, a = p ++ m) as (m & ->).
    { exists (skipn (len p) a). assert (E' : p = firstn (len p) a).
      { assert (E1 : firstn (len p) (a ++ r) = firstn (len p) (p ++ q)) by (rewrite E; reflexivity).
        rewrite (firstn_app _ p q), Nat.sub_diag, firstn_all in E1. cbn [firstn] in E1. rewrite app_nil_r in E1.
        rewrite firstn_app in E1. replace (len p - len a) with 0 in E1 by lia. cbn [firstn] in E1. rewrite app_nil_r in E1. symmetry. exact E1. }
      rewrite E' at 1. symmetry. apply firstn_skipn. }
    destruct (range_stable p m) as [(o' & E')|[E'|E']]; [right|right|left; congruence]; (split; [exact H|]); eauto.
Qed.
Lemma number_blamed s w x l K e o : valid s -> 2 <= rcap s -> rest s = w ++ x :: l -> blanks w -> is_num x = true ->
  K <= rcap s -> K <= S (len l) -> 0 < K ->
  (forall p q, x :: l = p ++ q -> p <> [] ->
     (num_range p = Err (e, o) /\ (can_retry (JsonError e) = true -> q = [])) \/
     (len p < K /\ ((exists o', num_range p = Err (EofWhileParsingValue, o')) \/ num_range p = Ok (len p)))) ->
  refused_at s (x :: l) (JsonError e) o (next_number_bytes s).
Proof.
  intros V Hc HR Hw Hx HK HK' H0 Hp. unfold next_number_bytes.
  pose proof (looks_next TFloat is_num (fun _ => j_number)) as L. fold j_next_number_bytes in L.
  assert (Hxw : is_ascii_whitespace x = false /\ json_ws x = false).
  { clear - Hx. unfold is_num, is_digit in Hx. unfold is_ascii_whitespace, json_ws.
    assert (x <> 32 /\ x <> 9 /\ x <> 10 /\ x <> 13 /\ x <> 12)%N as (A1 & A2 & A3 & A4 & A5) by (repeat split; intros ->; discriminate Hx).
    apply N.eqb_neq in A1, A2, A3, A4, A5. rewrite A1, A2, A3, A4, A5. auto. }
  destruct Hxw as (Xa & Xj).
  assert (Hf : forall p, j_next_number_bytes (x :: p) = j_number (x :: p)) by (intros p; rewrite (looks_head _ _ x p L Xa Xj), Hx; reflexivity).
  assert (Hn : forall p q, x :: l = p ++ q -> p <> [] ->
     (exists v, j_number p = (Ok v, len p) /\ len p < K) \/
     exists e' o', j_number p = (Err (e', o'), 0) /\ (if can_retry e' then len p < K \/ (q = [] /\ e' = JsonError e /\ o' = o) else e' = JsonError e /\ o' = o)).
  { intros p q E Hne. unfold j_number. destruct (Hp p q E Hne) as [(-> & Hq)|(Hlt & [(o' & ->)| ->])].
    - right. do 2 eexists. split; [reflexivity|]. destruct (can_retry (JsonError e)) eqn:Er; auto.
    - right. do 2 eexists. split; [reflexivity|]. cbn [can_retry]. auto.
    - left. eexists. split; [reflexivity|exact Hlt]. }
  apply (loop_num j_next_number_bytes s w x l K); auto.
  - rewrite HR. apply (looks_num j_next_number_bytes _ w _ L Hw); [intros m; eexists; reflexivity|].
    intros y p q E. cbn [app] in E. injection E as <- E. split; [exact Xa|]. rewrite Hx.
    destruct (Hn (x :: p) q) as [(v & -> & _)|(e' & o' & -> & _)]; [cbn [app]; congruence|discriminate| |]; eauto.
  - intros p q E. destruct p as [|y p]; [right; exists (JsonError EofWhileParsingValue), 0; split; [reflexivity|]; cbn [can_retry List.length]; auto|].
    assert (y = x) by (cbn [app] in E; congruence). subst y. rewrite Hf.
    destruct (Hn (x :: p) q E) as [(v & Ev & Hlt)|H]; [discriminate| |right; exact H]. left. exists v. repeat split; auto; discriminate.
  - exists (JsonError EofWhileParsingValue), 0. auto.
Qed.
Lemma awaits_head a b : awaits a b -> exists x a', a = x :: a' /\ is_num x = true.
Proof.
  assert (H : forall g n (l : bytes), sign g -> whole n -> exists x a', g ++ n ++ l = x :: a' /\ is_num x = true).
  { intros g n l [] Hn; [|do 2 eexists; split; reflexivity]. cbn [app]. destruct (whole_head n Hn) as (H1 & H2). destruct n as [|x n]; [contradiction|].
    cbn [app]. do 2 eexists. split; [reflexivity|]. unfold is_num. rewrite (H2 l x (n ++ l) eq_refl). reflexivity. }
  intros []; try (apply H; assumption). do 2 eexists; split; reflexivity.
Qed.
Lemma wrong_head a e o : number_wrong a e o -> exists x a', a = x :: a' /\ is_num x = true.
Proof.
  intros [a' b y Ha _ _|g d [] _]; [|do 2 eexists; split; reflexivity..]. destruct (awaits_head a' b Ha) as (x & a'' & -> & Hx). do 2 eexists. split; [reflexivity|exact Hx].
Qed.
Lemma number_named s w a r e o : valid s -> 2 <= rcap s -> rest s = w ++ a ++ r -> blanks w -> number_wrong a e o -> len a <= rcap s ->
  refused_at s (a ++ r) (JsonError e) o (next_number_bytes s).
Proof.
  intros V Hc HR Hw Ha Hfit. destruct (number_wrong_is a e o Ha) as (Ea & ->). destruct (wrong_head _ _ _ Ha) as (x & a' & E & Hx).
  assert (El : a ++ r = x :: a' ++ r) by (rewrite E; reflexivity). rewrite El in *.
  apply (number_blamed s w x (a' ++ r) (len a)); auto.
  - rewrite E, app_length. cbn [List.length]. lia.
  - rewrite E. cbn [List.length]. lia.
  - intros p q Ep _. rewrite <- El in Ep. destruct (number_prefix a InvalidNumber o r p q Ea) as [H|H]; auto; [discriminate|]. left. split; [exact H|discriminate].
Qed.
Lemma number_cut s w a b : valid s -> 2 <= rcap s -> rest s = w ++ a -> blanks w -> awaits a b -> len a <= rcap s ->
  refused_at s a (JsonError EofWhileParsingValue) (len a) (next_number_bytes s).
Proof.
  intros V Hc HR Hw Ha Hfit. pose proof (awaits_end a b Ha) as Ea. destruct (awaits_head _ _ Ha) as (x & a' & E & Hx). rewrite E in HR. clear Ha.
  assert (H : refused_at s (x :: a') (JsonError EofWhileParsingValue) (len a) (next_number_bytes s)); [|rewrite <- E in H; exact H].
  apply (number_blamed s w x a' (len a)); auto; [rewrite E; cbn [List.length]; lia..|].
  intros p q Ep _. rewrite <- E in Ep. destruct q as [|z q].
  - rewrite app_nil_r in Ep. subst p. left. auto.
  - right. split; [rewrite Ep, app_length; cbn; lia|]. destruct (range_stable p (z :: q)) as [(o' & E')|[E'|E']]; eauto.
    left. exists (len a). rewrite <- E', <- Ep. exact Ea.
Qed.

(** There is nothing else. *)
Lemma digit_dec x : digit x \/ ~ digit x.
Proof. unfold digit. destruct (N.leb_spec 48 x), (N.leb_spec x 57); [left; lia|right; lia..]. Qed.
Lemma digits_split l : exists ds r, l = ds ++ r /\ Forall digit ds /\ match r with [] => True | y :: _ => ~ digit y end.
Proof.
  induction l as [|x l (ds & r & -> & H1 & H2)]; [exists [], []; repeat split; constructor|].
  destruct (digit_dec x) as [H|H]; [exists (x :: ds), r; repeat split; auto|exists [], (x :: ds ++ r); repeat split; auto].
Qed.
Definition number_case (l : bytes) : Prop :=
  (exists a e o r, number_wrong a e o /\ l = a ++ r) \/ (exists b, awaits l b) \/
  exists g n f x r, sign g /\ whole n /\ fraction f /\ exponent x /\ ends f x r /\ l = g ++ n ++ f ++ x ++ r.
Lemma exponent_cases g n f (x : byte) l : sign g -> whole n -> fraction f -> x = 101%N \/ x = 69%N -> number_case (g ++ n ++ f ++ x :: l).
Proof.
  intros Hg Hn Hf Hx.
  assert (Hd : forall h y m, h = [] \/ h = [43%N] \/ h = [45%N] -> l = h ++ y :: m -> digit y -> number_case (g ++ n ++ f ++ x :: l)).
  { intros h y m Hh -> Hy. destruct (digits_split m) as (ds & r & -> & H1 & H2). right. right. exists g, n, f, (x :: h ++ y :: ds), r.
    repeat (split; [first [assumption|constructor; assumption]|]). split.
    - destruct r; cbn; [exact I|]. split; [exact H2|discriminate].
    - cbn [app]. rewrite <- !app_assoc. reflexivity. }
  destruct l as [|y l].
  - right. left. exists true. constructor; assumption.
  - destruct (digit_dec y) as [Hy|Hy]; [apply (Hd [] y l); auto|].
    assert (Hs : (y = 43%N \/ y = 45%N) \/ (y <> 43%N /\ y <> 45%N)) by (unfold byte in *; lia).
    destruct Hs as [Hs|Hs].
    + destruct l as [|z l]; [right; left; exists false; constructor; assumption|].
      destruct (digit_dec z) as [Hz|Hz]; [apply (Hd [y] z l); auto; destruct Hs as [-> | ->]; auto|].
      left. exists ((g ++ n ++ f ++ [x; y]) ++ [z]), InvalidNumber, (len (g ++ n ++ f ++ [x; y])), l. split.
      * apply (nw_digit _ false); [constructor; assumption|exact Hz|discriminate].
      * rewrite <- !app_assoc. reflexivity.
    + left. exists ((g ++ n ++ f ++ [x]) ++ [y]), InvalidNumber, (len (g ++ n ++ f ++ [x])), l. split.
      * apply (nw_digit _ true); [constructor; assumption|exact Hy|auto].
      * rewrite <- !app_assoc. reflexivity.
Qed.
Lemma fraction_cases g n f y l : sign g -> whole n -> fraction f -> ~ digit y -> (f = [] -> y <> 46%N) -> number_case (g ++ n ++ f ++ y :: l).
Proof.
  intros Hg Hn Hf Hy Hp. assert (Hx : (y = 101%N \/ y = 69%N) \/ (y <> 101%N /\ y <> 69%N)) by (unfold byte in *; lia).
  destruct Hx as [Hx|Hx]; [apply exponent_cases; assumption|]. right. right. exists g, n, f, [], (y :: l).
  do 4 (split; [first [assumption|constructor]|]). split; [|reflexivity]. cbn. intuition.
Qed.
Lemma whole_cases g n l : sign g -> whole n -> match l with [] => True | y :: _ => ~ digit y end -> number_case (g ++ n ++ l).
Proof.
  intros Hg Hn Hl. destruct l as [|y l].
  { right. right. exists g, n, [], [], []. repeat (split; [first [assumption|constructor]|]). reflexivity. }
  destruct (N.eq_dec y 46) as [->|Hp]; [|apply (fraction_cases g n [] y l); auto; constructor].
  destruct l as [|z l]; [right; left; exists false; constructor; assumption|].
  destruct (digit_dec z) as [Hz|Hz].
  - destruct (digits_split l) as (ds & r & -> & H1 & H2). destruct r as [|u r].
    + right. right. exists g, n, (46%N :: z :: ds), [], []. repeat (split; [first [assumption|constructor; assumption|constructor]|]). reflexivity.
    + apply (fraction_cases g n (46%N :: z :: ds) u r); auto; [constructor; assumption|discriminate].
  - left. exists ((g ++ n ++ [46%N]) ++ [z]), InvalidNumber, (len (g ++ n ++ [46%N])), l. split.
    + apply (nw_digit _ false); [constructor; assumption|exact Hz|discriminate].
    + rewrite <- !app_assoc. reflexivity.
Qed.
Lemma number_cases x l : digit x \/ x = 45%N -> number_case (x :: l).
Proof.
  assert (H : forall g y m, sign g -> digit y -> number_case (g ++ y :: m)).
  { intros g y m Hg Hy. destruct (N.eq_dec y 48) as [->|H0].
    - destruct m as [|z m]; [apply (whole_cases g [48%N] []); auto; constructor|]. destruct (digit_dec z) as [Hz|Hz].
      + left. exists (g ++ [48%N; z]), InvalidNumber, (1 + len g), m. split; [constructor; assumption|]. rewrite <- app_assoc. reflexivity.
      + apply (whole_cases g [48%N] (z :: m)); auto. constructor.
    - destruct (digits_split m) as (ds & r & -> & H1 & H2). apply (whole_cases g (y :: ds) r); auto. constructor; [unfold digit in Hy; lia|exact H1]. }
  intros [Hx| ->]; [apply (H [] x l); [constructor|exact Hx]|].
  destruct l as [|y m]; [right; left; exists false; constructor|]. destruct (digit_dec y) as [Hy|Hy]; [apply (H [45%N] y m); [constructor|exact Hy]|].
  left. exists ([45%N] ++ [y]), InvalidNumber, 1, m. split; [|reflexivity]. apply (nw_digit [45%N] false); [constructor|exact Hy|discriminate].
Qed.
