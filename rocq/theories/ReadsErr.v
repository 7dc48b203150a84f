(** Proofs: an error that is certain is reported without a request, except for a missing comma. *)
From Verif Require Import Base Buffer BufferSpec BufferProofs Jiter JiterValue RJiter RJiterSpec JiterProofs JiterValueProofs RJiterProofs RJiterOpProofs RJiterEndProofs ReadsSpec Reads.

(** Skipping white space, and the token, does not change the error. *)
Definition numb {A} (known : bool) (token : option byte) (f : jop A) : Prop :=
  forall l e o a, on_token known l -> f l = (Err (e, o), a) -> exists o' a', f (jstrip token l) = (Err (e, o'), a').
Lemma jat_error {A} n (f : jop A) l e o a : jat n f l = (Err (e, o), a) -> exists o' a', f (skipn n l) = (Err (e, o'), a').
Proof. unfold jat. destruct (f (skipn n l)) as [[v|[e' o']] a']; intros E; [discriminate|]. injection E as <- _ _. do 2 eexists. reflexivity. Qed.
Lemma error_jat {A} n (f : jop A) l e o a : f (skipn n l) = (Err (e, o), a) -> exists o' a', jat n f l = (Err (e, o'), a').
Proof. intros E. unfold jat. rewrite E. do 2 eexists. reflexivity. Qed.
Lemma after_error {A} (f : jop A) l e o a : after_ws f l = (Err (e, o), a) -> exists o' a', f (skip_jw l) = (Err (e, o'), a').
Proof. apply jat_error. Qed.
Lemma error_after {A} (f : jop A) l e o a : f (skip_jw l) = (Err (e, o), a) -> exists o' a', after_ws f l = (Err (e, o'), a').
Proof. apply error_jat. Qed.
Lemma numb_ws {A} known (g : jop A) : numb known None (after_ws g).
Proof.
  intros l e o a _ E. apply after_error in E as (o1 & a1 & E). cbn [jstrip]. eapply error_after. rewrite skip_jw_idem. exact E.
Qed.
Lemma numb_known {A} (f : jop A) : numb true None f.
Proof. intros l e o a T E. cbn [jstrip]. rewrite (on_token_id l T). do 2 eexists. exact E. Qed.
Lemma numb_token {A} known t (g h : jop A) : json_ws t = false ->
  (forall l, g (t :: l) = jat 1 (after_ws h) (t :: l)) -> numb known (Some t) (after_ws g).
Proof.
  intros Ht G l e o a _ E. apply after_error in E as (o1 & a1 & E). cbn [jstrip].
  destruct (skip_jw l) as [|x l'] eqn:S.
  - eapply error_after. exact E.
  - pose proof (skip_jw_first _ _ _ S) as X. destruct (N.eqb_spec x t) as [->|N].
    + rewrite G in E. apply jat_error in E as (o2 & a2 & E). cbn [skipn] in E. apply after_error in E as (o3 & a3 & E).
      rewrite <- (skip_jw_idem l') in E. apply error_after in E as (o4 & a4 & E).
      assert (E' : exists o' a', g (t :: skip_jw l') = (Err (e, o'), a')) by (rewrite G; eapply error_jat; exact E).
      destruct E' as (o5 & a5 & E'). eapply error_after. rewrite skip_jw_head by exact Ht. exact E'.
    + eapply error_after. rewrite skip_jw_head by exact X. exact E.
Qed.
Lemma numb_known_token {A} t (h : jop A) : numb true (Some t) (jat 1 (after_ws h)).
Proof.
  intros l e o a T E. apply jat_error in E as (o1 & a1 & E). apply after_error in E as (o2 & a2 & E).
  assert (K : forall m, skip_jw (skipn 1 m) = skip_jw (skipn 1 l) -> exists o' a', jat 1 (after_ws h) m = (Err (e, o'), a')).
  { intros m M. rewrite <- M in E. apply error_after in E as (o3 & a3 & E). eapply error_jat. exact E. }
  cbn [jstrip]. rewrite (on_token_id l T). destruct l as [|x l]; [apply K; reflexivity|].
  destruct (N.eqb x t); apply K; cbn [skipn]; [apply skip_jw_idem|reflexivity].
Qed.
Lemma numb_look {A} known (g : byte -> jop A) : numb known None (jthen j_peek g).
Proof.
  intros l e o a _ E. cbn [jstrip].
  assert (P : forall m, jthen j_peek g m = match skip_jw m with
     | [] => (Err (JsonError EofWhileParsingValue, run_length json_ws m + 0), run_length json_ws m + 0)
     | x :: _ => jat (run_length json_ws m + 0) (g x) m end).
  { intros m. unfold jthen, j_peek, after_ws, jat at 1, skip_jw. destruct (skipn (run_length json_ws m) m); reflexivity. }
  rewrite P in *. rewrite skip_jw_idem. destruct (skip_jw l) as [|x l'] eqn:S; [injection E as <- _ _; do 2 eexists; reflexivity|].
  apply jat_error in E as (o1 & a1 & E). rewrite Nat.add_0_r in E. eapply error_jat.
  pose proof (skip_jw_first _ _ _ S) as X. cbn [run_length]. rewrite X. cbn [Nat.add skipn]. unfold skip_jw in S. rewrite S in E. exact E.
Qed.
Lemma method_numb {A} k known token (f : jop A) op : method k known token f op -> numb known token f.
Proof.
  intros []; try (apply numb_ws || apply numb_known || apply numb_known_token || apply numb_look);
    (eapply numb_token; [reflexivity|reflexivity]).
Qed.
(** A method for numbers, strings and the like does not move when it fails. *)
Definition still {A} (token : option byte) (f : jop A) : Prop :=
  forall l e o a, jstrip token l = l -> f l = (Err (e, o), a) -> can_retry e = false -> a = 0.
Lemma still_inert {A} token (f : jop A) : inert f -> still token f.
Proof. intros I l e o a _ E _. exact (I _ _ _ E). Qed.
Lemma still_next {A} token t ok (f : byte -> jop A) : (forall x, inert (f x)) -> still token (next_as t ok f).
Proof.
  intros I l e o a S E _. unfold next_as in E. rewrite after_ws_0 in E by (exact (jstrip_head token l S)). rewrite jat_0 in E.
  destruct l as [|x l]; [injection E as _ _ <-; reflexivity|]. destruct (ok x); [exact (I _ _ _ _ E)|]. injection E as _ <-. reflexivity.
Qed.
Lemma still_look {A} (g : byte -> jop A) : (forall p, inert (g p)) -> still None (jthen j_peek g).
Proof.
  intros I l e o a S E _. unfold jthen, j_peek in E. rewrite after_ws_0 in E by (exact (jstrip_head None l S)). rewrite jat_0 in E.
  destruct l as [|x l]; [injection E as _ _ <-; reflexivity|]. cbn [jok] in E. unfold jok in E. rewrite jat_0 in E. exact (I _ _ _ _ E).
Qed.
Lemma method_still {A} k known token (f : jop A) op : method k known token f op -> match k with Plain | Number => still token f | _ => True end.
Proof.
  intros []; cbv beta iota; try exact Logic.I;
    try (apply still_inert; first [apply known_bool_inert|apply known_bytes_inert|apply known_str_inert|apply ident_inert]);
    try (apply still_next; intros; first [apply known_bool_inert|apply known_bytes_inert|apply known_str_inert|apply ident_inert|apply number_inert]);
    try (apply still_look; intros; apply known_num_inert; first [apply decode_float_inert|apply decode_int_inert|apply decode_any_inert]).
  - intros l e o a _ E R. exfalso. unfold j_peek in E. apply after_error in E as (o1 & a1 & E). destruct (skip_jw l); [|discriminate]. injection E as <- _ _. discriminate R.
  - intros l e o a _ E R. exfalso. unfold j_known_array in E. apply jat_error in E as (o1 & a1 & E). apply after_error in E as (o2 & a2 & E).
    destruct (skip_jw _) as [|x m]; [injection E as <- _ _; discriminate R|]. destruct (N.eqb x RBRACK); discriminate E.
  - intros l e o a S E R. unfold j_next_array, next_as in E. rewrite after_ws_0 in E by (exact (jstrip_head _ l S)). rewrite jat_0 in E.
    destruct l as [|x l]; [injection E as _ _ <-; reflexivity|]. destruct (N.eqb LBRACK x); [|injection E as _ <-; reflexivity].
    exfalso. unfold j_known_array in E. apply jat_error in E as (o1 & a1 & E). apply after_error in E as (o2 & a2 & E).
    destruct (skip_jw _) as [|y m]; [injection E as <- _ _; discriminate R|]. destruct (N.eqb y RBRACK); discriminate E.
Qed.
Lemma method_token {A} k known token (f : jop A) op : method k known token f op ->
  forall t, token = Some t -> exists e o a, f [t] = (Err (e, o), a) /\ can_retry e = true.
Proof. intros []; intros t Ht; try discriminate Ht; injection Ht as <-; do 3 eexists; (split; [vm_compute; reflexivity|reflexivity]). Qed.
Definition view (b : buffer) : bytes := firstn (n_bytes b) (buf b).
Lemma view_is b b' l : rd b' = rd b -> stream b' = l ++ src (rd b) -> view b' = l.
Proof. intros R S. unfold stream in S. rewrite R in S. apply app_inv_tail in S. exact S. Qed.
Lemma skip_seen p l m x r : skipn (run_length p l) l = x :: r -> skipn (run_length p (l ++ m)) (l ++ m) = (x :: r) ++ m.
Proof.
  revert x r. induction l as [|y l IH]; intros x r E; [discriminate|]. cbn [run_length] in E. cbn [app run_length].
  destruct (p y); [cbn [skipn] in *; apply IH; exact E|]. cbn [skipn] in *. injection E as <- <-. reflexivity.
Qed.
Lemma spaces_unasked b p x l : wf b -> p <= n_bytes b -> skip_aw (skipn p (view b)) = x :: l -> exists b', skip_spaces b p = Done (b', Ok tt) /\ rd b' = rd b.
Proof.
  intros W P E. rewrite (spaces_seen b p x l W P E). eexists. split; [reflexivity|].
  match goal with |- rd (if ?c then _ else _) = _ => destruct c end; [apply shift_rd|reflexivity].
Qed.
Lemma feeding_seen s a token x l : valid s -> 2 <= rcap s -> skip_aw (jview s) = x :: l -> (forall t, token = Some t -> t = x -> skip_aw l <> []) ->
  exists s2, skip_spaces_feeding (mkRj (bf s) (jlen s) (jidx s + a)) (jidx s) token = Done (s2, Ok tt) /\ rd (bf s2) = rd (bf s).
Proof.
  intros V C E T. unfold skip_spaces_feeding. cbn [bf]. cbv zeta.
  set (b1 := if 0 <? jidx s then shift_buffer (bf s) 0 (jidx s) else bf s).
  pose proof (jview_split s V) as JS. destruct V as (W & J & I).
  assert (B1 : rd b1 = rd (bf s) /\ stream b1 = rest s /\ wf b1 /\ cap b1 = cap (bf s)).
  { unfold b1. destruct (Nat.ltb_spec 0 (jidx s)) as [P|P].
    - destruct (shift_front (bf s) (jidx s) W I) as ((W1 & C1 & _) & _ & _ & R & S). repeat split; try assumption.
    - assert (J0 : jidx s = 0) by lia. unfold rest. rewrite J0. repeat split; assumption || reflexivity. }
  destruct B1 as (R1 & S1 & W1 & C1).
  assert (V1 : view b1 = jview s) by (apply (view_is (bf s)); [exact R1|rewrite S1; exact JS]).
  assert (Z1 : exists b2, skip_spaces b1 0 = Done (b2, Ok tt) /\ rd b2 = rd (bf s)).
  { rewrite <- R1. apply (spaces_unasked b1 0 x l W1); [lia|]. cbn [skipn]. rewrite V1. exact E. }
  destruct Z1 as (b2 & Z1 & R2). rewrite Z1.
  destruct (skip_spaces_0 b1 W1) as (b2' & r' & Z1' & W2 & C2 & _ & _ & G); [unfold rcap in C; lia|]. rewrite Z1 in Z1'. injection Z1' as <- <-.
  destruct G as [S2 _].
  assert (V2 : view b2 = x :: l).
  { apply (view_is (bf s)); [exact R2|]. rewrite S2, S1, JS. unfold skip_aw. apply skip_seen. exact E. }
  destruct token as [t|].
  2:{ eexists. split; [reflexivity|]. destruct (is_changed _ _); exact R2. }
  destruct (Nat.eqb_spec (n_bytes b2) 0) as [Z|Z]; [unfold view in V2; rewrite Z in V2; discriminate V2|].
  fold (view b2). rewrite V2. destruct (N.eqb_spec x t) as [->|N].
  2:{ eexists. split; [reflexivity|]. destruct (is_changed _ _); exact R2. }
  destruct (skip_aw l) as [|y m] eqn:Y; [destruct (T t eq_refl eq_refl eq_refl)|].
  destruct (spaces_unasked b2 1 y m W2) as (b4 & Z4 & R4); [lia|rewrite V2; cbn [skipn]; exact Y|]. rewrite Z4.
  eexists. split; [reflexivity|]. destruct (is_changed _ _); cbn [bf create_new_jiter with_bf]; rewrite R4; exact R2.
Qed.
Lemma strip_seen token l m x r : skip_aw l = x :: r -> (forall t, token = Some t -> t = x -> skip_aw r <> []) -> strip token (l ++ m) = strip token l ++ m.
Proof.
  intros E T. assert (E1 : skip_aw (l ++ m) = (x :: r) ++ m) by (unfold skip_aw; apply skip_seen; exact E).
  destruct token as [t|]; cbn [strip]; rewrite E1, E; [|reflexivity]. cbn [app]. destruct (N.eqb_spec x t) as [->|N]; [|reflexivity].
  destruct (skip_aw r) as [|y u] eqn:Y; [destruct (T t eq_refl eq_refl eq_refl)|].
  assert (E2 : skip_aw (r ++ m) = (y :: u) ++ m) by (unfold skip_aw in *; apply skip_seen; exact Y). rewrite E2. reflexivity.
Qed.
Lemma error_unasked {A} k known token (f : jop A) op s e o a : method k known token f op -> valid s -> 2 <= rcap s ->
  on_token known (jview s) -> no_form_feed token (jview s) -> skip_jw (jview s) <> [] ->
  match k with Plain | Number => True | Separator | ObjectOpen | Whole => 0 < jidx s end ->
  f (jview s) = (Err (e, o), a) -> can_retry e = false ->
  exists s' er, op s = Done (s', Err er) /\ err_type er = e /\ not_asked s s'.
Proof.
  intros M V C Ht Hf Hn Hk E R. pose proof (method_facts _ _ _ _ _ M) as [-> _ _ _ _ _ _].
  destruct (method_numb _ _ _ _ _ M _ _ _ _ Ht E) as (o1 & a1 & E1).
  assert (N0 : exists x l, skip_aw (jview s) = x :: l /\ strip token (jview s) <> []).
  { pose proof Hf as Hf'. unfold no_form_feed in Hf'. destruct (skip_aw (jview s)) as [|x l] eqn:Z.
    - exfalso. destruct token as [t|]; cbn [strip jstrip] in Hf'; rewrite Z in Hf'.
      + destruct (skip_jw (jview s)) as [|y m]; [apply Hn; reflexivity|]. destruct (N.eqb y t); discriminate Hf'.
      + apply Hn. symmetry. exact Hf'.
    - exists x, l. split; [reflexivity|]. destruct token as [t|]; cbn [strip]; rewrite Z; [destruct (N.eqb x t)|]; discriminate. }
  destruct N0 as (x & l & Z & _).
  assert (T : forall t, token = Some t -> t = x -> skip_aw l <> []).
  { intros t -> -> L. unfold no_form_feed in Hf. cbn [strip] in Hf. rewrite Z, L, N.eqb_refl in Hf. rewrite <- Hf in E1.
    destruct (method_token _ _ _ _ _ M x eq_refl) as (e2 & o2 & a2 & E2 & R2). rewrite E1 in E2. injection E2 as -> _ _. rewrite R in R2. discriminate R2. }
  pose proof V as (W & J & I).
  unfold loop_until_success, jcall. rewrite E. cbv beta iota zeta.
  destruct (feeding_seen s a token x l V C Z T) as (s2 & F & R2). rewrite F.
  destruct (feeding_spec (mkRj (bf s) (jlen s) (jidx s + a)) (jidx s) token W I C) as (s2' & r' & F' & G). rewrite F in F'. injection F' as <- <-.
  destruct G as (W2 & _ & _ & _ & S2 & G). cbn [bf jlen jidx] in S2, G.
  assert (V2 : view (bf s2) = jstrip token (jview s)).
  { rewrite <- Hf. apply (view_is (bf s)); [exact R2|]. rewrite S2. change (skipn (jidx s) (stream (bf s))) with (rest s). rewrite (jview_split s V). apply (strip_seen _ _ _ x l Z T). }
  assert (J2 : exists o2 a2, f (jview s2) = (Err (e, o2), a2)).
  { destruct G as [[G1 G2]|(G1 & G2 & G3 & G4 & G5)].
    - unfold jview. rewrite G1, G2. cbn [skipn]. fold (view (bf s2)). rewrite V2. do 2 eexists. exact E1.
    - assert (V3 : view (bf s2) = jview s).
      { apply (view_is (bf s)); [exact R2|]. rewrite G2. unfold stream, jview. rewrite J, G1. reflexivity. }
      assert (A0 : a = 0).
      { pose proof (method_still _ _ _ _ _ M) as St. destruct k; try lia; (eapply St; [rewrite <- V2; exact V3|exact E|exact R]). }
      unfold jview at 1. rewrite G4, G5, G1, A0, J, <- G3. cbn [Nat.add skipn]. fold (view (bf s2)). rewrite V3. do 2 eexists. exact E. }
  destruct J2 as (o2 & a2 & E2). unfold fuel_for. cbn [retry_loop]. unfold jcall. rewrite E2. cbn [fst]. rewrite R.
  do 2 eexists. split; [reflexivity|]. split; [reflexivity|exact R2].
Qed.
(** A missing comma is reported only when nothing more can be read. *)
Definition stubborn {A} (f : jop A) (x : byte) (e : error_type) : Prop :=
  can_retry e = true /\ (forall m, exists o, f (x :: m) = (Err (e, o), 0)) /\ exists e0 o, f [] = (Err (e0, o), 0) /\ can_retry e0 = true.
Lemma retry_stubborn {A} (f : jop A) eager x l e fuel : forall s, stubborn f x e -> wf (bf s) -> 2 <= rcap s -> jlen s = n_bytes (bf s) -> jidx s = 0 ->
  stream (bf s) = x :: l -> len (src (rd (bf s))) < fuel ->
  exists s' er, retry_loop fuel f eager s = Done (s', Err er) /\ (is_io er = true /\ rquiet s = false \/ err_type er = e /\ has_read_on s').
Proof.
  induction fuel as [|fuel IH]; intros s St W C J I S F; [lia|]. pose proof St as (Re & Fx & (e0 & o0 & F0 & R0)).
  assert (V : exists e1 o1, f (jview s) = (Err (e1, o1), 0) /\ can_retry e1 = true /\ (n_bytes (bf s) <> 0 -> e1 = e)).
  { assert (Jv : jview s = view (bf s)) by (unfold jview, view; rewrite J, I; reflexivity). rewrite Jv.
    assert (Sv : view (bf s) ++ src (rd (bf s)) = x :: l) by exact S.
    destruct (view (bf s)) as [|y m] eqn:Y.
    - exists e0, o0. split; [exact F0|]. split; [exact R0|]. intros N. exfalso. unfold view in Y.
      assert (L : len (firstn (n_bytes (bf s)) (buf (bf s))) = 0) by (rewrite Y; reflexivity). rewrite firstn_length in L. unfold wf in W. lia.
    - injection Sv as -> _. destruct (Fx m) as (o & E). exists e, o. split; [exact E|]. split; [exact Re|reflexivity]. }
  destruct V as (e1 & o1 & E & R & Ne). cbn [retry_loop]. unfold jcall. rewrite E. cbn [fst]. rewrite R. cbv zeta.
  destruct (read_more (bf (mkRj (bf s) (jlen s) (jidx s + 0)))) as [b r] eqn:RM.
  destruct (read_more_spec (bf s) b r W RM) as ((W' & C' & _ & _ & (aa & cc & S1 & S2 & _)) & _ & Q' & SP).
  assert (SB : stream b = x :: l) by (rewrite S2, <- S, S1; reflexivity).
  destruct r as [[|k]|er].
  - destruct SP as (N1 & L1 & Z). do 2 eexists. split; [reflexivity|]. right. split.
    + cbn [err_type from_jiter_error fst]. apply Ne. intros N0. destruct (Z eq_refl) as [Z'|Z']; [unfold rcap in C; lia|].
      unfold stream in S. rewrite N0, Z' in S. discriminate S.
    + unfold has_read_on. cbn [bf with_bf]. destruct (Z eq_refl) as [Z'|Z'].
      * right. unfold cap in *. lia.
      * left. rewrite Z' in L1. destruct (src (rd b)); [reflexivity|cbn [List.length] in L1; lia].
  - destruct SP as (N1 & L1 & _). destruct (IH (create_new_jiter (with_bf (mkRj (bf s) (jlen s) (jidx s + 0)) b)) St) as (s' & er & E' & G); cbn [bf create_new_jiter with_bf jlen jidx]; auto.
    + unfold rcap in *. cbn [bf create_new_jiter with_bf]. lia.
    + lia.
    + exists s', er. split; [exact E'|]. destruct G as [[G1 G2]|G]; [left|right; exact G]. split; [exact G1|].
      unfold rquiet in *. cbn [bf create_new_jiter with_bf] in G2. destruct (quiet (bf s)); [rewrite Q' in G2 by reflexivity; discriminate G2|reflexivity].
  - destruct SP as ((kd & ->) & _ & _ & _ & Qf). do 2 eexists. split; [reflexivity|]. left. split; [reflexivity|exact Qf].
Qed.
Lemma loop_stubborn {A} (f : jop A) t eager x l e s : stubborn f x e -> valid s -> 2 <= rcap s -> skip_aw (rest s) = x :: l -> x <> t ->
  (forall p q, rest s = p ++ q -> exists er a, f p = (Err er, a) /\ (p = x :: firstn (pred (len p)) l -> a = 0) /\ (p = [] -> a = 0)) ->
  exists s' er, loop_until_success f (Some t) eager s = Done (s', Err er) /\ (is_io er = true /\ rquiet s = false \/ err_type er = e /\ has_read_on s').
Proof.
  intros St V C Sk Nt Fp. pose proof V as (W & J & I). unfold loop_until_success, jcall.
  destruct (Fp (jview s) (src (rd (bf s))) (jview_split s V)) as ([e1 o1] & a & E & A1 & A0). rewrite E. cbv beta iota zeta.
  destruct (feeding_spec (mkRj (bf s) (jlen s) (jidx s + a)) (jidx s) (Some t) W I C) as (s2 & r & F & G). rewrite F.
  destruct r as [[]|er]; [|exists s2, er; split; [reflexivity|]; left; destruct G as [G1 G2]; split; [exact G2|exact G1]].
  destruct G as (W2 & C2 & Q2 & _ & S2 & G). cbn [bf jlen jidx] in S2, G. change (skipn (jidx s) (stream (bf s))) with (rest s) in S2.
  cbn [strip] in S2. rewrite Sk in S2. destruct (N.eqb_spec x t) as [X|_]; [destruct (Nt X)|].
  assert (G' : jlen s2 = n_bytes (bf s2) /\ jidx s2 = 0).
  { destruct G as [G|(G1 & G2 & G3 & G4 & G5)]; [exact G|]. split; [lia|]. rewrite G5, G1. cbn [Nat.add].
    pose proof (jview_split s V) as Js. unfold rest in Js. rewrite G1 in Js. cbn [skipn] in Js. rewrite <- G2, S2 in Js.
    destruct (jview s) as [|y m] eqn:Jv; [apply A0; reflexivity|]. injection Js as -> Js. apply A1. cbn [List.length pred]. rewrite Js, firstn_app, Nat.sub_diag, firstn_all. cbn [firstn]. rewrite app_nil_r. reflexivity. }
  destruct G' as [G1 G2].
  destruct (retry_stubborn f eager x l e (fuel_for (bf s2)) s2 St W2) as (s' & er & E' & G'); auto.
  - rewrite C2. exact C.
  - exists s', er. split; [exact E'|]. destruct G' as [[G3 G4]|G']; [left|right; exact G']. split; [exact G3|].
    unfold rquiet in *. cbn [bf] in Q2. destruct (quiet (bf s)); [rewrite Q2 in G4 by reflexivity; discriminate G4|reflexivity].
Qed.
Lemma first_seen x l y m : forall p r q, skip_aw r = x :: l -> r = p ++ q -> skip_jw p = y :: m -> y = x \/ is_ascii_whitespace y = true.
Proof.
  induction p as [|z p IH]; intros r q S E J; [discriminate J|]. subst r. cbn [app] in S. unfold skip_aw, skip_jw in *. cbn [run_length] in S, J.
  destruct (is_ascii_whitespace z) eqn:Wz.
  - destruct (json_ws z) eqn:Jz; [cbn [skipn] in S, J; exact (IH _ q S eq_refl J)|]. injection J as <- _. right. exact Wz.
  - assert (Jz : json_ws z = false) by (destruct (json_ws z) eqn:Jz; [rewrite (json_ws_ascii z Jz) in Wz; discriminate Wz|reflexivity]).
    rewrite Jz in J. injection J as <- _. injection S as <- _. left. reflexivity.
Qed.
Lemma comma_missing {A} (g : jop A) t c er e0 eager s x l : is_ascii_whitespace t = false -> is_ascii_whitespace c = false ->
  g [] = jfail e0 -> can_retry (JsonError e0) = true -> can_retry (JsonError er) = true -> (forall y m, y <> t -> y <> c -> g (y :: m) = jfail er) ->
  valid s -> 2 <= rcap s -> skip_aw (rest s) = x :: l -> x <> t -> x <> c ->
  exists s' e, loop_until_success (after_ws g) (Some t) eager s = Done (s', Err e) /\ (is_io e = true /\ rquiet s = false \/ err_type e = JsonError er /\ has_read_on s').
Proof.
  intros Wt Wc G0 R0 Re G V C Sk Nt Nc.
  assert (Wx : is_ascii_whitespace x = false).
  { destruct (is_ascii_whitespace x) eqn:Wx; [|reflexivity]. exfalso. pose proof (run_length_skip is_ascii_whitespace (rest s)) as Z.
    unfold skip_aw in Sk. rewrite Sk in Z. cbn [run_length] in Z. rewrite Wx in Z. discriminate Z. }
  assert (Jx : json_ws x = false) by (destruct (json_ws x) eqn:Jx; [rewrite (json_ws_ascii x Jx) in Wx; discriminate Wx|reflexivity]).
  apply (loop_stubborn (after_ws g) t eager x l (JsonError er) s); auto.
  - split; [exact Re|]. split.
    + intros m. exists 0. unfold after_ws. cbn [run_length]. rewrite Jx, jat_0. exact (G x m Nt Nc).
    + exists (JsonError e0), 0. split; [|exact R0]. unfold after_ws. cbn [run_length]. rewrite jat_0. exact G0.
  - intros p q E.
    assert (Gp : exists e, g (skip_jw p) = jfail e).
    { destruct (skip_jw p) as [|y m] eqn:Y; [eexists; exact G0|]. exists er. apply G; (intros Z; subst y).
      - destruct (first_seen x l t m p (rest s) q Sk E Y) as [Z|Z]; [exact (Nt (eq_sym Z))|rewrite Wt in Z; discriminate Z].
      - destruct (first_seen x l c m p (rest s) q Sk E Y) as [Z|Z]; [exact (Nc (eq_sym Z))|rewrite Wc in Z; discriminate Z]. }
    destruct Gp as (e & Gp). unfold after_ws, jat. fold (skip_jw p). rewrite Gp. unfold jfail. do 2 eexists. split; [reflexivity|]. rewrite Nat.add_0_r. split; intros ->; cbn [run_length]; [rewrite Jx|]; reflexivity.
Qed.
Lemma comma_waits {A} t c er op s x l : @step_method A t c er op -> valid s -> 2 <= rcap s -> skip_aw (rest s) = x :: l -> x <> t -> x <> c ->
  exists s' e, op s = Done (s', Err e) /\ (is_io e = true /\ rquiet s = false \/ err_type e = JsonError er /\ has_read_on s').
Proof.
  intros []; (eapply comma_missing; [reflexivity|reflexivity|reflexivity|reflexivity|reflexivity|]);
    intros y m H1 H2; apply N.eqb_neq in H1; apply N.eqb_neq in H2; rewrite H1, H2; reflexivity.
Qed.

(** What is in the buffer is enough. *)
Lemma changed_same b : is_changed b b = false. Proof. unfold is_changed. rewrite !Nat.eqb_refl. reflexivity. Qed.
Lemma look_unasked c s x y : valid s -> c (bf s) (jidx s) = Done (bf s, Ok (x, y)) -> x <= y -> y <= n_bytes (bf s) ->
  exists d, lookahead c s = Done (s, Ok d).
Proof.
  intros (W & J & I) E X Y. unfold lookahead. cbv zeta. rewrite E, changed_same. unfold slice. cbn [bf with_bf].
  unfold wf in W. destruct (Nat.leb_spec x y); [|lia]. destruct (Nat.leb_spec y (len (buf (bf s)))); [|lia]. cbn [andb]. eexists. destruct s; reflexivity.
Qed.
Lemma count_unasked n s : valid s -> n <= len (jview s) -> exists d, lookahead_n n s = Done (s, Ok d).
Proof.
  intros V L. pose proof (jview_length s V) as JL. pose proof V as (W & J & I). apply (look_unasked _ s (jidx s) (jidx s + n) V); [|lia|lia].
  unfold collect_count, fuel_for. cbn [collect_count_loop]. destruct (Nat.leb_spec (jidx s + n) (n_bytes (bf s))); [reflexivity|lia].
Qed.
Lemma while_unasked p s : valid s -> run_length p (jview s) < len (jview s) -> exists d, lookahead_while p s = Done (s, Ok d).
Proof.
  intros V L. pose proof (jview_length s V) as JL. pose proof V as (W & J & I).
  apply (look_unasked _ s (jidx s) (jidx s + run_length p (jview s)) V); [|lia|lia].
  unfold collect_while, fuel_for. cbn [collect_while_loop]. unfold jview in *. rewrite J in *.
  destruct (Nat.ltb_spec (jidx s + run_length p (skipn (jidx s) (firstn (n_bytes (bf s)) (buf (bf s))))) (n_bytes (bf s))); [reflexivity|lia].
Qed.
Lemma skip_unasked n s : valid s -> n <= len (jview s) -> exists s', skip_n_bytes n s = Done (s', Ok n) /\ not_asked s s'.
Proof.
  intros V L. pose proof (jview_length s V) as JL. pose proof V as (W & J & I). unfold skip_n_bytes, skip_n, fuel_for. cbn [skip_n_loop].
  destruct (Nat.eqb_spec n 0) as [->|N].
  - eexists. split; [reflexivity|]. unfold not_asked. cbn [bf create_new_jiter with_bf]. apply shift_rd.
  - destruct (Nat.leb_spec n (n_bytes (bf s) - jidx s)); [|lia]. eexists. split; [reflexivity|]. unfold not_asked. cbn [bf create_new_jiter with_bf]. apply shift_rd.
Qed.
Lemma token_unasked t s : valid s -> len t <= len (jview s) -> exists s' r, known_skip_token t s = Done (s', r) /\ not_asked s s'.
Proof.
  intros V L. unfold known_skip_token. destruct (count_unasked (len t) s V L) as (d & ->).
  destruct (beq d t); [|do 2 eexists; split; reflexivity]. destruct (skip_unasked (len t) s V L) as (s' & -> & N). do 2 eexists. split; [reflexivity|exact N].
Qed.
Lemma long_unasked pr sg fuel s w v a : pr (jview s) = (Ok v, a) -> exists s' w' r, handle_long (S fuel) pr sg s w = Done (s', w', r) /\ not_asked s s'.
Proof.
  intros E. cbn [handle_long]. unfold jcall. rewrite E. destruct (write_all w v) as [w' [[]|e]]; (do 3 eexists; split; [reflexivity|reflexivity]).
Qed.
Lemma method_unasked {A} k known token (f : jop A) op s v a : method k known token f op -> valid s ->
  f (jview s) = (Ok v, a) -> (k = Number \/ k = Whole -> a < len (jview s)) -> exists s', op s = Done (s', Ok v) /\ not_asked s s'.
Proof. intros M V E K. destruct (op_buffered _ _ _ _ _ _ _ _ M V E K) as (-> & _). eexists. split; reflexivity. Qed.
Lemma run_stops p l x : In x l -> p x = false -> run_length p l < len l.
Proof.
  induction l as [|y l IH]; intros I E; [destruct I|]. cbn [run_length List.length]. destruct I as [->|I]; [rewrite E; lia|]. destruct (p y); [specialize (IH I E); lia|lia].
Qed.
Lemma provided_unasked s P : valid s -> provided s P -> exists s', P s' /\ not_asked s s'.
Proof.
  intros V [w v a E|w v a E|n L|p x I E|n L|t L].
  - unfold write_long_bytes, fuel_for. destruct (long_unasked _ bytes_segment (len (src (rd (bf s)))) s w v a E) as (s' & w' & r & Z & N). exists s'. split; [|exact N]. do 2 eexists. exact Z.
  - unfold write_long_str, fuel_for. destruct (long_unasked _ str_segment (len (src (rd (bf s)))) s w v a E) as (s' & w' & r & Z & N). exists s'. split; [|exact N]. do 2 eexists. exact Z.
  - exists s. split; [apply count_unasked; assumption|reflexivity].
  - exists s. split; [apply while_unasked; [exact V|exact (run_stops _ _ _ I E)]|reflexivity].
  - destruct (skip_unasked n s V L) as (s' & E & N). exists s'. split; assumption.
  - destruct (token_unasked t s V L) as (s' & r & E & N). exists s'. split; [exists r; exact E|exact N].
Qed.
Lemma unfinished e : ~ seems_unfinished e -> can_retry e = false.
Proof. unfold seems_unfinished. cbn [map In]. destruct e as [[]| | |]; intros H; reflexivity || (elim H; tauto). Qed.
Lemma error_at_once {A} k known token (f : jop A) op s e o a : method k known token f op -> valid s -> 2 <= rcap s ->
  on_token known (jview s) -> no_form_feed token (jview s) -> skip_jw (jview s) <> [] ->
  match k with Plain | Number => True | Separator | ObjectOpen | Whole => 0 < jidx s end ->
  f (jview s) = (Err (e, o), a) -> ~ seems_unfinished e ->
  exists s' er, op s = Done (s', Err er) /\ err_type er = e /\ not_asked s s'.
Proof. intros Hm Hv Hc Ht Hf Hj Hk E U. exact (error_unasked k known token f op s e o a Hm Hv Hc Ht Hf Hj Hk E (unfinished e U)). Qed.
