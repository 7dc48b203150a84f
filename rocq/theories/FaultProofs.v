(** Proofs about strings that are not JSON. *)
From Verif Require Import Base Buffer BufferSpec Jiter JiterValue RJiter RJiterSpec Scan ScanSpec ValueSpec SoundSpec TypeSpec UnicodeSpec FaultSpec.
From Verif Require Import BufferProofs JiterProofs JiterValueProofs RJiterProofs RJiterOpProofs RJiterInvProofs ScanTokens SoundParser TypeProofs UnicodeProofs.

(** On every beginning of [S] the parser fails without moving: it asks for more, or the error is settled. *)
Definition settles_at {A} (f : jop A) (S : bytes) (K : nat) (e : error_type) (off : nat) : Prop :=
  forall p q, S = p ++ q -> exists e' o, f p = (Err (e', o), 0) /\
    (if can_retry e' then len p < K \/ (q = [] /\ e' = e /\ o = off) else e' = e /\ o = off).
Lemma retry_settles_at {A} (f : jop A) eager S K ty off fuel : forall s,
  settles_at f S K ty off -> K <= rcap s -> K <= len S -> wf (bf s) -> jlen s = n_bytes (bf s) -> jidx s = 0 -> stream (bf s) = S ->
  len (src (rd (bf s))) < fuel -> refused_at s S ty off (retry_loop fuel f eager s).
Proof.
  induction fuel as [|fuel IH]; intros s Hf Hc HK W HL HI HS Hfu; [lia|].
  assert (V : valid s) by (unfold valid; repeat split; auto; lia).
  assert (Hsp : rest s = S) by (unfold rest; rewrite HI; exact HS).
  cbn [retry_loop]. unfold jcall. pose proof Hsp as Hsp'. rewrite (jview_split s V) in Hsp'. pose proof (jview_length s V) as Hlen.
  destruct (Hf (jview s) (src (rd (bf s)))) as (e & o & E & P); [auto|]. rewrite E. cbn [fst].
  destruct (can_retry e) eqn:Er.
  - cbn [bf].
    destruct (read_more (bf s)) as [b r] eqn:Em. destruct (read_more_spec _ _ _ W Em) as (C3 & N3 & Q3 & P3).
    assert (St : stream b = S) by (rewrite (cut_nil_stream _ _ _ C3); exact HS).
    destruct r as [[|k]|x].
    + destruct P3 as (A1 & A2 & A3). rewrite HI in Hlen.
      assert (Pq : src (rd (bf s)) = [] /\ e = ty /\ o = off).
      { destruct P as [P|P]; [|exact P]. exfalso. destruct (A3 eq_refl) as [A4|A4]; [unfold rcap in Hc; lia|].
        rewrite A4, app_nil_r in Hsp'. rewrite Hsp' in P. lia. }
      destruct Pq as (Pq & -> & ->). cbn [with_bf bf jlen jidx]. eexists _, _. split; [reflexivity|]. right.
      cbn [from_jiter_error fst snd err_type err_index]. split; [reflexivity|]. rewrite Nat.add_0_r.
      assert (Nb : n_bytes b = n_bytes (bf s)) by lia.
      split; [unfold current_index, total; cbn [bf jidx with_bf]; rewrite HI, N3, HS; lia|].
      split; [unfold valid; cbn [bf jlen jidx with_bf]; rewrite Nb; split; [eapply cut_wf; eauto|split; lia]|].
      split; [unfold rest; cbn [bf jidx with_bf]; rewrite HI; exact St|].
      unfold rcap, total, rquiet. cbn [bf with_bf]. rewrite (cut_cap _ _ _ _ C3), St, N3, HS. auto.
    + destruct P3 as (A1 & A2 & _).
      destruct (IH (create_new_jiter (with_bf (mkRj (bf s) (jlen s) (jidx s + 0)) b))) as (s' & er & E' & P'); auto.
      { unfold rcap in *. cbn. rewrite (cut_cap _ _ _ _ C3). exact Hc. } { eapply cut_wf; eauto. } { cbn. lia. }
      exists s', er. split; [exact E'|]. unfold rcap, total, rquiet in *. cbn [create_new_jiter with_bf bf] in P'.
      rewrite (cut_cap _ _ _ _ C3), St, N3 in P'. rewrite HS.
      destruct P' as [(P1 & P2)|P']; [left|right; intuition].
      split; [exact P1|]. destruct (quiet (bf s)); [rewrite Q3 in P2 by reflexivity; discriminate|reflexivity].
    + eexists _, _. split; [reflexivity|]. left. destruct P3 as ((kd & ->) & _ & _ & _ & P3). split; [reflexivity|exact P3].
  - destruct P as (-> & ->). eexists _, _. split; [reflexivity|]. right. cbn [from_jiter_error fst snd err_type err_index].
    rewrite Nat.add_0_r. replace (mkRj (bf s) (jlen s) (jidx s)) with s by (destruct s; reflexivity).
    split; [reflexivity|]. split; [|split; [exact V|split; [exact Hsp|auto]]].
    unfold current_index, total. rewrite HI, HS. lia.
Qed.
Lemma loop_settles_at {A} (f : jop A) eager s w x l K ty off :
  valid s -> 2 <= rcap s -> rest s = w ++ x :: l -> blanks w -> is_ascii_whitespace x = false ->
  (forall p q, rest s = p ++ q -> exists e a, f p = (Err e, a)) -> settles_at f (x :: l) K ty off -> K <= rcap s -> K <= S (len l) ->
  refused_at s (x :: l) ty off (loop_until_success f None eager s).
Proof.
  intros V Hc HR Hw Hx H1 Hf HK HK'. pose proof V as (W & HL & HI). unfold loop_until_success, jcall.
  destruct (f (jview s)) as [r0 a0] eqn:Ef.
  assert (Hr0 : exists ty o, r0 = Err (ty, o)).
  { destruct (H1 (jview s) (src (rd (bf s)))) as (e & a & E); [apply jview_split; exact V|]. rewrite E in Ef. destruct e as [ty' o]. injection Ef as <- _. eauto. }
  destruct Hr0 as (ty' & o & ->). set (s1 := mkRj (bf s) (jlen s) (jidx s + a0)).
  assert (Hstrip : strip None (rest s) = x :: l).
  { rewrite HR. assert (E : skip_aw (w ++ x :: l) = x :: l).
    { clear - Hw Hx. unfold skip_aw. induction Hw as [|y w Hy Hw IH]; cbn [app run_length].
      - rewrite Hx. reflexivity.
      - assert (Ey : is_ascii_whitespace y = true) by (destruct Hy as [[->|[->|[->| ->]]]| ->]; reflexivity). rewrite Ey. cbn [skipn]. exact IH. }
    unfold strip. rewrite E. reflexivity. }
  destruct (feeding_spec s1 (jidx s) None W HI Hc) as (s2 & r2 & E2 & P2). rewrite E2.
  destruct r2 as [[]|e]; [|exists s2, e; split; [reflexivity|]; left; split; [apply P2|apply P2]].
  destruct P2 as (W2 & C2 & Q2 & T2 & S2 & P2). change (stream (bf s1)) with (stream (bf s)) in *.
  fold (rest s) in S2. rewrite Hstrip in S2.
  assert (Hj : jlen s2 = n_bytes (bf s2) /\ jidx s2 = 0).
  { destruct P2 as [P2|(P1 & P2 & P3 & -> & ->)]; [exact P2|]. cbn [s1 jlen jidx bf] in *.
    assert (Hw0 : rest s = x :: l) by (unfold rest; rewrite P1; cbn [skipn]; congruence).
    destruct (Hf (jview s) (src (rd (bf s)))) as (e & o' & E & _); [rewrite <- Hw0; apply jview_split; exact V|].
    rewrite E in Ef. injection Ef as _ _ <-. lia. }
  destruct Hj as [Hjl Hji].
  destruct (retry_settles_at f eager (x :: l) K ty off (fuel_for (bf s2)) s2) as (s' & e & E & P); auto.
  { rewrite C2. exact HK. }
  exists s', e. split; [exact E|]. change (rcap s1) with (rcap s) in *. change (total s1) with (total s) in *. change (rquiet s1) with (rquiet s) in *.
  rewrite C2, T2 in P. destruct P as [(P1 & P3)|P]; [left|right].
  - split; [exact P1|]. destruct (rquiet s); [rewrite Q2 in P3 by reflexivity; discriminate|reflexivity].
  - destruct P as (P0 & P1 & P3 & P4 & P5 & P6 & P7). repeat split; auto; apply P3.
Qed.

(** The scanner of strings on faultless text. *)
Lemma scan_skips k : forall a l e o, len a = k -> scan_string 0 l = Err (e, o) -> scan_string k (a ++ l) = Err (e, k + o).
Proof.
  induction k as [|k IH]; intros [|x a] l e o E H; try discriminate; [exact H|]. cbn [app scan_string]. injection E as E. rewrite (IH a l e o E H). reflexivity.
Qed.
Lemma scan_piece n d x a l e o : string_step ((x :: a) ++ l) = SPiece n d -> n = S (len a) -> scan_string 0 l = Err (e, o) ->
  scan_string 0 ((x :: a) ++ l) = Err (e, n + o).
Proof.
  intros E -> H. cbn [app] in *. cbn [scan_string]. rewrite E. cbn [Nat.sub]. rewrite Nat.sub_0_r, (scan_skips (len a) a l e o eq_refl H). reflexivity.
Qed.
Lemma scan_stops l e o : string_step l = SFail e o -> scan_string 0 l = Err (e, o).
Proof. intros E. destruct l; cbn [scan_string]; rewrite E; reflexivity. Qed.
Lemma char_step x l : (32 <= x)%N -> x <> 34%N -> x <> 92%N -> string_step (x :: l) = SPiece 1 [x].
Proof.
  intros H1 H2 H3. apply N.eqb_neq in H2, H3. unfold string_step, QUOTE, BACKSLASH. rewrite H2, H3. destruct (N.ltb_spec x 32); [lia|reflexivity].
Qed.
Lemma escape_step y c l : In (y, c) escapes -> string_step (92%N :: y :: l) = SPiece 2 [c].
Proof. intros H. apply escape_is in H. unfold string_step. cbn. rewrite H. reflexivity. Qed.
Lemma hex_step a b c d l : string_step (92%N :: 117%N :: a :: b :: c :: d :: l) =
  match u4 a b c d with
  | inr i => SFail InvalidEscape (2 + i)
  | inl n => if is_low n then SFail LoneLeadingSurrogateInHexEscape 5
             else if is_high n then low_surrogate n l (6 + len l) else SPiece 6 (utf8_encode n)
  end.
Proof. reflexivity. Qed.
Lemma surrogates_not n : character n -> is_low n = false /\ is_high n = false.
Proof. unfold character, is_low, is_high. intros H. split; apply Bool.andb_false_iff; rewrite !N.leb_gt; lia. Qed.
Lemma high_is hi : (hi < 1024)%N -> is_low (55296 + hi) = false /\ is_high (55296 + hi) = true.
Proof.
  unfold is_low, is_high. intros H. split; [apply Bool.andb_false_iff; rewrite !N.leb_gt; lia|apply Bool.andb_true_iff; rewrite !N.leb_le; lia].
Qed.
Lemma low_is lo : (lo < 1024)%N -> is_low (56320 + lo) = true.
Proof. unfold is_low. intros H. apply Bool.andb_true_iff; rewrite !N.leb_le; lia. Qed.
Lemma pair_step h hi l : (hi < 1024)%N -> hex4 h (55296 + hi)%N -> string_step (92%N :: 117%N :: h ++ l) = low_surrogate (55296 + hi) l (6 + len l).
Proof.
  intros Hh H. destruct (hex4_four _ _ H) as (a & b & c & d & -> & E & _). cbn [app]. rewrite hex_step, E.
  destruct (high_is hi Hh) as (-> & ->). reflexivity.
Qed.
Lemma faultless_ends t : faultless t -> forall p q, t = p ++ q -> scan_string 0 p = Err (EofWhileParsingString, len p).
Proof.
  induction 1 as [|x t H1 H2 H3 H IH|y c t Hy H IH|h c t Hh Hc H IH|h g hi lo t Hi Hl Hh Hg H IH]; intros p q E.
  - destruct p; [reflexivity|discriminate].
  - destruct p as [|y p]; [reflexivity|]. cbn [app] in E. assert (y = x) by congruence. subst y. assert (E' : t = p ++ q) by congruence.
    apply (scan_piece 1 [x] x [] p EofWhileParsingString (len p)); [apply char_step; assumption|reflexivity|eapply IH; exact E'].
  - destruct p as [|x1 p]; [reflexivity|]. cbn [app] in E. assert (x1 = 92%N) by congruence. subst x1. destruct p as [|x2 p]; [reflexivity|].
    cbn [app] in E. assert (x2 = y) by congruence. subst x2. assert (E' : t = p ++ q) by congruence.
    apply (scan_piece 2 [c] 92%N [y] p EofWhileParsingString (len p)); [apply (escape_step y c p Hy)|reflexivity|eapply IH; exact E'].
  - destruct (hex4_four _ _ Hh) as (a & b & c' & d & -> & Eu & _). destruct (surrogates_not c Hc) as (S1 & S2). cbn [app] in E.
    do 6 (destruct p as [|?x p]; [try (injection E; intros; subst); reflexivity|cbn [app] in E]).
    injection E as <- <- <- <- <- <- E'.
    apply (scan_piece 6 (utf8_encode c) 92%N [117%N; a; b; c'; d] p EofWhileParsingString (len p)); [|reflexivity|eapply IH; exact E'].
    cbn [app]. rewrite hex_step, Eu, S1, S2. reflexivity.
  - assert (Hst : forall l, string_step (92%N :: 117%N :: h ++ l) = low_surrogate (55296 + hi) l (6 + len l)) by (intros; apply pair_step; assumption).
    destruct (hex4_four _ _ Hh) as (a & b & c' & d & -> & Eu & _). destruct (hex4_four _ _ Hg) as (a2 & b2 & c2 & d2 & -> & Eu2 & _). cbn [app] in *.
    do 6 (destruct p as [|?x p]; [try (injection E; intros; subst); reflexivity|cbn [app] in E]).
    injection E as <- <- <- <- <- <- E. 
    do 6 (destruct p as [|?x p]; [try (injection E; intros; subst); apply scan_stops; rewrite Hst; reflexivity|cbn [app] in E]).
    injection E as <- <- <- <- <- <- E'.
    eapply (scan_piece 12 _ 92%N [117%N; a; b; c'; d; 92%N; 117%N; a2; b2; c2; d2] p EofWhileParsingString (len p)); [|reflexivity|eapply IH; exact E'].
    cbn [app]. rewrite Hst. cbn [low_surrogate]. rewrite Eu2, (low_is lo Hl). reflexivity.
Qed.
Lemma faultless_through t : faultless t -> forall l e o, scan_string 0 l = Err (e, o) -> scan_string 0 (t ++ l) = Err (e, len t + o).
Proof.
  induction 1 as [|x t H1 H2 H3 H IH|y c t Hy H IH|h c t Hh Hc H IH|h g hi lo t Hi Hl Hh Hg H IH]; intros l e o E.
  - exact E.
  - apply (scan_piece 1 [x] x [] (t ++ l) e (len t + o)); [apply char_step; assumption|reflexivity|apply IH; exact E].
  - apply (scan_piece 2 [c] 92%N [y] (t ++ l) e (len t + o)); [apply (escape_step y c _ Hy)|reflexivity|apply IH; exact E].
  - destruct (hex4_four _ _ Hh) as (a & b & c' & d & -> & Eu & _). destruct (surrogates_not c Hc) as (S1 & S2).
    apply (scan_piece 6 (utf8_encode c) 92%N [117%N; a; b; c'; d] (t ++ l) e (len t + o)); [|reflexivity|apply IH; exact E].
    cbn [app]. rewrite hex_step, Eu, S1, S2. reflexivity.
  - pose proof (fun l => pair_step h hi l Hi Hh) as Hst.
    destruct (hex4_four _ _ Hh) as (a & b & c' & d & -> & Eu & _). destruct (hex4_four _ _ Hg) as (a2 & b2 & c2 & d2 & -> & Eu2 & _). cbn [app] in Hst.
    eapply (scan_piece 12 _ 92%N [117%N; a; b; c'; d; 92%N; 117%N; a2; b2; c2; d2] (t ++ l) e (len t + o)); [|reflexivity|apply IH; exact E].
    cbn [app]. rewrite Hst. cbn [low_surrogate]. rewrite Eu2, (low_is lo Hl). reflexivity.
Qed.

Lemma no_hex x : (forall n, ~ hex_digit x n) -> hex_val x = None.
Proof. intros H. destruct (hex_val x) as [n|] eqn:E; [|reflexivity]. apply hex_is in E. destruct (H n E). Qed.
Lemma no_hex4_four h k : no_hex4 h k -> exists a b c d, h = [a; b; c; d] /\ u4 a b c d = inr k.
Proof.
  intros [a x b Ha Hx Hl]. apply no_hex in Hx.
  assert (Hd : forall y, (exists n, hex_digit y n) -> exists n, hex_val y = Some n) by (intros y (n & Hy); exists n; apply hex_is; exact Hy).
  unfold u4. destruct Ha as [|a1 a H1 Ha]; [|destruct Ha as [|a2 a H2 Ha]; [|destruct Ha as [|a3 a H3 Ha]; [|destruct Ha as [|a4 a H4 Ha]]]]; cbn [app List.length] in *.
  - destruct b as [|b1 [|b2 [|b3 [|]]]]; try discriminate. do 4 eexists. split; [reflexivity|]. rewrite Hx. reflexivity.
  - destruct b as [|b1 [|b2 [|]]]; try discriminate. do 4 eexists. split; [reflexivity|]. destruct (Hd _ H1) as (n1 & ->). rewrite Hx. reflexivity.
  - destruct b as [|b1 [|]]; try discriminate. do 4 eexists. split; [reflexivity|]. destruct (Hd _ H1) as (n1 & ->), (Hd _ H2) as (n2 & ->). rewrite Hx. reflexivity.
  - destruct b as [|]; try discriminate. do 4 eexists. split; [reflexivity|]. destruct (Hd _ H1) as (n1 & ->), (Hd _ H2) as (n2 & ->), (Hd _ H3) as (n3 & ->). rewrite Hx. reflexivity.
  - exfalso. rewrite app_length in Hl. cbn [List.length] in Hl. lia.
Qed.
(** A fault is found as soon as all bytes that show it are there. *)
Lemma fault_found f e o : fault f e o -> forall r, string_step (f ++ r) = SFail e o.
Proof.
  intros H r. destruct H as [x H|y H1 H2|h k H|h lo Hl Hh|h hi x Hi Hh Hx|h hi y Hi Hh Hy|h hi g k Hi Hh Hg|h hi g n Hi Hh Hg Hn].
  - cbn [app]. unfold string_step, QUOTE, BACKSLASH. destruct (N.eqb_spec x 34); [lia|]. destruct (N.eqb_spec x 92); [lia|]. destruct (N.ltb_spec x 32); [reflexivity|lia].
  - cbn. destruct (simple_escape y) as [c|] eqn:E; [apply escape_is in E; destruct (H1 c E)|]. apply N.eqb_neq in H2. rewrite H2. reflexivity.
  - destruct (no_hex4_four h k H) as (a & b & c & d & -> & Eu). cbn [app]. rewrite hex_step, Eu. reflexivity.
  - destruct (hex4_four _ _ Hh) as (a & b & c' & d & -> & Eu & _). cbn [app]. rewrite hex_step, Eu, (low_is lo Hl). reflexivity.
  - cbn [app]. rewrite <- app_assoc, (pair_step h hi _ Hi Hh). cbn [app low_surrogate]. apply N.eqb_neq in Hx. unfold BACKSLASH. rewrite Hx. destruct r; reflexivity.
  - cbn [app]. rewrite <- app_assoc, (pair_step h hi _ Hi Hh). cbn [app low_surrogate]. apply N.eqb_neq in Hy. rewrite Hy. reflexivity.
  - cbn [app]. rewrite <- app_assoc, (pair_step h hi _ Hi Hh). destruct (no_hex4_four g k Hg) as (a & b & c & d & -> & Eu). cbn [app low_surrogate]. cbn. rewrite Eu. reflexivity.
  - cbn [app]. rewrite <- app_assoc, (pair_step h hi _ Hi Hh). destruct (hex4_four _ _ Hg) as (a & b & c' & d & -> & Eu & _). cbn. rewrite Eu.
    replace (is_low n) with false by (symmetry; unfold is_low; apply Bool.andb_false_iff; rewrite !N.leb_gt; lia). reflexivity.
Qed.
Lemma fault_pending f e o : fault f e o -> forall p x q, f = p ++ x :: q -> string_step p = SFail EofWhileParsingString (len p).
Proof.
  intros H p z q E. destruct H as [x H|y H1 H2|h k H|h lo Hl Hh|h hi x Hi Hh Hx|h hi y Hi Hh Hy|h hi g k Hi Hh Hg|h hi g n Hi Hh Hg Hn].
  - destruct p as [|? [|]]; [reflexivity|discriminate..].
  - destruct p as [|? [|? [|]]]; [reflexivity|injection E as <- ? ?; reflexivity|discriminate..].
  - destruct (no_hex4_four h k H) as (a & b & c & d & -> & Eu).
    do 6 (destruct p as [|?x p]; [try (injection E; intros; subst); reflexivity|cbn [app] in E]). injection E as _ _ _ _ _ _ E. destruct p; discriminate E.
  - destruct (hex4_four _ _ Hh) as (a & b & c' & d & -> & Eu & _).
    do 6 (destruct p as [|?x p]; [try (injection E; intros; subst); reflexivity|cbn [app] in E]). injection E as _ _ _ _ _ _ E. destruct p; discriminate E.
  - pose proof (fun l => pair_step h hi l Hi Hh) as Hst. destruct (hex4_four _ _ Hh) as (a & b & c' & d & -> & Eu & _). cbn [app] in E, Hst.
    do 6 (destruct p as [|?x p]; [try (injection E; intros; subst); reflexivity|cbn [app] in E]). injection E as <- <- <- <- <- <- E.
    destruct p as [|? p]; [rewrite Hst; reflexivity|]. destruct p; discriminate E.
  - pose proof (fun l => pair_step h hi l Hi Hh) as Hst. destruct (hex4_four _ _ Hh) as (a & b & c' & d & -> & Eu & _). cbn [app] in E, Hst.
    do 6 (destruct p as [|?x p]; [try (injection E; intros; subst); reflexivity|cbn [app] in E]). injection E as <- <- <- <- <- <- E.
    destruct p as [|? p]; [rewrite Hst; reflexivity|]. destruct p as [|? p]; [injection E as <- _ _; rewrite Hst; reflexivity|]. destruct p; discriminate E.
  - pose proof (fun l => pair_step h hi l Hi Hh) as Hst. destruct (hex4_four _ _ Hh) as (a & b & c' & d & -> & Eu & _).
    destruct (no_hex4_four g k Hg) as (a2 & b2 & c2 & d2 & -> & Eu2). cbn [app] in E, Hst.
    do 6 (destruct p as [|?x p]; [try (injection E; intros; subst); reflexivity|cbn [app] in E]). injection E as <- <- <- <- <- <- E.
    do 6 (destruct p as [|?x p]; [try (injection E; intros; subst); rewrite Hst; reflexivity|cbn [app] in E]). injection E as _ _ _ _ _ _ E. destruct p; discriminate E.
  - pose proof (fun l => pair_step h hi l Hi Hh) as Hst. destruct (hex4_four _ _ Hh) as (a & b & c' & d & -> & Eu & _).
    destruct (hex4_four _ _ Hg) as (a2 & b2 & c2 & d2 & -> & Eu2 & _). cbn [app] in E, Hst.
    do 6 (destruct p as [|?x p]; [try (injection E; intros; subst); reflexivity|cbn [app] in E]). injection E as <- <- <- <- <- <- E.
    do 6 (destruct p as [|?x p]; [try (injection E; intros; subst); rewrite Hst; reflexivity|cbn [app] in E]). injection E as _ _ _ _ _ _ E. destruct p; discriminate E.
Qed.
(** So the scanner asks for more until it can name the fault. *)
Lemma fault_scanned t f e o r : faultless t -> fault f e o -> forall p q, t ++ f ++ r = p ++ q ->
  (scan_string 0 p = Err (EofWhileParsingString, len p) /\ len p < len t + len f) \/ scan_string 0 p = Err (e, len t + o).
Proof.
  intros Ht Hf p q E. apply app_eq_app in E as (m & [(-> & E)|(-> & E)]).
  - left. split; [eapply faultless_ends; [exact Ht|reflexivity]|]. destruct f as [|x f]; [inversion Hf|]. rewrite app_length. cbn [List.length]. lia.
  - apply app_eq_app in E as (m2 & [(-> & E)|(-> & E)]).
    + destruct m2 as [|x m2].
      * right. apply faultless_through; [exact Ht|]. apply scan_stops. rewrite app_nil_r in Hf. rewrite <- (app_nil_r m). apply fault_found. exact Hf.
      * left. rewrite !app_length. cbn [List.length]. split; [|lia]. apply faultless_through; [exact Ht|]. apply scan_stops. eapply fault_pending; [exact Hf|reflexivity].
    + right. apply faultless_through; [exact Ht|]. apply scan_stops. apply fault_found. exact Hf.
Qed.

(** The methods. *)
Definition known_reader (D : jop bytes) : Prop := forall l e o, scan_string 0 l = Err (e, o) -> D (QUOTE :: l) = (Err (JsonError e, S o), 0).
Lemma known_readers : known_reader j_known_str /\ known_reader j_known_bytes.
Proof. split; intros l e o E; unfold j_known_str, j_known_bytes; cbn [skipn]; rewrite E; reflexivity. Qed.
Lemma known_nil : exists e, j_known_str [] = (Err (JsonError EofWhileParsingString, e), 0) /\ j_known_bytes [] = (Err (JsonError EofWhileParsingString, e), 0).
Proof. eexists. split; reflexivity. Qed.
Lemma method_looks known op : string_method known op -> exists (f : jop bytes), op = loop_until_success f None false /\
  exists D, known_reader D /\ (forall l, f (QUOTE :: l) = D (QUOTE :: l)) /\ (exists e o, f [] = (Err (JsonError e, o), 0) /\ can_retry (JsonError e) = true) /\
  (known = false -> looks f (fun x l => if N.eqb QUOTE x then D l else (wrong_type TString x l, 0))).
Proof.
  destruct known_readers as (K1 & K2).
  intros []; eexists; (split; [reflexivity|]).
  - exists j_known_str. split; [exact K1|]. split; [|split; [exists EofWhileParsingValue, 0; split; reflexivity|intros _; apply looks_next]].
    intros l. apply (looks_head _ _ QUOTE l (looks_next TString (N.eqb QUOTE) (fun _ => j_known_str))); reflexivity.
  - exists j_known_bytes. split; [exact K2|]. split; [|split; [exists EofWhileParsingValue, 0; split; reflexivity|intros _; apply looks_next]].
    intros l. apply (looks_head _ _ QUOTE l (looks_next TString (N.eqb QUOTE) (fun _ => j_known_bytes))); reflexivity.
  - exists j_known_str. split; [exact K1|]. split; [reflexivity|]. split; [do 2 eexists; split; reflexivity|discriminate].
  - exists j_known_bytes. split; [exact K2|]. split; [reflexivity|]. split; [do 2 eexists; split; reflexivity|discriminate].
Qed.
Lemma method_refused known op s w l K e o : string_method known op -> (known = true -> w = []) ->
  valid s -> 2 <= rcap s -> rest s = w ++ QUOTE :: l -> blanks w -> S K <= rcap s -> K <= len l ->
  (forall p q, l = p ++ q -> exists e' o', scan_string 0 p = Err (e', o') /\
    (if can_retry (JsonError e') then len p < K \/ (q = [] /\ e' = e /\ o' = o) else e' = e /\ o' = o)) ->
  refused_at s (QUOTE :: l) (JsonError e) (S o) (op s).
Proof.
  intros Hm Hk V Hc HR Hw HK HK' Hp. destruct (method_looks known op Hm) as (f & -> & D & HD & Hf & (en & on & En & Rn) & Hl).
  assert (Hset : settles_at f (QUOTE :: l) (S K) (JsonError e) (S o)).
  { intros p q E. destruct p as [|x p]; [exists (JsonError en), on; split; [exact En|]; rewrite Rn; left; cbn; lia|].
    cbn [app] in E. assert (x = QUOTE) by congruence. subst x. assert (E' : l = p ++ q) by congruence.
    destruct (Hp p q E') as (e' & o' & Es & P). exists (JsonError e'), (S o'). rewrite Hf. split; [apply HD; exact Es|].
    destruct (can_retry (JsonError e')); [destruct P as [P|(-> & -> & ->)]; [left; cbn; lia|right; auto]|destruct P as (-> & ->); auto]. }
  apply (loop_settles_at f false s w QUOTE l (S K)); auto; [|cbn; lia].
  rewrite HR. destruct known.
  - rewrite (Hk eq_refl). cbn [app]. intros p q E. destruct (Hset p q E) as (e' & o' & -> & _). eauto.
  - apply (looks_fail f _ w _ (Hl eq_refl) Hw); [intros m; eexists; reflexivity|].
    intros y p q E. cbn [app] in E. assert (y = QUOTE) by congruence. subst y. split; [reflexivity|]. cbn.
    assert (E' : l = p ++ q) by congruence. destruct (Hp p q E') as (e' & o' & Es & P). exists (JsonError e', S o'). apply HD. exact Es.
Qed.
Lemma fault_named known op s w t f e o r : string_method known op -> (known = true -> w = []) ->
  valid s -> 2 <= rcap s -> rest s = w ++ QUOTE :: t ++ f ++ r -> blanks w -> faultless t -> fault f e o -> S (len t + len f) <= rcap s ->
  refused_at s (QUOTE :: t ++ f ++ r) (JsonError e) (1 + len t + o) (op s).
Proof.
  intros Hm Hk V Hc HR Hw Ht Hf Hfit. apply (method_refused known op s w _ (len t + len f)); auto; [rewrite !app_length; lia|].
  intros p q E. destruct (fault_scanned t f e o r Ht Hf p q E) as [(Es & Hlt)|Es]; rewrite Es.
  - do 2 eexists. split; [reflexivity|]. left. exact Hlt.
  - do 2 eexists. split; [reflexivity|]. assert (can_retry (JsonError e) = false) as -> by (destruct Hf; reflexivity). auto.
Qed.
Lemma broken_step a : broken_off a -> string_step a = SFail EofWhileParsingString (len a).
Proof.
  intros [| |h Hh|h hi Hi Hh|h hi Hi Hh|h hi g Hi Hh Hg].
  - reflexivity.
  - reflexivity.
  - destruct h as [|? [|? [|? [|]]]]; try reflexivity. cbn in Hh. lia.
  - pose proof (pair_step h hi [] Hi Hh) as Hst. rewrite app_nil_r in Hst. rewrite Hst. destruct (hex4_four _ _ Hh) as (a1 & b & c & d & -> & _). reflexivity.
  - rewrite (pair_step h hi _ Hi Hh). destruct (hex4_four _ _ Hh) as (a1 & b & c & d & -> & _). reflexivity.
  - rewrite (pair_step h hi _ Hi Hh). destruct (hex4_four _ _ Hh) as (a1 & b & c & d & -> & _). destruct g as [|? [|? [|? [|]]]]; try reflexivity. cbn in Hg. lia.
Qed.
Lemma broken_before p q : broken_off (p ++ q) -> broken_off p.
Proof.
  intros H. remember (p ++ q) as a eqn:E. destruct H as [| |h Hh|h hi Hi Hh|h hi Hi Hh|h hi g Hi Hh Hg].
  - destruct p; [constructor|discriminate].
  - destruct p as [|x [|]]; [constructor|injection E as <- _; constructor|discriminate].
  - destruct p as [|x p]; [constructor|]. cbn [app] in E. injection E as <- E. destruct p as [|y p]; [constructor|]. cbn [app] in E. injection E as <- ->.
    apply bo_digits. rewrite app_length in Hh. lia.
  - destruct (hex4_four _ _ Hh) as (a1 & b & c & d & -> & _).
    do 6 (destruct p as [|?x p]; [try (injection E; intros; subst); solve [constructor; cbn; lia]|cbn [app] in E]). injection E as <- <- <- <- <- <- E.
    destruct p; [|discriminate]. eapply bo_half; eauto.
  - destruct (hex4_four _ _ Hh) as (a1 & b & c & d & -> & _). cbn [app] in E.
    do 6 (destruct p as [|?x p]; [try (injection E; intros; subst); solve [constructor; cbn; lia]|cbn [app] in E]). injection E as <- <- <- <- <- <- E.
    destruct p as [|x p]; [eapply bo_half; eauto|]. cbn [app] in E. injection E as <- E. destruct p; [|discriminate].
    apply (bo_half_backslash [a1; b; c; d] hi Hi Hh).
  - destruct (hex4_four _ _ Hh) as (a1 & b & c & d & -> & _). cbn [app] in E.
    do 6 (destruct p as [|?x p]; [try (injection E; intros; subst); solve [constructor; cbn; lia]|cbn [app] in E]). injection E as <- <- <- <- <- <- E.
    destruct p as [|x p]; [eapply bo_half; eauto|]. cbn [app] in E. injection E as <- E.
    destruct p as [|x p]; [apply (bo_half_backslash [a1; b; c; d] hi Hi Hh)|]. cbn [app] in E. injection E as <- ->.
    apply (bo_half_digits [a1; b; c; d] hi p Hi Hh). rewrite app_length in Hg. lia.
Qed.
Lemma unended known op s w t a : string_method known op -> (known = true -> w = []) ->
  valid s -> 2 <= rcap s -> rest s = w ++ QUOTE :: t ++ a -> blanks w -> faultless t -> broken_off a -> S (len t + len a) <= rcap s ->
  refused_at s (QUOTE :: t ++ a) (JsonError EofWhileParsingString) (1 + len t + len a) (op s).
Proof.
  intros Hm Hk V Hc HR Hw Ht Ha Hfit. rewrite <- app_length in Hfit. replace (1 + len t + len a) with (S (len (t ++ a))) by (rewrite app_length; lia).
  apply (method_refused known op s w (t ++ a) (len (t ++ a))); auto.
  intros p q E. exists EofWhileParsingString, (len p). split.
  - apply app_eq_app in E as (m & [(-> & _)|(-> & ->)]); [eapply faultless_ends; [exact Ht|reflexivity]|].
    rewrite app_length. apply faultless_through; [exact Ht|]. apply scan_stops, broken_step, (broken_before m q). exact Ha.
  - cbn [can_retry]. destruct q as [|x q]; [right; rewrite E, app_nil_r; auto|left]. rewrite E, app_length. cbn [List.length]. lia.
Qed.

(** These are all cases. *)
Lemma hex_dec x : (exists n, hex_digit x n) \/ forall n, ~ hex_digit x n.
Proof.
  destruct (hex_val x) as [n|] eqn:E; [left; exists n; apply hex_is; exact E|right]. intros n H. apply hex_is in H. congruence.
Qed.
Lemma hex4_dec a b c d : (exists n, hex4 [a; b; c; d] n) \/ exists k, no_hex4 [a; b; c; d] k.
Proof.
  destruct (hex_dec a) as [Ha|Ha]; [|right; exists 0; apply (nh_at [] a [b; c; d]); auto].
  destruct (hex_dec b) as [Hb|Hb]; [|right; exists 1; apply (nh_at [a] b [c; d]); auto].
  destruct (hex_dec c) as [Hc|Hc]; [|right; exists 2; apply (nh_at [a; b] c [d]); auto].
  destruct (hex_dec d) as [Hd|Hd]; [|right; exists 3; apply (nh_at [a; b; c] d []); auto].
  left. destruct Ha, Hb, Hc, Hd. eexists. constructor; eassumption.
Qed.
Lemma four_or l : len l < 4 \/ exists a b c d r, l = [a; b; c; d] ++ r.
Proof. destruct l as [|a [|b [|c [|d r]]]]; [left; cbn; lia..|right]. do 5 eexists. reflexivity. Qed.
Lemma hex4_low h n : hex4 h n -> (n < 65536)%N.
Proof. intros H. destruct (hex4_four _ _ H) as (_ & _ & _ & _ & _ & _ & K). exact K. Qed.
Lemma string_cases l : string_case l.
Proof.
  assert (K : forall n l, len l <= n -> string_case l); [|exact (K (len l) l (le_n _))]. clear l.
  assert (Fa : forall f e o r, fault f e o -> string_case (f ++ r)) by (intros f e o r H; apply (sc_fault [] f e o r); [constructor|exact H]).
  assert (Br : forall a, broken_off a -> string_case a) by (intros a H; apply (sc_broken [] a); [constructor|exact H]).
  induction n as [|n IH]; intros l Hl; [destruct l; [|cbn in Hl; lia]; apply Br; constructor|].
  assert (Go : forall p m, len p > 0 -> l = p ++ m -> (forall t, faultless t -> faultless (p ++ t)) -> string_case l).
  { intros p m Hp E Ht. assert (Hm : len m <= n) by (rewrite E, app_length in Hl; lia).
    rewrite E. destruct (IH m Hm) as [t r H|t f e o r H H2|t a H H2]; rewrite app_assoc.
    - apply sc_closed; auto.
    - eapply sc_fault; eauto.
    - apply sc_broken; auto. }
  destruct l as [|x l]; [apply Br; constructor|].
  destruct (N.eq_dec x 34) as [->|H34]; [apply (sc_closed []); constructor|].
  destruct (N.eq_dec x 92) as [->|H92].
  2: { destruct (N.lt_ge_cases x 32) as [Hx|Hx]; [eapply (Fa [x] _ 0 l), fa_control; exact Hx|].
       apply (Go [x] l); [cbn; lia|reflexivity|]. intros t Ht. cbn. constructor; auto. }
  destruct l as [|y l]; [apply Br; constructor|].
  destruct (simple_escape y) as [c|] eqn:Ey.
  { apply escape_is in Ey. apply (Go [92%N; y] l); [cbn; lia|reflexivity|]. intros t Ht. cbn. eapply fl_escape; eauto. }
  assert (Hy : forall c, ~ In (y, c) escapes) by (intros c H; apply escape_is in H; congruence).
  destruct (N.eq_dec y 117) as [->|H117]; [|eapply (Fa [92%N; y] _ 1 l), fa_letter; assumption].
  destruct (four_or l) as [H4|(a & b & c & d & r & ->)]; [apply Br, bo_digits; exact H4|].
  destruct (hex4_dec a b c d) as [(m & Hm)|(k & Hk)]; [|eapply (Fa (92%N :: 117%N :: [a; b; c; d]) _ (2 + k) r), fa_digit; exact Hk].
  pose proof (hex4_low _ _ Hm) as Hb.
  destruct (N.lt_ge_cases m 55296) as [H1|H1].
  { apply (Go (92%N :: 117%N :: [a; b; c; d]) r); [cbn; lia|reflexivity|]. intros t Ht. cbn [app]. apply (fl_hex [a; b; c; d] m t Hm); [left; exact H1|exact Ht]. }
  destruct (N.lt_ge_cases m 57344) as [H2|H2].
  2: { apply (Go (92%N :: 117%N :: [a; b; c; d]) r); [cbn; lia|reflexivity|]. intros t Ht. cbn [app]. apply (fl_hex [a; b; c; d] m t Hm); [right; lia|exact Ht]. }
  destruct (N.lt_ge_cases m 56320) as [H3|H3].
  2: { eapply (Fa (92%N :: 117%N :: [a; b; c; d]) _ 5 r), (fa_low _ (m - 56320)); [lia|]. replace (56320 + (m - 56320))%N with m by lia. exact Hm. }
  assert (Hi : (m - 55296 < 1024)%N) by lia. replace m with (55296 + (m - 55296))%N in Hm by lia. set (hi := (m - 55296)%N) in *.
  destruct r as [|x r]; [rewrite app_nil_r; apply Br; eapply bo_half; eauto|].
  destruct (N.eq_dec x 92) as [->|Hx].
  2: { eapply (Fa (92%N :: 117%N :: [a; b; c; d] ++ [x]) _ 6 r). eapply fa_alone; eauto. }
  destruct r as [|y r]; [apply Br, (bo_half_backslash [a; b; c; d] hi Hi Hm)|].
  destruct (N.eq_dec y 117) as [->|H118].
  2: { eapply (Fa (92%N :: 117%N :: [a; b; c; d] ++ [92%N; y]) _ 7 r). eapply fa_other; eauto. }
  destruct (four_or r) as [H4|(a2 & b2 & c2 & d2 & r2 & ->)]; [apply Br, (bo_half_digits [a; b; c; d] hi r Hi Hm H4)|].
  destruct (hex4_dec a2 b2 c2 d2) as [(m2 & Hm2)|(k & Hk)].
  2: { eapply (Fa (92%N :: 117%N :: [a; b; c; d] ++ 92%N :: 117%N :: [a2; b2; c2; d2]) _ (8 + k) r2). eapply fa_second_digit; eauto. }
  destruct (N.lt_ge_cases m2 56320) as [K1|K1].
  { eapply (Fa (92%N :: 117%N :: [a; b; c; d] ++ 92%N :: 117%N :: [a2; b2; c2; d2]) _ 11 r2). eapply fa_second; eauto. lia. }
  destruct (N.lt_ge_cases m2 57344) as [K2|K2].
  2: { eapply (Fa (92%N :: 117%N :: [a; b; c; d] ++ 92%N :: 117%N :: [a2; b2; c2; d2]) _ 11 r2). eapply fa_second; eauto. lia. }
  apply (Go (92%N :: 117%N :: [a; b; c; d] ++ 92%N :: 117%N :: [a2; b2; c2; d2]) r2); [cbn; lia|reflexivity|].
  intros t Ht. cbn [app]. apply (fl_pair [a; b; c; d] [a2; b2; c2; d2] hi (m2 - 56320) t Hi); [lia|exact Hm| |exact Ht].
  replace (56320 + (m2 - 56320))%N with m2 by lia. exact Hm2.
Qed.
