(** A string that starts with a surrogate pair and is longer than the buffer, when the buffer is full: the pair is cut in two. *)
From Verif Require Import Base Buffer BufferSpec Jiter JiterValue RJiter RJiterSpec Scan ScanSpec UnicodeSpec.
From Verif Require Import BufferProofs JiterProofs RJiterProofs RJiterOpProofs RJiterLongProofs UnicodeProofs.

(** Text of plain characters without the closing quote. *)
Lemma scan_unclosed t : Forall (fun x => x <> QUOTE /\ x <> BACKSLASH /\ 32 <= x)%N t -> exists n, scan_string 0 t = Err (EofWhileParsingString, n).
Proof.
  induction 1 as [|x t (Hq & Hb & Hc) Ht (n & IH)]; [exists 0; reflexivity|]. exists (S n). cbn [scan_string string_step].
  destruct (N.eqb_spec x QUOTE); [contradiction|]. destruct (N.eqb_spec x BACKSLASH); [contradiction|]. destruct (N.ltb_spec x 32); [lia|].
  cbn [Nat.sub]. rewrite IH. reflexivity.
Qed.
Lemma pair_unclosed a b c e n a' b' c' e' m t : u4 a b c e = inl n -> is_high n = true -> u4 a' b' c' e' = inl m -> is_low m = true ->
  Forall (fun x => x <> QUOTE /\ x <> BACKSLASH /\ 32 <= x)%N t ->
  exists o, scan_string 0 (BACKSLASH :: 117%N :: a :: b :: c :: e :: BACKSLASH :: 117%N :: a' :: b' :: c' :: e' :: t) = Err (EofWhileParsingString, o).
Proof.
  intros Hu Hh Hv Hl Ht. destruct (scan_unclosed t Ht) as (o & Eo).
  assert (Hn : is_low n = false) by (unfold is_high, is_low in *; lia).
  exists (12 + o).
  pose proof (scan_step BACKSLASH [117%N; a; b; c; e; BACKSLASH; 117%N; a'; b'; c'; e'] t (utf8_encode ((n - 55296) * 1024 + (m - 56320) + 65536)%N)) as H.
  rewrite Eo in H. apply H. cbn [app string_step List.length]. rewrite Hu, Hn, Hh. cbn [low_surrogate]. rewrite Hv, Hl. reflexivity.
Qed.
Lemma half_refused a b c e n t : u4 a b c e = inl n -> is_low n = true ->
  scan_string 0 (BACKSLASH :: 117%N :: a :: b :: c :: e :: t) = Err (LoneLeadingSurrogateInHexEscape, 5).
Proof. intros Hu Hl. cbn [scan_string string_step]. unfold string_step. cbn. rewrite Hu, Hl. reflexivity. Qed.

(** The state of [handle_long] before it looks for a segment: the string stands at the start of the buffer. *)
Definition front (s : rj) : rj := if 0 <? jidx s then create_new_jiter (with_bf s (shift_buffer (bf s) 0 (jidx s))) else s.
Lemma front_spec s : valid s -> valid (front s) /\ jidx (front s) = 0 /\ rest (front s) = rest s /\ rd (bf (front s)) = rd (bf s) /\
  n_bytes (bf (front s)) = n_bytes (bf s) - jidx s /\ firstn (n_bytes (bf (front s))) (buf (bf (front s))) = jview s /\ rcap (front s) = rcap s.
Proof.
  intros V. pose proof V as (W & J & I). unfold front. destruct (Nat.ltb_spec 0 (jidx s)) as [H|H].
  - assert (I' : jidx s <= n_bytes (bf s)) by lia. destruct (shift_front (bf s) (jidx s) W I') as (C & N' & _ & Rd' & St).
    set (s2 := create_new_jiter (with_bf s (shift_buffer (bf s) 0 (jidx s)))).
    assert (V2 : valid s2) by (unfold s2, valid; cbn [create_new_jiter with_bf bf jlen jidx]; split; [apply (cut_wf _ _ _ _ C)|split; [reflexivity|lia]]).
    assert (Er : rest s2 = rest s).
    { unfold rest, s2. cbn [create_new_jiter with_bf bf jidx skipn]. exact St. }
    split; [exact V2|]. split; [reflexivity|]. split; [exact Er|]. split; [exact Rd'|]. split; [exact N'|]. split.
    + pose proof (jview_rest s2 V2) as E. rewrite Er in E. unfold jview in E. unfold s2 in E. cbn [create_new_jiter with_bf bf jlen jidx skipn] in E.
      rewrite Nat.sub_0_r, N' in E. rewrite (jview_rest s V). unfold s2. cbn [create_new_jiter with_bf bf]. rewrite N'. exact E.
    + unfold rcap, s2. cbn [create_new_jiter with_bf bf]. apply (cut_cap _ _ _ _ C).
  - assert (Hj : jidx s = 0) by lia. split; [exact V|]. split; [exact Hj|]. split; [reflexivity|]. split; [reflexivity|]. split; [lia|]. split; [|reflexivity].
    unfold jview. rewrite J, Hj. reflexivity.
Qed.
(** [write_long_str] refuses the first half: the segment that ends behind it is no string. *)
Lemma half_segment a b c e n : u4 a b c e = inl n -> is_high n = true ->
  scan_string 0 (BACKSLASH :: 117%N :: a :: b :: c :: e :: [QUOTE]) = Err (UnexpectedEndOfHexEscape, 6).
Proof.
  intros Hu Hh. assert (Hn : is_low n = false) by (unfold is_high, is_low in *; lia).
  cbn [scan_string string_step]. unfold string_step. cbn. rewrite Hu, Hn, Hh. reflexivity.
Qed.
Lemma view_len s : valid s -> len (jview s) = n_bytes (bf s) - jidx s.
Proof. intros V. destruct V as (W & J & I). unfold jview. rewrite skipn_length, firstn_length, J. unfold wf, cap in W. lia. Qed.
Section PAIR.
Context (s : rj) (a b c e a' b' c' e' : byte) (n m : N) (T more : bytes).
Context (Hu : u4 a b c e = inl n) (Hh : is_high n = true) (Hv : u4 a' b' c' e' = inl m) (Hl : is_low m = true).
Context (HT : Forall (fun x => x <> QUOTE /\ x <> BACKSLASH /\ 32 <= x)%N T) (V : valid s).
Context (Er : rest s = QUOTE :: (BACKSLASH :: 117%N :: a :: b :: c :: e :: BACKSLASH :: 117%N :: a' :: b' :: c' :: e' :: T) ++ more).
Context (Hc : 13 <= len (jview s) <= 13 + len T).
Let first := BACKSLASH :: 117%N :: [a; b; c; e].
Let second := BACKSLASH :: 117%N :: [a'; b'; c'; e'].
Let k := len (jview s) - 13.
Lemma pair_view : jview s = QUOTE :: first ++ second ++ firstn k T.
Proof.
  rewrite (jview_rest s V), <- (view_len s V), Er. unfold k. replace (len (jview s)) with (13 + (len (jview s) - 13)) at 1 by lia.
  cbn [Nat.add firstn app first second]. do 13 f_equal. rewrite firstn_app_le by lia. reflexivity.
Qed.
Lemma pair_call (parser : jop bytes) : parser = j_known_bytes \/ parser = j_known_str ->
  exists o, jcall parser s = (s, Err (JsonError EofWhileParsingString, jidx s + S o)).
Proof.
  intros Hp. destruct (pair_unclosed a b c e n a' b' c' e' m (firstn k T) Hu Hh Hv Hl) as (o & Eo).
  { apply Forall_firstn'. exact HT. }
  exists o. unfold jcall. rewrite pair_view. destruct Hp as [-> | ->]; [unfold j_known_bytes|unfold j_known_str]; cbn [skipn];
    change (first ++ second ++ firstn k T) with
      (BACKSLASH :: 117%N :: a :: b :: c :: e :: BACKSLASH :: 117%N :: a' :: b' :: c' :: e' :: firstn k T); rewrite Eo;
    rewrite Nat.add_0_r; destruct s; reflexivity.
Qed.
Lemma pair_front : exists t, firstn (n_bytes (bf (front s))) (buf (bf (front s))) = QUOTE :: first ++ second ++ t /\
  buf (bf (front s)) = (QUOTE :: first ++ second ++ t) ++ skipn (n_bytes (bf (front s))) (buf (bf (front s))).
Proof.
  destruct (front_spec s V) as (_ & _ & _ & _ & _ & E & _). rewrite pair_view in E. exists (firstn k T). split; [exact E|].
  rewrite <- E. symmetry. apply firstn_skipn.
Qed.
Lemma pair_segment : find_leading (buf (bf (front s))) (raw_segment_end (bf (front s))) = Some 7 /\ firstn 7 (buf (bf (front s))) = QUOTE :: first.
Proof.
  destruct (front_spec s V) as (_ & _ & _ & _ & Hn & _). pose proof (view_len s V) as Hlen.
  destruct pair_front as (t & E1 & E2). set (z := skipn (n_bytes (bf (front s))) (buf (bf (front s)))) in E2.
  assert (Hraw : raw_segment_end (bf (front s)) = 7).
  { unfold raw_segment_end. rewrite E1, E2. cbn [app first second nth run_length]. cbn.
    remember (n_bytes (bf (front s))) as y. do 7 (destruct y as [|y]; [lia|]). reflexivity. }
  rewrite Hraw, E2. split; reflexivity.
Qed.
Lemma long_pair_refused w : rquiet s = true -> wfail w = None -> src (rd (bf s)) <> [] ->
  exists s' w' i, write_long_bytes s w = Done (s', w', Err (mkErr (JsonError LoneLeadingSurrogateInHexEscape) i)) /\
    written w' = written w ++ first.
Proof.
  intros Hq Hw Hsrc. destruct (front_spec s V) as (V2 & Hj & Er2 & Erd & Hn & _ & _). destruct pair_segment as (Hfl & Hseg).
  destruct (pair_call j_known_bytes (or_introl eq_refl)) as (o & Ecall). pose proof (view_len s V) as Hlen.
  set (s2 := front s) in *. pose proof V2 as (W & J & I). destruct (shift_spec (bf s2) 1 7 W) as (C & N' & _ & Rd').
  replace (Nat.min 7 (n_bytes (bf s2))) with 7 in * by lia. cbn [Nat.sub] in N'.
  assert (Hst : stream (bf s2) = QUOTE :: first ++ second ++ T ++ more).
  { rewrite Er in Er2. unfold rest in Er2. rewrite Hj in Er2. cbn [skipn] in Er2. rewrite Er2. cbn [app first second]. reflexivity. }
  assert (Hst' : stream (shift_buffer (bf s2) 1 7) = QUOTE :: second ++ T ++ more).
  { destruct C as (_ & _ & _ & _ & a0 & c0 & E1 & E2 & Ha). rewrite Hst in E1, Ha. cbn [skipn firstn app Nat.sub first second] in E1, Ha.
    destruct Ha as [Ha|Ha]; [discriminate|]. destruct a0 as [|x [|y a0]]; try discriminate. cbn [app] in E1. injection E1 as <- <-. rewrite E2. reflexivity. }
  destruct (read_more (shift_buffer (bf s2) 1 7)) as [b1 r] eqn:Em. pose proof (read_more_spec _ _ _ (cut_wf _ _ _ _ C) Em) as H.
  destruct H as (C1 & _ & _ & H). pose proof (cut_nil_stream _ _ _ C1) as S1. rewrite Hst' in S1.
  destruct r as [k0|x].
  2:{ exfalso. destruct H as (_ & _ & _ & _ & H). unfold quiet in H. rewrite Rd', Erd in H. unfold rquiet, quiet in Hq. rewrite Hq in H. discriminate. }
  destruct H as (N1 & L1 & Z1). pose proof (cut_cap _ _ _ _ C) as Hcap. unfold wf in W.
  destruct k0 as [|k0].
  { exfalso. destruct (Z1 eq_refl) as [H|H]; [unfold cap in *; lia|]. rewrite Rd', Erd in H. contradiction. }
  destruct (write_all_open w first Hw) as (w' & Ew & _ & Hw').
  set (s1 := create_new_jiter (with_bf (with_bf s2 (shift_buffer (bf s2) 1 7)) b1)).
  assert (V1 : valid s1) by (unfold s1, valid; cbn [create_new_jiter with_bf bf jlen jidx]; split; [apply (cut_wf _ _ _ _ C1)|split; [reflexivity|lia]]).
  assert (Hv1 : exists t, jview s1 = QUOTE :: second ++ t).
  { rewrite (jview_rest s1 V1). unfold rest, s1. cbn [create_new_jiter with_bf bf jlen jidx skipn]. rewrite S1, N1, N', Nat.sub_0_r.
    replace (n_bytes (bf s2) - 6 + S k0) with (7 + (n_bytes (bf s2) - 13 + S k0)) by lia. cbn [Nat.add firstn app second]. eauto. }
  destruct Hv1 as (t & Hv1).
  eexists _, w', _. split; [|exact Hw'].
  unfold write_long_bytes, fuel_for. cbn [handle_long]. rewrite Ecall. cbn [fst can_retry]. fold (front s). fold s2.
  rewrite Hfl. cbn [Nat.ltb Nat.leb].
  unfold bytes_segment at 1. cbn [Nat.sub]. replace (firstn 6 (skipn 1 (buf (bf s2)))) with first
    by (rewrite firstn_skipn_comm; cbn [Nat.add]; rewrite Hseg; reflexivity).
  rewrite Ew. cbn [with_bf bf]. rewrite Em. fold s1.
  destruct (src (rd (bf s))) as [|x0 l0] eqn:Ef; [contradiction|]. cbn [List.length handle_long].
  unfold jcall. rewrite Hv1. unfold j_known_bytes. cbn [skipn]. change (second ++ t) with (BACKSLASH :: 117%N :: a' :: b' :: c' :: e' :: t).
  rewrite (half_refused a' b' c' e' m t Hv Hl). cbn [fst can_retry]. reflexivity.
Qed.

Lemma long_pair_str_refused w : exists s' i, write_long_str s w = Done (s', w, Err (mkErr (JsonError UnexpectedEndOfHexEscape) i)).
Proof.
  destruct pair_segment as (Hfl & Hseg). destruct (pair_call j_known_str (or_intror eq_refl)) as (o & Ecall).
  eexists _, _. unfold write_long_str, fuel_for. cbn [handle_long]. rewrite Ecall. cbn [fst can_retry]. fold (front s).
  rewrite Hfl. cbn [Nat.ltb Nat.leb]. unfold str_segment. rewrite Hseg.
  change ((QUOTE :: first) ++ [QUOTE]) with (QUOTE :: BACKSLASH :: 117%N :: a :: b :: c :: e :: [QUOTE]).
  unfold j_known_str. cbn [skipn]. rewrite (half_segment a b c e n Hu Hh). cbn [fst]. reflexivity.
Qed.
End PAIR.

(** The same with the digits as the specification has them. *)
Lemma pair_halves h g hi lo : (hi < 1024)%N -> (lo < 1024)%N -> hex4 h (55296 + hi)%N -> hex4 g (56320 + lo)%N ->
  exists a b c e a' b' c' e', h = [a; b; c; e] /\ g = [a'; b'; c'; e'] /\ u4 a b c e = inl (55296 + hi)%N /\ is_high (55296 + hi) = true /\
    u4 a' b' c' e' = inl (56320 + lo)%N /\ is_low (56320 + lo) = true.
Proof.
  intros Hhi Hlo Hh Hg. destruct (hex4_four _ _ Hh) as (a & b & c & e & -> & U & _). destruct (hex4_four _ _ Hg) as (a' & b' & c' & e' & -> & U' & _).
  exists a, b, c, e, a', b', c', e'. repeat split; try assumption; unfold is_high, is_low; lia.
Qed.
Lemma pair_bytes_refused s w h g hi lo T more : valid s ->
  (hi < 1024)%N -> (lo < 1024)%N -> hex4 h (55296 + hi)%N -> hex4 g (56320 + lo)%N ->
  Forall (fun x => x <> QUOTE /\ x <> BACKSLASH /\ 32 <= x)%N T ->
  rest s = QUOTE :: BACKSLASH :: 117%N :: h ++ BACKSLASH :: 117%N :: g ++ T ++ more ->
  13 <= len (jview s) <= 13 + len T -> len (jview s) < len (rest s) -> rquiet s = true -> wfail w = None ->
  exists s' w' i, write_long_bytes s w = Done (s', w', Err (mkErr (JsonError LoneLeadingSurrogateInHexEscape) i)) /\
    written w' = written w ++ BACKSLASH :: 117%N :: h.
Proof.
  intros V Hhi Hlo Hh Hg HT Er Hc Hm Hq Hw.
  destruct (pair_halves h g hi lo Hhi Hlo Hh Hg) as (a & b & c & e & a' & b' & c' & e' & -> & -> & U & H1 & U' & H2).
  apply (long_pair_refused s a b c e a' b' c' e' _ _ T more U H1 U' H2 HT V Er Hc w Hq Hw).
  rewrite (view_len s V) in Hm. destruct V as (W & J & I). intros E. unfold rest in Hm. rewrite skipn_length, (stream_length _ W), E in Hm. cbn [List.length] in Hm. lia.
Qed.
Lemma pair_str_refused s w h g hi lo T more : valid s ->
  (hi < 1024)%N -> (lo < 1024)%N -> hex4 h (55296 + hi)%N -> hex4 g (56320 + lo)%N ->
  Forall (fun x => x <> QUOTE /\ x <> BACKSLASH /\ 32 <= x)%N T ->
  rest s = QUOTE :: BACKSLASH :: 117%N :: h ++ BACKSLASH :: 117%N :: g ++ T ++ more ->
  13 <= len (jview s) <= 13 + len T ->
  exists s' i, write_long_str s w = Done (s', w, Err (mkErr (JsonError UnexpectedEndOfHexEscape) i)).
Proof.
  intros V Hhi Hlo Hh Hg HT Er Hc.
  destruct (pair_halves h g hi lo Hhi Hlo Hh Hg) as (a & b & c & e & a' & b' & c' & e' & -> & -> & U & H1 & U' & H2).
  exact (long_pair_str_refused s a b c e a' b' c' e' _ _ T more U H1 U' H2 HT V Er Hc w).
Qed.
