(** Proofs that what is written is UTF-8 also if a run fails. *)
From Verif Require Import Base U8Pool Buffer BufferSpec BufferProofs Jiter JiterProofs RJiter RJiterSpec RJiterProofs RJiterLongProofs RJiterInvProofs Scan ScanSpec SoundSpec SoundParser.
From Verif Require Import ScanTokens ScanParser ScanStack ScanProofs ScanTop ScanSound UnicodeSpec UnicodeProofs Utf8Spec Utf8Proofs.

(** ** Where UTF-8 can be cut *)
Lemma utf8_cut (a b : bytes) (x : byte) : leading x -> is_utf8 (a ++ x :: b) -> is_utf8 a /\ is_utf8 (x :: b).
Proof.
  intros Hx H. rewrite utf8_spells in H. destruct H as (cs & H). revert a H. induction cs as [|c cs IH]; intros a H.
  - inversion H as [Hn|]. destruct a; discriminate.
  - destruct a as [|y a]; [split; [reflexivity|]; apply utf8_spells; eauto|]. cbn [app] in H. apply spells_inv in H as (c' & e & cs' & l' & Hc & Hl & Hch & He & Hs).
    injection Hc as <- <-. pose proof (encodes_tail _ _ _ He) as Ht.
    assert (Hsp : exists a', a = e ++ a' /\ l' = a' ++ x :: b).
    { clear - Hl Ht Hx. revert a Hl. induction e as [|z e IH]; intros a Hl; [exists a; auto|]. inversion Ht as [|? ? Hz Ht']; subst. destruct a as [|y a].
      - cbn [app] in Hl. injection Hl as -> _. contradiction.
      - cbn [app] in Hl. injection Hl as -> Hl. destruct (IH Ht' a Hl) as (a' & -> & ->). exists a'. auto. }
    destruct Hsp as (a' & -> & ->). destruct (IH a' Hs) as (H1 & H2). split; [|exact H2].
    change (y :: e ++ a') with ((y :: e) ++ a'). apply utf8_both; [|exact H1]. apply utf8_spells. exists [c]. rewrite <- (app_nil_r (y :: e)). constructor; [exact Hch|exact He|constructor].
Qed.
Lemma utf8_cut_behind (a b : bytes) (x : byte) : (x < 128)%N -> is_utf8 (a ++ x :: b) -> is_utf8 (a ++ [x]) /\ is_utf8 b.
Proof.
  intros Hx H. apply (utf8_around a b x Hx) in H as (H1 & H2). split; [|exact H2]. apply utf8_both; [exact H1|].
  unfold is_utf8. cbn [utf8_invalid utf8_char]. apply N.ltb_lt in Hx. rewrite Hx. reflexivity.
Qed.
(** What the parser has seen of an escape when it asks for more. *)
Lemma hex_ascii (x : byte) n : hex_val x = Some n -> (x < 128)%N.
Proof.
  unfold hex_val. destruct ((48 <=? x) && (x <=? 57))%N eqn:E1; [apply andb_prop in E1 as (_ & E1); apply N.leb_le in E1; intros _; unfold byte in *; lia|].
  destruct ((97 <=? x) && (x <=? 102))%N eqn:E2; [apply andb_prop in E2 as (_ & E2); apply N.leb_le in E2; intros _; unfold byte in *; lia|].
  destruct ((65 <=? x) && (x <=? 70))%N eqn:E3; [apply andb_prop in E3 as (_ & E3); apply N.leb_le in E3; intros _; unfold byte in *; lia|discriminate].
Qed.
Lemma escape_seen (y : byte) (m : bytes) e o : scan_string 0 (BACKSLASH :: y :: m) = Err (e, o) -> can_retry (JsonError e) = true ->
  (y < 128)%N /\ y <> 85%N /\ (y = 117%N -> forall a b c d m', m = a :: b :: c :: d :: m' -> (d < 128)%N).
Proof.
  cbn [scan_string string_step]. change (N.eqb BACKSLASH QUOTE) with false. change (N.eqb BACKSLASH BACKSLASH) with true. cbv iota.
  destruct (simple_escape y) as [z|] eqn:Es.
  - intros _ _. unfold simple_escape in Es. assert (Hy : (y < 117)%N /\ y <> 85%N).
    { repeat match type of Es with (if ?b then _ else _) = _ => destruct b eqn:?Eb; [|] | None = Some _ => discriminate end;
      repeat match goal with H : (_ || _)%bool = true |- _ => apply orb_prop in H as [H|H] | H : N.eqb _ _ = true |- _ => apply N.eqb_eq in H; subst y end; split; try reflexivity; discriminate. }
    split; [unfold byte in *; lia|]. split; [apply Hy|]. intros ->. destruct Hy as (Hy & _). apply N.lt_irrefl in Hy. contradiction.
  - destruct (N.eqb y 117) eqn:Ey.
    + apply N.eqb_eq in Ey as ->. intros H Hr. split; [reflexivity|]. split; [discriminate|]. intros _ a b c d m' ->.
      destruct (u4 a b c d) as [n|i] eqn:Eu; [|injection H as <- <-; discriminate]. unfold u4 in Eu.
      destruct (hex_val a), (hex_val b), (hex_val c); try discriminate. destruct (hex_val d) eqn:Ed; [|discriminate]. eapply hex_ascii, Ed.
    + intros H Hr. injection H as <- <-. discriminate.
Qed.
Lemma find_leading_is l : forall p e, find_leading l p = Some e -> e = 0 \/ exists x, nth_error l e = Some x /\ leading x.
Proof.
  induction p as [|p IH]; cbn [find_leading]; intros e H.
  - destruct (nth_error l 0) as [x|] eqn:E; [|discriminate]. destruct (is_utf8_leading_byte x) eqn:El; injection H as <-; auto.
  - destruct (nth_error l (S p)) as [x|] eqn:E; [|discriminate]. destruct (is_utf8_leading_byte x) eqn:El; [|auto]. injection H as <-. right. exists x. auto.
Qed.
Lemma run_length_at (P : byte -> bool) l x m : run_length P l = len x -> l = x ++ m -> Forall (fun y => P y = true) x /\ match m with y :: _ => P y = false | [] => True end.
Proof.
  revert l m. induction x as [|y x IH]; intros l m H ->.
  - split; [constructor|]. destruct m as [|y m]; [exact I|]. cbn in H. destruct (P y); [discriminate|reflexivity].
  - cbn [app run_length] in H. destruct (P y) eqn:Ey; [|discriminate]. cbn [List.length] in H. injection H as H. destruct (IH _ _ H eq_refl) as (H1 & H2). auto.
Qed.
Definition takes_all (w : writer) : Prop := wfail w = None.
(** Characters have been added to what the writer has, which takes everything. *)
Definition whole (w : writer) : Prop := is_utf8 (delivered w) /\ is_utf8 (held w).
Definition added (w w' : writer) : Prop := wfail w' = None /\ (whole w -> whole w') /\ exists a, is_utf8 a /\ RJiter.written w' = RJiter.written w ++ a.
Lemma added_same w : takes_all w -> added w w.
Proof. intros H. split; [exact H|]. split; [auto|]. exists []. rewrite app_nil_r. split; reflexivity. Qed.
Lemma added_trans w1 w2 w3 : added w1 w2 -> added w2 w3 -> added w1 w3.
Proof.
  intros (_ & P1 & a & Ha & E1) (H & P2 & b & Hb & E2). split; [exact H|]. split; [auto|]. exists (a ++ b). split; [apply utf8_both; assumption|]. rewrite E2, E1, app_assoc. reflexivity.
Qed.
Lemma whole_write w d w' r : takes_all w -> is_utf8 d -> write_all w d = (w', r) -> whole w -> whole w'.
Proof.
  intros Hw Hd E (H1 & H2). unfold takes_all in Hw. unfold write_all, flush_held, deliver in E. rewrite Hw in E. destruct (wcap w =? 0).
  - injection E as <- _. split; cbn [delivered held]; [apply utf8_both; assumption|exact H2].
  - destruct (_ || _)%bool; [injection E as <- _; split; cbn [delivered held]; [exact H1|apply utf8_both; assumption]|].
    destruct (_ <? len d); cbn [delivered held wfail wcap fst snd] in E; [|rewrite Hw in E]; destruct (wcap w <=? len d);
      try (destruct (_ <? wcap w) in E); injection E as <- _; split; cbn [delivered held]; repeat apply utf8_both; auto; reflexivity.
Qed.
Lemma added_write w d w' r : takes_all w -> is_utf8 d -> write_all w d = (w', r) -> added w w' /\ r = Ok tt.
Proof.
  intros Hw Hd E. pose proof (whole_write w d w' r Hw Hd E) as HW. destruct (write_all_spent w d) as (w1 & r1 & E1 & H). rewrite E in E1. injection E1 as <- <-. destruct r as [[]|k].
  - split; [|reflexivity]. destruct H as (H1 & _ & _ & a & _ & _ & H2). unfold takes_all in Hw. rewrite Hw in H2. split; [exact H2|]. split; [exact HW|]. exists d. auto.
  - destruct H as (p & q & _ & _ & (_ & _ & _ & a & _ & _ & H2) & Hk). unfold takes_all in Hw. rewrite Hw in H2. unfold exhausted in Hk. congruence.
Qed.

(** ** Long strings *)
Lemma segment_utf8 (b : buffer) (q l : bytes) e o seg : firstn (n_bytes b) (buf b) = QUOTE :: q -> is_utf8 l -> (exists m, l = q ++ m) ->
  scan_string 0 q = Err (e, o) -> can_retry (JsonError e) = true -> n_bytes b = S (len q) ->
  find_leading (buf b) (raw_segment_end b) = Some seg -> 1 < seg -> is_utf8 (firstn (seg - 1) l) /\ is_utf8 (skipn (seg - 1) l).
Proof.
  intros HB Hu (m & Hm) Hs Hr Hn Hf Hseg. destruct (find_leading_is _ _ _ Hf) as [->|(x & Hx & Hlead)]; [lia|].
  assert (Hcut : forall a y r, l = a ++ y :: r -> len a = seg - 1 -> leading y -> is_utf8 (firstn (seg - 1) l) /\ is_utf8 (skipn (seg - 1) l)).
  { intros a y r E El Hy. rewrite <- El, E, firstn_app, skipn_app, firstn_all, skipn_all, Nat.sub_diag. cbn [firstn skipn app]. rewrite app_nil_r.
    apply utf8_cut; [exact Hy|]. rewrite <- E. exact Hu. }
  assert (Hin : seg < n_bytes b -> is_utf8 (firstn (seg - 1) l) /\ is_utf8 (skipn (seg - 1) l)).
  { intros Hlt. assert (Hx' : nth_error (QUOTE :: q) seg = Some x).
    { rewrite <- HB, <- Hx. rewrite <- (firstn_skipn (n_bytes b) (buf b)) at 2. rewrite nth_error_app1; [reflexivity|]. rewrite HB. cbn [List.length]. lia. }
    destruct seg as [|seg]; [lia|]. cbn [nth_error] in Hx'. apply nth_error_split in Hx' as (a & r & Eq & El). apply (Hcut a x (r ++ m)); [|lia|exact Hlead].
    rewrite Hm, Eq, <- app_assoc. reflexivity. }
  destruct (Nat.lt_ge_cases seg (n_bytes b)) as [Hlt|Hge]; [exact (Hin Hlt)|]. clear Hin Hcut.
  apply find_leading_le in Hf as Hle. unfold raw_segment_end in Hle. rewrite HB in Hle.
  remember (run_length (fun x0 : byte => negb (N.eqb x0 BACKSLASH)) (QUOTE :: q)) as bp eqn:Ebp.
  destruct (Nat.ltb_spec bp (n_bytes b)) as [H1|H1]; [|lia].
  destruct (Nat.ltb_spec 1 bp) as [H2|H2]; [lia|]. destruct (Nat.ltb_spec (n_bytes b) 3) as [H3|H3]; [lia|].
  cbn [run_length] in Ebp. change (negb (N.eqb QUOTE BACKSLASH)) with true in Ebp. cbv iota in Ebp.
  destruct q as [|x1 [|y q]]; [cbn in Hn; lia|cbn in Hn; lia|]. cbn [run_length] in Ebp.
  destruct (N.eqb_spec x1 BACKSLASH) as [->|Hne]; [|cbn [negb] in Ebp; lia]. cbn [negb] in Ebp. subst bp.
  destruct (escape_seen y q e o Hs Hr) as (Hy & Hy85 & Hhex).
  assert (Hy2 : nth 2 (buf b) 0%N = y).
  { rewrite <- (firstn_skipn (n_bytes b) (buf b)), HB. reflexivity. }
  rewrite Hy2 in Hle. destruct (N.eqb_spec y 117) as [E117|Hne].
  - cbn [negb andb] in Hle. specialize (Hhex E117). destruct (Nat.ltb_spec (n_bytes b) 7) as [H7|H7]; [lia|].
    cbn [List.length] in Hn. destruct q as [|a [|b1 [|c [|d [|z q]]]]]; cbn [List.length] in Hn; try lia.
    specialize (Hhex a b1 c d [] eq_refl). assert (seg = 7) as -> by lia. subst l. cbn [Nat.sub firstn skipn app].
    apply (utf8_cut_behind [BACKSLASH; y; a; b1; c] m d Hhex). exact Hu.
  - destruct (N.eqb_spec y 85) as [->|_]; [contradiction|]. cbn [negb andb] in Hle. cbn [List.length] in Hn. destruct q; [|cbn [List.length] in Hn; lia].
    assert (seg = 3) as -> by lia. subst l. cbn [Nat.sub firstn skipn app]. apply (utf8_cut_behind [BACKSLASH] m y Hy). exact Hu.
Qed.
Lemma long_utf8 fuel : forall s w s' w' r l, valid s -> rest s = QUOTE :: l -> is_utf8 l -> takes_all w ->
  handle_long fuel j_known_bytes bytes_segment s w = Done (s', w', r) -> added w w'.
Proof.
  induction fuel as [|fuel IH]; intros s w s' w' r l V HR Hu Hw E; [discriminate|].
  cbn [handle_long] in E. unfold jcall in E. pose proof (jview_length s V) as Hvl. pose proof V as (W & J & I').
  destruct (j_known_bytes (jview s)) as [[v|[er off]] a] eqn:Ep.
  { destruct (view_front s l V HR) as [Hn|(q & Hq & Hl)]; [rewrite Hn in Ep; discriminate|]. rewrite Hq in Ep.
    apply known_bytes_result in Ep as (Ht & Ha & Hm). specialize (Hm (src (rd (bf s)))). rewrite <- Hl in Hm. injection Hm as Hm. rewrite Hm in Hu.
    apply utf8_around in Hu as (Hu & _); [|reflexivity]. destruct (write_all w v) as [w2 r2] eqn:Ew. destruct (added_write _ _ _ _ Hw Hu Ew) as (Ha2 & ->).
    injection E as <- <- _. exact Ha2. }
  apply known_bytes_inert in Ep as Ha. subst a. replace (jidx s + 0) with (jidx s) in E by lia. cbn [fst] in E.
  destruct (known_bytes_json _ _ _ Ep) as (je & Hje). cbn [fst] in Hje. subst er.
  destruct (can_retry (JsonError je)) eqn:Hret; [|injection E as <- <- _; apply added_same, Hw].
  set (s1 := mkRj (bf s) (jlen s) (jidx s)) in E.
  set (s2 := if 0 <? jidx s1 then create_new_jiter (with_bf s1 (shift_buffer (bf s1) 0 (jidx s1))) else s1) in E.
  assert (HS2 : valid s2 /\ rest s2 = rest s /\ jidx s2 = 0 /\ src (rd (bf s2)) = src (rd (bf s))).
  { unfold s2. cbn [s1 jidx bf]. destruct (Nat.ltb_spec 0 (jidx s)) as [Hj|Hj].
    - destruct (shift_front (bf s) (jidx s) W I') as (C & N' & L & R & S').
      cbn [with_bf create_new_jiter bf jlen jidx]. unfold valid, rest. cbn [with_bf create_new_jiter bf jlen jidx].
      split; [split; [apply (cut_wf _ _ _ _ C)|split; [reflexivity|lia]]|].
      split; [cbn [skipn]; exact S'|]. split; [reflexivity|]. rewrite R. reflexivity.
    - assert (jidx s = 0) by lia. subst s1. destruct s as [b jl ji]. cbn [jidx bf jlen] in *. subst ji.
      split; [split; [exact W|split; [exact J|exact I']]|]. repeat split; auto. }
  clearbody s2. clear s1. destruct HS2 as (V2 & R2 & J2 & Q2).
  assert (Hstream : stream (bf s2) = QUOTE :: l) by (rewrite <- HR, <- R2; unfold rest; rewrite J2; reflexivity).
  assert (Hread : forall s3 w3 l3, wf (bf s3) -> stream (bf s3) = QUOTE :: l3 -> is_utf8 l3 -> takes_all w3 ->
    match read_more (bf s3) with
      | (b, Err e) => Done (with_bf s3 b, w3, Err e)
      | (b, Ok 0) => Done (with_bf s3 b, w3, Err (from_jiter_error (current_index (with_bf s3 b)) (JsonError je, jidx s + off)))
      | (b, Ok _) => handle_long fuel j_known_bytes bytes_segment (create_new_jiter (with_bf s3 b)) w3
      end = Done (s', w', r) -> added w3 w').
  { intros s3 w3 l3 W3 S3 Hu3 Hw3 X.
    destruct (read_more (bf s3)) as [b [[|k]|e]] eqn:Er; [injection X as <- <- _; apply added_same, Hw3| |injection X as <- <- _; apply added_same, Hw3].
    destruct (read_more_spec _ _ _ W3 Er) as (C & Sh & Q & N' & Ls). pose proof (cut_nil_stream _ _ _ C) as Hs.
    assert (R3 : rest (create_new_jiter (with_bf s3 b)) = QUOTE :: l3) by (unfold rest; cbn [create_new_jiter with_bf bf jidx skipn]; congruence).
    eapply IH in X; [exact X| |exact R3|exact Hu3|exact Hw3].
    split; [apply (cut_wf _ _ _ _ C)|]. cbn [create_new_jiter with_bf bf jlen jidx]. split; [reflexivity|lia]. }
  destruct (find_leading (buf (bf s2)) (raw_segment_end (bf s2))) as [seg|] eqn:Eg; [|discriminate].
  destruct (Nat.ltb_spec 1 seg) as [He1|He1].
  2:{ eapply Hread in E; [exact E|apply V2|exact Hstream|exact Hu|exact Hw]. }
  cbn [bytes_segment] in E. set (d := firstn (seg - 1) (skipn 1 (buf (bf s2)))) in E.
  assert (Hseg : seg <= n_bytes (bf s2)).
  { assert (seg <= raw_segment_end (bf s2)) by (eapply find_leading_le; eauto). pose proof (raw_end_le (bf s2) l (proj1 V2) Hstream). lia. }
  assert (HL : len (firstn (n_bytes (bf s2)) (buf (bf s2))) = n_bytes (bf s2)) by (rewrite firstn_length; pose proof (proj1 V2); unfold wf in *; lia).
  assert (HB : exists q, firstn (n_bytes (bf s2)) (buf (bf s2)) = QUOTE :: q /\ l = q ++ src (rd (bf s)) /\ d = firstn (seg - 1) q).
  { unfold stream in Hstream. destruct (firstn (n_bytes (bf s2)) (buf (bf s2))) as [|x q] eqn:EB; [cbn in HL; lia|]. injection Hstream as -> Hl. exists q. rewrite Q2 in Hl. split; [reflexivity|]. split; [auto|].
    unfold d. assert (q = skipn 1 (firstn (n_bytes (bf s2)) (buf (bf s2)))) as -> by (rewrite EB; reflexivity).
    rewrite skipn_firstn_comm, firstn_firstn. f_equal. lia. }
  destruct HB as (q & HB & Hl & Hd). rewrite HB in HL. cbn [List.length] in HL.
  assert (Hview : jview s = QUOTE :: q).
  { destruct (view_front s l V HR) as [Hn|(q' & Hq' & Hl')]; [|rewrite Hq'; f_equal; apply (app_inv_tail (src (rd (bf s)))); congruence].
    exfalso. pose proof (jview_split s V) as Hv. rewrite Hn, HR, Hl in Hv. cbn [app] in Hv. apply (f_equal (@List.length byte)) in Hv. cbn [List.length] in Hv. rewrite app_length in Hv. lia. }
  rewrite Hview in Ep. apply known_bytes_failure in Ep as (o' & Eo).
  destruct (segment_utf8 (bf s2) q l je o' seg HB Hu (ex_intro _ _ Hl) Eo Hret ltac:(lia) Eg He1) as (Hu1 & Hu2).
  destruct (shift_spec (bf s2) 1 seg (proj1 V2)) as (C & N' & Ld & Rd'). rewrite Nat.min_l in * by exact Hseg.
  rewrite Hstream in C. change (skipn 1 (QUOTE :: l)) with l in C.
  assert (Hdl : firstn (seg - 1) l = d) by (rewrite Hl, Hd; apply firstn_app_le; lia).
  rewrite Hdl in C, Hu1. assert (Hld : len d = seg - 1) by (rewrite Hd, firstn_length; lia).
  destruct (write_all w d) as [w2 r2] eqn:Ew. destruct (added_write _ _ _ _ Hw Hu1 Ew) as (Ha2 & ->).
  apply cut_at in C as HC; [|intros X; rewrite X in Hld; cbn in Hld; lia]. destruct HC as (HC & _). rewrite Hstream, Hld in HC.
  replace (1 + (seg - 1)) with (S (seg - 1)) in HC by lia. change (firstn 1 (QUOTE :: l) ++ skipn (S (seg - 1)) (QUOTE :: l)) with (QUOTE :: skipn (seg - 1) l) in HC.
  eapply added_trans; [exact Ha2|]. eapply Hread in E; [exact E|cbn [with_bf bf]; apply (cut_wf _ _ _ _ C)|cbn [with_bf bf]; exact HC|exact Hu2|apply Ha2].
Qed.

(** ** The scanner *)
(** What a run of callbacks does to the user's state, whatever the parser and the writer meet with. *)
Record polite {B} (calm : bool) (c : nat) (U : B -> Prop) (cb : callbacks B) : Prop := mkPolite {
  po_begin name path s u :
    path <> [] -> Forall is_utf8 path -> calmly calm false c s -> is_utf8 (rest s) -> (name = PNone -> 0 < jidx s) -> U u ->
    let '(u1, a) := find_action cb name (mkCtx path (List.length path)) u in
    match a with
    | None => U u1
    | Some act => forall s' u' op, act s u1 = Done (s', u', op) -> U u'
    end;
  po_end name path u :
    Forall is_utf8 path -> U u ->
    let '(u1, a) := find_end_action cb name (mkCtx path (List.length path)) u in
    match a with
    | None => U u1
    | Some act => forall u' e, act u1 = Done (u', e) -> U u'
    end }.

(** What it does to the parser: a weaker form of [heeds_calm] (ScanSound.v), where an atom that has not been read is only known to
    look like a literal. *)
Definition literal_ahead (l : bytes) : Prop := exists x m, l = x :: m /\ (x = PeekTrue \/ x = PeekFalse \/ x = PeekNull).
Record moves {B} (calm : bool) (c : nat) (cb : callbacks B) : Prop := mkMoves {
  mv_begin name path s u :
    name <> PNone -> path <> [] -> calmly calm false c s ->
    match snd (find_action cb name (mkCtx path (List.length path)) u) with
    | None => True
    | Some act => forall s' u' op, act s (fst (find_action cb name (mkCtx path (List.length path)) u)) = Done (s', u', op) ->
        match op with
        | OpNone => calmly calm false c s' /\ rest s' = rest s
        | ValueIsConsumed => calmly calm false c s' /\
            ((exists v, 0 < jidx s' /\ lax_document false true v (rest s) (rest s')) \/
             (name = PAtom /\ literal_ahead (rest s') /\ exists w, blanks w /\ rest s = w ++ rest s'))
        | OpError _ => True
        end
    end;
  mv_key path s u :
    path <> [] -> calmly calm false c s -> 0 < jidx s ->
    match snd (find_action cb PNone (mkCtx path (List.length path)) u) with
    | None => True
    | Some act => forall s' u' op, act s (fst (find_action cb PNone (mkCtx path (List.length path)) u)) = Done (s', u', op) ->
        match op with
        | OpNone => calmly calm false c s' /\ exists w, blanks w /\ rest s = w ++ rest s'
        | ValueIsConsumed => calmly calm false c s' /\ 0 < jidx s' /\ exists v, lax_document false true v (rest s) (rest s')
        | OpError _ => True
        end
    end }.
Lemma heeds_moves {B} calm c (cb : callbacks B) beh : heeds_calm calm false c cb beh -> moves calm c cb.
Proof.
  intros H. split.
  - intros name path s u Hn Hp HG. pose proof (hc_begin _ _ _ _ _ H name true path s u Hn Hp HG ltac:(discriminate)) as K. destruct (find_action _ _ _ _) as [u1 [act|]]; [|exact Logic.I].
    cbn [fst snd]. intros s' u' op E. specialize (K _ _ _ E). destruct op as [| |m]; [|destruct K as [(v & _ & _ & HG' & Hj & Hd)|(-> & _ & HG' & Hk & Hw & _)]|exact Logic.I].
    + destruct K as (_ & HG' & Hr & _). auto.
    + split; [exact HG'|]. left. eauto.
    + split; [exact HG'|]. right. split; [reflexivity|]. split; [apply Hk|exact Hw].
  - intros path s u Hp HG Hj. pose proof (hc_key _ _ _ _ _ H path s u Hp HG Hj) as K. destruct (find_action _ _ _ _) as [u1 [act|]]; [|exact Logic.I].
    cbn [fst snd]. intros s' u' op E. specialize (K _ _ _ E). destruct op as [| |m]; [| |exact Logic.I].
    + destruct K as (_ & HG' & _ & Hw). auto.
    + destruct K as (v & _ & HG' & Hj' & Hd). eauto.
Qed.
(** At a literal there is neither a comma nor the end of an array or object. *)
Lemma literal_view c s x m : after false c s -> rest s = x :: m -> jview s = [] \/ exists q, jview s = x :: q.
Proof.
  intros (V & _) HR. pose proof (jview_split s V) as Hv. rewrite HR in Hv. destruct (jview s) as [|y q]; [left; reflexivity|]. injection Hv as <- _. eauto.
Qed.
Lemma literal_no_step c s s' v : 2 <= c -> after false c s -> literal_ahead (rest s) -> array_step s <> Done (s', Ok v).
Proof.
  intros H2 HG (x & m & HR & Hx) E. pose proof (literal_view c s x m HG HR) as Hv.
  destruct (op_read c _ _ _ _ _ _ s s' v (closed_after false) H2 m_array_step HG E) as (_ & _ & H).
  assert (K : ~ parsed j_array_step (x :: m) v (rest s')).
  { intros P. apply parsed_array_step in P as (w & Hw & P). apply spaces_blanks in Hw. pose proof (literal_solid x Hx) as Hs. destruct v as [y|].
    - destruct P as (w2 & m' & _ & P & _). apply head_no in P; [|exact Hw|exact Hs]. subst x. destruct Hx as [X|[X|X]]; discriminate.
    - apply head_no in P; [|exact Hw|exact Hs]. subst x. destruct Hx as [X|[X|X]]; discriminate. }
  rewrite HR, strip_solid in H; [|destruct Hx as [-> |[-> | ->]]; discriminate|apply literal_solid, Hx].
  destruct H as [H|[H|[(H & _)|(_ & H)]]]; [exact (K H)|exact (K H)|discriminate|].
  destruct H as (_ & _ & r0 & a0 & a1 & E0 & Ha & _). destruct Hv as [Hv|(q & Hv)]; rewrite Hv in E0.
  - injection E0 as _ <-. lia.
  - destruct Hx as [-> |[-> | ->]]; injection E0 as _ <-; lia.
Qed.
Lemma literal_no_key c s s' v : 2 <= c -> after false c s -> literal_ahead (rest s) -> next_key_bytes s <> Done (s', Ok v).
Proof.
  intros H2 HG (x & m & HR & Hx) E. pose proof (literal_view c s x m HG HR) as Hv.
  destruct (op_read c _ _ _ _ _ _ s s' v (closed_after false) H2 m_next_key_bytes HG E) as (_ & _ & H).
  assert (K : ~ parsed (j_next_key j_known_bytes) (x :: m) v (rest s')).
  { intros P. apply parsed_next_key in P as (w & Hw & P). apply spaces_blanks in Hw. pose proof (literal_solid x Hx) as Hs. destruct v as [y|].
    - destruct P as (w2 & m' & P & _). apply head_no in P; [|exact Hw|exact Hs]. subst x. destruct Hx as [X|[X|X]]; discriminate.
    - apply head_no in P; [|exact Hw|exact Hs]. subst x. destruct Hx as [X|[X|X]]; discriminate. }
  rewrite HR, strip_solid in H; [|destruct Hx as [-> |[-> | ->]]; discriminate|apply literal_solid, Hx].
  destruct H as [H|[H|[(H & _)|(_ & H)]]]; [exact (K H)|exact (K H)|discriminate|].
  destruct H as (_ & _ & r0 & a0 & a1 & E0 & Ha & _). destruct Hv as [Hv|(q & Hv)]; rewrite Hv in E0.
  - injection E0 as _ <-. lia.
  - destruct Hx as [-> |[-> | ->]]; injection E0 as _ <-; lia.
Qed.
Section Always.
Context {B : Type} (calm : bool) (c : nat) (U : B -> Prop) (cb : callbacks B) (o : options) (d : dims).
Context (H2 : 2 <= c) (HH : moves calm c cb) (HU : polite calm c U cb) (HS : sse_tokens o = []).
Notation G := (calmly calm false c).

(** The names on the stack, and the position they belong to. *)
Inductive chain : list entry -> position -> Prop :=
| chain_top : chain [top_entry] Top
| chain_key k es q : chain es q -> chain (key_entry k :: es) ObjectMiddle
| chain_array es q : chain es q -> chain (array_entry :: es) ArrayMiddle.
Lemma chain_housed es q : chain es q -> housed es q.
Proof. intros [|k es' q' H|es' q' H]; [|apply housed_key|apply housed_array]. split; [exact (ScanTop.home_top [])|auto]. Qed.
Lemma chain_path es q : chain es q -> path_of es <> [].
Proof. intros [|k es' q' H|es' q' H]; discriminate. Qed.
Definition ok (es : list entry) (s : sstate B) : Prop :=
  G (parser s) /\ is_utf8 (rest (parser s)) /\ U (user s) /\ stack_of d (stack s) es /\ Forall is_utf8 (path_of es).
Definition gone_on (s : sstate B) : Prop := 0 < jidx (parser s) \/ literal_ahead (rest (parser s)).
Definition there (p : position) (s : sstate B) : Prop :=
  exists es q, chain es q /\ ok es s /\
  match p with
  | Top => q = Top
  | ArrayMiddle | ObjectMiddle => q = p /\ gone_on s
  | ObjectBetweenKV => q = ObjectMiddle
  | ArrayBegin => exists l, rest (parser s) = LBRACK :: l
  | ObjectBegin => exists l, rest (parser s) = LBRACE :: l
  end.
Lemma there_settled es q s : chain es q -> ok es s -> gone_on s -> there q s.
Proof. intros Hc Ho Hg. exists es, q. split; [exact Hc|]. split; [exact Ho|]. destruct Hc; auto. Qed.
Definition gives {X} (x : sres B X) (Q : sstate B -> X -> Prop) : Prop :=
  match x with Done (s, Ok v) => Q s v | Done (s, Err _) => U (user s) | _ => True end.
Lemma gives_sbind {X Y} (x : sres B X) (f : sstate B -> X -> sres B Y) Q R : gives x Q -> (forall s v, Q s v -> gives (f s v) R) -> gives (sbind x f) R.
Proof. destruct x as [[s [v|e]]| |]; cbn; auto. Qed.
Lemma user_begin name es s s' r : path_of es <> [] -> ok es s -> (name = PNone -> 0 < jidx (parser s)) -> run_begin cb name s = Done (s', r) -> U (user s').
Proof.
  intros Hn (HG & HR & Hu & Hst & Hp) Hj E. pose proof (po_begin _ _ _ _ HU name (path_of es) (parser s) (user s) Hn Hp HG HR Hj Hu) as H.
  unfold run_begin in E. rewrite (stack_context _ _ _ Hst) in E. cbn [obind] in E. rewrite path_length in H.
  destruct (find_action cb name _ (user s)) as [u1 [act|]]; [|injection E as <- _; exact H].
  destruct (act (parser s) u1) as [[[r' u'] op]| |] eqn:Ea; try discriminate. cbn [obind] in E. injection E as <- _. exact (H _ _ _ eq_refl).
Qed.
(** The stack on which the scanner looks up the action may be another one than the one behind it. *)
Lemma user_end name es s s1 a p s2 r : stack_of d (stack s) es -> Forall is_utf8 (path_of es) -> U (user s) -> look_up_end cb name s = Done (s1, a) ->
  run_end_action a (mkS (parser s1) (user s1) p) = Done (s2, r) -> U (user s2) /\ parser s2 = parser s /\ stack s2 = p /\ stack s1 = stack s.
Proof.
  intros Hst Hp Hu E E2. pose proof (po_end _ _ _ _ HU name (path_of es) (user s) Hp Hu) as H.
  unfold look_up_end in E. rewrite (stack_context _ _ _ Hst) in E. cbn [obind] in E. rewrite path_length in H.
  destruct (find_end_action cb name _ (user s)) as [u1 a1]. injection E as <- <-. cbn [parser user stack] in *.
  destruct a1 as [act|]; cbn [run_end_action user parser stack] in E2.
  - destruct (act u1) as [[u' e]| |] eqn:Ea; try discriminate. cbn [obind] in E2. injection E2 as <- _. split; [exact (H _ _ eq_refl)|auto].
  - injection E2 as <- _. auto.
Qed.
Lemma gives_end name es s : ok es s -> gives (run_end cb name s) (fun s' _ => ok es s' /\ parser s' = parser s).
Proof.
  intros (HG & HR & Hu & Hst & Hp). unfold run_end. destruct (look_up_end cb name s) as [[s1 a]| |] eqn:El; cbn [obind gives]; auto.
  destruct (run_end_action a s1) as [[s2 r]| |] eqn:Er; cbn; auto.
  assert (Hs1 : s1 = mkS (parser s1) (user s1) (stack s1)) by (destruct s1; reflexivity). rewrite Hs1 in Er.
  destruct (user_end _ _ _ _ _ _ _ _ Hst Hp Hu El Er) as (H1 & H3 & H4 & H5). destruct r; [|exact H1]. split; [|exact H3].
  split; [rewrite H3; exact HG|]. split; [rewrite H3; exact HR|]. split; [exact H1|]. split; [rewrite H4, H5; exact Hst|exact Hp].
Qed.
Lemma gives_top m es q s : chain es q -> ok es s -> gone_on s -> gives (top_position m s) (fun s' p => there p s').
Proof.
  intros Hc Ho Hg. rewrite (top_ok d m es s q); [|apply Ho|apply chain_housed, Hc]. cbn. apply (there_settled es); assumption.
Qed.
Lemma gives_begin name es q s : name <> PNone -> chain es q -> ok es s ->
  gives (run_begin cb name s) (fun s' y => ok es s' /\ if y : bool then gone_on s' /\ (name <> PAtom -> 0 < jidx (parser s')) else rest (parser s') = rest (parser s)).
Proof.
  intros Hn Hc Ho. pose proof (chain_path _ _ Hc) as Hpa. destruct (run_begin cb name s) as [[s' r]| |] eqn:E; cbn [gives]; auto.
  pose proof (user_begin name es s s' r Hpa Ho ltac:(intros; contradiction) E) as Hu'. destruct r as [y|e]; [|exact Hu'].
  destruct Ho as (HG & HR & Hu & Hst & Hp).
  unfold run_begin in E. rewrite (stack_context _ _ _ Hst) in E. cbn [obind] in E.
  pose proof (mv_begin _ _ _ HH name (path_of es) (parser s) (user s) Hn Hpa HG) as H. rewrite path_length in H.
  destruct (find_action cb name _ (user s)) as [u1 [act|]]; cbn [fst snd] in H.
  2:{ injection E as <- <-. split; [repeat split; auto; apply HG|reflexivity]. }
  destruct (act (parser s) u1) as [[[r' u'] op]| |] eqn:Ea; try discriminate. cbn [obind] in E. specialize (H _ _ _ eq_refl).
  destruct op as [| |m]; try discriminate; injection E as <- <-; unfold ok, gone_on; cbn [parser user stack] in *.
  - destruct H as (HG' & Hr). split; [|exact Hr]. split; [exact HG'|]. split; [rewrite Hr; exact HR|auto].
  - destruct H as (HG' & [(v & Hj & Hd)|(-> & Hk & w & Hw & Hr)]).
    + destruct (lax_document_unicode _ _ _ _ _ Hd HR) as (_ & HR'). split; [repeat split; auto; apply HG'|]. split; [left; exact Hj|auto].
    + split; [|split; [right; exact Hk|contradiction]]. split; [exact HG'|]. split; [|auto]. rewrite Hr in HR. exact (utf8_behind _ _ (blanks_ascii _ Hw) HR).
Qed.
Lemma gives_parse {X} (op : rj -> outcome (rj * result X rerror)) es s : ok es s ->
  gives (parse op s) (fun s' v => exists r, op (parser s) = Done (r, Ok v) /\ s' = mkS r (user s) (stack s)).
Proof.
  intros (_ & _ & Hu & _). unfold parse. destruct (op (parser s)) as [[r [v|e]]| |]; cbn; auto. exists r. auto.
Qed.
(** The key in front of a value. *)
Lemma key_utf8 (k w l : bytes) : spaces w -> is_utf8 (k ++ QUOTE :: w ++ COLON :: l) -> is_utf8 k /\ is_utf8 l.
Proof.
  intros Hw H. apply utf8_around in H as (H1 & H); [|reflexivity]. apply (utf8_behind _ _ (spaces_ascii _ Hw)) in H.
  apply (utf8_behind [COLON]) in H; [auto|]. constructor; [reflexivity|constructor].
Qed.
Lemma cons_utf8 (x : byte) (l : bytes) : (x < 128)%N -> is_utf8 (x :: l) -> is_utf8 l.
Proof. intros Hx H. apply (utf8_behind [x]) in H; [exact H|]. constructor; [exact Hx|constructor]. Qed.
Lemma gives_key es q s key : chain es q -> ok es s -> is_utf8 key -> 0 < jidx (parser s) ->
  gives (do (p, pushed) <- push_assoc (stack s) pos_ty [pos_code ObjectMiddle] key;
        let s := mkS (parser s) (user s) p in
        match pushed with
        | Err (SliceLimitExceeded max) => Done (s, Err (MaxNestingExceeded (current_index (parser s)) max))
        | Err _ => Done (s, Err (InternalError (current_index (parser s)) "Failed to push key to context pool"))
        | Ok _ =>
            sbind (run_begin cb PNone s)
              (fun s consumed => Done (s, Ok (if consumed then ObjectMiddle else ObjectBetweenKV)))
        end) (fun s' p => there p s').
Proof.
  intros Hc (HG & HR & Hu & Hst & Hp) Hk Hj. destruct (stack_push d (stack s) _ (pos_code ObjectMiddle) key Hst) as (p & r & Ep & H). rewrite Ep. cbn [obind].
  destruct (admit_name d (path_of es) key) as [x|].
  { destruct H as (_ & e & -> & _). destruct e; exact Hu. }
  destruct H as (-> & Hst'). cbv beta zeta iota. set (s1 := mkS (parser s) (user s) p).
  assert (Ho1 : ok (key_entry key :: es) s1) by (split; [exact HG|split; [exact HR|split; [exact Hu|split; [exact Hst'|constructor; assumption]]]]).
  assert (Hc1 : chain (key_entry key :: es) ObjectMiddle) by (econstructor; exact Hc). assert (Hj1 : 0 < jidx (parser s1)) by exact Hj. clearbody s1.
  destruct (run_begin cb PNone s1) as [[s2 r]| |] eqn:E; cbn [sbind gives]; auto.
  pose proof (user_begin PNone _ s1 s2 r (chain_path _ _ Hc1) Ho1 (fun _ => Hj1) E) as Hu'. destruct r as [y|e]; [|exact Hu'].
  destruct Ho1 as (HG1 & HR1 & _ & Hst1 & Hp1).
  unfold run_begin in E. rewrite (stack_context _ _ _ Hst1) in E. cbn [obind] in E.
  pose proof (mv_key _ _ _ HH (path_of (key_entry key :: es)) (parser s1) (user s1) (chain_path _ _ Hc1) HG1 Hj1) as H. rewrite path_length in H.
  assert (HN : forall u, U u -> there ObjectBetweenKV (mkS (parser s1) u (stack s1))).
  { intros u Hu1. exists (key_entry key :: es), ObjectMiddle. split; [exact Hc1|]. split; [|reflexivity]. repeat split; auto; apply HG1. }
  destruct (find_action cb PNone _ (user s1)) as [u1 [act|]]; cbn [fst snd] in H.
  2:{ injection E as <- <-. apply HN, Hu'. }
  destruct (act (parser s1) u1) as [[[r' u'] op]| |] eqn:Ea; try discriminate. cbn [obind] in E. specialize (H _ _ _ eq_refl).
  destruct op as [| |m]; try discriminate; injection E as <- <-; cbn [parser user stack] in *.
  - destruct H as (HG' & w & Hw & Hr). exists (key_entry key :: es), ObjectMiddle. split; [exact Hc1|]. split; [|reflexivity].
    split; [exact HG'|]. split; [|auto]. rewrite Hr in HR1. exact (utf8_behind _ _ (blanks_ascii _ Hw) HR1).
  - destruct H as (HG' & Hj' & v & Hd). destruct (lax_document_unicode _ _ _ _ _ Hd HR1) as (_ & HR').
    apply (there_settled _ ObjectMiddle _ Hc1); [repeat split; auto; apply HG'|left; exact Hj'].
Qed.
Lemma gives_object pos s : pos = ObjectBegin \/ pos = ObjectMiddle -> there pos s -> gives (handle_object cb pos s) (fun s' p => there p s').
Proof.
  intros Hp (es & q & Hc & Ho & Hl). unfold handle_object.
  assert (HE : forall es q s r, chain es q -> ok es s -> G r -> is_utf8 (rest r) -> 0 < jidx r ->
    gives (sbind (run_end cb PObject (mkS r (user s) (stack s))) (fun s _ => top_position "Context stack is empty when ending object" s)) (fun s' p => there p s')).
  { clear - H2 HH HU. intros es q s r Hc (_ & _ & Hu & Hst & Hp) HG HR Hj. eapply gives_sbind; [apply (gives_end PObject es (mkS r (user s) (stack s)))|].
    - repeat split; auto; apply HG.
    - intros s1 v (Ho & Er). apply (gives_top _ es q s1 Hc Ho). left. rewrite Er. exact Hj. }
  destruct Hp as [-> | ->].
  - change (pos_eqb ObjectBegin ObjectBegin) with true. cbv beta zeta iota. destruct Hl as (l & Hl).
    eapply gives_sbind; [apply (gives_begin PObject es q s ltac:(discriminate) Hc Ho)|]. intros s1 consumed (Ho1 & Hy). destruct consumed.
    { apply (gives_top _ es q s1 Hc Ho1). apply Hy. }
    rewrite Hl in Hy. cbn [sbind]. eapply gives_sbind; [apply (gives_parse next_object_bytes es s1 Ho1)|]. intros s2 keyr (r & E & ->). pose proof Ho1 as (HG1 & HR1 & Hu1 & Hst1 & Hp1).
    destruct (calm_next_object calm false c H2 _ _ _ _ HG1 Hy E) as (HG2 & Hj2 & j & w & Hj & Hw & Hr).
    assert (Hcut : forall m, rest (parser s1) = j ++ LBRACE :: w ++ m -> is_utf8 m).
    { intros m Em. apply (utf8_behind _ _ (blanks_ascii _ Hw)). apply (cons_utf8 LBRACE); [reflexivity|].
      apply (junk_behind (jidx (parser s1) =? 0) j); [|rewrite <- Em; exact HR1]. destruct Hj as [Hj|(Hj & Hj')]; [left; exact Hj|right]. rewrite Hj. auto. }
    destruct keyr as [key|].
    + destruct Hr as (w1 & _ & Hw1 & Hr). apply Hcut in Hr. apply cons_utf8 in Hr; [|reflexivity]. apply key_utf8 in Hr as (Hk & HR2); [|exact Hw1].
      apply (gives_key es q (mkS r (user s1) (stack s1)) key Hc); auto. repeat split; auto; apply HG2.
    + apply Hcut in Hr. apply cons_utf8 in Hr; [|reflexivity]. apply (HE es q s1 r Hc Ho1 HG2 Hr Hj2).
  - change (pos_eqb ObjectMiddle ObjectBegin) with false. cbv beta zeta iota. destruct Hl as (-> & Hg). inversion Hc as [|k es' q' Hc' E1 E2|]; subst es.
    destruct Ho as (HG & HR & Hu & Hst & Hp). destruct (look_up_end cb PNone s) as [[s1 a]| |] eqn:El; [|exact Logic.I|exact Logic.I]. cbn [obind].
    destruct (stack_pop _ _ _ _ _ Hst) as (p & Ep & Hst').
    assert (Hs1 : stack s1 = stack s).
    { unfold look_up_end in El. rewrite (stack_context _ _ _ Hst) in El. cbn [obind] in El. destruct (find_end_action _ _ _ _). injection El as <- _. reflexivity. }
    rewrite Hs1, Ep. cbn [obind]. inversion Hp as [|? ? Hp1 Hp2]; subst.
    apply gives_sbind with (Q := fun s2 _ => ok es' s2 /\ parser s2 = parser s).
    + destruct (run_end_action a _) as [[s2 r]| |] eqn:Er; cbn; auto. destruct (user_end _ _ _ _ _ _ _ _ Hst Hp Hu El Er) as (A1 & A2 & A3 & _).
      destruct r; [|exact A1]. split; [|exact A2]. split; [rewrite A2; exact HG|]. split; [rewrite A2; exact HR|]. split; [exact A1|]. split; [rewrite A3; exact Hst'|exact Hp2].
    + intros s2 _ (Ho2 & Er2). eapply gives_sbind; [apply (gives_parse next_key_bytes es' s2 Ho2)|]. intros s3 keyr (r & E & ->). pose proof Ho2 as (HG1 & HR1 & Hu1 & Hst1 & Hp1').
      destruct Hg as [Hg|Hg]; [|rewrite Er2 in E; exfalso; exact (literal_no_key c _ _ _ H2 (proj1 HG) Hg E)]. rewrite <- Er2 in Hg.
      destruct (calm_next_key calm false c H2 _ _ _ HG1 Hg E) as (HG2 & Hj2 & w & Hw & Hr).
      assert (Hcut : forall x m, (x < 128)%N -> rest (parser s2) = w ++ x :: m -> is_utf8 m).
      { intros x m Hx Em. rewrite Em in HR1. apply (cons_utf8 x m Hx). exact (utf8_behind _ _ (blanks_ascii _ Hw) HR1). }
      destruct keyr as [key|].
      * destruct Hr as (w0 & w1 & Hw0 & _ & Hw1 & Hr). apply Hcut in Hr; [|reflexivity]. apply (utf8_behind _ _ (blanks_ascii _ Hw0)) in Hr. apply cons_utf8 in Hr; [|reflexivity].
        apply key_utf8 in Hr as (Hk & HR2); [|exact Hw1]. apply (gives_key es' q' (mkS r (user s2) (stack s2)) key Hc'); auto. repeat split; auto; apply HG2.
      * apply Hcut in Hr; [|reflexivity]. apply (HE es' q' s2 r Hc' Ho2 HG2 Hr Hj2).
Qed.
Lemma gives_array pos s : pos = ArrayBegin \/ pos = ArrayMiddle -> there pos s ->
  gives (handle_array cb pos s) (fun s' r => match r with
    | (None, p) => there p s'
    | (Some x, p) => p = ArrayMiddle /\ exists es q l, chain es q /\ chain (array_entry :: es) ArrayMiddle /\ ok (array_entry :: es) s' /\ rest (parser s') = x :: l
    end).
Proof.
  intros Hp (es & q & Hc & Ho & Hl). unfold handle_array.
  set (Q := fun s' r => match r with (None, p) => there p s' | (Some x, p) => _ end).
  assert (HP : forall m es q s, chain es q -> ok es s -> gone_on s -> gives (sbind (top_position m s) (fun s p => Done (s, Ok (@None byte, p)))) Q).
  { clear - HU. intros m es q s Hc Ho Hg. eapply gives_sbind; [apply (gives_top m es q s Hc Ho Hg)|]. intros s1 p H. exact H. }
  assert (HK : forall es q s (op : rj -> outcome (rj * result (option byte) rerror)), chain es q -> ok (array_entry :: es) s ->
    (forall r v, op (parser s) = Done (r, Ok v) -> G r /\ 0 < jidx r /\ is_utf8 (rest r) /\ forall x, v = Some x -> exists l, rest r = x :: l) ->
    gives (sbind (parse op s)
      (fun s peeked =>
    match peeked with
    | Some x => Done (s, Ok (Some x, ArrayMiddle))
    | None =>
        do (p, popped) <- pop_assoc (stack s) pos_ty;
        let s := mkS (parser s) (user s) p in
        match popped with
        | None => Done (s, Err (InternalError (current_index (parser s)) "Context stack is empty when ending array"))
        | Some _ => sbind (run_end cb PArray s) (fun s _ => 
            sbind (top_position "Context stack is empty when ending array" s) (fun s p => Done (s, Ok (None, p))))
        end
    end)) Q).
  { clear - HP HU. intros es q s op Hc Ho Hop. eapply gives_sbind; [apply (gives_parse op _ s Ho)|]. intros s1 v (r & E & ->). destruct (Hop r v E) as (HG & Hj & HR & Hx).
    destruct Ho as (_ & _ & Hu & Hst & Hp). destruct v as [x|].
    - destruct (Hx x eq_refl) as (l & Hl). cbn. split; [reflexivity|]. exists es, q, l. split; [exact Hc|]. split; [econstructor; exact Hc|]. split; [|exact Hl]. repeat split; auto; apply HG.
    - cbn [stack]. destruct (stack_pop _ _ _ _ _ Hst) as (p & Ep & Hst'). rewrite Ep. cbn [obind parser user]. inversion Hp as [|? ? Hp1 Hp2]; subst.
      eapply gives_sbind; [apply (gives_end PArray es (mkS r (user s) p))|].
      + repeat split; auto; apply HG.
      + intros s2 v2 (Ho2 & Er2). apply (HP _ es q s2 Hc Ho2). left. rewrite Er2. exact Hj. }
  destruct Hp as [-> | ->].
  - change (pos_eqb ArrayBegin ArrayBegin) with true. cbv beta zeta iota. destruct Hl as (l & Hl).
    eapply gives_sbind; [apply (gives_begin PArray es q s ltac:(discriminate) Hc Ho)|]. intros s1 consumed (Ho1 & Hy). destruct consumed.
    { apply (HP _ es q s1 Hc Ho1). apply Hy. }
    rewrite Hl in Hy. pose proof Ho1 as (HG1 & HR1 & Hu1 & Hst1 & Hp1).
    destruct (stack_push d (stack s1) _ (pos_code ArrayMiddle) (bs "#array") Hst1) as (p & r & Ep & H). rewrite Ep. cbn [obind].
    destruct (admit_name d (path_of es) (bs "#array")) as [x|]; [destruct H as (_ & e & -> & _); exact Hu1|]. destruct H as (-> & Hst'). cbv beta zeta iota.
    apply (HK es q (mkS (parser s1) (user s1) p) known_array Hc).
    { split; [exact HG1|]. split; [exact HR1|]. split; [exact Hu1|]. split; [exact Hst'|]. constructor; [reflexivity|exact Hp1]. }
    cbn [parser]. intros r v E. destruct (calm_known_array calm false c H2 _ _ _ _ HG1 Hy E) as (HG2 & Hj2 & w & Hw & Hr). split; [exact HG2|]. split; [exact Hj2|].
    rewrite Hy in HR1. apply cons_utf8 in HR1; [|reflexivity]. destruct v as [x|].
    + destruct Hr as (m & Em & Er). rewrite Em in HR1. apply (utf8_behind _ _ (blanks_ascii _ Hw)) in HR1. rewrite Er. split; [exact HR1|]. intros y Hxy. injection Hxy as <-. eauto.
    + rewrite Hr in HR1. apply (utf8_behind _ _ (blanks_ascii _ Hw)) in HR1. apply cons_utf8 in HR1; [|reflexivity]. split; [exact HR1|discriminate].
  - change (pos_eqb ArrayMiddle ArrayBegin) with false. cbv beta zeta iota. destruct Hl as (-> & Hg). inversion Hc as [| |es' q' Hc' E1 E2]; subst es.
    apply (HK es' q' s array_step Hc' Ho). intros r v E. pose proof Ho as (HG1 & HR1 & Hu1 & Hst1 & Hp1).
    destruct Hg as [Hg|Hg]; [|exfalso; exact (literal_no_step c _ _ _ H2 (proj1 HG1) Hg E)].
    destruct (calm_array_step calm false c H2 _ _ _ HG1 Hg E) as (HG2 & Hj2 & w & Hw & Hr). split; [exact HG2|]. split; [exact Hj2|]. destruct v as [x|].
    + destruct Hr as (w2 & m & Hw2 & Em & Er). rewrite Em in HR1. apply (utf8_behind _ _ (blanks_ascii _ Hw)) in HR1. apply cons_utf8 in HR1; [|reflexivity].
      apply (utf8_behind _ _ (blanks_ascii _ Hw2)) in HR1. rewrite Er. split; [exact HR1|]. intros y Hxy. injection Hxy as <-. eauto.
    + rewrite Hr in HR1. apply (utf8_behind _ _ (blanks_ascii _ Hw)) in HR1. apply cons_utf8 in HR1; [|reflexivity]. split; [exact HR1|discriminate].
Qed.
(** One round of the main loop. *)
Definition settles (v : sverdict B) : Prop :=
  match v with
  | Done (s, Continue p) => there p s
  | Done (s, Return _) => U (user s)
  | _ => True
  end.
Lemma settles_vbind {X} (x : sres B X) f Q : gives x Q -> (forall s v, Q s v -> settles (f s v)) -> settles (vbind x f).
Proof. destruct x as [[s [v|e]]| |]; cbn; auto. Qed.
Lemma skip_user x (s s' : sstate B) r : skip_basic_values x s = Done (s', r) -> user s' = user s.
Proof.
  assert (K : forall X (op : rj -> outcome (rj * result X rerror)), sbind (parse op s) (fun s _ => Done (s, Ok tt)) = Done (s', r) -> user s' = user s).
  { intros X op. unfold parse. destruct (op (parser s)) as [[r0 [v|e]]| |]; try discriminate; cbn; intros E; injection E as <- _; reflexivity. }
  unfold skip_basic_values. repeat match goal with |- (if ?b then _ else _) = _ -> _ => destruct b; [apply K|] end.
  destruct (next_number_bytes (parser s)) as [[r0 v]| |]; try discriminate. cbn. intros E. injection E as <- _. reflexivity.
Qed.
Lemma settles_value pos es q s x l : chain es q -> ok es s -> rest (parser s) = x :: l ->
  match pos with ObjectBetweenKV => ObjectMiddle | p => p end = q -> settles (scan_value cb o pos x s).
Proof.
  intros Hc Ho HR Hq. unfold scan_value. rewrite Hq.
  destruct (N.eqb_spec x LBRACK) as [-> |_]; [exists es, q; eauto 6|]. destruct (N.eqb_spec x LBRACE) as [-> |_]; [exists es, q; eauto 6|].
  eapply settles_vbind; [apply (gives_begin PAtom es q s ltac:(discriminate) Hc Ho)|]. intros s1 consumed (Ho1 & Hy). destruct consumed.
  { apply (there_settled es q s1 Hc Ho1). apply Hy. }
  rewrite HR in Hy. destruct (skip_basic_values x s1) as [[s2 r]| |] eqn:E; cbn [obind]; [|exact Logic.I|exact Logic.I].
  pose proof (skip_user _ _ _ _ E) as Eu. pose proof Ho1 as (HG1 & HR1 & Hu1 & Hst1 & Hp1). destruct r as [y|e].
  - destruct (atom_ok d calm false c H2 true es (user s1) s1 s2 x l y ltac:(repeat split; auto; apply HG1) Hy E) as (v & _ & ((HG2 & _ & Hst2) & Hj2) & Hd).
    destruct (lax_document_unicode _ _ _ _ _ Hd HR1) as (_ & HR2). cbn [settles]. apply (there_settled es q s2 Hc); [|left; exact Hj2].
    split; [exact HG2|]. split; [exact HR2|]. split; [rewrite Eu; exact Hu1|auto].
  - rewrite HS. cbn [skip_tokens]. destruct (_ || _)%bool; cbn [obind settles]; rewrite Eu; exact Hu1.
Qed.
Lemma settles_iter pos s : there pos s -> settles (scan_iter cb o pos s).
Proof.
  intros Ht.
  assert (HP : pos = Top \/ pos = ObjectBetweenKV -> settles (
      do (r, v) <- peek (parser s);
      let s := mkS r (user s) (stack s) in
      match v with
      | Ok x => scan_value cb o pos x s
      | Err e =>
          match err_type e with
          | JsonError EofWhileParsingValue =>
              if pos_eqb pos Top then vbind (parse finish s) (fun s _ => Done (s, Return (Ok tt)))
              else Done (s, Return (Err (UnbalancedJson (current_index r))))
          | _ => Done (s, Return (Err (RJiterError e)))
          end
      end)).
  { intros Hp. destruct Ht as (es & q & Hc & (HG & HR & Hu & Hst & Hpa) & Hq). destruct (peek (parser s)) as [[r [x|e]]| |] eqn:E; cbn [obind]; [| |exact Logic.I|exact Logic.I].
    - destruct (calm_peek calm false c H2 _ _ _ HG E) as (HG1 & w & l & Hr & Hr1 & Hw). rewrite Hr in HR. apply (utf8_behind _ _ (blanks_ascii _ Hw)) in HR. rewrite <- Hr1 in HR.
      apply (settles_value pos es q (mkS r (user s) (stack s)) x l Hc); [|exact Hr1|destruct Hp as [-> | ->]; symmetry; exact Hq].
      repeat split; auto; apply HG1.
    - assert (HF : settles (vbind (parse finish (mkS r (user s) (stack s))) (fun s _ => Done (s, Return (Ok tt))))).
      { unfold parse. destruct (finish _) as [[r1 [v|e1]]| |]; cbn; auto. }
      destruct (err_type e) as [[]| | |]; try exact Hu. destruct (pos_eqb pos Top); [exact HF|exact Hu]. }
  destruct pos; cbn [scan_iter]; try (apply HP; auto; fail).
  - eapply settles_vbind; [apply (gives_object ObjectBegin s); auto|]. intros s1 p H. exact H.
  - eapply settles_vbind; [apply (gives_object ObjectMiddle s); auto|]. intros s1 p H. exact H.
  - eapply settles_vbind; [apply (gives_array ArrayBegin s); auto|]. intros s1 [[x|] p] H; [|destruct p; exact H].
    destruct H as (-> & es & q & l & _ & Hc & Ho & Hr). apply (settles_value ArrayMiddle _ _ s1 x l Hc Ho Hr eq_refl).
  - eapply settles_vbind; [apply (gives_array ArrayMiddle s); auto|]. intros s1 [[x|] p] H; [|destruct p; exact H].
    destruct H as (-> & es & q & l & _ & Hc & Ho & Hr). apply (settles_value ArrayMiddle _ _ s1 x l Hc Ho Hr eq_refl).
Qed.
Lemma always_loop fuel : forall progressed pos s sf r, there pos s -> scan_loop cb o fuel progressed pos s = Done (sf, r) -> U (user sf).
Proof.
  induction fuel as [|fuel IH]; intros progressed pos s sf r Ht E; [discriminate|]. cbn [scan_loop] in E.
  destruct (progressed && stop_early o && pos_eqb pos Top)%bool.
  { injection E as <- _. destruct Ht as (es & q & _ & (_ & _ & H & _) & _). exact H. }
  pose proof (settles_iter pos s Ht) as Hi. destruct (scan_iter cb o pos s) as [[s1 [p|v]]| |]; try discriminate; cbn [settles] in Hi.
  - exact (IH _ _ _ _ _ Hi E).
  - injection E as <- _. exact Hi.
Qed.
Lemma always_scan fuel s sf r : fresh d (stack s) -> G (parser s) -> is_utf8 (rest (parser s)) -> U (user s) -> scan cb o fuel s = Done (sf, r) -> U (user sf).
Proof.
  intros HF HG HR Hu E. unfold scan in E. destruct (stack_push d (stack s) [] (pos_code Top) (bs "#top") (stack_fresh _ _ HF)) as (p & r0 & Ep & H).
  rewrite Ep in E. cbn [obind] in E. destruct (admit_name d (path_of []) (bs "#top")).
  - destruct H as (_ & e & -> & _). injection E as <- _. exact Hu.
  - destruct H as (-> & Hst). apply (always_loop _ _ _ _ _ _) in E; [exact E|]. exists [top_entry], Top. split; [constructor|]. split; [|reflexivity].
    split; [exact HG|]. split; [exact HR|]. split; [exact Hu|]. split; [exact Hst|]. constructor; [reflexivity|constructor].
Qed.
End Always.

(** ** Writing on *)
Lemma added_takes w w' : added w w' -> takes_all w'.
Proof. intros (H & _). exact H. Qed.
Lemma added_more w0 w d w' r : added w0 w -> is_utf8 d -> write_all w d = (w', r) -> added w0 w' /\ r = Ok tt.
Proof.
  intros H Hd E. destruct (added_write w d w' r (added_takes _ _ H) Hd E) as (H1 & H2). split; [|exact H2]. exact (added_trans _ _ _ H H1).
Qed.
Lemma added_long w0 s w s' w' r l : valid s -> rest s = QUOTE :: l -> is_utf8 l -> added w0 w -> write_long_bytes s w = Done (s', w', r) -> added w0 w'.
Proof. intros V HR Hl H E. apply (added_trans _ _ _ H). exact (long_utf8 _ _ _ _ _ _ _ V HR Hl (added_takes _ _ H) E). Qed.
