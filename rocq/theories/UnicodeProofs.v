(** Strings as characters: the parser's byte classes are exactly the encodings, and the texts it decodes are exactly those
    that stand for characters. *)
From Coq Require Import ZArith.
From Verif Require Import Base Buffer BufferSpec Jiter JiterValue RJiter RJiterSpec Scan ScanSpec SoundSpec ValueSpec UnicodeSpec.
From Verif Require Import BufferProofs JiterProofs RJiterProofs RJiterOpProofs RJiterLongProofs ScanTokens SoundParser ValueProofs.

Lemma encodes_char c e r : encodes c e -> character c -> utf8_char (e ++ r) = Some (len e).
Proof.
  unfold character. intros H Hc. destruct H; cbn [app utf8_char List.length]; unfold cont;
    repeat match goal with |- context [if ?b then _ else _] =>
      lazymatch b with context [if _ then _ else _] => fail | _ => let E := fresh in destruct b eqn:E; try reflexivity; try lia end end.
Qed.
Lemma char_encodes l n : utf8_char l = Some n -> exists c, character c /\ encodes c (firstn n l) /\ len (firstn n l) = n.
Proof.
  unfold character. intros H. destruct l as [|x l]; [discriminate|]. cbn [utf8_char] in H. unfold cont in H.
  destruct (x <? 128)%N eqn:E1. { injection H as <-. exists x. cbn [firstn]. split; [lia|]. split; [constructor; lia|reflexivity]. }
  destruct l as [|y l]; [discriminate|].
  destruct ((194 <=? x)%N && (x <? 224)%N)%bool eqn:E2.
  { destruct ((128 <=? y)%N && (y <? 192)%N)%bool eqn:Ey; [|discriminate]. injection H as <-. exists (64 * (x - 192) + (y - 128))%N. cbn [firstn].
    split; [lia|]. split; [|reflexivity]. replace [x; y] with [192 + (x - 192); 128 + (y - 128)]%N by (f_equal; [lia|f_equal; lia]). constructor; lia. }
  destruct l as [|z l]; [discriminate|].
  destruct ((224 <=? x)%N && (x <? 240)%N)%bool eqn:E3.
  { destruct ((128 <=? z)%N && (z <? 192)%N)%bool eqn:Ez; [|discriminate]. cbn [andb] in H.
    exists (4096 * (x - 224) + 64 * (y - 128) + (z - 128))%N.
    assert (n = 3 /\ (128 <= y < 192)%N /\ (x = 224 -> 160 <= y)%N /\ (x = 237 -> y < 160)%N) as (-> & Hy & Ha & Hb).
    { destruct (N.eqb_spec x 224); [|destruct (N.eqb_spec x 237)];
        match type of H with (if ?c then _ else _) = _ => destruct c eqn:Ec; [injection H as <-|discriminate] end; lia. }
    cbn [firstn]. split; [lia|]. split; [|reflexivity].
    replace [x; y; z] with [224 + (x - 224); 128 + (y - 128); 128 + (z - 128)]%N by (f_equal; [lia|f_equal; [lia|f_equal; lia]]). constructor; lia. }
  destruct l as [|w l]; [discriminate|].
  destruct ((240 <=? x)%N && (x <? 245)%N)%bool eqn:E4; [|discriminate].
  destruct ((128 <=? z)%N && (z <? 192)%N)%bool eqn:Ez; [|discriminate].
  destruct ((128 <=? w)%N && (w <? 192)%N)%bool eqn:Ew; [|discriminate]. cbn [andb] in H.
  exists (262144 * (x - 240) + 4096 * (y - 128) + 64 * (z - 128) + (w - 128))%N.
  assert (n = 4 /\ (128 <= y < 192)%N /\ (x = 240 -> 144 <= y)%N /\ (x = 244 -> y < 144)%N) as (-> & Hy & Ha & Hb).
  { destruct (N.eqb_spec x 240); [|destruct (N.eqb_spec x 244)];
      match type of H with (if ?c then _ else _) = _ => destruct c eqn:Ec; [injection H as <-|discriminate] end; lia. }
  cbn [firstn]. split; [lia|]. split; [|reflexivity].
  replace [x; y; z; w] with [240 + (x - 240); 128 + (y - 128); 128 + (z - 128); 128 + (w - 128)]%N
    by (f_equal; [lia|f_equal; [lia|f_equal; [lia|f_equal; lia]]]). constructor; lia.
Qed.
Lemma encodes_some c e : encodes c e -> exists x e', e = x :: e'.
Proof. destruct 1; eauto. Qed.
Lemma utf8_spells l : is_utf8 l <-> exists cs, spells cs l.
Proof.
  split.
  - remember (len l) as n eqn:En. assert (Hn : len l <= n) by lia. clear En. revert l Hn. induction n as [|n IH]; intros l Hn H.
    { destruct l; [|cbn in Hn; lia]. exists []. constructor. }
    destruct l as [|x l]; [exists []; constructor|]. apply utf8_step in H as (k & E & H). destruct (utf8_char_bound _ _ E) as [H1 H2].
    destruct (char_encodes _ _ E) as (c & Hc & He & _). destruct (IH (skipn k (x :: l))) as (cs & Hcs).
    { rewrite skipn_length. lia. } { exact H. }
    exists (c :: cs). rewrite <- (firstn_skipn k (x :: l)). constructor; auto.
  - intros (cs & H). induction H as [|c e cs l Hc He Hs IH]; [reflexivity|]. destruct (encodes_some _ _ He) as (x & e' & ->). cbn [app].
    apply utf8_step. exists (len (x :: e')). change (x :: e' ++ l) with ((x :: e') ++ l). split; [apply (encodes_char c _ l He Hc)|].
    rewrite skipn_app, skipn_all, Nat.sub_diag. exact IH.
Qed.
(** The encoding is a function both ways. *)
Lemma encode_is c : (c < 1114112)%N -> encodes c (utf8_encode c).
Proof.
  intros Hc. unfold utf8_encode.
  pose proof (N.div_mod c 64 ltac:(lia)) as H1. pose proof (N.mod_lt c 64 ltac:(lia)) as H2.
  pose proof (N.div_mod (c / 64) 64 ltac:(lia)) as H3. pose proof (N.mod_lt (c / 64) 64 ltac:(lia)) as H4.
  pose proof (N.div_mod (c / 64 / 64) 64 ltac:(lia)) as H5. pose proof (N.mod_lt (c / 64 / 64) 64 ltac:(lia)) as H6.
  assert (D2 : (c / 4096 = c / 64 / 64)%N) by (rewrite N.div_div by lia; reflexivity).
  assert (D3 : (c / 262144 = c / 64 / 64 / 64)%N) by (rewrite !N.div_div by lia; reflexivity).
  rewrite D2, D3. remember (c / 64)%N as p eqn:Ep. remember (p / 64)%N as q eqn:Eq. remember (q / 64)%N as r eqn:Er.
  remember (c mod 64)%N as x eqn:Ex. remember (p mod 64)%N as y eqn:Ey. remember (q mod 64)%N as z eqn:Ez. clear Ep Eq Er Ex Ey Ez D2 D3.
  destruct (N.ltb_spec c 128); [constructor; assumption|].
  destruct (N.ltb_spec c 2048). { rewrite H1 at 1. constructor; lia. }
  destruct (N.ltb_spec c 65536). { replace c with (4096 * q + 64 * y + x)%N at 1 by lia. constructor; lia. }
  replace c with (262144 * r + 4096 * z + 64 * y + x)%N at 1 by lia. constructor; lia.
Qed.
Lemma encodes_same c e f : encodes c e -> encodes c f -> e = f.
Proof.
  intros H K. remember c as c' eqn:Ec in K. destruct H; destruct K; try (exfalso; lia).
  all: repeat match goal with |- _ :: _ = _ :: _ => f_equal end; try reflexivity; try lia.
Qed.
Lemma cons_both {A} (x y : A) l m : x :: l = y :: m -> x = y /\ l = m.
Proof. intros H. injection H. auto. Qed.
Lemma encodes_back c d e f a b : encodes c e -> encodes d f -> e ++ a = f ++ b -> c = d /\ a = b.
Proof.
  intros H K E. destruct H; destruct K; cbn [app] in E; repeat (apply cons_both in E as [? E]; unfold byte in *; try (exfalso; lia)); (split; [lia|assumption]).
Qed.
Lemma spells_back cs : forall ds l, spells cs l -> spells ds l -> cs = ds.
Proof.
  induction cs as [|c cs IH]; intros ds l H K.
  - inversion H; subst. inversion K as [|d e ds' l' Hd He Hs E1 E2]; [reflexivity|]. destruct (encodes_some _ _ He) as (x & e' & ->). discriminate.
  - inversion H as [|c1 e1 cs1 l1 Hc He Hs]; subst. inversion K as [Ek El|d f ds' l' Hd Hf Hs' E1 E2].
    + destruct (encodes_some _ _ He) as (x & e' & ->). discriminate.
    + subst. destruct (encodes_back _ _ _ _ _ _ Hf He E2) as (-> & ->). f_equal. eapply IH; eauto.
Qed.

(** ** Escapes *)
Lemma hex_is x n : hex_digit x n <-> hex_val x = Some n.
Proof.
  unfold hex_val. split.
  - destruct 1; repeat match goal with |- context [if ?b then _ else _] => let E := fresh in destruct b eqn:E; try lia end; f_equal; lia.
  - intros H. repeat match type of H with (if ?b then _ else _) = _ => let E := fresh "E" in destruct b eqn:E end; try discriminate; injection H as <-.
    + replace x with (48 + (x - 48))%N at 1 by lia. constructor. lia.
    + replace x with (97 + (x - 97))%N at 1 by lia. replace (x - 87)%N with (10 + (x - 97))%N by lia. constructor. lia.
    + replace x with (65 + (x - 65))%N at 1 by lia. replace (x - 55)%N with (10 + (x - 65))%N by lia. constructor. lia.
Qed.
Lemma hex4_is a b c e n : u4 a b c e = inl n <-> hex4 [a; b; c; e] n.
Proof.
  unfold u4. split.
  - intros H. destruct (hex_val a) eqn:E1; [|discriminate]. destruct (hex_val b) eqn:E2; [|discriminate].
    destruct (hex_val c) eqn:E3; [|discriminate]. destruct (hex_val e) eqn:E4; [|discriminate]. injection H as <-.
    apply hex_is in E1, E2, E3, E4.
    match goal with |- hex4 _ ?n => replace n with (4096 * n0 + 256 * n1 + 16 * n2 + n3)%N by lia end. constructor; assumption.
  - intros H. inversion H as [x y z w p q r s H1 H2 H3 H4]; subst. apply hex_is in H1, H2, H3, H4. rewrite H1, H2, H3, H4. f_equal. lia.
Qed.
Lemma hex4_four h n : hex4 h n -> exists a b c e, h = [a; b; c; e] /\ u4 a b c e = inl n /\ (n < 65536)%N.
Proof.
  intros H. pose proof H as K. destruct H. exists x, y, z, w. split; [reflexivity|]. apply hex4_is in K. split; [exact K|]. eapply u4_bound; eauto.
Qed.
Lemma escape_is y c : simple_escape y = Some c <-> In (y, c) escapes.
Proof.
  unfold simple_escape, escapes. split.
  - intros H. repeat match type of H with (if ?b then _ else _) = _ => let E := fresh "E" in destruct b eqn:E end; try discriminate; injection H as <-.
    all: cbn [In]; repeat match goal with E : (_ =? _)%N = true |- _ => apply N.eqb_eq in E; subst end; auto 10.
    assert (y = 34 \/ y = 92 \/ y = 47)%N as [->|[->| ->]] by lia; auto.
  - cbn [In]. intros H. repeat destruct H as [H|H]; try (injection H as <- <-; reflexivity). contradiction.
Qed.

(** ** Texts *)
Lemma encode_head n : (n < 1114112)%N -> exists x e, utf8_encode n = x :: e /\ leading x.
Proof.
  intros H. pose proof (encode_is n H) as He. destruct He; do 2 eexists; (split; [reflexivity|]); unfold leading, is_utf8_leading_byte; lia.
Qed.
Lemma surrogates n : (n < 65536)%N -> is_low n = false -> is_high n = false -> character n.
Proof. unfold is_low, is_high, character. lia. Qed.
Lemma text_conts e : Forall (fun x => ~ leading x) e -> forall t d, json_text true t (e ++ d) -> exists t', t = e ++ t' /\ json_text true t' d.
Proof.
  induction 1 as [|x e Hx He IH]; intros t d H; [exists t; auto|]. cbn [app] in H. inversion H as [|x1 t0 d0 Hq0 Hb0 Hg0 Ht0|y c t1 d1 Hy Ht|a b c f n t1 d1 Hu Hl Hh Ht E1 E2|a b c f n a' b' c' f' m t1 d1 Hp Hu Hh Hv Hl Ht E1 E2]; subst.
  - destruct (IH _ _ Ht0) as (t' & -> & Ht'). exists t'. auto.
  - exfalso. apply Hx. apply escape_is in Hy. unfold leading, is_utf8_leading_byte. unfold escapes in Hy. cbn [In] in Hy.
    repeat destruct Hy as [Hy|Hy]; try (injection Hy as <- <-; reflexivity). contradiction.
  - exfalso. apply u4_bound in Hu. destruct (encode_head n ltac:(lia)) as (z & e' & E & Hz). rewrite E in E2. injection E2 as -> _. auto.
  - exfalso. apply u4_bound in Hu, Hv. unfold is_high, is_low in *. destruct (encode_head ((n - 55296) * 1024 + (m - 56320) + 65536) ltac:(lia)) as (z & e' & E & Hz).
    rewrite E in E2. injection E2 as -> _. auto.
Qed.
Lemma encodes_tail c x e : encodes c (x :: e) -> Forall (fun x => ~ leading x) e.
Proof.
  intros H. remember (x :: e) as l eqn:E. destruct H; apply cons_both in E as [<- <-]; repeat (apply Forall_nil || (apply Forall_cons; [unfold leading, is_utf8_leading_byte; lia|])).
Qed.
Lemma encodes_head c x e : encodes c (x :: e) -> c = x /\ e = [] /\ (x < 128)%N \/ (128 <= x)%N /\ (128 <= c)%N.
Proof.
  intros H. remember (x :: e) as l eqn:E. destruct H; apply cons_both in E as [<- <-]; [left; auto|right; lia..].
Qed.
Lemma spells_inv x l cs : spells cs (x :: l) -> exists c e cs' l', cs = c :: cs' /\ l = e ++ l' /\ character c /\ encodes c (x :: e) /\ spells cs' l'.
Proof.
  intros H. inversion H as [|c e cs' l' Hc He Hs E1 E2]; subst. destruct (encodes_some _ _ He) as (y & e' & ->). injection E2 as -> <-.
  exists c, e', cs', l'. auto.
Qed.
Lemma spells_encode c cs d : (c < 1114112)%N -> character c -> spells cs (utf8_encode c ++ d) -> exists cs', cs = c :: cs' /\ spells cs' d.
Proof.
  intros H Hc Hs. pose proof (encode_is c H) as He. inversion Hs as [E1 E2|c1 e1 cs1 l1 Hc1 He1 Hs1 E1 E2].
  - destruct (encodes_some _ _ He) as (y & e' & E). rewrite E in E2. discriminate.
  - destruct (encodes_back _ _ _ _ _ _ He1 He E2) as (-> & ->). eauto.
Qed.
Lemma text_reads n : forall t d cs, len t <= n -> json_text true t d -> spells cs d -> reads t cs.
Proof.
  induction n as [|n IH]; intros t d cs Hn H Hs.
  { destruct t; [|cbn in Hn; lia]. inversion H; subst. inversion Hs as [|c e cs' l' Hc He Hs' E1 E2]; [constructor|].
    destruct (encodes_some _ _ He) as (y & e' & ->). discriminate. }
  inversion H as [|x t1 d1 Hq Hb Hx Ht|y c t1 d1 Hy Ht|a b c f k t1 d1 Hu Hl Hh Ht|a b c f k a' b' c' f' m t1 d1 Hp Hu Hh Hv Hl Ht]; subst.
  - inversion Hs as [|c e cs' l' Hc He Hs' E1 E2]; [constructor|]. destruct (encodes_some _ _ He) as (y & e' & ->). discriminate.
  - apply spells_inv in Hs as (c & e & cs' & l' & -> & -> & Hc & He & Hs'). pose proof (encodes_tail _ _ _ He) as Hf.
    destruct (text_conts e Hf _ _ Ht) as (t' & -> & Ht'). change (x :: e ++ t') with ((x :: e) ++ t').
    destruct (encodes_head _ _ _ He) as [(-> & -> & Hlt)|(Hge & Hge')].
    + constructor; auto. apply (IH _ l'); auto. cbn in Hn |- *. lia.
    + constructor; auto; try lia. apply (IH _ l'); auto. cbn [List.length] in Hn. rewrite app_length in Hn. lia.
  - apply escape_is in Hy. assert (Hc : (c < 128)%N).
    { unfold escapes in Hy. cbn [In] in Hy. repeat destruct Hy as [Hy|Hy]; try (injection Hy as <- <-; lia). contradiction. }
    apply spells_inv in Hs as (c1 & e & cs' & l' & -> & -> & Hc1 & He & Hs'). destruct (encodes_head _ _ _ He) as [(-> & -> & Hlt)|(Hge & Hge')]; [|lia].
    constructor; auto. apply (IH _ l'); auto. cbn in Hn. lia.
  - pose proof (u4_bound _ _ _ _ _ Hu) as Hk. pose proof (surrogates k Hk Hl Hh) as Hc. apply spells_encode in Hs as (cs' & -> & Hs'); [|lia|exact Hc].
    apply (rd_hex [a; b; c; f]); [apply hex4_is, Hu|exact Hc|]. apply (IH _ d1); auto. cbn in Hn. lia.
  - pose proof (u4_bound _ _ _ _ _ Hu) as Hk. pose proof (u4_bound _ _ _ _ _ Hv) as Hm. unfold is_high, is_low in *.
    apply spells_encode in Hs as (cs' & -> & Hs'); [|lia|unfold character; lia].
    replace ((k - 55296) * 1024 + (m - 56320) + 65536)%N with (65536 + 1024 * (k - 55296) + (m - 56320))%N by lia.
    apply (rd_pair [a; b; c; f] [a'; b'; c'; f']); [lia|lia|apply hex4_is; replace (55296 + (k - 55296))%N with k by lia; exact Hu
      |apply hex4_is; replace (56320 + (m - 56320))%N with m by lia; exact Hv|]. apply (IH _ d1); auto. cbn in Hn. lia.
Qed.
Lemma chars_text e : Forall (fun x => 128 <= x)%N e -> forall t d, json_text true t d -> json_text true (e ++ t) (e ++ d).
Proof.
  induction 1 as [|x e Hx He IH]; intros t d H; [exact H|]. cbn [app]. apply jt_char; auto; unfold QUOTE, BACKSLASH; lia.
Qed.
Lemma reads_text t cs : reads t cs -> exists d, json_text true t d /\ spells cs d.
Proof.
  induction 1 as [|c e t cs Hc Hg Hq Hb He Hr IH|y c t cs Hy Hr IH|h c t cs Hh Hc Hr IH|h g hi lo t cs Hhi Hlo Hh Hg Hr IH].
  - exists []. split; constructor.
  - destruct IH as (d & Hd & Hs). exists (e ++ d). split; [|constructor; auto].
    destruct (encodes_some _ _ He) as (x & e' & ->). destruct (encodes_head _ _ _ He) as [(-> & -> & Hlt)|_].
    + apply jt_char; auto.
    + destruct (N.lt_ge_cases c 128) as [Hlt|Hge].
      * inversion He; subst; try lia. apply jt_char; auto.
      * apply chars_text; [|exact Hd]. destruct He; [lia|repeat (apply Forall_nil || (apply Forall_cons; [lia|]))..].
  - destruct IH as (d & Hd & Hs). apply escape_is in Hy. exists (c :: d). split; [constructor; auto|].
    assert (Hc : (c < 128)%N). { apply escape_is in Hy. unfold escapes in Hy. cbn [In] in Hy. repeat destruct Hy as [Hy|Hy]; try (injection Hy as <- <-; lia). contradiction. }
    change (c :: d) with ([c] ++ d). constructor; [unfold character; lia|constructor; lia|exact Hs].
  - destruct IH as (d & Hd & Hs). destruct (hex4_four _ _ Hh) as (a & b & c0 & e & -> & Hu & Hlt). exists (utf8_encode c ++ d).
    split; [|constructor; [exact Hc|apply encode_is; lia|exact Hs]]. unfold character in Hc. apply jt_hex; auto; unfold is_low, is_high; lia.
  - destruct IH as (d & Hd & Hs). destruct (hex4_four _ _ Hh) as (a & b & c0 & e & -> & Hu & _). destruct (hex4_four _ _ Hg) as (a' & b' & c' & e' & -> & Hv & _).
    exists (utf8_encode (65536 + 1024 * hi + lo) ++ d). split; [|constructor; [unfold character; lia|apply encode_is; lia|exact Hs]].
    replace (65536 + 1024 * hi + lo)%N with ((55296 + hi - 55296) * 1024 + (56320 + lo - 56320) + 65536)%N by lia.
    cbn [app]. apply jt_pair; auto; unfold is_low, is_high; lia.
Qed.
Lemma json_text_same t : forall d d', json_text true t d -> json_text true t d' -> d = d'.
Proof. intros d d' H K. pose proof (scan_text _ _ _ H []) as E. rewrite (scan_text _ _ _ K []) in E. injection E as ->. reflexivity. Qed.
Lemma string_reads t d : string_is t d <-> exists cs, reads t cs /\ spells cs d.
Proof.
  unfold string_is. split.
  - intros (Ht & Hu). apply utf8_spells in Hu as (cs & Hs). exists cs. split; [|exact Hs]. eapply text_reads; eauto.
  - intros (cs & Hr & Hs). destruct (reads_text _ _ Hr) as (d' & Ht & Hs'). assert (d = d').
    { clear -Hs Hs'. revert d d' Hs Hs'. induction cs as [|c cs IH]; intros d d' Hs Hs'; inversion Hs; subst; inversion Hs'; subst; [reflexivity|].
      f_equal; [eapply encodes_same; eauto|auto]. }
    subst d'. split; [exact Ht|]. apply utf8_spells. eauto.
Qed.

(** ** The methods for strings *)
Lemma known_str_parses t d r : string_is t d -> parsed j_known_str (QUOTE :: t ++ QUOTE :: r) d r.
Proof.
  intros Hd. assert (Ht : string_text t) by (destruct Hd as (Hd & _); exists d; exact Hd).
  destruct (at_known_bytes t r Ht) as (a & E & Ea). exists a. split; [|exact Ea]. apply known_str_decodes. exists t. auto.
Qed.
Lemma known_str_parsed l d r : parsed j_known_str (QUOTE :: l) d r -> exists t, QUOTE :: l = (QUOTE :: t ++ [QUOTE]) ++ r /\ string_is t d.
Proof.
  intros (a & E & ->). apply known_str_decodes in E as (t & E & Hd). exists t. split; [|exact Hd].
  destruct (known_bytes_result l t a E) as (_ & _ & H). specialize (H []). rewrite !app_nil_r in H. rewrite H at 1. cbn [app].
  rewrite <- app_assoc. reflexivity.
Qed.
Lemma next_str_parses w t d r : spaces w -> string_is t d -> parsed j_next_str (w ++ QUOTE :: t ++ QUOTE :: r) d r.
Proof.
  intros Hw Hd. unfold j_next_str, next_as. apply parsed_after_ws. rewrite jw_spaces by (auto; reflexivity). apply known_str_parses, Hd.
Qed.
Lemma next_str_parsed l d r : parsed j_next_str l d r -> exists w t, l = w ++ t ++ r /\ spaces w /\ exists u, t = QUOTE :: u ++ [QUOTE] /\ string_is u d.
Proof.
  intros H. unfold j_next_str, next_as in H. apply parsed_after_ws in H. destruct (jw_split l) as (w & El & Hw & _). rewrite El.
  destruct (skip_jw l) as [|x m] eqn:Em.
  { destruct H as (a & E & _). discriminate. }
  destruct (N.eqb_spec QUOTE x) as [<-|Hx].
  - assert (H' : parsed j_known_str (QUOTE :: m) d r) by exact H.
    destruct (known_str_parsed m d r H') as (t & E & Hd). exists w, (QUOTE :: t ++ [QUOTE]). rewrite E. eauto 6.
  - destruct H as (a & E & _). destruct (@wrong_type_err bytes TString x (x :: m)) as [e He].
    assert (E' : (if N.eqb QUOTE x then j_known_str (x :: m) else (wrong_type TString x (x :: m), 0)) = (Ok d, a)) by exact E.
    destruct (N.eqb_spec QUOTE x); [contradiction|]. rewrite He in E'. discriminate.
Qed.
Lemma str_streamed s w t cs r : valid s -> 2 <= rcap s -> rquiet s = true -> rest s = w ++ QUOTE :: t ++ QUOTE :: r -> spaces w ->
  reads t cs -> len t + 2 < rcap s ->
  exists s' d, next_str s = Done (s', Ok d) /\ spells cs d /\ valid s' /\ rest s' = r /\ total s' = total s /\ rcap s' = rcap s /\ rquiet s' = true.
Proof.
  intros V Hc Hq Er Hw Hr Hfit. destruct (reads_text _ _ Hr) as (d & Ht & Hs).
  assert (Hd : string_is t d) by (apply string_reads; eauto).
  destruct (op_complete Plain false None j_next_str next_str s d r m_next_str V Hc Hq) as (s' & E & H).
  - intros H. discriminate.
  - rewrite Er. apply nff_none; [exact Hw|reflexivity].
  - rewrite Er. apply next_str_parses; assumption.
  - rewrite Er. cbn [strip]. rewrite aw_spaces by (auto; reflexivity). cbn [List.length]. rewrite app_length. cbn [List.length]. unfold bytes, byte in *. lia.
  - exact Logic.I.
  - exists s', d. tauto.
Qed.
Lemma known_str_streamed s t cs r : valid s -> 2 <= rcap s -> rquiet s = true -> rest s = QUOTE :: t ++ QUOTE :: r ->
  reads t cs -> len t + 2 < rcap s ->
  exists s' d, known_str s = Done (s', Ok d) /\ spells cs d /\ valid s' /\ rest s' = r /\ total s' = total s /\ rcap s' = rcap s /\ rquiet s' = true.
Proof.
  intros V Hc Hq Er Hr Hfit. destruct (reads_text _ _ Hr) as (d & Ht & Hs).
  assert (Hd : string_is t d) by (apply string_reads; eauto).
  destruct (op_complete Plain true None j_known_str known_str s d r m_known_str V Hc Hq) as (s' & E & H).
  - intros _. rewrite Er. reflexivity.
  - rewrite Er. apply (nff_none []); [constructor|reflexivity].
  - rewrite Er. apply known_str_parses; assumption.
  - rewrite Er. cbn [strip]. change (QUOTE :: t ++ QUOTE :: r) with ([] ++ QUOTE :: t ++ QUOTE :: r) at 1. rewrite aw_spaces by (auto; reflexivity). cbn [List.length]. rewrite app_length. cbn [List.length]. unfold bytes, byte in *. lia.
  - exact Logic.I.
  - exists s', d. tauto.
Qed.
Lemma str_read s s' d : valid s -> 2 <= rcap s -> next_str s = Done (s', Ok d) ->
  exists u t cs, rest s = u ++ QUOTE :: t ++ QUOTE :: rest s' /\ blanks u /\ reads t cs /\ spells cs d.
Proof.
  intros V Hc E.
  destruct (op_read (rcap s) no_condition Plain false None j_next_str next_str s s' d no_condition_closed Hc m_next_str (read_states s V) E) as (_ & _ & H).
  destruct (strip_none (rest s)) as (u & Hu & Eu).
  destruct H as [H|[H|[(He & _)|(Hk & _)]]]; [| |discriminate|destruct Hk; discriminate].
  - destruct (next_str_parsed _ _ _ H) as (w & t & E1 & Hw & v & -> & Hd). apply string_reads in Hd as (cs & Hr & Hs).
    exists w, v, cs. rewrite E1. cbn [app]. rewrite <- app_assoc. repeat split; auto. apply spaces_blanks, Hw.
  - destruct (next_str_parsed _ _ _ H) as (w & t & E1 & Hw & v & -> & Hd). apply string_reads in Hd as (cs & Hr & Hs).
    exists (u ++ w), v, cs. rewrite Eu, E1. cbn [app]. rewrite <- !app_assoc. repeat split; auto. apply blanks_app; [exact Hu|apply spaces_blanks, Hw].
Qed.
Lemma spells_unique cs ds d : spells cs d -> spells ds d -> cs = ds.
Proof. apply spells_back. Qed.
Lemma reads_unique t cs ds : reads t cs -> reads t ds -> cs = ds.
Proof.
  intros H K. destruct (reads_text _ _ H) as (d & Hd & Hs). destruct (reads_text _ _ K) as (d' & Hd' & Hs').
  rewrite <- (json_text_same _ _ _ Hd Hd') in Hs'. eapply spells_back; eauto.
Qed.

(** ** What write_long_str hands to the writer *)
Lemma known_str_utf8 l d a : j_known_str l = (Ok d, a) -> is_utf8 d.
Proof. intros H. apply known_str_decodes in H as (t & _ & _ & H). exact H. Qed.
Lemma spells_app cs ds a b : spells cs a -> spells ds b -> spells (cs ++ ds) (a ++ b).
Proof. induction 1 as [|c e cs l Hc He Hs IH]; intros H; [exact H|]. cbn [app]. rewrite <- app_assoc. constructor; auto. Qed.
(** [w'] is [w] with more: an initial part of what spells characters, all of it unless the writer refused some. *)
Definition wrote_characters (w w' : writer) (r : result unit rerror) : Prop := exists cs p q, spells cs (p ++ q) /\ RJiter.written w' = RJiter.written w ++ p /\
  (wfail w = None -> wfail w' = None /\ q = []) /\ (r = Ok tt -> q = []).
Lemma wrote_none w r : wrote_characters w w r.
Proof. exists [], [], []. split; [constructor|]. split; [symmetry; apply app_nil_r|]. auto. Qed.
Lemma wrote_refused w w' d e : is_utf8 d -> write_all w d = (w', Err e) -> forall x, wrote_characters w w' (Err x).
Proof.
  intros Hd E x. destruct (write_all_spec w d) as (w1 & r & E1 & H1 & H2). rewrite E in E1. injection E1 as <- <-. destruct H2 as (Hn & p & q & -> & Hw).
  apply utf8_spells in Hd as (cs & Hs). exists cs, p, q. repeat split; auto; [contradiction|discriminate].
Qed.
Lemma wrote_more w w1 w' d r : is_utf8 d -> write_all w d = (w1, Ok tt) -> wrote_characters w1 w' r -> wrote_characters w w' r.
Proof.
  intros Hd E (cs & p & q & Hs & Hw & Hf & Hr). destruct (write_all_spec w d) as (w2 & r2 & E1 & H1 & H2). rewrite E in E1. injection E1 as <- <-.
  apply utf8_spells in Hd as (ds & Hds). exists (ds ++ cs), (d ++ p), q. rewrite <- app_assoc. split; [apply spells_app; assumption|].
  rewrite Hw, H2, <- app_assoc. split; [reflexivity|]. split; [|exact Hr]. intros H. apply Hf, H1, H.
Qed.
Lemma long_str_characters fuel : forall s w s' w' r, handle_long fuel j_known_str str_segment s w = Done (s', w', r) -> wrote_characters w w' r.
Proof.
  induction fuel as [|fuel IH]; intros s w s' w' r E; [discriminate|]. cbn [handle_long] in E.
  destruct (jcall j_known_str s) as [s1 [v|err]] eqn:Ej.
  - assert (Hv : is_utf8 v).
    { unfold jcall in Ej. destruct (j_known_str (jview s)) as [[v0|[e0 o0]] a] eqn:Ek; [injection Ej as _ ->|discriminate].
      eapply known_str_utf8; eauto. }
    destruct (write_all w v) as [w1 [[]|e]] eqn:Ew.
    + injection E as _ <- <-. eapply wrote_more; [exact Hv|exact Ew|apply wrote_none].
    + injection E as _ <- <-. eapply wrote_refused; eauto.
  - destruct (can_retry (fst err)); [|injection E as _ <- <-; apply wrote_none].
    set (s2 := if 0 <? jidx s1 then _ else s1) in E. destruct (find_leading (buf (bf s2)) (raw_segment_end (bf s2))) as [e|]; [|discriminate].
    destruct (1 <? e).
    + destruct (str_segment (buf (bf s2)) e) as [d|x] eqn:Es; [|injection E as _ <- <-; apply wrote_none].
      assert (Hd : is_utf8 d).
      { unfold str_segment in Es. destruct (j_known_str (firstn e (buf (bf s2)) ++ [QUOTE])) as [[v0|e0] a] eqn:Ek; [|discriminate].
        injection Es as ->. eapply known_str_utf8; eauto. }
      destruct (write_all w d) as [w1 [[]|x]] eqn:Ew; [|injection E as _ <- <-; eapply wrote_refused; eauto].
      eapply wrote_more; [exact Hd|exact Ew|]. destruct (read_more _) as [b [[|n]|x]]; [injection E as _ <- <-; apply wrote_none|eapply IH; exact E|injection E as _ <- <-; apply wrote_none].
    + destruct (read_more _) as [b [[|n]|x]]; [injection E as _ <- <-; apply wrote_none|eapply IH; exact E|injection E as _ <- <-; apply wrote_none].
Qed.
Lemma long_str_spells s w s' w' r : write_long_str s w = Done (s', w', r) ->
  exists cs p q, spells cs (p ++ q) /\ RJiter.written w' = RJiter.written w ++ p /\ (wfail w = None \/ r = Ok tt -> q = []).
Proof.
  intros E. destruct (long_str_characters _ _ _ _ _ _ E) as (cs & p & q & Hs & Hw & Hf & Hr). exists cs, p, q. repeat split; auto.
  intros [H|H]; [apply Hf, H|apply Hr, H].
Qed.
