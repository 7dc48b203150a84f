(** Soundness of the parser: what a successful call has read. *)
From Verif Require Import Base U8Pool Buffer BufferSpec BufferProofs Jiter JiterProofs RJiter RJiterSpec RJiterProofs RJiterOpProofs.
From Verif Require RJiterEndProofs RJiterIndexProofs.
From Verif Require Import RJiterLongProofs RJiterInvProofs Scan ScanSpec ScanTokens ScanParser SoundSpec.

(** ** White space *)
Lemma ascii_blank x : is_ascii_whitespace x = true -> blank x.
Proof.
  unfold is_ascii_whitespace, blank, space. intros H.
  repeat (apply orb_true_iff in H; destruct H as [H|H]); apply N.eqb_eq in H; subst; auto 10.
Qed.
Lemma blank_ascii x : blank x -> is_ascii_whitespace x = true.
Proof. intros [H| ->]; [apply space_ascii, H|reflexivity]. Qed.
Lemma spaces_blanks w : spaces w -> blanks w.
Proof. intros H. eapply Forall_impl; [|exact H]. intros x Hx. left. exact Hx. Qed.
Lemma blanks_app w w' : blanks w -> blanks w' -> blanks (w ++ w').
Proof. intros H H'. apply Forall_app. auto. Qed.
Definition solid_head (l : bytes) : Prop := match l with x :: _ => solid x | [] => True end.
Definition json_head (l : bytes) : Prop := match l with x :: _ => json_ws x = false | [] => True end.
Lemma aw_split l : exists w, l = w ++ skip_aw l /\ blanks w /\ solid_head (skip_aw l).
Proof.
  exists (firstn (run_length is_ascii_whitespace l) l). unfold skip_aw. split; [symmetry; apply firstn_skipn|]. split.
  - eapply Forall_impl; [|apply run_length_all]. intros x. apply ascii_blank.
  - induction l as [|x l IH]; [exact I|]. cbn [run_length]. destruct (is_ascii_whitespace x) eqn:E; [exact IH|exact E].
Qed.
Lemma jw_split l : exists w, l = w ++ skip_jw l /\ spaces w /\ json_head (skip_jw l).
Proof.
  exists (firstn (run_length json_ws l) l). unfold skip_jw. split; [symmetry; apply firstn_skipn|]. split.
  - eapply Forall_impl; [|apply run_length_all]. intros x. apply json_space.
  - induction l as [|x l IH]; [exact I|]. cbn [run_length]. destruct (json_ws x) eqn:E; [exact IH|exact E].
Qed.
Lemma skip_aw_solid l : solid_head l -> skip_aw l = l.
Proof. destruct l as [|x l]; [reflexivity|]. intros H. unfold skip_aw. cbn [run_length]. rewrite H. reflexivity. Qed.
Lemma skip_jw_solid l : json_head l -> skip_jw l = l.
Proof. destruct l as [|x l]; [reflexivity|]. intros H. apply skip_jw_head, H. Qed.
Lemma solid_json_head l : solid_head l -> json_head l.
Proof. destruct l; [auto|]. apply solid_json. Qed.
Lemma same_length_skip (p : byte -> bool) l : skipn (run_length p l) l = l -> match l with x :: _ => p x = false | [] => True end.
Proof.
  destruct l as [|x l]; [auto|]. cbn [run_length]. destruct (p x) eqn:E; [|reflexivity]. intros H. exfalso.
  apply (f_equal (@List.length byte)) in H. cbn [skipn List.length] in H. rewrite skipn_length in H. lia.
Qed.
Lemma strip_id_jstrip token l : strip token l = l -> jstrip token l = l.
Proof.
  destruct token as [t|]; cbn [strip jstrip].
  - destruct (aw_split l) as (w & E & Hw & Hs). destruct (skip_aw l) as [|x l'] eqn:Ea.
    + intros <-. reflexivity.
    + intros H. assert (Hx : x :: l' = l).
      { destruct (N.eqb x t); [|exact H]. apply (f_equal (@List.length byte)) in H as HL. rewrite E in HL. rewrite app_length in HL.
        cbn [List.length] in HL. unfold skip_aw in HL. rewrite skipn_length in HL. destruct w; [rewrite E; reflexivity|cbn in HL; lia]. }
      rewrite <- Hx. rewrite skip_jw_head by (apply solid_json; exact Hs). destruct (N.eqb x t); [|reflexivity].
      rewrite <- Hx in H. injection H as H. apply same_length_skip in H. f_equal. apply skip_jw_solid.
      destruct l' as [|y l']; [exact I|]. apply solid_json. exact H.
  - intros H. apply same_length_skip in H. apply skip_jw_solid. destruct l as [|x l]; [exact I|]. apply solid_json. exact H.
Qed.
(** What [strip] removes. *)
Lemma strip_split token l : exists w, blanks w /\ solid_head (strip token l) /\
  (l = w ++ strip token l \/ exists t w2 l2, token = Some t /\ blanks w2 /\ l = w ++ t :: w2 ++ l2 /\ strip token l = t :: l2).
Proof.
  destruct (aw_split l) as (w & E & Hw & Hs). exists w. split; [exact Hw|]. destruct token as [t|]; cbn [strip]; [|auto].
  destruct (skip_aw l) as [|x l'] eqn:Ea; [auto|]. destruct (N.eqb_spec x t) as [->|Hn]; [|auto].
  split; [exact Hs|]. right. destruct (aw_split l') as (w2 & E2 & Hw2 & _). exists t, w2, (skip_aw l'). rewrite <- E2. auto.
Qed.
Lemma solid_no_space w x l : spaces w -> solid_head (w ++ x :: l) -> w = [].
Proof. destruct w as [|y w]; [auto|]. intros H Hs. apply Forall_inv in H. apply space_ascii in H. unfold solid_head in Hs. cbn in Hs. congruence. Qed.

(** ** What the plain parser has read *)
Lemma parsed_peek l x m : parsed j_peek l x m -> exists w m', l = w ++ x :: m' /\ m = x :: m' /\ spaces w /\ json_ws x = false.
Proof.
  unfold j_peek. rewrite parsed_after_ws. intros (a & E & ->). destruct (jw_split l) as (w & El & Hw & Hh).
  destruct (skip_jw l) as [|y l']; [discriminate|]. injection E as <- <-. exists w, l'. auto.
Qed.
Lemma parsed_known_array l v m : parsed j_known_array l v m -> exists y w, spaces w /\
  match v with None => l = y :: w ++ RBRACK :: m | Some x => exists m', l = y :: w ++ x :: m' /\ m = x :: m' end.
Proof.
  unfold j_known_array. rewrite parsed_jat, parsed_after_ws. intros (a & E & ->). destruct l as [|y l]; [discriminate|].
  cbn [skipn] in *. destruct (jw_split l) as (w & El & Hw & Hh). exists y, w. split; [exact Hw|].
  destruct (skip_jw l) as [|x l']; [discriminate|]. destruct (N.eqb_spec x RBRACK) as [->|].
  - injection E as <- <-. rewrite El. reflexivity.
  - injection E as <- <-. exists l'. rewrite El at 1. auto.
Qed.
Lemma parsed_array_step l v m : parsed j_array_step l v m -> exists w, spaces w /\
  match v with
  | None => l = w ++ RBRACK :: m
  | Some x => exists w2 m', spaces w2 /\ l = w ++ COMMA :: w2 ++ x :: m' /\ m = x :: m'
  end.
Proof.
  unfold j_array_step. rewrite parsed_after_ws. intros (a & E & ->). destruct (jw_split l) as (w & El & Hw & Hh).
  exists w. split; [exact Hw|]. destruct (skip_jw l) as [|x l']; [discriminate|]. destruct (N.eqb_spec x COMMA) as [->|].
  - assert (P : parsed (jat 1 array_peek) (COMMA :: l') v (skipn a (COMMA :: l'))) by (exists a; auto). clear E.
    rewrite parsed_jat in P. unfold array_peek in P. rewrite parsed_after_ws in P. destruct P as (b & E & Em). cbn [skipn] in *.
    destruct (jw_split l') as (w2 & El' & Hw2 & _). destruct (skip_jw l') as [|y l2]; [discriminate|].
    destruct (N.eqb y RBRACK); [discriminate|]. injection E as <- <-. cbn [skipn] in Em. exists w2, l2. split; [exact Hw2|]. split; [rewrite El, El'; reflexivity|exact Em].
  - destruct (N.eqb_spec x RBRACK) as [->|]; [|discriminate]. injection E as <- <-. rewrite El. reflexivity.
Qed.
Lemma parsed_known_bytes l t m : parsed j_known_bytes l t m -> exists y, l = y :: t ++ QUOTE :: m /\ string_text t.
Proof.
  intros (a & E & ->). unfold j_known_bytes in E. destruct l as [|y l]; [discriminate|]. cbn [skipn] in E.
  destruct (scan_string 0 l) as [[n d]|[e o]] eqn:Es; [|discriminate]. injection E as <- <-.
  destruct (scan_text_inv (len l) l n d (le_n _) Es) as (H1 & aft & H2). exists y. split; [|exists d; exact H1].
  f_equal. rewrite <- (firstn_skipn n l) at 1. f_equal. rewrite H2. f_equal. change (skipn (S (S n)) (y :: l)) with (skipn (S n) l).
  replace (S n) with (n + 1) by lia. rewrite <- skipn_skipn, H2. reflexivity.
Qed.
Lemma parsed_object_key l v m : parsed (object_key j_known_bytes) l v m -> exists y k w,
  v = Some k /\ l = y :: k ++ QUOTE :: w ++ COLON :: m /\ string_text k /\ spaces w.
Proof.
  intros (a & E & ->). unfold object_key in E. destruct (j_known_bytes l) as [[k|e] n] eqn:Ek; [|discriminate].
  assert (P : parsed j_known_bytes l k (skipn n l)) by (exists n; auto). apply parsed_known_bytes in P as (y & El & Ht).
  match type of E with jat n ?g l = _ => assert (P : parsed (jat n g) l v (skipn a l)) by (exists a; auto) end. clear E.
  rewrite parsed_jat, parsed_after_ws in P. destruct P as (b & E & Em). destruct (jw_split (skipn n l)) as (w & Ew & Hw & _).
  destruct (skip_jw (skipn n l)) as [|x l']; [discriminate|]. destruct (N.eqb_spec x COLON) as [->|]; [|discriminate].
  injection E as <- <-. cbn [skipn] in Em. exists y, k, w. split; [reflexivity|]. split; [|auto].
  rewrite Em. rewrite <- Ew. exact El.
Qed.
Lemma parsed_brace l v m (g : jop (option bytes)) : (forall l, g l = match l with
    | [] => jfail EofWhileParsingObject
    | x :: _ => if N.eqb x QUOTE then object_key j_known_bytes l
                else if N.eqb x RBRACE then jok None 1
                else jfail KeyMustBeAString
    end) -> parsed (after_ws g) l v m -> exists w, spaces w /\
  match v with
  | None => l = w ++ RBRACE :: m
  | Some k => exists w1, l = w ++ QUOTE :: k ++ QUOTE :: w1 ++ COLON :: m /\ string_text k /\ spaces w1
  end.
Proof.
  intros Hg. rewrite parsed_after_ws. intros (a & E & Em). rewrite Hg in E. destruct (jw_split l) as (w & El & Hw & Hh).
  exists w. split; [exact Hw|]. destruct (skip_jw l) as [|x l'] eqn:Ej; [discriminate|].
  destruct (N.eqb_spec x QUOTE) as [->|].
  - assert (P : parsed (object_key j_known_bytes) (QUOTE :: l') v m) by (exists a; auto).
    apply parsed_object_key in P as (y & k & w1 & -> & E1 & H1 & H2). injection E1 as <- ->. exists w1. auto.
  - destruct (N.eqb_spec x RBRACE) as [->|]; [|discriminate]. injection E as <- <-. subst m. exact El.
Qed.
Lemma parsed_next_object l v m : parsed (j_next_object j_known_bytes) l v m -> exists w0 w, spaces w0 /\ spaces w /\
  match v with
  | None => l = w0 ++ LBRACE :: w ++ RBRACE :: m
  | Some k => exists w1, l = w0 ++ LBRACE :: w ++ QUOTE :: k ++ QUOTE :: w1 ++ COLON :: m /\ string_text k /\ spaces w1
  end.
Proof.
  unfold j_next_object, next_as. rewrite parsed_after_ws. intros (a & E & Em). destruct (jw_split l) as (w0 & El & Hw & Hh).
  exists w0. destruct (skip_jw l) as [|x l']; [discriminate|]. destruct (N.eqb_spec LBRACE x) as [<-|].
  2:{ pose proof (wrong_type_err (A := option bytes) TObject x (x :: l')) as (e & He). rewrite He in E. discriminate. }
  assert (P : parsed (j_known_object j_known_bytes) (LBRACE :: l') v m) by (exists a; auto). unfold j_known_object in P. rewrite parsed_jat in P.
  cbn [skipn] in P. apply parsed_brace in P; [|reflexivity]. destruct P as (w & Hw' & P). exists w. split; [exact Hw|]. split; [exact Hw'|].
  destruct v as [k|]; [destruct P as (w1 & P & H1 & H2); exists w1; rewrite El, P; auto|rewrite El, P; reflexivity].
Qed.
Lemma parsed_next_key l v m : parsed (j_next_key j_known_bytes) l v m -> exists w, spaces w /\
  match v with
  | None => l = w ++ RBRACE :: m
  | Some k => exists w0 w1, l = w ++ COMMA :: w0 ++ QUOTE :: k ++ QUOTE :: w1 ++ COLON :: m /\ spaces w0 /\ string_text k /\ spaces w1
  end.
Proof.
  unfold j_next_key. rewrite parsed_after_ws. intros (a & E & Em). destruct (jw_split l) as (w & El & Hw & Hh).
  exists w. split; [exact Hw|]. destruct (skip_jw l) as [|x l']; [discriminate|]. destruct (N.eqb_spec x COMMA) as [->|].
  - match type of E with ?g (COMMA :: l') = _ => assert (P : parsed g (COMMA :: l') v m) by (exists a; auto) end. clear E.
    rewrite parsed_jat, parsed_after_ws in P. cbn [skipn] in P. destruct P as (b & E & Em').
    destruct (jw_split l') as (w0 & El' & Hw0 & _). destruct (skip_jw l') as [|y l2]; [discriminate|].
    destruct (N.eqb_spec y QUOTE) as [->|]; [|destruct (N.eqb y RBRACE); discriminate].
    assert (P : parsed (object_key j_known_bytes) (QUOTE :: l2) v m) by (exists b; auto).
    apply parsed_object_key in P as (y & k & w1 & -> & E1 & H1 & H2). injection E1 as <- ->. exists w0, w1. rewrite El, El'. auto.
  - destruct (N.eqb_spec x RBRACE) as [->|]; [|discriminate]. injection E as <- <-. subst m. rewrite El. reflexivity.
Qed.
Lemma ident_rest_text w : forall l o, ident_rest w l o = None -> exists m, l = w ++ m.
Proof.
  induction w as [|x w IH]; intros l o H; [exists l; reflexivity|]. destruct l as [|y l]; [discriminate|]. cbn [ident_rest] in H.
  destruct (N.eqb_spec x y) as [->|]; [|discriminate]. apply IH in H as (m & ->). exists m. reflexivity.
Qed.
Lemma parsed_ident {A} w (v0 v : A) l m : w <> [] -> parsed (j_ident w v0) l v m -> exists y, l = y :: w ++ m.
Proof.
  intros Hw (a & E & ->). unfold j_ident in E. destruct (ident_rest w (skipn 1 l) 1) as [[e o]|] eqn:Ei; [discriminate|]. injection E as <- <-.
  destruct l as [|y l]; [destruct w; [contradiction|discriminate]|]. cbn [skipn] in *. apply ident_rest_text in Ei as (m & ->). exists y.
  rewrite skipn_app_all. reflexivity.
Qed.
Lemma digits_forall l : Forall digit (firstn (digits l) l).
Proof. eapply Forall_impl; [|apply run_length_all]. intros x. apply digit_is. Qed.
Lemma digits_some x l : is_digit x = true -> digits1 (firstn (digits (x :: l)) (x :: l)).
Proof. intros H. split; [|apply digits_forall]. unfold digits. cbn [run_length]. rewrite H. discriminate. Qed.
Lemma firstn_add {A} a b (l : list A) : firstn (a + b) l = firstn a l ++ firstn b (skipn a l).
Proof. revert l. induction a as [|a IH]; intros l; [reflexivity|]. destruct l as [|x l]; [rewrite firstn_nil; cbn; rewrite firstn_nil; reflexivity|]. cbn. f_equal. apply IH. Qed.
Lemma exponent_inv l n : num_exponent l = Ok n -> exists s d, firstn n l = s ++ d /\ (s = [] \/ s = [43%N] \/ s = [45%N]) /\ digits1 d.
Proof.
  unfold num_exponent. set (k := match l with x :: _ => _ | [] => 0 end). intros H.
  destruct (skipn k l) as [|x m] eqn:E; [discriminate|]. destruct (is_digit x) eqn:Ed; [|discriminate]. injection H as <-.
  exists (firstn k l), (firstn (digits (x :: m)) (x :: m)). split; [rewrite <- E; apply firstn_add|]. split; [|apply digits_some, Ed].
  subst k. destruct l as [|y l]; [auto|]. destruct (N.eqb_spec y 43) as [->|]; [cbn; auto|]. destruct (N.eqb_spec y 45) as [->|]; cbn; auto.
Qed.
Lemma exp_inv x m n : is_exp x = true -> num_exponent m = Ok n -> exponent (x :: firstn n m).
Proof.
  intros Hx H. right. apply exponent_inv in H as (s & d & E & Hs & Hd). exists x, s, d. rewrite E. split; [reflexivity|]. split; [|auto].
  unfold is_exp in Hx. apply orb_true_iff in Hx as [Hx|Hx]; apply N.eqb_eq in Hx; auto.
Qed.
Lemma tail_inv l n : num_tail l = Ok n -> exists f e, firstn n l = f ++ e /\ fraction f /\ exponent e.
Proof.
  unfold num_tail. destruct l as [|x l]; [intros H; injection H as <-; exists [], []; repeat split; left; reflexivity|].
  destruct (N.eqb_spec x 46) as [->|].
  - intros H. apply add_off_ok in H as (j & H & ->). unfold num_decimal in H. destruct l as [|y l]; [discriminate|].
    destruct (is_digit y) eqn:Ed; [|discriminate]. set (k := digits (y :: l)) in *.
    assert (F : fraction (46%N :: firstn k (y :: l))) by (right; eexists; split; [reflexivity|apply digits_some, Ed]).
    destruct (skipn k (y :: l)) as [|z m] eqn:Es.
    + injection H as <-. exists (46%N :: firstn k (y :: l)), []. rewrite app_nil_r. split; [reflexivity|]. split; [exact F|left; reflexivity].
    + destruct (is_exp z) eqn:Ez.
      * apply add_off_ok in H as (j' & H & ->). exists (46%N :: firstn k (y :: l)), (z :: firstn j' m). split; [|split; [exact F|apply exp_inv; auto]].
        change (46%N :: firstn (S k + j') (y :: l) = 46%N :: firstn k (y :: l) ++ z :: firstn j' m). f_equal.
        replace (S k + j') with (k + S j') by lia. rewrite firstn_add, Es. reflexivity.
      * injection H as <-. exists (46%N :: firstn k (y :: l)), []. rewrite app_nil_r. split; [reflexivity|]. split; [exact F|left; reflexivity].
  - destruct (is_exp x) eqn:Ex.
    + intros H. apply add_off_ok in H as (j & H & ->). exists [], (x :: firstn j l). split; [reflexivity|]. split; [left; reflexivity|apply exp_inv; auto].
    + intros H. injection H as <-. exists [], []. repeat split; left; reflexivity.
Qed.
Lemma unsigned_inv l n : num_unsigned l = Ok n -> exists i f e, firstn n l = i ++ f ++ e /\ integer i /\ fraction f /\ exponent e.
Proof.
  unfold num_unsigned. destruct l as [|x l]; [discriminate|]. destruct (N.eqb_spec x 48) as [->|Hx].
  - assert (Z : integer [48%N]) by (left; reflexivity). destruct l as [|y l].
    + intros H. injection H as <-. exists [48%N], [], []. split; [reflexivity|]. split; [exact Z|]. split; left; reflexivity.
    + destruct (is_digit y); [discriminate|]. intros H. apply add_off_ok in H as (j & H & ->). apply tail_inv in H as (f & e & E & Hf & He).
      exists [48%N], f, e. split; [cbn [Nat.add firstn app]; rewrite E; reflexivity|auto].
  - destruct (is_digit x) eqn:Ed; [|discriminate]. intros H. apply add_off_ok in H as (j & H & ->).
    apply tail_inv in H as (f & e & E & Hf & He). exists (firstn (digits (x :: l)) (x :: l)), f, e. split; [rewrite firstn_add, E; reflexivity|].
    split; [|auto]. right. unfold digits. cbn [run_length]. rewrite Ed. cbn [firstn]. exists x, (firstn (digits l) l). split; [reflexivity|].
    split; [|apply digits_forall]. apply digit_is in Ed. unfold digit in Ed. lia.
Qed.
Lemma range_inv l n : num_range l = Ok n -> number_text (firstn n l).
Proof.
  unfold num_range. destruct l as [|x l]; [discriminate|]. destruct (N.eqb_spec x 45) as [->|].
  - intros H. apply add_off_ok in H as (j & H & ->). apply unsigned_inv in H as (i & f & e & E & Hi & Hf & He).
    exists [45%N], i, f, e. split; [cbn [Nat.add firstn app]; rewrite E; reflexivity|]. split; [right; reflexivity|auto].
  - destruct (is_inf_nan x); [discriminate|]. intros H. apply unsigned_inv in H as (i & f & e & E & Hi & Hf & He). exists [], i, f, e. rewrite E. split; [reflexivity|]. split; [left; reflexivity|auto].
Qed.
Lemma parsed_number l t m : parsed j_next_number_bytes l t m -> exists w, l = w ++ t ++ m /\ spaces w /\ number_text t.
Proof.
  unfold j_next_number_bytes, next_as. rewrite parsed_after_ws. intros (a & E & Em). destruct (jw_split l) as (w & El & Hw & Hh).
  exists w. destruct (skip_jw l) as [|x l']; [discriminate|]. destruct (is_num x).
  2:{ pose proof (wrong_type_err (A := bytes) TFloat x (x :: l')) as (e & He). rewrite He in E. discriminate. }
  unfold j_number in E. destruct (num_range (x :: l')) as [n|[e o]] eqn:En; [|discriminate]. injection E as <- <-.
  split; [|split; [exact Hw|apply range_inv, En]]. rewrite Em, firstn_skipn. exact El.
Qed.

(** ** What a method has read *)
Lemma closed_before whole : closed (fun b => whole = true -> at_once b).
Proof. apply closed_if, closed_at_once. Qed.
Lemma closed_after whole : closed (fun b => whole = true -> src (rd b) = []).
Proof. apply closed_if, closed_drained. Qed.
Lemma after_before whole c s : after whole c s -> before whole c s.
Proof. intros (V & C & J). split; [exact V|]. split; [exact C|]. intros H. left. exact (J H). Qed.
Lemma op_read {A} c J k known token (f : jop A) op s s' v : closed J -> 2 <= c -> method k known token f op -> states c J s -> op s = Done (s', Ok v) ->
  states c J s' /\ (advancing f -> 0 < jidx s') /\
  (parsed f (rest s) v (rest s') \/ parsed f (strip token (rest s)) v (rest s') \/
   (eager_of k = true /\ f (firstn c (strip token (rest s))) = (Ok v, c) /\ rest s' = skipn c (strip token (rest s))) \/
   ((k = ObjectOpen \/ match k with Separator | Whole => true | _ => false end = true) /\ stale_ok f (eager_of k) token s v (rest s'))).
Proof.
  intros HJ Hc M (V & C & Js) E. pose proof M as M'. apply method_facts in M' as [Eop Hw Hb He Hl Hbl Hd].
  assert (P : states c J s').
  { split; [|split; [|eapply closed_method; eauto]];
      rewrite Eop in E; destruct (loop_spec f token (eager_of k) s Hw Hb He V ltac:(lia)) as (s1 & r & E1 & P); rewrite E1 in E;
      injection E as -> ->; destruct P as (V' & C' & _); auto. congruence. }
  split; [exact P|]. split.
  { intros Ha. rewrite Eop in E. eapply loop_advances; eauto. }
  rewrite Eop in E. destruct (loop_spec f token (eager_of k) s Hw Hb He V ltac:(lia)) as (s1 & r & E1 & Q). rewrite E1 in E. injection E as -> ->.
  destruct Q as (_ & _ & _ & _ & [Q|[Q|[(He1 & Hlt & Hf & Hr)|Q]]]); auto.
  - right. right. left. rewrite C in *. auto.
  - right. right. right. destruct k; auto; exfalso; destruct Q as (Hz & HR & r0 & a0 & a1 & E0 & Ha0 & Hr0 & E2 & _).
    + assert (Hdd : dead f (jview s) a0) by (eapply Hd; eauto; rewrite <- jview_split by exact V; apply strip_id_jstrip, HR).
      destruct Hdd as [?|(er & a2 & E3 & _)]; [lia|congruence].
    + assert (Hdd : dead f (jview s) a0) by (eapply Hd; eauto; rewrite <- jview_split by exact V; apply strip_id_jstrip, HR).
      destruct Hdd as [?|(er & a2 & E3 & _)]; [lia|congruence].
Qed.

(** A parser that starts on what an opening brace left behind: see rjiter.rs:326-414 and C20. *)
Lemma object_stale l er a0 : json_head l -> j_next_object j_known_bytes (LBRACE :: l) = (Err er, a0) ->
  junk (firstn a0 (LBRACE :: l)) /\ a0 <= S (len l) /\ json_head (skipn a0 (LBRACE :: l)).
Proof.
  intros Hh E. unfold j_next_object, next_as, after_ws, jat in E. change (run_length json_ws (LBRACE :: l)) with 0 in E.
  cbn [skipn Nat.add] in E. change (N.eqb LBRACE LBRACE) with true in E. cbv iota in E. unfold j_known_object in E. cbn [Nat.add] in E.
  unfold jat at 1 in E. cbn [skipn] in E. unfold after_ws, jat in E.
  assert (run_length json_ws l = 0) as H0 by (destruct l as [|x l]; [reflexivity|cbn in *; rewrite Hh; reflexivity]). rewrite H0 in E. cbn [skipn] in E.
  assert (K : forall e a, match (match l with
      | [] => jfail EofWhileParsingObject
      | x :: _ => if N.eqb x QUOTE then object_key j_known_bytes l else if N.eqb x RBRACE then jok None 1 else jfail KeyMustBeAString
      end) with (Ok v, a) => (Ok v, 0 + a) | (Err (e, o), a) => (Err (e, 0 + o), 0 + a) end = (Err e, a) ->
    junk (firstn (1 + a) (LBRACE :: l)) /\ 1 + a <= S (len l) /\ json_head (skipn (1 + a) (LBRACE :: l))).
  { intros e a. assert (K0 : junk [LBRACE] /\ 1 <= S (len l) /\ json_head l) by (split; [left; reflexivity|split; [lia|exact Hh]]).
    destruct l as [|x l]; [intros H; injection H as _ <-; exact K0|].
    destruct (N.eqb_spec x QUOTE) as [->|].
    2:{ destruct (N.eqb x RBRACE); [discriminate|]. intros H. injection H as _ <-. exact K0. }
    unfold object_key. destruct (j_known_bytes (QUOTE :: l)) as [[k|[e0 o0]] n] eqn:Ek; [|intros H; injection H as _ <-; exact K0].
    assert (P : parsed j_known_bytes (QUOTE :: l) k (skipn n (QUOTE :: l))) by (exists n; auto). apply parsed_known_bytes in P as (y & El & Ht).
    injection El as <- El. unfold after_ws, jat. set (m := skipn n (QUOTE :: l)) in *. destruct (jw_split m) as (w & Em & Hw & Hh2). unfold skip_jw in *.
    intros H.
    assert (Ha : a = n + run_length json_ws m).
    { destruct (skipn (run_length json_ws m) m) as [|x q]; [injection H as _ <-; lia|]. destruct (N.eqb x COLON); [discriminate|]. injection H as _ <-. lia. }
    clear H. assert (Hn : n <= len (QUOTE :: l)) by (pose proof (known_bytes_bounded _ _ _ Ek); lia).
    assert (Hsk : skipn (1 + a) (LBRACE :: QUOTE :: l) = skipn (run_length json_ws m) m).
    { change (skipn (1 + a) (LBRACE :: QUOTE :: l)) with (skipn a (QUOTE :: l)). rewrite Ha, <- skipn_skipn. reflexivity. }
    assert (Hw1 : run_length json_ws m = len w).
    { apply (f_equal (@List.length byte)) in Em. rewrite app_length, skipn_length in Em. pose proof (run_length_le json_ws m). lia. }
    assert (Hlm : len m = S (len l) - n) by (unfold m; rewrite skipn_length; reflexivity).
    assert (Hle : a <= S (len l)).
    { pose proof (run_length_le json_ws m). cbn [List.length] in Hn. lia. }
    split; [|split; [cbn [List.length]; lia|rewrite Hsk; exact Hh2]]. right. exists k, w. split; [|auto].
    apply (app_inv_tail (skipn (1 + a) (LBRACE :: QUOTE :: l))). rewrite firstn_skipn, Hsk. cbn [app]. f_equal. f_equal.
    rewrite <- app_assoc. cbn [app]. rewrite <- Em. exact El. }
  match type of E with match (match ?X with _ => _ end) with _ => _ end = _ => destruct X as [[v|[e o]] a] eqn:Ex end; [discriminate|].
  cbn [Nat.add] in E.
  injection E as _ <-. apply (K _ _ Ex).
Qed.

(** ** Long strings *)
Lemma plain_prefix d : forall l e o, ~ In BACKSLASH d -> scan_string 0 (d ++ l) = Err (e, o) -> can_retry (JsonError e) = true ->
  forall t, string_text t -> string_text (d ++ t).
Proof.
  induction d as [|x d IH]; intros l e o Hn E Hr t Ht; [exact Ht|]. cbn [app] in *.
  assert (Hx : x <> BACKSLASH) by (intros ->; apply Hn; left; reflexivity). pose proof E as E'. cbn [scan_string string_step] in E'.
  destruct (N.eqb_spec x QUOTE) as [->|Hq]; [discriminate|]. destruct (N.eqb_spec x BACKSLASH) as [->|_]; [contradiction|].
  destruct (N.ltb_spec x 32) as [Hc|Hc]; [injection E' as <- _; discriminate|]. cbn [Nat.sub] in E'.
  destruct (scan_string 0 (d ++ l)) as [[n q]|[e1 o1]] eqn:Es; [discriminate|]. injection E' as <- _.
  destruct (IH l e1 o1 ltac:(intros H; apply Hn; right; exact H) Es Hr t Ht) as (q & Hq2). exists (x :: q). constructor; auto.
Qed.
Lemma known_bytes_result l v a : j_known_bytes (QUOTE :: l) = (Ok v, a) -> string_text v /\ 0 < a /\ forall m, QUOTE :: l ++ m = QUOTE :: v ++ QUOTE :: skipn a ((QUOTE :: l) ++ m).
Proof.
  intros E. pose proof (known_bytes_bounded _ _ _ E) as Hb. assert (P : parsed j_known_bytes (QUOTE :: l) v (skipn a (QUOTE :: l))) by (exists a; auto).
  apply parsed_known_bytes in P as (y & El & Ht). split; [exact Ht|]. split.
  - unfold j_known_bytes in E. destruct (scan_string 0 _) as [[n d]|[? ?]]; [|discriminate]. injection E as _ <-. lia.
  - intros m. rewrite skipn_app_le by exact Hb. injection El as _ El. rewrite El at 1. rewrite <- app_assoc. reflexivity.
Qed.
Lemma known_bytes_failure l e o : j_known_bytes (QUOTE :: l) = (Err (JsonError e, o), 0) -> exists o', scan_string 0 l = Err (e, o').
Proof. unfold j_known_bytes. cbn [skipn]. destruct (scan_string 0 l) as [[n d]|[e1 o1]]; [discriminate|]. intros E. injection E as <- _. eauto. Qed.
Lemma view_front s l : valid s -> rest s = QUOTE :: l -> jview s = [] \/ exists q, jview s = QUOTE :: q /\ l = q ++ src (rd (bf s)).
Proof.
  intros V HR. pose proof (jview_split s V) as Hv. rewrite HR in Hv. destruct (jview s) as [|x q]; [auto|]. injection Hv as <- ->. right. eauto.
Qed.

Lemma find_leading_le l : forall p e, find_leading l p = Some e -> e <= p.
Proof.
  induction p as [|p IH]; intros e; cbn [find_leading]; (destruct (nth_error l _) as [x|]; [|discriminate]); (destruct (is_utf8_leading_byte x); [intros E; injection E as <-; lia|]).
  - intros E. injection E as <-. lia.
  - intros E. apply IH in E. lia.
Qed.
Lemma raw_end_le b l : wf b -> stream b = QUOTE :: l -> raw_segment_end b <= n_bytes b.
Proof.
  intros W HS. unfold raw_segment_end. set (F := firstn (n_bytes b) (buf b)). destruct (Nat.ltb_spec (run_length (fun x => negb (N.eqb x BACKSLASH)) F) (n_bytes b)) as [H|H]; [|lia].
  assert (H1 : 1 <= run_length (fun x => negb (N.eqb x BACKSLASH)) F).
  { unfold stream in HS. fold F in HS. assert (HL : len F = n_bytes b) by (unfold F; rewrite firstn_length; unfold wf in W; lia).
    destruct F as [|x F]; [cbn in *; lia|]. injection HS as -> _. cbn [run_length]. change (negb (N.eqb QUOTE BACKSLASH)) with true. cbv iota. lia. }
  destruct (Nat.ltb_spec 1 (run_length (fun x => negb (N.eqb x BACKSLASH)) F)); [lia|]. destruct (Nat.ltb_spec (n_bytes b) 3); [lia|].
  destruct (_ && _)%bool; [lia|]. destruct (Nat.ltb_spec (n_bytes b) 7); lia.
Qed.

Lemma long_read fuel : forall s w s' w' u l, valid s -> rest s = QUOTE :: l -> handle_long fuel j_known_bytes bytes_segment s w = Done (s', w', Ok u) ->
  0 < jidx s' /\ exists t, rest s = QUOTE :: t ++ QUOTE :: rest s' /\ spent w t w' /\ (string_text t \/ In BACKSLASH t).
Proof.
  induction fuel as [|fuel IH]; intros s w s' w' r l V HR E; [discriminate|].
  cbn [handle_long] in E. unfold jcall in E. pose proof (jview_length s V) as Hvl. pose proof V as (W & J & I').
  destruct (j_known_bytes (jview s)) as [[v|[er off]] a] eqn:Ep.
  { destruct (write_all_spent w v) as (w2 & r2 & Ew & Hw). rewrite Ew in E. destruct r2 as [u|e]; [|discriminate]. injection E as <- <- _.
    destruct (view_front s l V HR) as [Hn|(q & Hq & Hl)]; [rewrite Hn in Ep; discriminate|]. rewrite Hq in Ep.
    apply known_bytes_result in Ep as (Ht & Ha & Hm). cbn [jidx]. split; [lia|]. exists v. split; [|auto]. rewrite HR, Hl, (Hm (src (rd (bf s)))). f_equal. f_equal. f_equal.
    unfold rest. cbn [bf jidx]. rewrite <- skipn_skipn. fold (rest s). rewrite HR, Hl. reflexivity. }
  apply known_bytes_inert in Ep as Ha. subst a. replace (jidx s + 0) with (jidx s) in E by lia. cbn [fst] in E.
  destruct (known_bytes_json _ _ _ Ep) as (je & Hje). cbn [fst] in Hje. subst er.
  destruct (can_retry (JsonError je)) eqn:Hret; [|discriminate].
  set (s1 := mkRj (bf s) (jlen s) (jidx s)) in E.
  set (s2 := if 0 <? jidx s1 then create_new_jiter (with_bf s1 (shift_buffer (bf s1) 0 (jidx s1))) else s1) in E.
  assert (HS2 : valid s2 /\ rest s2 = rest s /\ jidx s2 = 0 /\ src (rd (bf s2)) = src (rd (bf s))).
  { unfold s2. cbn [s1 jidx bf]. destruct (Nat.ltb_spec 0 (jidx s)) as [Hj|Hj].
    - destruct (shift_front (bf s) (jidx s) W I') as (C & N' & L & R & S').
      cbn [with_bf create_new_jiter bf jlen jidx]. unfold valid, rest. cbn [with_bf create_new_jiter bf jlen jidx].
      split; [split; [apply (cut_wf _ _ _ _ C)|split; [reflexivity|lia]]|].
      split; [cbn [skipn]; exact S'|]. split; [reflexivity|]. rewrite R. reflexivity.
    - assert (jidx s = 0) by lia. subst s1. destruct s as [b jl ji]. cbn [jidx bf jlen] in *. subst ji.
      split; [split; [exact W|split; [exact J|exact I']]|]. repeat split; auto. }
  clearbody s2. clear s1. destruct HS2 as (V2 & R2 & J2 & Q2).
  assert (Hstream : stream (bf s2) = QUOTE :: l) by (rewrite <- HR, <- R2; unfold rest; rewrite J2; reflexivity).
  assert (Hread : forall s3 w3 l3, wf (bf s3) -> stream (bf s3) = QUOTE :: l3 ->
    match read_more (bf s3) with
      | (b, Err e) => Done (with_bf s3 b, w3, Err e)
      | (b, Ok 0) => Done (with_bf s3 b, w3, Err (from_jiter_error (current_index (with_bf s3 b)) (JsonError je, jidx s + off)))
      | (b, Ok _) => handle_long fuel j_known_bytes bytes_segment (create_new_jiter (with_bf s3 b)) w3
      end = Done (s', w', Ok r) ->
    0 < jidx s' /\ exists t, QUOTE :: l3 = QUOTE :: t ++ QUOTE :: rest s' /\ spent w3 t w' /\ (string_text t \/ In BACKSLASH t)).
  { intros s3 w3 l3 W3 S3 X.
    destruct (read_more (bf s3)) as [b [[|k]|e]] eqn:Er; [discriminate| |discriminate]. destruct (read_more_spec _ _ _ W3 Er) as (C & Sh & Q & N' & Ls).
    pose proof (cut_nil_stream _ _ _ C) as Hs.
    assert (R3 : rest (create_new_jiter (with_bf s3 b)) = QUOTE :: l3) by (unfold rest; cbn [create_new_jiter with_bf bf jidx skipn]; congruence).
    eapply IH in X; [rewrite R3 in X; exact X| |exact R3].
    split; [apply (cut_wf _ _ _ _ C)|]. cbn [create_new_jiter with_bf bf jlen jidx]. split; [reflexivity|lia]. }
  destruct (find_leading (buf (bf s2)) (raw_segment_end (bf s2))) as [seg|] eqn:Eg; [|discriminate].
  destruct (Nat.ltb_spec 1 seg) as [He1|He1].
  2:{ rewrite HR. eapply Hread in E; [exact E|apply V2|exact Hstream]. }
  cbn [bytes_segment] in E. set (d := firstn (seg - 1) (skipn 1 (buf (bf s2)))) in E.
  destruct (write_all_spent w d) as (w2 & r2 & Ew & Hw). rewrite Ew in E. destruct r2 as [u|e]; [|discriminate].
  assert (Hseg : seg <= n_bytes (bf s2)).
  { assert (seg <= raw_segment_end (bf s2)) by (eapply find_leading_le; eauto). pose proof (raw_end_le (bf s2) l (proj1 V2) Hstream). lia. }
  set (B := firstn (n_bytes (bf s2)) (buf (bf s2))) in *.
  assert (HB : exists q, B = QUOTE :: q /\ l = q ++ src (rd (bf s)) /\ d = firstn (seg - 1) q).
  { unfold stream in Hstream. fold B in Hstream. assert (HL : len B = n_bytes (bf s2)) by (unfold B; rewrite firstn_length; pose proof (proj1 V2); unfold wf in *; lia).
    destruct B as [|x q] eqn:EB; [cbn in HL; lia|]. injection Hstream as -> Hl. exists q. rewrite Q2 in Hl. split; [reflexivity|]. split; [auto|].
    unfold d. subst B. assert (q = skipn 1 (firstn (n_bytes (bf s2)) (buf (bf s2)))) as -> by (rewrite EB; reflexivity).
    rewrite skipn_firstn_comm, firstn_firstn. f_equal. lia. }
  destruct HB as (q & HB & Hl & Hd).
  assert (Hlq : seg - 1 <= len q).
  { assert (HL : len B = n_bytes (bf s2)) by (unfold B; rewrite firstn_length; pose proof (proj1 V2); unfold wf in *; lia). rewrite HB in HL. cbn [List.length] in HL. lia. }
  assert (Hview : jview s = QUOTE :: q).
  { destruct (view_front s l V HR) as [Hn|(q' & Hq' & Hl')]; [|rewrite Hq'; f_equal; apply (app_inv_tail (src (rd (bf s)))); congruence].
    exfalso. pose proof (jview_split s V) as Hv. rewrite Hn, HR, Hl in Hv. cbn [app] in Hv. apply (f_equal (@List.length byte)) in Hv. cbn [List.length] in Hv. rewrite app_length in Hv. lia. }
  destruct (shift_spec (bf s2) 1 seg (proj1 V2)) as (C & N' & Ld & Rd'). rewrite Nat.min_l in * by exact Hseg.
  rewrite Hstream in C. change (skipn 1 (QUOTE :: l)) with l in C.
  assert (Hdl : firstn (seg - 1) l = d) by (rewrite Hl, Hd; apply firstn_app_le, Hlq).
  rewrite Hdl in C.
  assert (Hld : len d = seg - 1) by (rewrite Hd, firstn_length; lia).
  apply cut_at in C as HC; [|intros X; rewrite X in Hld; cbn in Hld; lia]. destruct HC as (HC & _). rewrite Hstream, Hld in HC.
  replace (1 + (seg - 1)) with (S (seg - 1)) in HC by lia. change (firstn 1 (QUOTE :: l) ++ skipn (S (seg - 1)) (QUOTE :: l)) with (QUOTE :: skipn (seg - 1) l) in HC.
  eapply Hread in E; [|cbn [with_bf bf]; apply (cut_wf _ _ _ _ C)|cbn [with_bf bf]; exact HC].
  destruct E as (Hj & t & Et & Hsp & Ht). split; [exact Hj|]. exists (d ++ t). split.
  - rewrite HR. f_equal. rewrite <- app_assoc. injection Et as Et. rewrite <- Et, <- Hdl, firstn_skipn. reflexivity.
  - split; [eapply spent_trans; eauto|]. destruct (in_dec N.eq_dec BACKSLASH d) as [Hin|Hin]; [right; apply in_or_app; auto|].
    destruct Ht as [Ht|Ht]; [left|right; apply in_or_app; auto]. rewrite Hview in Ep. apply known_bytes_failure in Ep as (o' & Eo).
    rewrite <- (firstn_skipn (seg - 1) q), <- Hd in Eo. eapply plain_prefix; eauto.
Qed.

Section Ops.
Context (whole : bool) (c : nat) (H2 : 2 <= c).
Notation G := (after whole c).

Lemma peek_first s s' x : G s -> peek s = Done (s', Ok x) -> whole = true -> jidx s <= jidx s'.
Proof.
  intros HG E Hw. pose proof HG as (V & C & J). destruct (op_read c _ _ _ _ _ _ s s' x (closed_after whole) H2 m_peek HG E) as (_ & _ & H).
  assert (R : exists w y m, rest s = w ++ y :: m /\ json_ws y = false).
  { destruct H as [H|[H|[(H & _)|([H|H] & _)]]]; try discriminate.
    - apply parsed_peek in H as (w & m & E1 & _ & _ & E2). eauto.
    - apply parsed_peek in H as (w & m & E1 & _ & _ & E2). cbn [strip] in E1. destruct (aw_split (rest s)) as (w' & E3 & _). rewrite E1 in E3.
      exists (w' ++ w), x, m. rewrite <- app_assoc. auto. }
  destruct R as (w & y & m & ER & Hy).
  assert (exists z a, j_peek (jview s) = (Ok z, a)) as (z & a & Ez).
  { assert (jview s = rest s) as -> by (rewrite (jview_split s V), (J Hw), app_nil_r; reflexivity). unfold j_peek, after_ws, jat.
    fold (skip_jw (rest s)). destruct (skip_jw (rest s)) as [|z q] eqn:Es; [|eexists _, _; reflexivity]. exfalso. rewrite ER in Es. clear - Es Hy.
    induction w as [|b w IH]; unfold skip_jw in Es; cbn [app run_length] in Es; [rewrite Hy in Es; discriminate|].
    destruct (json_ws b); [|discriminate]. apply IH. exact Es. }
  destruct (op_buffered _ _ _ _ _ s z a m_peek V Ez) as (Eo & _); [intros [H0|H0]; discriminate|]. rewrite Eo in E. injection E as <- _. cbn [jidx]. lia.
Qed.
Lemma read_peek J s s' x : closed J -> states c J s -> peek s = Done (s', Ok x) ->
  states c J s' /\ exists w l, rest s = w ++ x :: l /\ rest s' = x :: l /\ blanks w.
Proof.
  intros HJ HG E. destruct (op_read c J _ _ _ _ _ s s' x HJ H2 m_peek HG E) as (HG' & _ & H). split; [exact HG'|].
  destruct H as [H|[H|[(H & _)|([H|H] & _)]]]; try discriminate.
  - apply parsed_peek in H as (w & m & E1 & E2 & Hw & _). exists w, m. split; [exact E1|]. split; [exact E2|apply spaces_blanks, Hw].
  - apply parsed_peek in H as (w & m & E1 & E2 & Hw & _). cbn [strip] in E1. destruct (aw_split (rest s)) as (w' & E3 & Hw' & _). rewrite E1 in E3.
    exists (w' ++ w), m. rewrite <- app_assoc. split; [exact E3|]. split; [exact E2|]. apply blanks_app; [exact Hw'|apply spaces_blanks, Hw].
Qed.
Lemma read_peek_start s s' x : before whole c s -> peek s = Done (s', Ok x) ->
  G s' /\ exists w l, rest s = w ++ x :: l /\ rest s' = x :: l /\ blanks w.
Proof.
  intros HG E. destruct (read_peek _ _ _ _ (closed_before whole) HG E) as ((V & C & J) & H). split; [|exact H]. split; [exact V|]. split; [exact C|].
  intros Hw. destruct (J Hw) as [K|(_ & K & _)]; [exact K|]. apply loop_loaded in E; [lia|eexists _, _; reflexivity|apply HG].
Qed.
Lemma read_known_array s s' v l : G s -> rest s = LBRACK :: l -> known_array s = Done (s', Ok v) ->
  G s' /\ 0 < jidx s' /\ exists w, blanks w /\
    match v with None => l = w ++ RBRACK :: rest s' | Some x => exists m, l = w ++ x :: m /\ rest s' = x :: m end.
Proof.
  intros HG HR E. destruct (op_read c _ _ _ _ _ _ s s' v (closed_after whole) H2 m_known_array HG E) as (HG' & Ha & H). split; [exact HG'|].
  split; [apply Ha, jat_advancing; auto|]. rewrite HR in H. destruct H as [H|[H|[(H & _)|([H|H] & _)]]]; try discriminate.
  - apply parsed_known_array in H as (y & w & Hw & H). exists w. split; [apply spaces_blanks, Hw|].
    destruct v as [x|]; [destruct H as (m & H & H'); injection H as _ ->; eauto|injection H as _ ->; reflexivity].
  - assert (ES : strip (Some LBRACK) (LBRACK :: l) = LBRACK :: skip_aw l) by reflexivity. rewrite ES in H.
    apply parsed_known_array in H as (y & w & Hw & H). destruct (aw_split l) as (w' & El & Hw' & _). exists (w' ++ w).
    split; [apply blanks_app; [exact Hw'|apply spaces_blanks, Hw]|].
    destruct v as [x|]; [destruct H as (m & H & H'); injection H as _ H; rewrite H in El; exists m; rewrite <- app_assoc; auto
                        |injection H as _ H; rewrite H in El; rewrite <- app_assoc; exact El].
Qed.
Lemma read_array_step s s' v : G s -> 0 < jidx s -> array_step s = Done (s', Ok v) ->
  G s' /\ 0 < jidx s' /\ exists w, blanks w /\
    match v with
    | None => rest s = w ++ RBRACK :: rest s'
    | Some x => exists w2 m, blanks w2 /\ rest s = w ++ COMMA :: w2 ++ x :: m /\ rest s' = x :: m
    end.
Proof.
  intros HG Hj E. destruct (op_read c _ _ _ _ _ _ s s' v (closed_after whole) H2 m_array_step HG E) as (HG' & Ha & H). split; [exact HG'|].
  split; [apply Ha, array_step_advancing|]. destruct H as [H|[H|[(H & _)|([H|H] & H' & _)]]]; try discriminate; try lia.
  - apply parsed_array_step in H as (w & Hw & H). exists w. split; [apply spaces_blanks, Hw|]. destruct v as [x|]; [|exact H].
    destruct H as (w2 & m & Hw2 & H & H'). exists w2, m. split; [apply spaces_blanks, Hw2|auto].
  - destruct (strip_split (Some COMMA) (rest s)) as (w0 & Hw0 & Hs & HS). apply parsed_array_step in H as (w & Hw & H). exists w0. split; [exact Hw0|].
    destruct v as [x|].
    + destruct H as (w2 & m & Hw2 & H & H'). rewrite H in Hs. apply solid_no_space in Hs; [|exact Hw]. subst w. cbn [app] in H.
      destruct HS as [HS|(t & w3 & l2 & Et & Hw3 & HS & HS')].
      * exists w2, m. split; [apply spaces_blanks, Hw2|]. split; [rewrite HS, H; reflexivity|exact H'].
      * injection Et as <-. exists (w3 ++ w2), m. split; [apply blanks_app; [exact Hw3|apply spaces_blanks, Hw2]|]. rewrite HS' in H.
        injection H as ->. rewrite <- app_assoc. auto.
    + rewrite H in Hs. apply solid_no_space in Hs; [|exact Hw]. subst w. cbn [app] in H. destruct HS as [HS|(t & w3 & l2 & Et & Hw3 & HS & HS')].
      * rewrite HS, H. reflexivity.
      * injection Et as <-. rewrite H in HS'. discriminate.
Qed.
Lemma read_next_key s s' v : G s -> 0 < jidx s -> next_key_bytes s = Done (s', Ok v) ->
  G s' /\ 0 < jidx s' /\ exists w, blanks w /\
    match v with
    | None => rest s = w ++ RBRACE :: rest s'
    | Some k => exists w0 w1, blanks w0 /\ string_text k /\ spaces w1 /\ rest s = w ++ COMMA :: w0 ++ QUOTE :: k ++ QUOTE :: w1 ++ COLON :: rest s'
    end.
Proof.
  intros HG Hj E. destruct (op_read c _ _ _ _ _ _ s s' v (closed_after whole) H2 m_next_key_bytes HG E) as (HG' & Ha & H). split; [exact HG'|].
  split; [apply Ha, (ScanParser.token_advancing _ _ _ _ _ m_next_key_bytes)|]. destruct H as [H|[H|[(H & _)|([H|H] & H' & _)]]]; try discriminate; try lia.
  - apply parsed_next_key in H as (w & Hw & H). exists w. split; [apply spaces_blanks, Hw|]. destruct v as [k|]; [|exact H].
    destruct H as (w0 & w1 & H & Hw0 & Hk & Hw1). exists w0, w1. split; [apply spaces_blanks, Hw0|auto].
  - destruct (strip_split (Some COMMA) (rest s)) as (w3 & Hw3 & Hs & HS). apply parsed_next_key in H as (w & Hw & H). exists w3. split; [exact Hw3|].
    destruct v as [k|].
    + destruct H as (w0 & w1 & H & Hw0 & Hk & Hw1). rewrite H in Hs. apply solid_no_space in Hs; [|exact Hw]. subst w. cbn [app] in H.
      destruct HS as [HS|(t & w4 & l2 & Et & Hw4 & HS & HS')].
      * exists w0, w1. split; [apply spaces_blanks, Hw0|]. split; [exact Hk|]. split; [exact Hw1|]. rewrite HS, H. reflexivity.
      * injection Et as <-. exists (w4 ++ w0), w1. split; [apply blanks_app; [exact Hw4|apply spaces_blanks, Hw0]|]. split; [exact Hk|]. split; [exact Hw1|].
        rewrite HS' in H. injection H as ->. rewrite <- app_assoc. exact HS.
    + rewrite H in Hs. apply solid_no_space in Hs; [|exact Hw]. subst w. cbn [app] in H. destruct HS as [HS|(t & w4 & l2 & Et & Hw4 & HS & HS')].
      * rewrite HS, H. reflexivity.
      * injection Et as <-. rewrite H in HS'. discriminate.
Qed.
Lemma brace_head l m : json_head l -> forall w x y q, spaces w -> l = w ++ x :: q -> x :: q = y :: m -> w = [].
Proof.
  intros Hh w x y q Hw -> _. destruct w as [|b w]; [reflexivity|]. apply Forall_inv in Hw. apply space_json in Hw. cbn in Hh. congruence.
Qed.
Lemma read_next_object s s' v l : G s -> rest s = LBRACE :: l -> next_object_bytes s = Done (s', Ok v) ->
  G s' /\ 0 < jidx s' /\ exists j w, (j = [] \/ (jidx s = 0 /\ junk j)) /\ blanks w /\
    match v with
    | None => rest s = j ++ LBRACE :: w ++ RBRACE :: rest s'
    | Some k => exists w1, string_text k /\ spaces w1 /\ rest s = j ++ LBRACE :: w ++ QUOTE :: k ++ QUOTE :: w1 ++ COLON :: rest s'
    end.
Proof.
  intros HG HR E. destruct (op_read c _ _ _ _ _ _ s s' v (closed_after whole) H2 m_next_object_bytes HG E) as (HG' & Ha & H). split; [exact HG'|].
  split; [apply Ha, (ScanParser.token_advancing _ _ _ _ _ m_next_object_bytes)|].
  assert (N : forall w l1 l2, spaces w -> LBRACE :: l1 = w ++ LBRACE :: l2 -> w = [] /\ l1 = l2).
  { intros [|x w] l1 l2 Hw X; [injection X as ->; auto|]. injection X as <- _. apply Forall_inv in Hw. destruct Hw as [X|[X|[X|X]]]; discriminate. }
  destruct H as [H|[H|[(H & _)|(_ & Hs)]]]; [| |discriminate|].
  - rewrite HR in *. apply parsed_next_object in H as (w0 & w & Hw0 & Hw & H). exists [], w. split; [auto|]. split; [apply spaces_blanks, Hw|].
    destruct v as [k|].
    + destruct H as (w1 & H & Hk & Hw1). apply N in H as (-> & ->); [|exact Hw0]. exists w1. auto.
    + apply N in H as (-> & ->); [|exact Hw0]. reflexivity.
  - rewrite HR in *. assert (ES : strip (Some LBRACE) (LBRACE :: l) = LBRACE :: skip_aw l) by reflexivity. rewrite ES in H.
    destruct (aw_split l) as (w2 & El & Hw2 & _). apply parsed_next_object in H as (w0 & w & Hw0 & Hw & H). exists [], (w2 ++ w). split; [auto|].
    split; [apply blanks_app; [exact Hw2|apply spaces_blanks, Hw]|]. rewrite El. destruct v as [k|].
    + destruct H as (w1 & H & Hk & Hw1). apply N in H as (-> & ->); [|exact Hw0]. exists w1. rewrite <- app_assoc. auto.
    + apply N in H as (-> & ->); [|exact Hw0]. rewrite <- app_assoc. reflexivity.
  - destruct Hs as (Hz & HS & r0 & a0 & a1 & E0 & Ha0 & Hr0 & E1 & Er).
    pose proof HG as (V & _ & _). pose proof (jview_split s V) as Hv.
    destruct (jview s) as [|x q] eqn:Ej.
    { unfold j_next_object, next_as, after_ws, jat in E0. cbn in E0. injection E0 as _ <-. lia. }
    destruct r0 as [v0|er]; [destruct Hr0; discriminate|].
    rewrite HR in Hv. injection Hv as <- Hl. assert (Hq : json_head q).
    { rewrite HR in HS. cbn [strip] in HS. unfold skip_aw at 1 in HS. cbn [run_length] in HS. change (is_ascii_whitespace LBRACE) with false in HS. cbn [skipn] in HS.
      change (N.eqb LBRACE LBRACE) with true in HS. cbv iota in HS. injection HS as HS. apply same_length_skip in HS. rewrite Hl in HS. destruct q as [|y q]; [exact I|].
      apply solid_json. exact HS. }
    destruct (object_stale q er a0 Hq E0) as (Hj & Hle & Hh).
    pose proof (method_facts _ _ _ _ _ m_next_object_bytes) as [_ Hws _ _ _ _ _].
    assert (P : parsed (j_next_object j_known_bytes) (skipn a0 (LBRACE :: q)) v (skipn a1 (skipn a0 (LBRACE :: q)))) by (exists a1; auto).
    apply parsed_next_object in P as (w0 & w & Hw0 & Hw & P).
    assert (Ha1 : a1 <= len (skipn a0 (LBRACE :: q))) by (eapply (method_facts _ _ _ _ _ m_next_object_bytes); eauto).
    assert (Er' : rest s' = skipn a1 (skipn a0 (LBRACE :: q)) ++ src (rd (bf s))).
    { rewrite Er, HR, Hl, <- skipn_skipn. change (LBRACE :: q ++ src (rd (bf s))) with ((LBRACE :: q) ++ src (rd (bf s))).
      rewrite skipn_app_le by (cbn [List.length]; lia). rewrite skipn_app_le by exact Ha1. reflexivity. }
    assert (ER' : rest s = firstn a0 (LBRACE :: q) ++ skipn a0 (LBRACE :: q) ++ src (rd (bf s))).
    { rewrite app_assoc, firstn_skipn, HR, Hl. reflexivity. }
    exists (firstn a0 (LBRACE :: q)), w. split; [auto|]. split; [apply spaces_blanks, Hw|]. destruct v as [k|].
    + destruct P as (w1 & P & Hk & Hw1). exists w1. split; [exact Hk|]. split; [exact Hw1|]. assert (w0 = []) as -> by (eapply brace_head; eauto).
      cbn [app] in P. rewrite ER'. f_equal. rewrite P, Er'. repeat (cbn [app]; rewrite <- ?app_assoc). reflexivity.
    + assert (w0 = []) as -> by (eapply brace_head; eauto).
      cbn [app] in P. rewrite ER'. f_equal. rewrite P, Er'. repeat (cbn [app]; rewrite <- ?app_assoc). reflexivity.
Qed.
Lemma read_literal {A} k (f : jop A) op x t (v0 v : A) s s' l : k = Plain -> method k true None f op -> f = j_ident t v0 -> t <> [] -> is_ascii_whitespace x = false ->
  G s -> rest s = x :: l -> op s = Done (s', Ok v) -> G s' /\ 0 < jidx s' /\ rest s = x :: t ++ rest s' /\ v = v0.
Proof.
  intros -> M -> Ht Hx HG HR E. destruct (op_read c _ _ _ _ _ _ s s' v (closed_after whole) H2 M HG E) as (HG' & Ha & H). split; [exact HG'|].
  split; [apply Ha, ScanParser.ident_advancing|].
  assert (ES : strip None (x :: l) = x :: l) by (unfold strip, skip_aw; cbn [run_length]; rewrite Hx; reflexivity). rewrite HR in *. rewrite ES in H.
  assert (P : parsed (j_ident t v0) (x :: l) v (rest s')) by (destruct H as [H|[H|[(H & _)|([H|H] & _)]]]; try discriminate; exact H).
  assert (v = v0) as -> by (destruct P as (a & P & _); unfold j_ident in P; destruct (ident_rest _ _ _) as [[? ?]|]; [discriminate|]; injection P as <- _; reflexivity).
  apply parsed_ident in P as (y & P); [|exact Ht]. injection P as <- ->. auto.
Qed.
Lemma read_null s s' v l : G s -> rest s = PeekNull :: l -> known_null s = Done (s', Ok v) -> G s' /\ 0 < jidx s' /\ rest s = bs "null" ++ rest s'.
Proof. intros HG HR E. destruct (read_literal Plain _ _ PeekNull (bs "ull") _ _ _ _ l eq_refl m_known_null eq_refl ltac:(discriminate) eq_refl HG HR E) as (A1 & A2 & A3 & _). auto. Qed.
Lemma read_bool x s s' v l : x = PeekTrue \/ x = PeekFalse -> G s -> rest s = x :: l -> known_bool x s = Done (s', Ok v) ->
  G s' /\ 0 < jidx s' /\ rest s = (if N.eqb x PeekTrue then bs "true" else bs "false") ++ rest s' /\ v = N.eqb x PeekTrue.
Proof.
  intros Hx HG HR E. destruct Hx as [-> | ->].
  - exact (read_literal Plain _ _ PeekTrue (bs "rue") true v s s' l eq_refl (m_known_bool PeekTrue) eq_refl ltac:(discriminate) eq_refl HG HR E).
  - exact (read_literal Plain _ _ PeekFalse (bs "alse") false v s s' l eq_refl (m_known_bool PeekFalse) eq_refl ltac:(discriminate) eq_refl HG HR E).
Qed.
Lemma read_number s s' t : G s -> next_number_bytes s = Done (s', Ok t) -> G s' /\ 0 < jidx s' /\ number_text t /\
  exists w, blanks w /\ rest s = w ++ t ++ rest s'.
Proof.
  intros HG E. destruct (op_read c _ _ _ _ _ _ s s' t (closed_after whole) H2 m_next_number_bytes HG E) as (HG' & Ha & H). split; [exact HG'|].
  split; [apply Ha, ScanParser.number_advancing|]. destruct (aw_split (rest s)) as (w0 & ES & Hw0 & _).
  destruct H as [H|[H|[(_ & H & Hr)|([H|H] & _)]]]; try discriminate.
  - apply parsed_number in H as (w & H & Hw & Ht). split; [exact Ht|]. exists w. split; [apply spaces_blanks, Hw|exact H].
  - cbn [strip] in H. apply parsed_number in H as (w & H & Hw & Ht). split; [exact Ht|]. exists (w0 ++ w). split; [apply blanks_app; [exact Hw0|apply spaces_blanks, Hw]|].
    rewrite <- app_assoc, <- H. exact ES.
  - cbn [strip] in H, Hr. set (S := skip_aw (rest s)) in *.
    assert (P : parsed j_next_number_bytes (firstn c S) t (skipn c (firstn c S))) by (exists c; auto).
    rewrite skipn_all2 in P by (rewrite firstn_length; lia). apply parsed_number in P as (w & P & Hw & Ht). split; [exact Ht|].
    exists (w0 ++ w). split; [apply blanks_app; [exact Hw0|apply spaces_blanks, Hw]|]. rewrite ES. rewrite <- app_assoc. f_equal.
    rewrite app_nil_r in P. rewrite app_assoc, <- P, Hr, firstn_skipn. reflexivity.
Qed.
Lemma read_nothing s s' e : states c (fun _ => True) s -> peek s = Done (s', Err e) -> err_type e = JsonError EofWhileParsingValue -> blanks (rest s).
Proof.
  intros (V & C & _) E He. pose proof (method_facts _ _ _ _ _ m_peek) as [Eop Hw Hb Hemp _ _ _].
  rewrite Eop in E. destruct (loop_spec j_peek None (eager_of Plain) s Hw Hb Hemp V ltac:(lia)) as (s1 & r & E1 & Q). rewrite E1 in E. injection E as -> ->.
  unfold op_post in Q. destruct (aw_split (rest s)) as (w & ES & Hbl & Hs). cbn [strip] in Q.
  assert (HN : forall l, solid_head l -> l <> [] -> exists x, j_peek l = (Ok x, 0)).
  { intros [|x l] Hl Hne; [contradiction|]. exists x. apply solid_json in Hl. unfold j_peek, after_ws. cbn [run_length]. rewrite Hl. reflexivity. }
  destruct (skip_aw (rest s)) as [|x q] eqn:Eq; [rewrite ES, app_nil_r; exact Hbl|]. exfalso.
  destruct Q as [(Q & _)|[(er & a & Q & _)|[(_ & er & a & Q & _)|Q]]].
  - unfold is_io in Q. rewrite He in Q. discriminate.
  - destruct (HN (x :: q) Hs ltac:(discriminate)) as (y & Hy). congruence.
  - destruct (HN (firstn (rcap s) (x :: q))) as (y & Hy); [|rewrite C; destruct c; [lia|discriminate]|congruence].
    rewrite C. destruct c; [lia|]. exact Hs.
  - destruct Q as (_ & HR & r0 & a0 & er & a1 & E0 & Ha0 & _). cbn [strip] in HR. rewrite Eq in HR. pose proof (jview_split s V) as Hv.
    destruct (jview s) as [|y p] eqn:Ej; [injection E0 as _ <-; lia|]. rewrite <- HR in Hv. injection Hv as <- _.
    destruct (HN (x :: p) Hs ltac:(discriminate)) as (y & Hy). rewrite Hy in E0. injection E0 as _ <-. lia.
Qed.
Lemma drained_read b b' k : src (rd b) = [] -> read_more b = (b', Ok k) -> k = 0.
Proof. intros Hs E. apply read_cells in E as (d & Hd & <- & _). rewrite Hs in Hd. destruct d; [reflexivity|discriminate]. Qed.
Lemma drained_long fuel s w s' w' u l : valid s -> rest s = QUOTE :: l -> src (rd (bf s)) = [] ->
  handle_long fuel j_known_bytes bytes_segment s w = Done (s', w', Ok u) -> exists t m, l = t ++ QUOTE :: m /\ string_text t /\ rest s' = m.
Proof.
  intros V HR Hs E. destruct fuel as [|fuel]; [discriminate|]. cbn [handle_long] in E. unfold jcall in E.
  destruct (j_known_bytes (jview s)) as [[v|[er off]] a] eqn:Ep.
  - destruct (view_front s l V HR) as [Hn|(q & Hq & Hl)]; [rewrite Hn in Ep; discriminate|]. rewrite Hq in Ep.
    destruct (write_all w v) as [w2 [u2|e]]; [|discriminate]. injection E as <- _ _.
    apply known_bytes_result in Ep as (Ht & Ha & Hm). exists v, (skipn a ((QUOTE :: q) ++ [])). rewrite Hs in Hl. specialize (Hm []).
    rewrite !app_nil_r in *. subst q. injection Hm as Hm. split; [exact Hm|]. split; [exact Ht|].
    unfold rest. cbn [bf jidx]. rewrite <- skipn_skipn. fold (rest s). rewrite HR. reflexivity.
  - exfalso. destruct (can_retry _); [|discriminate].
    match type of E with context [find_leading (buf (bf ?x))] => set (s2 := x) in * end.
    assert (Hs2 : src (rd (bf s2)) = []).
    { unfold s2. cbn [jidx]. destruct (0 <? jidx s + a); [|exact Hs]. cbn [create_new_jiter with_bf bf]. rewrite shift_rd. exact Hs. }
    clearbody s2. destruct (find_leading _ _) as [seg|]; [|discriminate].
    assert (K : forall b (s3 : rj) (w3 : writer) X, src (rd b) = [] ->
      match read_more b with
      | (b, Err e) => Done (with_bf s3 b, w3, Err e)
      | (b, Ok 0) => Done (with_bf s3 b, w3, Err (from_jiter_error (current_index (with_bf s3 b)) X))
      | (b, Ok _) => handle_long fuel j_known_bytes bytes_segment (create_new_jiter (with_bf s3 b)) w3
      end = Done (s', w', Ok u) -> False).
    { intros b s3 w3 X Hb E1. destruct (read_more b) as [b1 [[|k]|e]] eqn:Er; try discriminate. apply drained_read in Er; [discriminate|exact Hb]. }
    destruct (1 <? seg).
    + cbn [bytes_segment] in E. destruct (write_all w _) as [w2 [u2|e]]; [|discriminate]. apply K in E; [exact E|]. cbn [with_bf bf]. rewrite shift_rd. exact Hs2.
    + apply K in E; [exact E|exact Hs2].
Qed.
Lemma read_long s w s' w' u l : G s -> rest s = QUOTE :: l -> write_long_bytes s w = Done (s', w', Ok u) ->
  G s' /\ 0 < jidx s' /\ exists t, rest s = QUOTE :: t ++ QUOTE :: rest s' /\ spent w t w' /\ lax_text whole t.
Proof.
  intros (V & C & J) HR E. unfold write_long_bytes in E. destruct (long_read _ _ _ _ _ _ _ V HR E) as (Hj & t & Et & Hsp & Ht).
  split; [|split; [exact Hj|]].
  - destruct (RJiterEndProofs.long_progress _ _ known_bytes_bounded known_bytes_inert RJiterIndexProofs.known_bytes_one _ _ _ _ _ _ V E) as (V' & C' & _).
    split; [exact V'|]. split; [congruence|]. eapply (closed_long _ (closed_after whole)); eauto.
  - exists t. split; [exact Et|]. split; [exact Hsp|]. destruct Ht as [Ht|Ht]; [left; exact Ht|]. destruct whole; [|right; auto]. left.
    destruct (drained_long _ _ _ _ _ _ _ V HR (J eq_refl) E) as (t' & m & El & Ht' & Hm). rewrite HR, El, Hm in Et. injection Et as Et.
    apply app_inv_tail in Et. congruence.
Qed.
End Ops.
