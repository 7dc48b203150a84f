(** The parser as the scanner uses it: what each call does in front of well-formed text, for three kinds of parser states. *)
From Verif Require Import Base Buffer BufferSpec BufferProofs Jiter JiterProofs RJiter RJiterSpec RJiterProofs RJiterOpProofs
  RJiterLookProofs RJiterLongProofs RJiterIndexProofs RJiterInvProofs Scan ScanSpec.

(** ** White space *)
Definition solid (x : byte) : Prop := is_ascii_whitespace x = false.
Lemma space_json x : space x -> json_ws x = true.
Proof. intros [->|[->|[->| ->]]]; reflexivity. Qed.
Lemma space_ascii x : space x -> is_ascii_whitespace x = true.
Proof. intros [->|[->|[->| ->]]]; reflexivity. Qed.
Lemma json_space x : json_ws x = true -> space x.
Proof. unfold json_ws, space. intros H. apply orb_prop in H as [H|H]; [apply orb_prop in H as [H|H]; [apply orb_prop in H as [H|H]|]|]; apply N.eqb_eq in H; auto. Qed.
Lemma solid_json x : solid x -> json_ws x = false.
Proof. intros H. destruct (json_ws x) eqn:E; [|reflexivity]. apply json_ws_ascii in E. unfold solid in H. congruence. Qed.
Lemma run_spaces (p : byte -> bool) w x l : (forall y, space y -> p y = true) -> p x = false -> spaces w -> run_length p (w ++ x :: l) = len w.
Proof.
  intros Hp Hx Hw. induction Hw as [|y w Hy Hw IH]; cbn [app run_length]; [rewrite Hx; reflexivity|].
  rewrite (Hp y Hy), IH. reflexivity.
Qed.
Lemma jw_spaces w x l : spaces w -> solid x -> skip_jw (w ++ x :: l) = x :: l.
Proof.
  intros Hw Hx. unfold skip_jw. rewrite run_spaces; auto using space_json, solid_json. apply skipn_app_all.
Qed.
Lemma aw_spaces w x l : spaces w -> solid x -> skip_aw (w ++ x :: l) = x :: l.
Proof.
  intros Hw Hx. unfold skip_aw. rewrite run_spaces; auto using space_ascii. apply skipn_app_all.
Qed.
Lemma jw_blank w : spaces w -> skip_jw w = [].
Proof.
  intros Hw. unfold skip_jw. replace (run_length json_ws w) with (len w); [apply skipn_all|].
  induction Hw as [|y w Hy Hw IH]; cbn [run_length]; [reflexivity|]. rewrite (space_json y Hy), <- IH. reflexivity.
Qed.
Lemma strip_spaces t w x w2 y l : spaces w -> solid x -> spaces w2 -> solid y ->
  strip (Some t) (w ++ x :: w2 ++ y :: l) = (if N.eqb x t then x :: y :: l else x :: w2 ++ y :: l).
Proof. intros Hw Hx Hw2 Hy. unfold strip. rewrite aw_spaces by assumption. rewrite aw_spaces by assumption. reflexivity. Qed.
Lemma jstrip_spaces t w x w2 y l : spaces w -> solid x -> spaces w2 -> solid y ->
  jstrip (Some t) (w ++ x :: w2 ++ y :: l) = (if N.eqb x t then x :: y :: l else x :: w2 ++ y :: l).
Proof. intros Hw Hx Hw2 Hy. unfold jstrip. rewrite jw_spaces by assumption. rewrite jw_spaces by assumption. reflexivity. Qed.
Lemma nff_token t w x w2 y l : spaces w -> solid x -> spaces w2 -> solid y -> no_form_feed (Some t) (w ++ x :: w2 ++ y :: l).
Proof. intros Hw Hx Hw2 Hy. unfold no_form_feed. rewrite strip_spaces, jstrip_spaces by assumption. reflexivity. Qed.
Lemma nff_other t w x l : spaces w -> solid x -> x <> t -> no_form_feed (Some t) (w ++ x :: l).
Proof.
  intros Hw Hx Ht. unfold no_form_feed, strip, jstrip. rewrite aw_spaces, jw_spaces by assumption.
  destruct (N.eqb_spec x t); [contradiction|reflexivity].
Qed.
Lemma nff_none w x l : spaces w -> solid x -> no_form_feed None (w ++ x :: l).
Proof. intros Hw Hx. unfold no_form_feed, strip, jstrip. rewrite aw_spaces, jw_spaces by assumption. reflexivity. Qed.
Lemma spaces_nil : spaces []. Proof. constructor. Qed.
#[global] Hint Resolve spaces_nil : core.

(** ** What the plain parser finds *)
Lemma parsed_ok {A} (v : A) (f : jop A) n l m : f l = jok v n -> m = skipn n l -> parsed f l v m.
Proof. intros H ->. exists n. auto. Qed.
Lemma at_peek w x l : spaces w -> solid x -> parsed j_peek (w ++ x :: l) x (x :: l).
Proof. intros Hw Hx. apply parsed_after_ws. rewrite jw_spaces by assumption. eapply parsed_ok; reflexivity. Qed.
Lemma at_known_array_end w l : spaces w -> parsed j_known_array (LBRACK :: w ++ RBRACK :: l) None l.
Proof.
  intros Hw. apply parsed_jat. cbn [skipn]. apply parsed_after_ws. rewrite jw_spaces by (assumption || reflexivity).
  eapply parsed_ok; reflexivity.
Qed.
Lemma at_known_array w x l : spaces w -> solid x -> x <> RBRACK -> parsed j_known_array (LBRACK :: w ++ x :: l) (Some x) (x :: l).
Proof.
  intros Hw Hx Hr. apply parsed_jat. cbn [skipn]. apply parsed_after_ws. rewrite jw_spaces by assumption.
  eapply parsed_ok; [destruct (N.eqb_spec x RBRACK); [contradiction|reflexivity]|reflexivity].
Qed.
Lemma at_array_step_end w l : spaces w -> parsed j_array_step (w ++ RBRACK :: l) None l.
Proof.
  intros Hw. apply parsed_after_ws. rewrite jw_spaces by (assumption || reflexivity). eapply parsed_ok; reflexivity.
Qed.
Lemma at_array_step w w2 x l : spaces w -> spaces w2 -> solid x -> x <> RBRACK ->
  parsed j_array_step (w ++ COMMA :: w2 ++ x :: l) (Some x) (x :: l).
Proof.
  intros Hw Hw2 Hx Hr. apply parsed_after_ws. rewrite jw_spaces by (assumption || reflexivity).
  assert (parsed (jat 1 array_peek) (COMMA :: w2 ++ x :: l) (Some x) (x :: l)) as (a & H1 & H2).
  { apply parsed_jat. cbn [skipn]. apply parsed_after_ws. rewrite jw_spaces by assumption.
    eapply parsed_ok; [destruct (N.eqb_spec x RBRACK); [contradiction|reflexivity]|reflexivity]. }
  exists a. auto.
Qed.
Lemma known_bytes_text t r : string_text t -> j_known_bytes (QUOTE :: t ++ QUOTE :: r) = (Ok t, S (S (len t))).
Proof.
  intros (d & Ht). unfold j_known_bytes. cbn [skipn]. rewrite (scan_text _ _ _ Ht). unfold jok.
  rewrite firstn_app_all. reflexivity.
Qed.
Lemma skip_text (t : bytes) r : skipn (S (S (len t))) (QUOTE :: t ++ QUOTE :: r) = r.
Proof.
  change (skipn (S (S (len t))) (QUOTE :: t ++ QUOTE :: r)) with (skipn (S (len t)) (t ++ QUOTE :: r)).
  change (t ++ QUOTE :: r) with (t ++ [QUOTE] ++ r). rewrite app_assoc.
  replace (S (len t)) with (len (t ++ [QUOTE])) by (rewrite app_length; cbn; lia). apply skipn_app_all.
Qed.
Lemma at_known_bytes t r : string_text t -> parsed j_known_bytes (QUOTE :: t ++ QUOTE :: r) t r.
Proof. intros Ht. exists (S (S (len t))). rewrite known_bytes_text by exact Ht. split; [reflexivity|]. symmetry. apply skip_text. Qed.
Lemma at_key k w1 l : string_text k -> spaces w1 ->
  parsed (object_key j_known_bytes) (QUOTE :: k ++ QUOTE :: w1 ++ COLON :: l) (Some k) l.
Proof.
  intros Hk Hw. unfold parsed, object_key. rewrite known_bytes_text by exact Hk.
  change (parsed (jat (S (S (len k))) (after_ws (fun l0 : bytes => match l0 with
     | [] => jfail EofWhileParsingObject
     | x :: _ => if N.eqb x COLON then jok (Some k) 1 else jfail ExpectedColon end)))
     (QUOTE :: k ++ QUOTE :: w1 ++ COLON :: l) (Some k) l).
  apply parsed_jat. rewrite skip_text. apply parsed_after_ws. rewrite jw_spaces by (assumption || reflexivity).
  eapply parsed_ok; reflexivity.
Qed.
Lemma at_object_open_end w l : spaces w -> parsed (j_next_object j_known_bytes) (LBRACE :: w ++ RBRACE :: l) None l.
Proof.
  intros Hw. apply parsed_after_ws. rewrite skip_jw_head by reflexivity.
  change (parsed (j_known_object j_known_bytes) (LBRACE :: w ++ RBRACE :: l) None l).
  apply parsed_jat. cbn [skipn]. apply parsed_after_ws. rewrite jw_spaces by (assumption || reflexivity).
  eapply parsed_ok; reflexivity.
Qed.
Lemma at_object_open w k w1 l : spaces w -> string_text k -> spaces w1 ->
  parsed (j_next_object j_known_bytes) (LBRACE :: w ++ QUOTE :: k ++ QUOTE :: w1 ++ COLON :: l) (Some k) l.
Proof.
  intros Hw Hk Hw1. apply parsed_after_ws. rewrite skip_jw_head by reflexivity.
  change (parsed (j_known_object j_known_bytes) (LBRACE :: w ++ QUOTE :: k ++ QUOTE :: w1 ++ COLON :: l) (Some k) l).
  apply parsed_jat. cbn [skipn]. apply parsed_after_ws. rewrite jw_spaces by (assumption || reflexivity).
  exact (at_key k w1 l Hk Hw1).
Qed.
Lemma at_next_key_end w l : spaces w -> parsed (j_next_key j_known_bytes) (w ++ RBRACE :: l) None l.
Proof. intros Hw. apply parsed_after_ws. rewrite jw_spaces by (assumption || reflexivity). eapply parsed_ok; reflexivity. Qed.
Lemma at_next_key w w0 k w1 l : spaces w -> spaces w0 -> string_text k -> spaces w1 ->
  parsed (j_next_key j_known_bytes) (w ++ COMMA :: w0 ++ QUOTE :: k ++ QUOTE :: w1 ++ COLON :: l) (Some k) l.
Proof.
  intros Hw Hw0 Hk Hw1. apply parsed_after_ws. rewrite jw_spaces by (assumption || reflexivity).
  change (parsed (jat 1 (after_ws (fun l =>
            match l with
            | [] => jfail EofWhileParsingValue
            | x :: _ => if N.eqb x QUOTE then object_key j_known_bytes l
                        else if N.eqb x RBRACE then jfail TrailingComma
                        else jfail KeyMustBeAString
            end))) (COMMA :: w0 ++ QUOTE :: k ++ QUOTE :: w1 ++ COLON :: l) (Some k) l).
  apply parsed_jat. cbn [skipn]. apply parsed_after_ws. rewrite jw_spaces by (assumption || reflexivity).
  exact (at_key k w1 l Hk Hw1).
Qed.
Lemma at_known_null r : parsed j_known_null (bs "null" ++ r) tt r.
Proof. exists 4. split; reflexivity. Qed.
Lemma at_known_true r : parsed (j_known_bool PeekTrue) (bs "true" ++ r) true r.
Proof. exists 4. split; reflexivity. Qed.
Lemma at_known_false r : parsed (j_known_bool PeekFalse) (bs "false" ++ r) false r.
Proof. exists 5. split; reflexivity. Qed.

(** *** Numbers *)
Lemma digit_is x : digit x <-> is_digit x = true.
Proof. unfold digit, is_digit. rewrite andb_true_iff, !N.leb_le. tauto. Qed.
Definition no_digit (r : bytes) : Prop := match r with x :: _ => is_digit x = false | [] => True end.
Lemma digits_app_all d r : Forall digit d -> no_digit r -> digits (d ++ r) = len d.
Proof.
  intros Hd Hr. induction Hd as [|x d Hx Hd IH]; unfold digits in *; cbn [app run_length].
  - destruct r as [|y r]; [reflexivity|]. cbn in *. rewrite Hr. reflexivity.
  - apply digit_is in Hx. rewrite Hx, IH. reflexivity.
Qed.
Lemma number_char_no x : number_char x = false ->
  is_digit x = false /\ x <> 43%N /\ x <> 45%N /\ x <> 46%N /\ x <> 69%N /\ x <> 101%N.
Proof.
  unfold number_char. rewrite !orb_false_iff, !N.eqb_neq. tauto.
Qed.
Lemma exponent_text s d r : (s = [] \/ s = [43%N] \/ s = [45%N]) -> digits1 d -> no_digit r -> num_exponent ((s ++ d) ++ r) = Ok (len (s ++ d)).
Proof.
  intros Hs (Hd & Hd') Hr. destruct d as [|x d]; [contradiction|]. pose proof (Forall_inv Hd') as Hx. apply digit_is in Hx as Hx'.
  assert (Hnd : N.eqb x 43 || N.eqb x 45 = false).
  { destruct (N.eqb_spec x 43) as [->|]; [discriminate|]. destruct (N.eqb_spec x 45) as [->|]; [discriminate|]. reflexivity. }
  unfold num_exponent. destruct Hs as [->|[->| ->]]; cbn [app].
  - rewrite Hnd. cbn [skipn]. rewrite Hx'. change (x :: d ++ r) with ((x :: d) ++ r). rewrite digits_app_all by assumption. reflexivity.
  - cbn [N.eqb Pos.eqb orb skipn]. rewrite Hx'. change (x :: d ++ r) with ((x :: d) ++ r). rewrite digits_app_all by assumption. reflexivity.
  - cbn [N.eqb Pos.eqb orb skipn]. rewrite Hx'. change (x :: d ++ r) with ((x :: d) ++ r). rewrite digits_app_all by assumption. reflexivity.
Qed.
Lemma delimited_no_digit r : delimited r -> no_digit r.
Proof. destruct r as [|x r]; [auto|]. cbn. intros H. apply number_char_no in H. tauto. Qed.
Lemma exponent_no_digit e r : exponent e -> delimited r -> no_digit (e ++ r).
Proof.
  intros [->|(m & s & d & -> & Hm & _)] Hr; [apply delimited_no_digit; exact Hr|]. cbn. destruct Hm as [->| ->]; reflexivity.
Qed.
Lemma decimal_text d e r : digits1 d -> exponent e -> delimited r -> num_decimal (d ++ e ++ r) = Ok (len (d ++ e)).
Proof.
  intros (Hd & Hd') He Hr. destruct d as [|x d]; [contradiction|]. pose proof (Forall_inv Hd') as Hx. apply digit_is in Hx as Hx'.
  unfold num_decimal. cbn [app]. rewrite Hx'. change (x :: d ++ e ++ r) with ((x :: d) ++ e ++ r).
  rewrite digits_app_all by (auto using exponent_no_digit). cbv zeta. rewrite skipn_app_all.
  destruct He as [->|(m & s & d' & -> & Hm & Hs & Hd1)].
  - rewrite app_nil_r. cbn [app]. destruct r as [|y r]; [reflexivity|]. cbn in Hr. apply number_char_no in Hr as (_ & _ & _ & _ & H1 & H2).
    unfold is_exp. destruct (N.eqb_spec y 101); [contradiction|]. destruct (N.eqb_spec y 69); [contradiction|]. reflexivity.
  - cbn [app]. replace (is_exp m) with true by (destruct Hm as [->| ->]; reflexivity).
    rewrite exponent_text by (auto using delimited_no_digit). cbn [add_off]. f_equal. cbn [List.length]. rewrite !app_length. cbn [List.length]. rewrite app_length. unfold byte in *. lia.
Qed.
Lemma tail_text f e r : fraction f -> exponent e -> delimited r -> num_tail (f ++ e ++ r) = Ok (len (f ++ e)).
Proof.
  intros [->|(d & -> & Hd)] He Hr.
  - cbn [app]. destruct He as [->|(m & s & d' & -> & Hm & Hs & Hd1)].
    + cbn [app]. destruct r as [|y r]; [reflexivity|]. cbn in Hr. apply number_char_no in Hr as (_ & _ & _ & H0 & H1 & H2).
      unfold num_tail, is_exp. destruct (N.eqb_spec y 46); [contradiction|].
      destruct (N.eqb_spec y 101); [contradiction|]. destruct (N.eqb_spec y 69); [contradiction|]. reflexivity.
    + cbn [app num_tail]. replace (N.eqb m 46) with false by (destruct Hm as [->| ->]; reflexivity).
      replace (is_exp m) with true by (destruct Hm as [->| ->]; reflexivity).
      rewrite exponent_text by (auto using delimited_no_digit). reflexivity.
  - cbn [app num_tail N.eqb Pos.eqb]. rewrite decimal_text by assumption. reflexivity.
Qed.
Lemma tail_no_digit f e r : fraction f -> exponent e -> delimited r -> no_digit (f ++ e ++ r).
Proof. intros [->|(d & -> & Hd)] He Hr; [exact (exponent_no_digit e r He Hr)|]. reflexivity. Qed.
Lemma unsigned_text i f e r : integer i -> fraction f -> exponent e -> delimited r ->
  num_unsigned (i ++ f ++ e ++ r) = Ok (len (i ++ f ++ e)).
Proof.
  intros Hi Hf He Hr. pose proof (tail_text f e r Hf He Hr) as Ht. pose proof (tail_no_digit f e r Hf He Hr) as Hn.
  destruct Hi as [->|(x & d & -> & Hx & Hd)].
  - cbn [app num_unsigned N.eqb Pos.eqb]. destruct (f ++ e ++ r) as [|y q] eqn:Eq.
    + destruct f; [|discriminate]. destruct e; [|discriminate]. reflexivity.
    + cbn in Hn. rewrite Hn, Ht. reflexivity.
  - assert (Hdx : digit x) by (unfold digit; lia). apply digit_is in Hdx as Hx'.
    unfold num_unsigned. cbn [app]. destruct (N.eqb_spec x 48) as [->|_]; [lia|]. rewrite Hx'.
    change (x :: d ++ f ++ e ++ r) with ((x :: d) ++ f ++ e ++ r). rewrite digits_app_all by auto. cbv zeta.
    rewrite skipn_app_all, Ht. cbn [add_off]. f_equal. cbn [List.length]. rewrite !app_length. reflexivity.
Qed.
Lemma number_head t : number_text t -> exists x q, t = x :: q /\ (x = 45%N \/ digit x).
Proof.
  intros (s & i & f & e & -> & [->| ->] & Hi & _); [|eexists _, _; split; [reflexivity|auto]].
  destruct Hi as [->|(x & d & -> & Hx & Hd)]; eexists _, _; (split; [reflexivity|]); right; unfold digit; lia.
Qed.
Lemma number_range t r : number_text t -> delimited r -> num_range (t ++ r) = Ok (len t).
Proof.
  intros (s & i & f & e & -> & Hs & Hi & Hf & He) Hr.
  pose proof (unsigned_text i f e r Hi Hf He Hr) as Hu.
  replace ((s ++ i ++ f ++ e) ++ r) with (s ++ i ++ f ++ e ++ r) by (rewrite !app_assoc; reflexivity).
  destruct Hs as [->| ->].
  - cbn [app]. destruct Hi as [->|(x & d & -> & Hx & Hd)].
    + exact Hu.
    + unfold num_range. cbn [app] in *. destruct (N.eqb_spec x 45) as [->|_]; [lia|].
      replace (is_inf_nan x) with false; [exact Hu|]. symmetry. unfold is_inf_nan. destruct (N.eqb_spec x 73); [lia|]. destruct (N.eqb_spec x 78); [lia|reflexivity].
  - cbn [app num_range N.eqb Pos.eqb]. rewrite Hu. reflexivity.
Qed.
Lemma number_solid x : x = 45%N \/ digit x -> solid x /\ is_num x = true.
Proof.
  intros [->|Hx]; [split; reflexivity|]. pose proof Hx as Hx'. apply digit_is in Hx'. split.
  - unfold solid, is_ascii_whitespace. unfold digit in Hx.
    repeat match goal with |- context [N.eqb x ?k] => destruct (N.eqb_spec x k); [lia|] end. reflexivity.
  - unfold is_num. rewrite Hx'. reflexivity.
Qed.
Lemma at_number t r : number_text t -> delimited r -> parsed j_next_number_bytes (t ++ r) t r.
Proof.
  intros Ht Hr. pose proof (number_range t r Ht Hr) as Hn. destruct (number_head t Ht) as (x & q & -> & Hx).
  destruct (number_solid x Hx) as (Hs & Hi).
  apply parsed_after_ws. cbn [app]. rewrite skip_jw_head by (apply solid_json; exact Hs).
  exists (len (x :: q)). rewrite Hi. unfold j_number. change (x :: q ++ r) with ((x :: q) ++ r). rewrite Hn.
  unfold jok. rewrite firstn_app_all. split; [reflexivity|]. symmetry. apply skipn_app_all.
Qed.
Lemma number_chars t : number_text t -> Forall (fun x => number_char x = true) t.
Proof.
  intros (s & i & f & e & -> & Hs & Hi & Hf & He).
  assert (HD : forall d, Forall digit d -> Forall (fun x => number_char x = true) d).
  { intros d Hd. eapply Forall_impl; [|exact Hd]. intros x Hx. apply digit_is in Hx. unfold number_char. rewrite Hx. reflexivity. }
  assert (H1 : forall x, digit x -> number_char x = true) by (intros x Hx; apply digit_is in Hx; unfold number_char; rewrite Hx; reflexivity).
  repeat (apply Forall_app; split).
  - destruct Hs as [->| ->]; repeat constructor.
  - destruct Hi as [->|(x & d & -> & Hx & Hd)]; [repeat constructor|]. constructor; [apply H1; unfold digit; lia|auto].
  - destruct Hf as [->|(d & -> & _ & Hd)]; [constructor|]. constructor; [reflexivity|auto].
  - destruct He as [->|(m & s' & d & -> & Hm & Hs' & _ & Hd)]; [constructor|]. constructor; [destruct Hm as [->| ->]; reflexivity|].
    apply Forall_app. split; [|auto]. destruct Hs' as [->|[->| ->]]; repeat constructor.
Qed.
Lemma number_run t r : number_text t -> delimited r -> run_length number_char (skip_jw (t ++ r)) = len t.
Proof.
  intros Ht Hr. destruct (number_head t Ht) as (x & q & E & Hx). destruct (number_solid x Hx) as (Hs & _).
  assert (skip_jw (t ++ r) = t ++ r) as -> by (rewrite E; cbn [app]; apply skip_jw_head, solid_json, Hs).
  pose proof (number_chars t Ht) as HF. clear E Ht. induction HF as [|y t Hy HF IH]; cbn [app run_length].
  - destruct r as [|y r]; [reflexivity|]. cbn in *. rewrite Hr. reflexivity.
  - rewrite Hy, IH. reflexivity.
Qed.
