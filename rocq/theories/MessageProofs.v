(** Proofs about the texts of the errors. *)
From Coq Require Import DecimalFacts DecimalN.
From Verif Require Import Base U8Pool Buffer Jiter RJiter Scan Conv NormalToDdb DdbToNormal Cli Messages MessageSpec.

(** ** Splitting a text *)
Definition starts_not (P : byte -> Prop) (l : bytes) : Prop := match l with [] => True | x :: _ => ~ P x end.
Lemma split_left (P : byte -> Prop) : forall x y a b, Forall P x -> Forall P y -> starts_not P a -> starts_not P b -> x ++ a = y ++ b -> x = y /\ a = b.
Proof.
  induction x as [|c x IH]; intros [|d y] a b Hx Hy Ha Hb E; cbn [app] in E.
  - auto.
  - subst a. inversion Hy; subst. contradiction.
  - subst b. inversion Hx; subst. contradiction.
  - injection E as <- E. inversion Hx; subst. inversion Hy; subst. destruct (IH y a b) as [-> ->]; auto.
Qed.
Lemma rev_starts P l : starts_not P (rev l) -> forall c, match l with [] => True | _ => starts_not P (rev l ++ c) end.
Proof. intros H c. destruct l as [|x l]; [exact I|]. destruct (rev (x :: l)) eqn:E; [|exact H]. apply (f_equal (@rev byte)) in E. rewrite rev_involutive in E. discriminate. Qed.
Lemma split_right (P : byte -> Prop) x y sep sep' a b : Forall P a -> Forall P b -> sep <> [] -> sep' <> [] -> starts_not P (rev sep) -> starts_not P (rev sep') ->
  x ++ sep ++ a = y ++ sep' ++ b -> a = b /\ x ++ sep = y ++ sep'.
Proof.
  intros Ha Hb Hs Hs' H H' E. rewrite !app_assoc in E. apply (f_equal (@rev byte)) in E. rewrite !rev_app_distr in E.
  destruct (split_left P (rev a) (rev b) (rev sep ++ rev x) (rev sep' ++ rev y)) as [E1 E2]; auto using Forall_rev.
  - pose proof (rev_starts P sep H (rev x)) as K. destruct sep; [contradiction|exact K].
  - pose proof (rev_starts P sep' H' (rev y)) as K. destruct sep'; [contradiction|exact K].
  - apply (f_equal (@rev byte)) in E1. rewrite !rev_involutive in E1. split; [exact E1|].
    rewrite <- !rev_app_distr in E2. apply (f_equal (@rev byte)) in E2. rewrite !rev_involutive in E2. exact E2.
Qed.
Lemma bs_inj : forall a b, bs a = bs b -> a = b.
Proof.
  induction a as [|c a IH]; intros [|d b] E; try discriminate; [reflexivity|]. cbn [bs] in E. injection E as E1 E2.
  rewrite (IH b E2). f_equal. rewrite <- (ascii_N_embedding c), <- (ascii_N_embedding d), E1. reflexivity.
Qed.

(** ** Numbers *)
Definition digit (x : byte) : Prop := (48 <= x <= 57)%N.
Lemma digits_all : forall u, Forall digit (digits u).
Proof. induction u; cbn [digits]; constructor; try assumption; unfold digit; lia. Qed.
Lemma digits_inj : forall u v, digits u = digits v -> u = v.
Proof. induction u; intros v E; destruct v; cbn [digits] in E; try discriminate; try reflexivity; injection E as E; f_equal; auto. Qed.
Lemma show_N_all n : Forall digit (show_N n). Proof. apply digits_all. Qed.
Lemma show_all n : Forall digit (show n). Proof. apply digits_all. Qed.
Lemma show_N_inj n m : show_N n = show_N m -> n = m.
Proof. intros E. apply digits_inj in E. apply Unsigned.to_uint_inj. exact E. Qed.
Lemma show_inj n m : show n = show m -> n = m.
Proof. intros E. apply show_N_inj in E. lia. Qed.
Lemma show_N_nonempty n : show_N n <> [].
Proof.
  unfold show_N. intros E. assert (H : N.to_uint n = Decimal.Nil) by (destruct (N.to_uint n); cbn [digits] in E; congruence).
  destruct n as [|p]; [discriminate|]. cbn [N.to_uint] in H. exact (DecimalPos.Unsigned.to_uint_nonnil p H).
Qed.
Lemma value_from : forall u acc, fold_left (fun n x => (10 * n + (x - 48))%N) (digits u) (N.pos acc) = N.pos (Pos.of_uint_acc u acc).
Proof. induction u; intros acc; cbn [digits fold_left Pos.of_uint_acc]; [reflexivity|..]; rewrite <- IHu; f_equal; lia. Qed.
Lemma value_digits : forall u, value (digits u) = Pos.of_uint u.
Proof.
  unfold value. induction u; cbn [digits fold_left Pos.of_uint]; [reflexivity| |..].
  - exact IHu.
  - exact (value_from u 1). - exact (value_from u 2). - exact (value_from u 3). - exact (value_from u 4). - exact (value_from u 5).
  - exact (value_from u 6). - exact (value_from u 7). - exact (value_from u 8). - exact (value_from u 9).
Qed.
Lemma value_show n : value (show n) = N.of_nat n.
Proof. unfold show, show_N. rewrite value_digits. apply (Unsigned.of_to (N.of_nat n)). Qed.
Lemma show_numeral n : numeral (show n).
Proof. split; [apply show_N_nonempty|apply show_all]. Qed.

(** A numeral at the front or at the end. *)
Ltac no_digit := cbn; unfold digit; lia.
Lemma front_N n m a b : starts_not digit a -> starts_not digit b -> show_N n ++ a = show_N m ++ b -> n = m /\ a = b.
Proof. intros Ha Hb E. apply (split_left digit) in E as [E1 E2]; auto using show_N_all. split; [apply show_N_inj; exact E1|exact E2]. Qed.
Lemma front n m a b : starts_not digit a -> starts_not digit b -> show n ++ a = show m ++ b -> n = m /\ a = b.
Proof. intros Ha Hb E. apply front_N in E as [E1 E2]; auto. split; [lia|exact E2]. Qed.
Lemma at_end sep n m x y : sep <> [] -> starts_not digit (rev sep) -> x ++ sep ++ show n = y ++ sep ++ show m -> n = m /\ x = y.
Proof. intros Hs H E. apply (split_right digit) in E as [E1 E2]; auto using show_all. split; [apply show_inj; exact E1|]. apply app_inv_tail in E2. exact E2. Qed.

(** ** The pool *)
Lemma pool_message_inj a b : pool_message a = pool_message b -> a = b.
Proof.
  intros E. destruct a as [q v|i l|r|m|v m], b as [q' v'|i' l'|r'|m'|v' m']; cbn [pool_message] in E; try discriminate E.
  - apply app_inv_head in E. apply front in E as [-> E]; [|no_digit..]. apply app_inv_head in E. apply front in E as [-> _]; [reflexivity|no_digit..].
  - apply app_inv_head in E. apply front in E as [-> E]; [|no_digit..]. apply app_inv_head in E. apply show_inj in E. congruence.
  - apply app_inv_head in E. destruct r, r'; try reflexivity; discriminate E.
  - apply app_inv_head in E. apply front_N in E as [-> _]; [reflexivity|no_digit..].
  - apply app_inv_head in E. apply front_N in E as [-> E]; [|no_digit..]. apply app_inv_head in E. apply show_N_inj in E. congruence.
Qed.

(** ** The parser *)
Section Parser.
Context (v : vocabulary) (T : telling v).
Definition no (c : byte) (x : byte) : Prop := x <> c.
Lemma type_text_words t : Forall (no 32%N) (type_text t).
Proof. destruct t; cbv; repeat constructor; lia. Qed.
Lemma type_text_inj a b : type_text a = type_text b -> a = b.
Proof. destruct a, b; try reflexivity; intros E; discriminate E. Qed.
Lemma type_message_inj a b : type_message v a = type_message v b -> a = b.
Proof.
  intros E. destruct a as [e|x y|k|], b as [e'|x' y'|k'|]; cbn [type_message] in E; try discriminate E; try reflexivity.
  - apply app_inv_head in E. apply (t_json _ T) in E. congruence.
  - apply app_inv_head in E. apply (split_left (no 32%N)) in E as [E1 E2]; auto using type_text_words; try (intros H; apply H; reflexivity).
    apply app_inv_head in E2. apply type_text_inj in E1, E2. congruence.
  - apply app_inv_head in E. apply (t_kind _ T) in E. congruence.
Qed.
Lemma error_message_inj a b : error_message v a = error_message v b -> a = b.
Proof.
  unfold error_message. intros E. apply at_end in E as [E1 E2]; [|discriminate|no_digit]. apply type_message_inj in E2. destruct a, b. cbn in *. congruence.
Qed.
Lemma description_inj a r b q d : description v a r = Done d -> description v b q = Done d ->
  err_type a = err_type b /\ error_position r (err_index a) = error_position q (err_index b).
Proof.
  unfold description. destruct (error_position r (err_index a)) as [[l c]| |]; try discriminate.
  destruct (error_position q (err_index b)) as [[l' c']| |]; try discriminate. cbn [obind]. intros Ea Eb.
  assert (E : (type_message v (err_type a) ++ bs " at line " ++ show l) ++ bs " column " ++ show c = (type_message v (err_type b) ++ bs " at line " ++ show l') ++ bs " column " ++ show c')
    by (rewrite <- !app_assoc; congruence).
  apply at_end in E as [-> E]; [|discriminate|no_digit]. apply at_end in E as [-> E]; [|discriminate|no_digit].
  apply type_message_inj in E. auto.
Qed.

(** ** Scanning *)
Lemma scan_message_inj a b : scan_message v a = scan_message v b -> a = b.
Proof.
  intros E.
  destruct a as [e|p i|i|i m|i l|m i|k], b as [e'|p' i'|i'|i' m'|i' l'|m' i'|k']; cbn [scan_message] in E;
    try discriminate E;
    try (destruct e as [[?|? ?|?|] ?]; discriminate E); try (destruct e' as [[?|? ?|?|] ?]; discriminate E).
  - apply error_message_inj in E. congruence.
  - apply app_inv_head in E. apply at_end in E as [-> E]; [|discriminate|no_digit]. apply (t_peek _ T) in E. congruence.
  - apply app_inv_head in E. apply show_inj in E. congruence.
  - apply app_inv_head in E. apply front in E as [-> E]; [|no_digit..]. apply app_inv_head in E. apply bs_inj in E. congruence.
  - apply app_inv_head in E. apply front in E as [-> E]; [|no_digit..]. apply app_inv_head in E. apply show_N_inj in E. congruence.
  - apply app_inv_head in E. apply at_end in E as [-> E]; [|discriminate|no_digit]. apply bs_inj in E. congruence.
  - apply app_inv_head in E. apply (t_kind _ T) in E. congruence.
Qed.

(** ** Conversion *)
Lemma type_debug_words t : Forall (no 44%N) (type_debug t) /\ Forall (no 32%N) (type_debug t).
Proof. destruct t; split; cbv; repeat constructor; lia. Qed.
Lemma type_debug_inj a b : type_debug a = type_debug b -> a = b.
Proof. destruct a, b; try reflexivity; intros E; discriminate E. Qed.
Lemma not_in_all c l : ~ In c l -> Forall (no c) l.
Proof. intros H. apply Forall_forall. intros x Hx ->. contradiction. Qed.
Ltac other := intros H; apply H; reflexivity.
Lemma type_debug_front a b x y : type_debug_message v a ++ x = type_debug_message v b ++ y -> a = b /\ x = y.
Proof.
  intros E. destruct a as [e|t u|k|], b as [e'|t' u'|k'|]; cbn [type_debug_message] in E; rewrite <- ?app_assoc in E; try discriminate E.
  - apply app_inv_head in E. apply (split_left (no 41%N)) in E as [E1 E2]; auto using not_in_all, t_json_name; try other.
    apply (t_json_debug _ T) in E1. apply app_inv_head in E2. subst. auto.
  - apply app_inv_head in E. apply (split_left (no 44%N)) in E as [E1 E2]; try apply type_debug_words; try other.
    apply app_inv_head in E2. apply (split_left (no 32%N)) in E2 as [E2 E3]; try apply type_debug_words; try other.
    apply app_inv_head in E3. apply type_debug_inj in E1, E2. subst. auto.
  - apply app_inv_head in E. apply (split_left (no 32%N)) in E as [E1 E2]; auto using not_in_all, t_kind_name; try other.
    apply (t_kind_debug _ T) in E1. apply app_inv_head in E2. subst. auto.
  - apply app_inv_head in E. auto.
Qed.
(** The type descriptor is text, so that it is shown v as it is; a scan gives no error of the output, see [C82]. *)
Lemma conversion_message_inj a b : plain_context a -> plain_context b -> shown v a -> shown v b ->
  conversion_message v a = conversion_message v b -> a = b.
Proof.
  intros Pa Pb Sa Sb E.
  assert (Hscan : forall x y, y = CScan x -> shown v y -> conversion_message v a = conversion_message v y -> (exists z, a = CScan z) -> a = y).
  { intros x y -> _ E1 [z ->]. cbn [conversion_message] in E1. apply scan_message_inj in E1. congruence. }
  destruct a as [k c|k c|c [t|]|e], b as [k' c'|k' c'|c' [t'|]|e']; cbn [conversion_message plain_context shown] in *;
    try discriminate E; try (apply (Hscan e'); eauto; fail);
    try (destruct e as [[[?|? ?|?|] ?]|?|?|?|?|?|?]; solve [discriminate E|contradiction]);
    try (destruct e' as [[[?|? ?|?|] ?]|?|?|?|?|?|?]; solve [discriminate E|contradiction]).
  - apply app_inv_head in E. apply type_debug_front in E as [-> E]. apply app_inv_head in E. apply app_inv_tail in E. apply bs_inj in E. congruence.
  - apply app_inv_head in E. apply (split_left (no 32%N)) in E as [E1 E2]; auto using not_in_all, t_kind_name; try other.
    apply (t_kind_debug _ T) in E1. apply app_inv_head in E2. apply app_inv_tail in E2. apply bs_inj in E2. congruence.
  - apply app_inv_head in E. rewrite Sa, Sb in E.
    change (bs " (unknown type descriptor '") with (bs " (unknown type descriptor " ++ [39%N]) in E. rewrite <- !app_assoc, !(app_assoc (bs _) (bs " (unknown type descriptor ")) in E.
    apply (split_left (no 39%N)) in E as [E1 E2]; try other.
    + apply app_inv_tail in E1. apply app_inv_head in E2. apply app_inv_tail in E2. apply bs_inj in E1. congruence.
    + apply Forall_app. split; [apply not_in_all; exact Pa|cbv; repeat constructor; lia].
    + apply Forall_app. split; [apply not_in_all; exact Pb|cbv; repeat constructor; lia].
  - exfalso. apply app_inv_head in E. apply Pb. rewrite <- E. apply in_or_app. right. apply in_or_app. left. vm_compute. tauto.
  - exfalso. apply app_inv_head in E. apply Pa. rewrite E. apply in_or_app. right. apply in_or_app. left. vm_compute. tauto.
  - apply app_inv_head in E. apply bs_inj in E. congruence.
Qed.
End Parser.

(** ** The position in the message of the program *)
Lemma mentions_end x word n : word = " at position "%string \/ word = " at index "%string -> mentions (x ++ bs word ++ show n) n.
Proof. intros Hw. exists x, word, (show n), []. rewrite app_nil_r. split; [reflexivity|]. split; [exact Hw|]. split; [apply show_numeral|]. split; [apply value_show|exact I]. Qed.
Lemma mentions_inside x n y : match y with [] => True | c :: _ => ~ (48 <= c <= 57)%N end -> mentions (x ++ bs " at position " ++ show n ++ y) n.
Proof. intros Hy. exists x, " at position "%string, (show n), y. split; [reflexivity|]. split; [auto|]. split; [apply show_numeral|]. split; [apply value_show|exact Hy]. Qed.
Lemma scan_mentions v e r : (forall k, e <> IOError k) -> mentions (scan_message v e) (error_position_of e r).
Proof.
  intros H. destruct e as [e|p i|i|i m|i l|m i|k]; cbn [scan_message error_position_of].
  - unfold error_message. apply mentions_end. auto.
  - rewrite app_assoc. apply mentions_end. auto.
  - apply (mentions_end (bs "Unbalanced JSON") " at position " i). auto.
  - apply (mentions_inside (bs "Internal error") i (bs ": " ++ bs m)). cbn. lia.
  - apply (mentions_inside (bs "Max nesting exceeded") i (bs " with level " ++ show_N l)). cbn. lia.
  - rewrite app_assoc. apply mentions_end. auto.
  - exfalso. apply (H k). reflexivity.
Qed.

(** ** The errors of a scan *)
Definition honest {B} (s : sstate B) (e : scan_error) : Prop :=
  match e with
  | RJiterError _ => True
  | IOError _ => False
  | UnhandledPeek _ i | UnbalancedJson i | InternalError i _ | MaxNestingExceeded i _ | ActionError _ i => i = current_index (parser s)
  end.
Definition honestly {B X} (x : sres B X) : Prop := forall s e, x = Done (s, Err e) -> honest s e.
Lemma honestly_bind {B X Y} (x : sres B X) (f : sstate B -> X -> sres B Y) : honestly x -> (forall s v, honestly (f s v)) -> honestly (sbind x f).
Proof. intros Hx Hf s e E. destruct x as [[s1 [v|e1]]| |]; cbn [sbind] in E; try discriminate; [eapply Hf; exact E|injection E as <- <-; apply Hx; reflexivity]. Qed.
Lemma honestly_obind {B X Y} (x : outcome Y) (f : Y -> sres B X) : (forall y, honestly (f y)) -> honestly (do y <- x; f y).
Proof. intros Hf s e E. destruct x as [y| |]; cbn [obind] in E; try discriminate. eapply Hf. exact E. Qed.
Ltac plain_end := let s := fresh in let e := fresh in let E := fresh in intros s e E; try discriminate E; injection E as <- <-; cbn [honest parser]; reflexivity || exact I.
Lemma run_begin_honest {B} (cb : callbacks B) name s : honestly (run_begin cb name s).
Proof.
  unfold run_begin. apply honestly_obind. intros c. destruct (find_action cb name c (user s)) as [u [a|]]; [|plain_end].
  apply honestly_obind. intros [[r u'] op]. destruct op; plain_end.
Qed.
Lemma run_end_action_honest {B} (a : option (end_action B)) s : honestly (run_end_action a s).
Proof. destruct a as [a|]; [|plain_end]. cbn [run_end_action]. apply honestly_obind. intros [u [[]|m]]; plain_end. Qed.
Lemma run_end_honest {B} (cb : callbacks B) name s : honestly (run_end cb name s).
Proof. unfold run_end. apply honestly_obind. intros [s1 a]. apply run_end_action_honest. Qed.
Lemma top_position_honest {B} m (s : sstate B) : honestly (top_position m s).
Proof. unfold top_position. apply honestly_obind. intros [a|]; [|plain_end]. destruct (pos_of a); plain_end. Qed.
Lemma parse_honest {B X} (op : rj -> outcome (rj * result X rerror)) (s : sstate B) : honestly (parse op s).
Proof. unfold parse. apply honestly_obind. intros [r [x|e]]; plain_end. Qed.
Ltac object_rest :=
  apply honestly_bind;
  [first [plain_end|apply honestly_obind; intros [? ?]; apply honestly_obind; intros [? ?]; apply run_end_action_honest]|];
  intros ? []; apply honestly_bind; [apply parse_honest|]; intros ? [?|];
  [apply honestly_obind; intros [? [?|er]]; [apply honestly_bind; [apply run_begin_honest|intros; plain_end]|destruct er; plain_end]
  |apply honestly_bind; [apply run_end_honest|intros ? []; apply top_position_honest]].
Lemma handle_object_honest {B} (cb : callbacks B) pos s : honestly (handle_object cb pos s).
Proof.
  unfold handle_object. cbv zeta. destruct (pos_eqb pos ObjectBegin); [|object_rest].
  apply honestly_bind; [apply run_begin_honest|]. intros s1 [|]; [apply top_position_honest|object_rest].
Qed.
Ltac array_rest :=
  apply honestly_bind; [apply parse_honest|]; intros ? [?|]; [plain_end|];
  apply honestly_obind; intros [? [?|]]; [|plain_end]; apply honestly_bind; [apply run_end_honest|]; intros ? [];
  apply honestly_bind; [apply top_position_honest|intros; plain_end].
Lemma handle_array_honest {B} (cb : callbacks B) pos s : honestly (handle_array cb pos s).
Proof.
  unfold handle_array. cbv zeta. destruct (pos_eqb pos ArrayBegin); [|array_rest].
  apply honestly_bind; [apply run_begin_honest|]. intros s1 [|].
  - apply honestly_bind; [apply top_position_honest|]. intros; plain_end.
  - apply honestly_obind. intros [p [u|er]]; [array_rest|plain_end].
Qed.
Definition fairly {B} (x : sverdict B) : Prop := forall s e, x = Done (s, Return (Err e)) -> honest s e.
Lemma fairly_bind {B X} (x : sres B X) (f : sstate B -> X -> sverdict B) : honestly x -> (forall s v, fairly (f s v)) -> fairly (vbind x f).
Proof. intros Hx Hf s e E. destruct x as [[s1 [v|e1]]| |]; cbn [vbind] in E; try discriminate; [eapply Hf; exact E|injection E as <- <-; apply Hx; reflexivity]. Qed.
Lemma fairly_obind {B Y} (x : outcome Y) (f : Y -> sverdict B) : (forall y, fairly (f y)) -> fairly (do y <- x; f y).
Proof. intros Hf s e E. destruct x as [y| |]; cbn [obind] in E; try discriminate. eapply Hf. exact E. Qed.
Lemma scan_value_fair {B} (cb : callbacks B) o pos x s : fairly (scan_value cb o pos x s).
Proof.
  unfold scan_value. destruct (N.eqb x LBRACK); [plain_end|]. destruct (N.eqb x LBRACE); [plain_end|].
  apply fairly_bind; [apply run_begin_honest|]. intros s1 [|]; [plain_end|]. apply fairly_obind. intros [s2 [[]|e]]; [plain_end|].
  apply fairly_obind. intros [s3 [|]]; plain_end.
Qed.
Lemma scan_iter_fair {B} (cb : callbacks B) o pos s : fairly (scan_iter cb o pos s).
Proof.
  assert (Ho : fairly (vbind (handle_object cb pos s) (fun s p => Done (s, Continue p)))) by (apply fairly_bind; [apply handle_object_honest|intros; plain_end]).
  assert (Ha : fairly (vbind (handle_array cb pos s)
        (fun s r =>
           match r with
           | (Some x, ArrayMiddle) => scan_value cb o ArrayMiddle x s
           | (None, p) => Done (s, Continue p)
           | _ => Done (s, Return (Err (InternalError (current_index (parser s)) "Unexpected position from handle_array")))
           end))).
  { apply fairly_bind; [apply handle_array_honest|]. intros s1 [[x|] p]; [destruct p; try plain_end; apply scan_value_fair|plain_end]. }
  assert (Hv : fairly (do (r, v) <- peek (parser s);
      let s := mkS r (user s) (stack s) in
      match v with
      | Ok x => scan_value cb o pos x s
      | Err e =>
          match err_type e with
          | JsonError EofWhileParsingValue =>
              if pos_eqb pos Top then vbind (parse finish s) (fun s _ => Done (s, Return (Ok tt)))
              else Done (s, Return (Err (UnbalancedJson (current_index r))))
          | _ => Done (s, Return (Err (RJiterError e)))
          end
      end)).
  { apply fairly_obind. intros [r [x|e]]; [apply scan_value_fair|]. cbv zeta.
    destruct (err_type e) as [j|t t'|k|]; try plain_end. destruct j; try plain_end.
    destruct (pos_eqb pos Top); [|plain_end]. apply fairly_bind; [apply parse_honest|intros; plain_end]. }
  destruct pos; assumption.
Qed.
Lemma scan_loop_honest {B} (cb : callbacks B) o fuel : forall p pos s, honestly (scan_loop cb o fuel p pos s).
Proof.
  induction fuel as [|fuel IH]; intros p pos s s' e E; [discriminate|]. cbn [scan_loop] in E.
  destruct (p && stop_early o && pos_eqb pos Top); [discriminate|].
  destruct (scan_iter cb o pos s) as [[s1 [q|r]]| |] eqn:E1; try discriminate; [eapply IH; exact E|].
  injection E as <- ->. eapply scan_iter_fair. exact E1.
Qed.
Lemma scan_honest {B} (cb : callbacks B) o fuel s : honestly (scan cb o fuel s).
Proof. unfold scan. apply honestly_obind. intros [p [u|er]]; [apply scan_loop_honest|plain_end]. Qed.
