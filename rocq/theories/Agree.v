(** Two sets of callbacks that do the same unless the first panics: so do two scans. *)
From Verif Require Import Base U8Pool Buffer Jiter RJiter Scan.

Section Agree.
Context {B : Type} (bound : nat) (I : nat -> B -> Prop) (Hmono : forall n m u, n <= m -> I n u -> I m u) (cb cb' : callbacks B).
(** The state is in [I n] after [n] callbacks. *)
Record agreeing : Prop := {
  ag_begin : forall n name x u, n < bound -> I n u ->
    match find_action cb name x u, find_action cb' name x u with
    | (u1, None), (u2, None) => u1 = u2 /\ I (S n) u1
    | (u1, Some f), (u2, Some g) => u1 = u2 /\ forall r, f r u1 = Panic \/ (f r u1 = g r u1 /\ match f r u1 with Done (_, u', _) => I (S n) u' | _ => True end)
    | _, _ => False
    end;
  ag_end : forall n name x u, n < bound -> I n u ->
    match find_end_action cb name x u, find_end_action cb' name x u with
    | (u1, None), (u2, None) => u1 = u2 /\ I (S n) u1
    | (u1, Some f), (u2, Some g) => u1 = u2 /\ (f u1 = Panic \/ (f u1 = g u1 /\ match f u1 with Done (u', _) => I (S n) u' | _ => True end))
    | _, _ => False
    end }.
Context (Hag : agreeing).
Definition agree {X} (n : nat) (x y : outcome (sstate B * X)) : Prop :=
  x = Panic \/ (x = y /\ match x with Done (s, _) => I n (user s) | _ => True end).
Lemma agree_done {X} n s (v : X) : I n (user s) -> agree n (Done (s, v)) (Done (s, v)).
Proof. right. auto. Qed.
Lemma agree_mono {X} n m (x y : outcome (sstate B * X)) : n <= m -> agree n x y -> agree m x y.
Proof. intros H [E|(E & P)]; [left; exact E|right]. split; [exact E|]. destruct x as [[s v]| |]; [eauto|exact P|exact P]. Qed.
Lemma agree_sbind {X Y} n m (x y : sres B X) (f g : sstate B -> X -> sres B Y) : n <= m -> agree n x y ->
  (forall s v, I n (user s) -> agree m (f s v) (g s v)) -> agree m (sbind x f) (sbind y g).
Proof.
  intros Hnm [->|(<- & P)] H; [left; reflexivity|]. destruct x as [[s [v|e]]| |]; cbn [sbind]; [apply H, P|apply agree_done; eauto|left; reflexivity|right; auto].
Qed.
Lemma agree_vbind {X} n m (x y : sres B X) (f g : sstate B -> X -> sverdict B) : n <= m -> agree n x y ->
  (forall s v, I n (user s) -> agree m (f s v) (g s v)) -> agree m (vbind x f) (vbind y g).
Proof.
  intros Hnm [->|(<- & P)] H; [left; reflexivity|]. destruct x as [[s [v|e]]| |]; cbn [vbind]; [apply H, P|apply agree_done; eauto|left; reflexivity|right; auto].
Qed.
Lemma agree_obind {X Y} n (x : outcome X) (f g : X -> outcome (sstate B * Y)) : (forall v, agree n (f v) (g v)) -> agree n (obind x f) (obind x g).
Proof. intros H. destruct x; cbn [obind]; [apply H|left; reflexivity|right; auto]. Qed.
Lemma agree_parse {X} n (op : rj -> outcome (rj * result X rerror)) s : I n (user s) -> agree n (parse op s) (parse op s).
Proof. intros H. unfold parse. apply agree_obind. intros [r v]. apply agree_done, H. Qed.
Lemma agree_position n m s : I n (user s) -> agree n (top_position m s) (top_position m s).
Proof.
  intros H. unfold top_position. apply agree_obind. intros [a|]; [|apply agree_done, H]. destruct (pos_of a); [apply agree_done, H|left; reflexivity].
Qed.

Lemma agree_begin n name s : n < bound -> I n (user s) -> agree (S n) (run_begin cb name s) (run_begin cb' name s).
Proof.
  intros Hn HI. unfold run_begin. apply agree_obind. intros x. pose proof (ag_begin Hag n name x (user s) Hn HI) as H.
  destruct (find_action cb name x (user s)) as [u1 [f|]], (find_action cb' name x (user s)) as [u2 [g|]]; try contradiction.
  - destruct H as (<- & H). destruct (H (parser s)) as [E|(E & P)]; [rewrite E; left; reflexivity|]. rewrite <- E. destruct (f (parser s) u1) as [[[r u'] op]| |]; cbn [obind].
    + apply agree_done, P.
    + left; reflexivity.
    + right; auto.
  - destruct H as (<- & H). apply agree_done, H.
Qed.
Lemma agree_end_pop {Y} n name s (h : pool -> outcome (pool * Y)) : n < bound -> I n (user s) ->
  agree (S n) (do (s1, a) <- look_up_end cb name s; do (p, _) <- h (stack s1); run_end_action a (mkS (parser s1) (user s1) p))
    (do (s1, a) <- look_up_end cb' name s; do (p, _) <- h (stack s1); run_end_action a (mkS (parser s1) (user s1) p)).
Proof.
  intros Hn HI. unfold look_up_end. destruct (context_of (stack s)) as [x| |]; cbn [obind]; [|left; reflexivity|right; auto].
  pose proof (ag_end Hag n name x (user s) Hn HI) as H.
  destruct (find_end_action cb name x (user s)) as [u1 [f|]], (find_end_action cb' name x (user s)) as [u2 [g|]]; try contradiction; cbn [obind parser user stack].
  - destruct H as (<- & H). apply agree_obind. intros [p y]. cbn [run_end_action user]. destruct H as [E|(E & P)]; [rewrite E; left; reflexivity|]. rewrite <- E.
    destruct (f u1) as [[u' v]| |]; cbn [obind]; [apply agree_done, P|left; reflexivity|right; auto].
  - destruct H as (<- & H). apply agree_obind. intros [p y]. apply agree_done, H.
Qed.
Lemma agree_end n name s : n < bound -> I n (user s) -> agree (S n) (run_end cb name s) (run_end cb' name s).
Proof.
  intros Hn HI. pose proof (agree_end_pop n name s (fun p => Done (p, tt)) Hn HI) as H. unfold run_end.
  assert (E : forall c : callbacks B, (do (s1, a) <- look_up_end c name s; do (p, _) <- Done (stack s1, tt); run_end_action a (mkS (parser s1) (user s1) p)) = (do (s1, a) <- look_up_end c name s; run_end_action a s1)).
  { intros c. destruct (look_up_end c name s) as [[[r u p] a]| |]; reflexivity. }
  rewrite !E in H. exact H.
Qed.

Lemma agree_object n pos s : n + 3 <= bound -> I n (user s) -> agree (n + 3) (handle_object cb pos s) (handle_object cb' pos s).
Proof.
  intros Hn HI.
  assert (HK : forall (op : rj -> outcome (rj * result (option bytes) rerror)) k s, k < n + 2 -> I (S k) (user s) -> agree (n + 3)
    (sbind (parse op s) (fun s keyr =>
      match keyr with
      | None => sbind (run_end cb PObject s) (fun s _ => top_position "Context stack is empty when ending object" s)
      | Some key =>
          do (p, pushed) <- push_assoc (stack s) pos_ty [pos_code ObjectMiddle] key;
          let s := mkS (parser s) (user s) p in
          match pushed with
          | Err (SliceLimitExceeded max) => Done (s, Err (MaxNestingExceeded (current_index (parser s)) max))
          | Err _ => Done (s, Err (InternalError (current_index (parser s)) "Failed to push key to context pool"))
          | Ok _ => sbind (run_begin cb PNone s) (fun s consumed => Done (s, Ok (if consumed then ObjectMiddle else ObjectBetweenKV)))
          end
      end))
    (sbind (parse op s) (fun s keyr =>
      match keyr with
      | None => sbind (run_end cb' PObject s) (fun s _ => top_position "Context stack is empty when ending object" s)
      | Some key =>
          do (p, pushed) <- push_assoc (stack s) pos_ty [pos_code ObjectMiddle] key;
          let s := mkS (parser s) (user s) p in
          match pushed with
          | Err (SliceLimitExceeded max) => Done (s, Err (MaxNestingExceeded (current_index (parser s)) max))
          | Err _ => Done (s, Err (InternalError (current_index (parser s)) "Failed to push key to context pool"))
          | Ok _ => sbind (run_begin cb' PNone s) (fun s consumed => Done (s, Ok (if consumed then ObjectMiddle else ObjectBetweenKV)))
          end
      end))).
  { clear s HI. intros op k s Hk HI. eapply agree_sbind; [|apply agree_parse, HI|]; [lia|]. clear s HI. intros s key HI. destruct key as [key|].
    - apply agree_obind. intros [p pushed]. cbv zeta. destruct pushed as [u|e]; [|destruct e; apply agree_done; cbn [user]; (apply (Hmono (S k)); [lia|exact HI])].
      apply (agree_mono (S (S k))); [lia|]. eapply agree_sbind; [apply le_n|apply agree_begin; [lia|exact HI]|]. intros s1 consumed H1. apply agree_done, H1.
    - apply (agree_mono (S (S k))); [lia|]. eapply agree_sbind; [apply le_n|apply agree_end; [lia|exact HI]|]. intros s1 consumed H1. apply agree_position, H1. }
  unfold handle_object. destruct (pos_eqb pos ObjectBegin).
  - eapply agree_sbind; [|apply agree_begin; [|exact HI]|]; [lia|lia|]. clear s HI. intros s consumed HI. destruct consumed.
    + apply (agree_mono (S n)); [lia|]. apply agree_position, HI.
    + cbn [sbind]. apply (HK next_object_bytes n s); [lia|exact HI].
  - eapply agree_sbind; [|apply (agree_end_pop n PNone s (fun p => pop_assoc p pos_ty)); [lia|exact HI]|]; [lia|].
    clear s HI. intros s u HI. apply (HK next_key_bytes n s); [lia|exact HI].
Qed.
Lemma agree_array n pos s : n + 2 <= bound -> I n (user s) -> agree (n + 2) (handle_array cb pos s) (handle_array cb' pos s).
Proof.
  intros Hn HI.
  assert (HK : forall (op : rj -> outcome (rj * result (option byte) rerror)) s, I (S n) (user s) -> agree (n + 2)
    (sbind (parse op s) (fun s peeked =>
      match peeked with
      | Some x => Done (s, Ok (Some x, ArrayMiddle))
      | None =>
          do (p, popped) <- pop_assoc (stack s) pos_ty;
          let s := mkS (parser s) (user s) p in
          match popped with
          | None => Done (s, Err (InternalError (current_index (parser s)) "Context stack is empty when ending array"))
          | Some _ => sbind (run_end cb PArray s) (fun s _ => sbind (top_position "Context stack is empty when ending array" s) (fun s p => Done (s, Ok (None, p))))
          end
      end))
    (sbind (parse op s) (fun s peeked =>
      match peeked with
      | Some x => Done (s, Ok (Some x, ArrayMiddle))
      | None =>
          do (p, popped) <- pop_assoc (stack s) pos_ty;
          let s := mkS (parser s) (user s) p in
          match popped with
          | None => Done (s, Err (InternalError (current_index (parser s)) "Context stack is empty when ending array"))
          | Some _ => sbind (run_end cb' PArray s) (fun s _ => sbind (top_position "Context stack is empty when ending array" s) (fun s p => Done (s, Ok (None, p))))
          end
      end))).
  { clear s HI. intros op s HI. eapply agree_sbind; [|apply agree_parse, HI|]; [lia|]. clear s HI. intros s [x|] HI.
    - apply agree_done. apply (Hmono (S n)); [lia|exact HI].
    - apply agree_obind. intros [p popped]. cbv zeta. destruct popped as [u|]; [|apply agree_done; cbn [user]; (apply (Hmono (S n)); [lia|exact HI])].
      apply (agree_mono (S (S n))); [lia|]. eapply agree_sbind; [apply le_n|apply agree_end; [lia|exact HI]|]. intros s1 v H1.
      eapply agree_sbind; [apply le_n|apply agree_position, H1|]. intros s2 p2 H2. apply agree_done, H2. }
  unfold handle_array. destruct (pos_eqb pos ArrayBegin).
  - eapply agree_sbind; [|apply agree_begin; [|exact HI]|]; [lia|lia|]. clear s HI. intros s consumed HI. destruct consumed.
    + apply (agree_mono (S n)); [lia|]. eapply agree_sbind; [apply le_n|apply agree_position, HI|]. intros s2 p2 H2. apply agree_done, H2.
    + apply agree_obind. intros [p pushed]. cbv zeta. destruct pushed as [u|e]; [|apply agree_done; cbn [user]; (apply (Hmono (S n)); [lia|exact HI])].
      apply (HK known_array). exact HI.
  - apply (HK array_step). apply (Hmono n); [lia|exact HI].
Qed.
Lemma basic_user peeked (s : sstate B) : match skip_basic_values peeked s with Done (s', _) => user s' = user s | _ => True end.
Proof.
  assert (HP : forall X (op : rj -> outcome (rj * result X rerror)), match sbind (parse op s) (fun s _ => Done (s, Ok tt)) with Done (s', _) => user s' = user s | _ => True end).
  { intros Y op. unfold parse. destruct (op (parser s)) as [[r [v|e]]| |]; cbn [obind sbind]; auto. }
  unfold skip_basic_values. repeat match goal with |- context [if ?b then _ else _] => destruct b end; try apply HP.
  destruct (next_number_bytes (parser s)) as [[r [v|e]]| |]; cbn [obind]; auto.
Qed.
Lemma tokens_user tokens : forall s : sstate B, match skip_tokens tokens s with Done (s', _) => user s' = user s | _ => True end.
Proof.
  induction tokens as [|t ts IH]; intros s; cbn [skip_tokens]; [reflexivity|]. destruct (known_skip_token t (parser s)) as [[r [v|e]]| |]; cbn [obind]; auto.
  exact (IH (mkS r (user s) (stack s))).
Qed.
Lemma agree_value o n pos peeked s : n < bound -> I n (user s) -> agree (S n) (scan_value cb o pos peeked s) (scan_value cb' o pos peeked s).
Proof.
  intros Hn HI. unfold scan_value. destruct (N.eqb peeked LBRACK); [apply agree_done; eauto|]. destruct (N.eqb peeked LBRACE); [apply agree_done; eauto|].
  eapply agree_vbind; [|apply agree_begin; [exact Hn|exact HI]|]; [apply le_n|]. clear s HI. intros s consumed HI. destruct consumed; [apply agree_done, HI|].
  pose proof (basic_user peeked s) as HU. destruct (skip_basic_values peeked s) as [[s1 [v|e]]| |]; cbn [obind]; [|  |left; reflexivity|right; auto].
  - apply agree_done. rewrite HU. exact HI.
  - assert (HT : forall x : outcome (sstate B * bool), match x with Done (s', _) => user s' = user s | _ => True end ->
      agree (S n) (do (s, skipped) <- x; if skipped : bool then Done (s, Continue (match pos with ObjectBetweenKV => ObjectMiddle | p => p end)) else Done (s, Return (Err (UnhandledPeek peeked (current_index (parser s))))))
        (do (s, skipped) <- x; if skipped : bool then Done (s, Continue (match pos with ObjectBetweenKV => ObjectMiddle | p => p end)) else Done (s, Return (Err (UnhandledPeek peeked (current_index (parser s))))))).
    { intros x Hx. destruct x as [[s2 b]| |]; cbn [obind]; [|left; reflexivity|right; auto]. destruct b; apply agree_done; rewrite Hx; exact HI. }
    apply HT. rewrite <- HU. destruct (_ || _)%bool; [apply tokens_user|reflexivity].
Qed.
Lemma agree_iter o n pos s : n + 3 <= bound -> I n (user s) -> agree (n + 3) (scan_iter cb o pos s) (scan_iter cb' o pos s).
Proof.
  intros Hn HI.
  assert (HV : forall pos, agree (n + 3)
    (do (r, v) <- peek (parser s);
      let s := mkS r (user s) (stack s) in
      match v with
      | Ok x => scan_value cb o pos x s
      | Err e =>
          match err_type e with
          | JsonError EofWhileParsingValue =>
              if pos_eqb pos Top then vbind (parse finish s) (fun s _ => Done (s, Return (Ok tt)))
              else Done (s, Return (Err (UnbalancedJson (current_index r))))
          | _ => Done (s, Return (Err (RJiterError e)))
          end
      end)
    (do (r, v) <- peek (parser s);
      let s := mkS r (user s) (stack s) in
      match v with
      | Ok x => scan_value cb' o pos x s
      | Err e =>
          match err_type e with
          | JsonError EofWhileParsingValue =>
              if pos_eqb pos Top then vbind (parse finish s) (fun s _ => Done (s, Return (Ok tt)))
              else Done (s, Return (Err (UnbalancedJson (current_index r))))
          | _ => Done (s, Return (Err (RJiterError e)))
          end
      end)).
  { intros p. apply agree_obind. intros [r v]. cbv zeta. assert (HI' : I (n + 3) (user s)) by (apply (Hmono n); [lia|exact HI]).
    destruct v as [x|e]; [apply (agree_mono (S n)); [lia|]; apply agree_value; [lia|exact HI]|].
    destruct (err_type e) as [j| | |]; try (apply agree_done; exact HI'). destruct j; try (apply agree_done; exact HI').
    destruct (pos_eqb p Top); [|apply agree_done; exact HI']. eapply agree_vbind; [|apply agree_parse; exact HI|]; [lia|]. intros s1 v H1. apply agree_done, (Hmono n); [lia|exact H1]. }
  assert (HO : forall p, agree (n + 3) (vbind (handle_object cb p s) (fun s p => Done (s, Continue p))) (vbind (handle_object cb' p s) (fun s p => Done (s, Continue p)))).
  { intros p. eapply agree_vbind; [apply le_n|apply agree_object; [exact Hn|exact HI]|]. intros s1 p1 H1. apply agree_done, H1. }
  assert (HA : forall p, agree (n + 3)
     (vbind (handle_array cb p s) (fun s r => match r with (Some x, ArrayMiddle) => scan_value cb o ArrayMiddle x s | (None, p) => Done (s, Continue p)
           | _ => Done (s, Return (Err (InternalError (current_index (parser s)) "Unexpected position from handle_array"))) end))
     (vbind (handle_array cb' p s) (fun s r => match r with (Some x, ArrayMiddle) => scan_value cb' o ArrayMiddle x s | (None, p) => Done (s, Continue p)
           | _ => Done (s, Return (Err (InternalError (current_index (parser s)) "Unexpected position from handle_array"))) end))).
  { intros p. eapply agree_vbind; [|apply agree_array; [|exact HI]|]; [lia|lia|]. intros s1 [[x|] q] H1; [|apply agree_done, (Hmono (n + 2)); [lia|exact H1]].
    destruct q; try (apply agree_done, (Hmono (n + 2)); [lia|exact H1]). apply (agree_mono (S (n + 2))); [lia|]. apply agree_value; [lia|exact H1]. }
  destruct pos; cbn [scan_iter]; [apply HV|apply HO|apply HO|apply HV|apply HA|apply HA].
Qed.
Lemma agree_loop o fuel : forall n b pos s, n + 3 * fuel <= bound -> I n (user s) ->
  agree bound (scan_loop cb o fuel b pos s) (scan_loop cb' o fuel b pos s).
Proof.
  induction fuel as [|fuel IH]; intros n b pos s Hn HI; cbn [scan_loop]; [right; auto|].
  destruct (b && stop_early o && pos_eqb pos Top)%bool; [apply agree_done, (Hmono n); [lia|exact HI]|].
  destruct (agree_iter o n pos s ltac:(lia) HI) as [->|(<- & P)]; [left; reflexivity|].
  destruct (scan_iter cb o pos s) as [[s1 [p|r]]| |]; [|apply agree_done, (Hmono (n + 3)); [lia|exact P]|left; reflexivity|right; auto].
  apply (IH (n + 3)); [lia|exact P].
Qed.
Lemma agree_scan o fuel n s : n + 3 * fuel <= bound -> I n (user s) -> agree bound (scan cb o fuel s) (scan cb' o fuel s).
Proof.
  intros Hn HI. unfold scan. apply agree_obind. intros [p pushed]. cbv zeta. destruct pushed as [u|e]; [apply (agree_loop o fuel n); [exact Hn|exact HI]|].
  apply agree_done. apply (Hmono n); [lia|exact HI].
Qed.
End Agree.
