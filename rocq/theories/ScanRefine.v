(** Callbacks that differ only where one of them gives up: a scan that succeeds is the same with both. *)
From Verif Require Import Base U8Pool Buffer Jiter RJiter Scan ScanSpec.

Section Refine.
Context {B : Type} (cb cb' : callbacks B).
(** [cb'] does what [cb] does, or answers with an error. *)
Definition stricter : Prop :=
  (forall name c u, find_end_action cb' name c u = find_end_action cb name c u) /\
  (forall name c u, match find_action cb' name c u, find_action cb name c u with
     | (u1, None), (u2, None) => u1 = u2
     | (u1, Some f'), (u2, Some f) => u1 = u2 /\
         forall r, f' r u1 = f r u1 \/ exists r' u' message, f' r u1 = Done (r', u', OpError message)
     | _, _ => False
     end).
Context (HS : stricter).
Definition follows {X} (x' x : sres B X) : Prop := forall s v, x' = Done (s, Ok v) -> x = Done (s, Ok v).
Definition fine (v : verdict) : Prop := match v with Return (Err _) => False | _ => True end.
Definition follows_verdict (x' x : sverdict B) : Prop := forall s v, x' = Done (s, v) -> fine v -> x = Done (s, v).
Lemma follows_refl {X} (x : sres B X) : follows x x.
Proof. intros s v H. exact H. Qed.
Lemma verdict_refl (x : sverdict B) : follows_verdict x x.
Proof. intros s v H _. exact H. Qed.
Lemma follows_bind {X Y} (x' x : sres B X) (f' f : sstate B -> X -> sres B Y) : follows x' x -> (forall s v, follows (f' s v) (f s v)) ->
  follows (sbind x' f') (sbind x f).
Proof.
  intros H Hf s v. unfold sbind. destruct x' as [[s1 [a|e]]| |]; try discriminate. rewrite (H _ _ eq_refl). apply Hf.
Qed.
Lemma verdict_bind {X} (x' x : sres B X) (f' f : sstate B -> X -> sverdict B) : follows x' x -> (forall s v, follows_verdict (f' s v) (f s v)) ->
  follows_verdict (vbind x' f') (vbind x f).
Proof.
  intros H Hf s v. unfold vbind. destruct x' as [[s1 [a|e]]| |]; try discriminate; [rewrite (H _ _ eq_refl); apply Hf|].
  intros E. injection E as _ <-. intros [].
Qed.
Lemma do_follows {X Y} (x : outcome X) (f' f : X -> sres B Y) : (forall v, follows (f' v) (f v)) ->
  follows (obind x f') (obind x f).
Proof. intros H. destruct x; cbn [obind]; [apply H|apply follows_refl|apply follows_refl]. Qed.
Lemma do_verdict {X} (x : outcome X) (f' f : X -> sverdict B) : (forall v, follows_verdict (f' v) (f v)) -> follows_verdict (obind x f') (obind x f).
Proof. intros H. destruct x; cbn [obind]; [apply H|apply verdict_refl|apply verdict_refl]. Qed.

Lemma begin_follows name s : follows (run_begin cb' name s) (run_begin cb name s).
Proof.
  unfold run_begin. apply do_follows. intros c. destruct HS as (_ & H). specialize (H name c (user s)).
  destruct (find_action cb' name c (user s)) as [u1 [f'|]], (find_action cb name c (user s)) as [u2 [f|]]; try contradiction.
  - destruct H as (-> & H). destruct (H (parser s)) as [->|(r' & u' & m & ->)]; [apply follows_refl|]. intros s' v E. discriminate E.
  - subst. apply follows_refl.
Qed.
Lemma look_up_same name s : look_up_end cb' name s = look_up_end cb name s.
Proof. unfold look_up_end. destruct (context_of (stack s)); [|reflexivity|reflexivity]. cbn [obind]. rewrite (proj1 HS). reflexivity. Qed.
Lemma end_same name s : run_end cb' name s = run_end cb name s.
Proof. unfold run_end. rewrite look_up_same. reflexivity. Qed.
Lemma object_follows pos s : follows (handle_object cb' pos s) (handle_object cb pos s).
Proof.
  unfold handle_object.
  assert (HR : forall s, follows
    (sbind (if pos_eqb pos ObjectBegin then Done (s, Ok tt)
            else do (s1, a) <- look_up_end cb' PNone s; do (p, _) <- pop_assoc (stack s1) pos_ty; run_end_action a (mkS (parser s1) (user s1) p))
       (fun s _ => sbind (parse (if pos_eqb pos ObjectBegin then next_object_bytes else next_key_bytes) s)
          (fun s keyr => match keyr with
             | None => sbind (run_end cb' PObject s) (fun s _ => top_position "Context stack is empty when ending object" s)
             | Some key =>
                 do (p, pushed) <- push_assoc (stack s) pos_ty [pos_code ObjectMiddle] key;
                 match pushed with
                 | Err (SliceLimitExceeded max) => Done (mkS (parser s) (user s) p, Err (MaxNestingExceeded (current_index (parser s)) max))
                 | Err _ => Done (mkS (parser s) (user s) p, Err (InternalError (current_index (parser s)) "Failed to push key to context pool"))
                 | Ok _ => sbind (run_begin cb' PNone (mkS (parser s) (user s) p)) (fun s consumed => Done (s, Ok (if consumed then ObjectMiddle else ObjectBetweenKV)))
                 end
             end)))
    (sbind (if pos_eqb pos ObjectBegin then Done (s, Ok tt)
            else do (s1, a) <- look_up_end cb PNone s; do (p, _) <- pop_assoc (stack s1) pos_ty; run_end_action a (mkS (parser s1) (user s1) p))
       (fun s _ => sbind (parse (if pos_eqb pos ObjectBegin then next_object_bytes else next_key_bytes) s)
          (fun s keyr => match keyr with
             | None => sbind (run_end cb PObject s) (fun s _ => top_position "Context stack is empty when ending object" s)
             | Some key =>
                 do (p, pushed) <- push_assoc (stack s) pos_ty [pos_code ObjectMiddle] key;
                 match pushed with
                 | Err (SliceLimitExceeded max) => Done (mkS (parser s) (user s) p, Err (MaxNestingExceeded (current_index (parser s)) max))
                 | Err _ => Done (mkS (parser s) (user s) p, Err (InternalError (current_index (parser s)) "Failed to push key to context pool"))
                 | Ok _ => sbind (run_begin cb PNone (mkS (parser s) (user s) p)) (fun s consumed => Done (s, Ok (if consumed then ObjectMiddle else ObjectBetweenKV)))
                 end
             end)))).
  { clear s. intros s. rewrite look_up_same. apply follows_bind; [apply follows_refl|]. clear s. intros s _. apply follows_bind; [apply follows_refl|].
    clear s. intros s [key|]; [|rewrite end_same; apply follows_refl].
    apply do_follows. intros [p [x|e]]; [|apply follows_refl]. apply follows_bind; [apply begin_follows|]. intros s' v. apply follows_refl. }
  cbv zeta. destruct (pos_eqb pos ObjectBegin); [|apply HR].
  apply follows_bind; [apply begin_follows|]. clear s. intros s [|]; [apply follows_refl|]. apply HR.
Qed.
Lemma array_follows pos s : follows (handle_array cb' pos s) (handle_array cb pos s).
Proof.
  unfold handle_array. cbv zeta.
  assert (HR : forall (k : rj -> outcome (rj * result (option byte) rerror)) s, follows
    (sbind (parse k s) (fun s peeked => match peeked with
       | Some x => Done (s, Ok (Some x, ArrayMiddle))
       | None => do (p, popped) <- pop_assoc (stack s) pos_ty;
           match popped with
           | None => Done (mkS (parser s) (user s) p, Err (InternalError (current_index (parser (mkS (parser s) (user s) p))) "Context stack is empty when ending array"))
           | Some _ => sbind (run_end cb' PArray (mkS (parser s) (user s) p)) (fun s _ =>
               sbind (top_position "Context stack is empty when ending array" s) (fun s p => Done (s, Ok (None, p))))
           end
       end))
    (sbind (parse k s) (fun s peeked => match peeked with
       | Some x => Done (s, Ok (Some x, ArrayMiddle))
       | None => do (p, popped) <- pop_assoc (stack s) pos_ty;
           match popped with
           | None => Done (mkS (parser s) (user s) p, Err (InternalError (current_index (parser (mkS (parser s) (user s) p))) "Context stack is empty when ending array"))
           | Some _ => sbind (run_end cb PArray (mkS (parser s) (user s) p)) (fun s _ =>
               sbind (top_position "Context stack is empty when ending array" s) (fun s p => Done (s, Ok (None, p))))
           end
       end))).
  { clear s. intros k s. apply follows_bind; [apply follows_refl|]. clear s. intros s [x|]; [apply follows_refl|]. apply do_follows. intros [p [x|]]; [|apply follows_refl].
    rewrite end_same. apply follows_refl. }
  destruct (pos_eqb pos ArrayBegin); [|apply HR].
  apply follows_bind; [apply begin_follows|]. clear s. intros s [|]; [apply follows_refl|].
  apply do_follows. intros [p [x|e]]; [|apply follows_refl]. apply HR.
Qed.
Lemma value_follows o pos x s : follows_verdict (scan_value cb' o pos x s) (scan_value cb o pos x s).
Proof.
  unfold scan_value. destruct (N.eqb x LBRACK); [apply verdict_refl|]. destruct (N.eqb x LBRACE); [apply verdict_refl|].
  apply verdict_bind; [apply begin_follows|]. intros s' c. apply verdict_refl.
Qed.
Lemma iter_follows o pos s : follows_verdict (scan_iter cb' o pos s) (scan_iter cb o pos s).
Proof.
  destruct pos; cbn [scan_iter]; try (apply verdict_bind; [apply object_follows|intros; apply verdict_refl]);
    try (apply verdict_bind; [apply array_follows|]; intros s1 [[x|] []]; try apply verdict_refl; apply value_follows);
    (apply do_verdict; intros [r [x|e]]; [apply value_follows|apply verdict_refl]).
Qed.
Lemma loop_follows o fuel : forall progressed pos s, follows (scan_loop cb' o fuel progressed pos s) (scan_loop cb o fuel progressed pos s).
Proof.
  induction fuel as [|fuel IH]; intros progressed pos s; [apply follows_refl|]. cbn [scan_loop].
  destruct (progressed && stop_early o && pos_eqb pos Top); [apply follows_refl|]. intros s' v.
  pose proof (iter_follows o pos s) as H. destruct (scan_iter cb' o pos s) as [[s1 [p|r]]| |]; try discriminate.
  - rewrite (H _ _ eq_refl I). apply IH.
  - intros E. injection E as -> ->. rewrite (H _ _ eq_refl I). reflexivity.
Qed.
Lemma scan_follows o fuel s : follows (scan cb' o fuel s) (scan cb o fuel s).
Proof. unfold scan. apply do_follows. intros [p [x|e]]; [|apply follows_refl]. apply loop_follows. Qed.
End Refine.
